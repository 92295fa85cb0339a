(* Every interleaving of ConcurrentString gives the text of the file *)
From Coq Require Import ZArith NArith Bool Ascii String List Lia.
Import ListNotations.
From Verif Require Import GoBase GoTime Regex Tables Codec Records File Concurrent SpecFiles FileRoundTrip.
Local Open Scope string_scope.
Local Open Scope Z_scope.
Local Open Scope list_scope.
Local Notation length := List.length.

Lemma update_length {A} i (x : A) l : length (update i x l) = length l.
Proof. revert i. induction l as [|a l IH]; intros [|i]; cbn; congruence. Qed.

Lemma update_nth {A} i j (x : A) l : (i < length l)%nat ->
  nth_error (update i x l) j = if Nat.eqb j i then Some x else nth_error l j.
Proof.
  revert i j. induction l as [|a l IH]; intros i j L; [cbn in L; lia|].
  destruct i as [|i], j as [|j]; try reflexivity. cbn [update nth_error Nat.eqb]. apply IH. cbn in L. lia.
Qed.

Lemma nth_len {A} (l : list A) i x : nth_error l i = Some x -> (i < length l)%nat.
Proof. intros H. apply nth_error_Some. congruence. Qed.

(* goroutines that have not called Done yet *)
Definition running (t : thread) : nat := match t with TDone => 0 | _ => 1 end.
Fixpoint total_of (g : thread -> nat) (ts : list thread) : nat :=
  match ts with [] => 0 | t :: ts' => g t + total_of g ts' end.
Definition count : list thread -> nat := total_of running.

Lemma total_update g i x (l : list thread) y : nth_error l i = Some y ->
  (total_of g (update i x l) + g y = total_of g l + g x)%nat.
Proof.
  revert i. induction l as [|a l IH]; intros [|i] H; try discriminate; cbn [update nth_error total_of] in *.
  - injection H as ->. lia.
  - apply IH in H. lia.
Qed.

Lemma total_app g a b : (total_of g (a ++ b) = total_of g a + total_of g b)%nat.
Proof. induction a as [|t a IH]; [reflexivity|]. cbn [app total_of]. lia. Qed.

Lemma count_update i x (l : list thread) y : nth_error l i = Some y ->
  (count (update i x l) + running y = count l + running x)%nat.
Proof. apply total_update. Qed.

Lemma count_app a b : count (a ++ b) = (count a + count b)%nat.
Proof. apply total_app. Qed.

Lemma count_zero ts : count ts = 0%nat -> forall j t, nth_error ts j = Some t -> t = TDone.
Proof.
  induction ts as [|a ts IH]; intros C [|j] t H; try discriminate; cbn in *.
  - injection H as ->. unfold count in C. cbn in C. destruct t; cbn in C; [discriminate|discriminate|reflexivity].
  - apply (IH ltac:(unfold count in *; cbn in C; lia) j t H).
Qed.

Section Machine.
Context (f : file) (nl : bool) (ps : list (list record)).

Definition thread_ok (sl : list bytes) (j : nat) (page : list record) (t : thread) : Prop :=
  match t with
  | TWriting i todo data => i = j /\ exists pre, page = pre ++ todo /\ data = page_text nl pre
  | TStored i => i = j /\ nth_error sl j = Some (page_text nl page)
  | TDone => nth_error sl j = Some (page_text nl page)
  end.

Definition main_ok (m : main) (n : nat) (w : Z) (c : nat) : Prop :=
  match m with
  | MSpawning i todo => i = n /\ todo = skipn n ps /\ (n <= length ps)%nat /\ w = Z.of_nat c
  | MAdded i p todo => i = n /\ p :: todo = skipn n ps /\ (n < length ps)%nat /\ w = Z.of_nat c + 1
  | MWaiting => n = length ps /\ w = Z.of_nat c
  | MFinished text => n = length ps /\ w = Z.of_nat c /\ c = 0%nat
      /\ text = record_string (flHeader f) ++ newline nl ++ List.concat (map (page_text nl) ps)
                ++ record_string (flTrailer f)
  end.

Definition inv (s : state) : Prop :=
  length (stSlots s) = length ps /\ (length (stThreads s) <= length ps)%nat
  /\ (forall j t, nth_error (stThreads s) j = Some t ->
        exists page, nth_error ps j = Some page /\ thread_ok (stSlots s) j page t)
  /\ main_ok (stMain s) (length (stThreads s)) (stWait s) (count (stThreads s)).

Lemma inv_start : inv (start ps).
Proof.
  unfold inv, start. cbn. split; [apply map_length|]. split; [lia|]. split.
  - intros [|j] t H; discriminate.
  - repeat split. lia.
Qed.

Lemma page_text_app a b : page_text nl (a ++ b) = page_text nl a ++ page_text nl b.
Proof. apply flat_map_app. Qed.

Lemma thread_ok_same sl sl' j page t : nth_error sl' j = nth_error sl j -> thread_ok sl j page t -> thread_ok sl' j page t.
Proof. intros E. destruct t; cbn; [auto|rewrite E; auto|rewrite E; auto]. Qed.

Lemma main_ok_count m n w c c' : (forall x, m <> MFinished x) \/ c' = c -> (* the counter follows *)
  main_ok m n w c -> main_ok m n (w + Z.of_nat c' - Z.of_nat c) c'.
Proof.
  intros H. destruct m; cbn.
  - intros (A & B & C & D). repeat split; auto. lia.
  - intros (A & B & C & D). repeat split; auto. lia.
  - intros (A & B). split; auto. lia.
  - destruct H as [H|H]; [exfalso; apply (H text); reflexivity|]. intros (A & B & C & D). repeat split; auto; lia.
Qed.

Lemma main_done m n w c x : main_ok m n w c -> m = MFinished x -> c = 0%nat.
Proof. intros M ->. cbn in M. tauto. Qed.

Lemma skipn_cons {A} n (l : list A) p q : p :: q = skipn n l -> nth_error l n = Some p /\ q = skipn (S n) l /\ (n < length l)%nat.
Proof.
  revert l. induction n as [|n IH]; intros [|a l] H; cbn in *; try discriminate.
  - injection H as -> ->. repeat split. lia.
  - apply IH in H as (A1 & A2 & A3). repeat split; auto. lia.
Qed.

Lemma concat_slots sl ts : length sl = length ps -> length ts = length ps ->
  (forall j t, nth_error ts j = Some t -> exists page, nth_error ps j = Some page /\ thread_ok sl j page t) ->
  count ts = 0%nat -> sl = map (page_text nl) ps.
Proof.
  intros L1 L2 H C. apply (nth_ext _ _ [] []).
  - rewrite map_length. exact L1.
  - intros j Hj. rewrite L1, <- L2 in Hj. destruct (nth_error ts j) as [t|] eqn:E.
    2:{ apply nth_error_None in E. lia. }
    pose proof (count_zero ts C j t E) as ->. destruct (H j TDone E) as (page & P & Q). cbn in Q.
    rewrite (nth_error_nth _ _ [] Q). symmetry. apply nth_error_nth.
    rewrite nth_error_map, P. reflexivity.
Qed.

Lemma inv_step s s' : inv s -> step f nl s s' -> inv s'.
Proof.
  intros (L & B & T & M) St.
  destruct St as [i p qs ts sl w|i p qs ts sl w|i ts sl w|m ts sl w k i r todo data E|m ts sl w k i data E|m ts sl w k i E|ts sl];
    cbn [stMain stThreads stSlots stWait] in *; unfold inv; cbn [stMain stThreads stSlots stWait].
  - (* add *)
    cbn in M. destruct M as (-> & M1 & M2 & M3). split; [exact L|]. split; [exact B|]. split; [exact T|].
    cbn. apply skipn_cons in M1 as H. repeat split; try tauto; try lia.
  - (* go *)
    cbn in M. destruct M as (-> & M1 & M2 & M3). apply skipn_cons in M1 as (P & Q & R).
    split; [exact L|]. split; [rewrite app_length; cbn; lia|]. split.
    + intros j t Hj. destruct (Nat.lt_ge_cases j (length ts)) as [Lj|Lj].
      * rewrite nth_error_app1 in Hj by exact Lj. apply T. exact Hj.
      * rewrite nth_error_app2 in Hj by exact Lj.
        destruct (j - length ts)%nat as [|d] eqn:D; [|destruct d; discriminate].
        injection Hj as <-. assert (j = length ts) as -> by lia. exists p. split; [exact P|].
        split; [reflexivity|]. exists []. split; reflexivity.
    + cbn. rewrite app_length, count_app. cbn [length]. rewrite Nat.add_1_r.
      split; [reflexivity|]. split; [exact Q|]. split; [lia|]. unfold count at 2. cbn. lia.
  - (* end of the loop *)
    cbn in M. destruct M as (-> & M1 & M2 & M3). split; [exact L|]. split; [exact B|]. split; [exact T|].
    cbn. split; [|exact M3]. apply (f_equal (@length _)) in M1. rewrite skipn_length in M1. cbn in M1. lia.
  - (* write *)
    pose proof (nth_len _ _ _ E) as Lk. split; [exact L|]. split; [rewrite update_length; exact B|]. split.
    + intros j t. rewrite update_nth by exact Lk. destruct (Nat.eqb_spec j k) as [->|Ne]; [|apply T].
      intros [= <-]. destruct (T k _ E) as (page & P & -> & pre & -> & ->).
      exists (pre ++ r :: todo). split; [exact P|]. split; [reflexivity|]. exists (pre ++ [r]).
      split; [rewrite <- app_assoc; reflexivity|]. rewrite page_text_app. cbn. rewrite app_nil_r. reflexivity.
    + rewrite update_length. pose proof (count_update k (TWriting i todo (data ++ record_string r ++ newline nl)) ts _ E) as C.
      cbn [running] in C. assert (count (update k (TWriting i todo (data ++ record_string r ++ newline nl)) ts) = count ts) as -> by lia.
      exact M.
  - (* store *)
    pose proof (nth_len _ _ _ E) as Lk. destruct (T k _ E) as (page & P & -> & pre & -> & ->). rewrite app_nil_r in P.
    assert (k < length sl)%nat as Ls by (rewrite L; lia).
    split; [rewrite update_length; exact L|]. split; [rewrite update_length; exact B|]. split.
    + intros j t. rewrite update_nth by exact Lk. destruct (Nat.eqb_spec j k) as [->|Ne].
      * intros [= <-]. exists pre. split; [exact P|]. split; [reflexivity|].
        rewrite update_nth by exact Ls. rewrite Nat.eqb_refl. reflexivity.
      * intros Hj. destruct (T j t Hj) as (q & Q1 & Q2). exists q. split; [exact Q1|].
        eapply thread_ok_same; [|exact Q2]. rewrite update_nth by exact Ls.
        apply Nat.eqb_neq in Ne. rewrite Ne. reflexivity.
    + rewrite update_length. pose proof (count_update k (TStored k) ts _ E) as C. cbn [running] in C.
      assert (count (update k (TStored k) ts) = count ts) as -> by lia. exact M.
  - (* done *)
    pose proof (nth_len _ _ _ E) as Lk. split; [exact L|]. split; [rewrite update_length; exact B|].
    pose proof (count_update k TDone ts _ E) as C. cbn [running] in C. split.
    + intros j t. rewrite update_nth by exact Lk. destruct (Nat.eqb_spec j k) as [->|Ne]; [|apply T].
      intros [= <-]. destruct (T k _ E) as (page & P & _ & Q). exists page. split; [exact P|exact Q].
    + rewrite update_length.
      replace (w - 1) with (w + Z.of_nat (count (update k TDone ts)) - Z.of_nat (count ts)) by lia.
      apply main_ok_count; [|exact M]. left. intros x ->.
      pose proof (main_done _ _ _ _ x M eq_refl). lia.
  - (* return *)
    cbn in M. destruct M as [M1 M2]. assert (count ts = 0%nat) as C by lia.
    split; [exact L|]. split; [exact B|]. split; [exact T|]. cbn. repeat split; auto; try lia.
    rewrite (concat_slots sl ts L M1 T C). reflexivity.
Qed.

Lemma inv_run n s : run f nl n (start ps) s -> inv s.
Proof.
  remember (start ps) as s0. induction 1 as [|n s0 s' s'' R IH St]; subst; [apply inv_start|].
  eapply inv_step; eauto.
Qed.

(* what the caller returns *)
Lemma run_text n s text : run f nl n (start ps) s -> stMain s = MFinished text ->
  text = record_string (flHeader f) ++ newline nl ++ List.concat (map (page_text nl) ps) ++ record_string (flTrailer f).
Proof. intros R E. apply inv_run in R as (_ & _ & _ & M). rewrite E in M. cbn in M. tauto. Qed.

(* some goroutine or the caller can always go on *)
Lemma run_progress n s : run f nl n (start ps) s -> (exists text, stMain s = MFinished text) \/ exists s', step f nl s s'.
Proof.
  intros R. apply inv_run in R as (L & B & T & M). destruct s as [m ts sl w]. cbn [stMain stThreads stSlots stWait] in *.
  destruct m as [i [|p todo]|i p todo| |text].
  - right. eexists. apply step_loop_end.
  - right. eexists. apply step_add.
  - right. eexists. apply step_go.
  - cbn in M. destruct M as [M1 M2]. destruct (count ts) as [|c] eqn:C.
    + right. cbn in M2. subst w. eexists. apply step_return.
    + assert (exists j t, nth_error ts j = Some t /\ t <> TDone) as (j & t & E & N).
      { clear - C. revert c C. induction ts as [|a ts IH]; intros c C; [discriminate|].
        destruct a; try (exists 0%nat; eexists; split; [reflexivity|discriminate]).
        destruct (IH c C) as (j & t & E & N). exists (S j), t. auto. }
      right. destruct t as [i [|r todo] data|i|]; [| | |congruence].
      * eexists. eapply step_store. exact E.
      * eexists. eapply step_write. exact E.
      * eexists. eapply step_done. exact E.
  - left. eauto.
Qed.

(* the counter of the wait group never becomes negative *)
Lemma run_counter n s : run f nl n (start ps) s -> 0 <= stWait s.
Proof. intros R. apply inv_run in R as (_ & _ & _ & M). destruct (stMain s); cbn in M; lia. Qed.

(* no two goroutines write the same element, and the caller returns only when all are done *)
Lemma run_exclusive n s : run f nl n (start ps) s ->
  (forall j k i i' todo todo' data data', nth_error (stThreads s) j = Some (TWriting i todo data) ->
     nth_error (stThreads s) k = Some (TWriting i' todo' data') -> i = i' -> j = k)
  /\ (forall text, stMain s = MFinished text -> forall j t, nth_error (stThreads s) j = Some t -> t = TDone).
Proof.
  intros R. apply inv_run in R as (_ & _ & T & M). split.
  - intros j k i i' todo todo' data data' Ej Ek E.
    destruct (T _ _ Ej) as (? & _ & -> & _). destruct (T _ _ Ek) as (? & _ & -> & _). exact E.
  - intros text E. rewrite E in M. cbn in M. apply count_zero. tauto.
Qed.

(* every action makes progress *)
Definition thread_left (t : thread) : nat :=
  match t with TWriting _ todo _ => 2 + length todo | TStored _ => 1 | TDone => 0 end.
Fixpoint pages_left (l : list (list record)) : nat :=
  match l with [] => 0 | p :: l' => 5 + length p + pages_left l' end.
Definition main_left (m : main) : nat :=
  match m with
  | MSpawning _ todo => 2 + pages_left todo
  | MAdded _ p todo => 2 + (4 + length p + pages_left todo)
  | MWaiting => 1
  | MFinished _ => 0
  end.
Definition left (s : state) : nat := main_left (stMain s) + total_of thread_left (stThreads s).

Lemma left_update k x (ts : list thread) y : nth_error ts k = Some y ->
  (total_of thread_left (update k x ts) + thread_left y = total_of thread_left ts + thread_left x)%nat.
Proof. apply total_update. Qed.

Lemma step_left s s' : step f nl s s' -> (left s' < left s)%nat.
Proof.
  unfold left. destruct 1 as [i p qs ts sl w|i p qs ts sl w|i ts sl w|m ts sl w k i r todo data E|m ts sl w k i data E|m ts sl w k i E|ts sl];
    cbn [stMain stThreads main_left].
  - cbn [pages_left]. lia.
  - rewrite total_app. cbn. lia.
  - cbn. lia.
  - pose proof (left_update k (TWriting i todo (data ++ record_string r ++ newline nl)) ts _ E) as U. cbn [thread_left length] in U. lia.
  - pose proof (left_update k (TStored i) ts _ E) as U. cbn [thread_left length] in U. lia.
  - pose proof (left_update k TDone ts _ E) as U. cbn [thread_left] in U. lia.
  - lia.
Qed.

Lemma run_bound n s s' : run f nl n s s' -> (n + left s' <= left s)%nat.
Proof. induction 1 as [|n s s' s'' R IH St]; [cbn; lia|]. apply step_left in St. lia. Qed.

End Machine.

(* ---- the file ---- *)

Lemma schedule_text f nl size n s text : (0 < size)%nat -> run f nl n (start_file f size) s ->
  stMain s = MFinished text -> text = file_text nl f.
Proof.
  intros Z R E. rewrite (run_text f nl _ n s text R E). unfold file_text. f_equal.
  replace (line_break nl) with (newline nl) by (destruct nl; reflexivity). f_equal. f_equal.
  pose proof (pages_concat size Z (length (flBases f)) (flBases f) (le_n _)) as Pc.
  rewrite <- Pc at 3. clear Pc. generalize (pages (length (flBases f)) size (flBases f)) as l. intros l.
  induction l as [|p l IH]; [reflexivity|]. cbn [map List.concat]. rewrite IH, map_app, concat_app. f_equal.
  unfold page_text. rewrite flat_map_concat_map. destruct nl; reflexivity.
Qed.

(* from every state of a run the caller returns after finitely many actions *)
Lemma run_from f nl n s s1 s' : step f nl s s1 -> run f nl n s1 s' -> run f nl (S n) s s'.
Proof.
  intros St. induction 1 as [|n s1 s2 s3 R IH St']; [eapply run_cons; [apply run_nil|exact St]|].
  eapply run_cons; [apply IH; exact St|exact St'].
Qed.

Lemma completes f nl ps : forall m s n, (left s <= m)%nat -> run f nl n (start ps) s ->
  exists k s' text, run f nl k s s' /\ stMain s' = MFinished text.
Proof.
  induction m as [|m IH]; intros s n L R;
    (destruct (run_progress f nl ps n s R) as [[text E]|[s' St]]; [exists 0%nat, s, text; split; [apply run_nil|exact E]|]);
    pose proof (step_left _ _ _ _ St); [lia|].
  destruct (IH s' (S n)) as (k & s'' & text & R' & E); [lia|eapply run_cons; eauto|].
  exists (S k), s'', text. split; [eapply run_from; eassumption|exact E].
Qed.

Lemma always_completes f nl size n s : run f nl n (start_file f size) s ->
  exists k s' text, run f nl k s s' /\ stMain s' = MFinished text.
Proof. intros R. eapply completes; [apply le_n|exact R]. Qed.

Lemma page_sum n : (0 < n)%nat -> forall fuel l, (length l <= fuel)%nat ->
  (pages_left (pages fuel n l) <= 6 * length l)%nat.
Proof.
  intros Z. induction fuel as [|fuel IH]; intros l L; [cbn; lia|]. destruct l as [|a l]; [cbn; lia|].
  cbn [pages pages_left].
  specialize (IH (skipn n (a :: l))). rewrite skipn_length in IH. rewrite firstn_length. cbn [length] in *. lia.
Qed.

(* no run is longer than six actions for each data record and two more *)
Lemma schedule_bound f nl size n s : (0 < size)%nat -> run f nl n (start_file f size) s ->
  (n <= 6 * length (flBases f) + 2)%nat.
Proof.
  intros Z R. apply run_bound in R. unfold left at 2 in R. unfold start_file, start in R. cbn [stMain stThreads main_left total_of] in R.
  pose proof (page_sum size Z (length (flBases f)) (flBases f) (le_n _)). lia.
Qed.
