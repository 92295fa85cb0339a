(* Lists of data records: arrays, appends, the states of programs *)
From Coq Require Import ZArith NArith Bool Ascii String List Lia.
Import ListNotations.
From Verif Require Import GoBase GoTime Tables Codec Records File Heap SpecHeap HeapFacts Lists SpecLists.
Local Open Scope string_scope.
Local Open Scope nat_scope.
Local Open Scope list_scope.
Local Notation length := List.length.

Lemma upd_in_place {A} i (x : A) l : i < length l -> upd i x l = in_place i x l.
Proof.
  revert i. induction l as [|y l IH]; intros i L; cbn [length] in L; [lia|]. destruct i; [reflexivity|].
  cbn [upd]. unfold in_place in *. cbn [firstn skipn app]. f_equal. apply IH. lia.
Qed.

Lemma map_upd {A B} (g : A -> B) i x l : map g (upd i x l) = upd i (g x) (map g l).
Proof. revert i. induction l as [|y l IH]; intros [|i]; cbn; try reflexivity. f_equal. apply IH. Qed.

Lemma map_upd_other {A B} (g g' : A -> B) i x l :
  (forall j y, j <> i -> nth_error l j = Some y -> g' y = g y) -> map g' (upd i x l) = upd i (g' x) (map g l).
Proof.
  revert i. induction l as [|y l IH]; intros i H; [destruct i; reflexivity|]. destruct i; cbn [upd map]; f_equal.
  - apply map_ext_in. intros z I. apply In_nth_error in I as [k E]. apply (H (S k) z); [discriminate|exact E].
  - apply (H 0 y); [discriminate|reflexivity].
  - apply IH. intros j z N E. apply (H (S j) z); [lia|exact E].
Qed.

Lemma firstn_in_place {A} k n (x : A) l : k < n -> n <= length l ->
  firstn n (upd k x l) = in_place k x (firstn n l).
Proof.
  intros K N. rewrite <- upd_in_place by (rewrite firstn_length; lia).
  clear N. revert k n K. induction l as [|y l IH]; intros k n K; [rewrite firstn_nil; destruct k, n; reflexivity|].
  destruct n; [lia|]. destruct k; [reflexivity|]. cbn. f_equal. apply IH. lia.
Qed.

(* ---- slices ---- *)

Definition slice_ok (arrays : list (list nat)) (sl : slice) : Prop :=
  match sl with Nil => True | Slice a n => a < length arrays /\ n <= length (nth a arrays []) end.

Definition slen (sl : slice) : nat := match sl with Nil => 0 | Slice _ n => n end.

Definition shares (u v : slice) : Prop := match u, v with Slice a _, Slice b _ => a = b | _, _ => False end.

Lemma shares_sym u v : shares u v -> shares v u.
Proof. destruct u, v; cbn; auto. Qed.

Lemma elements_length arrays sl : slice_ok arrays sl -> length (elements arrays sl) = slen sl.
Proof. destruct sl as [|a n]; [reflexivity|]. intros [_ N]. cbn. rewrite firstn_length. lia. Qed.

Section Room.

Variable room : nat -> nat.

Local Notation append_to := (append_to room).
Local Notation append_all := (append_all room).

Lemma slice_ok_more arrays l sl : slice_ok arrays sl -> slice_ok (arrays ++ [l]) sl.
Proof. destruct sl as [|a n]; [auto|]. intros [A N]. split; [rewrite app_length; cbn; lia|]. rewrite app_nth1 by exact A. exact N. Qed.

Lemma elements_more arrays l sl : slice_ok arrays sl -> elements (arrays ++ [l]) sl = elements arrays sl.
Proof. destruct sl as [|a n]; [reflexivity|]. intros [A N]. cbn. rewrite app_nth1 by exact A. reflexivity. Qed.

Lemma slice_ok_upd arrays a k x sl : slice_ok arrays sl -> slice_ok (upd a (upd k x (nth a arrays [])) arrays) sl.
Proof.
  destruct sl as [|b n]; [auto|]. intros [A N]. split; [rewrite upd_length; exact A|]. rewrite nth_upd.
  destruct (Nat.eqb_spec a b) as [->|Ne]; cbn [andb]; [|exact N].
  apply Nat.ltb_lt in A. rewrite A. rewrite upd_length. exact N.
Qed.

Lemma elements_upd_other arrays a n k x sl : slice_ok arrays sl -> ~ shares sl (Slice a n) ->
  elements (upd a (upd k x (nth a arrays [])) arrays) sl = elements arrays sl.
Proof.
  destruct sl as [|b m]; [reflexivity|]. intros [A N] Ns. cbn in Ns. cbn [elements]. rewrite nth_upd_other by congruence. reflexivity.
Qed.

Lemma elements_upd_short arrays a k x sl : slice_ok arrays sl -> slen sl <= k ->
  elements (upd a (upd k x (nth a arrays [])) arrays) sl = elements arrays sl.
Proof.
  destruct sl as [|b m]; [reflexivity|]. intros [A N] L. cbn in L. cbn [elements]. rewrite nth_upd.
  destruct (Nat.eqb_spec a b) as [->|Ne]; cbn [andb]; [|reflexivity].
  apply Nat.ltb_lt in A. rewrite A. apply firstn_upd. exact L.
Qed.

Lemma elements_upd_at arrays a k x n : slice_ok arrays (Slice a n) -> k < n ->
  elements (upd a (upd k x (nth a arrays [])) arrays) (Slice a n) = in_place k x (elements arrays (Slice a n)).
Proof. intros [A N] L. cbn [elements]. rewrite nth_upd_same by exact A. apply firstn_in_place; assumption. Qed.

Lemma elements_upd_any arrays a k x sl : slice_ok arrays sl ->
  changed_at k x (elements arrays sl) (elements (upd a (upd k x (nth a arrays [])) arrays) sl).
Proof.
  intros O. destruct (Nat.le_gt_cases (slen sl) k) as [L|L]; [left; apply elements_upd_short; assumption|].
  destruct sl as [|b n]; [cbn in L; lia|]. destruct (Nat.eq_dec a b) as [->|Ne].
  - right. split; [rewrite elements_length; assumption|]. apply elements_upd_at; assumption.
  - left. apply (elements_upd_other arrays a 0); [exact O|]. cbn. congruence.
Qed.

Lemma append_to_spec arrays sl x arrays' sl' : slice_ok arrays sl -> append_to arrays sl x = (arrays', sl') ->
  elements arrays' sl' = elements arrays sl ++ [x]
  /\ slice_ok arrays' sl' /\ slen sl' = S (slen sl)
  /\ (forall u, slice_ok arrays u -> slice_ok arrays' u)
  /\ (forall u, slice_ok arrays u -> changed_at (slen sl) x (elements arrays u) (elements arrays' u))
  /\ (forall u, slice_ok arrays u -> (shares u sl -> slen u <= slen sl) -> elements arrays' u = elements arrays u)
  /\ (forall u, slice_ok arrays u -> shares u sl' -> shares u sl).
Proof.
  intros O E. assert (forall l u, slice_ok arrays u -> shares u (Slice (length arrays) l) -> False) as Fresh.
  { intros l [|b n] Ob Sh; [exact Sh|]. cbn in *. lia. }
  destruct sl as [|a n]; cbn [Lists.append_to] in E.
  - inversion E; subst; clear E. cbn [elements slen slice_ok]. rewrite app_nth2, Nat.sub_diag by lia. cbn.
    split; [reflexivity|]. split; [rewrite app_length; cbn; lia|]. split; [reflexivity|].
    split; [intros u; apply slice_ok_more|]. split; [intros u Ou; left; apply elements_more; exact Ou|].
    split; [intros u Ou _; apply elements_more; exact Ou|]. intros u Ou Sh. destruct (Fresh 1 u Ou Sh).
  - pose proof O as [A N]. destruct (Nat.ltb_spec n (length (nth a arrays []))) as [L|L]; inversion E; subst; clear E.
    + split; [cbn [elements]; rewrite nth_upd_same by exact A; apply firstn_S_upd; exact L|].
      split; [cbn; rewrite upd_length, nth_upd_same by exact A; rewrite upd_length; lia|]. split; [reflexivity|].
      split; [intros u; apply slice_ok_upd|]. split; [intros u; apply elements_upd_any|].
      split; [|intros [|b m] _ Sh; exact Sh]. intros u Ou H.
      destruct u as [|b m]; [reflexivity|]. destruct (Nat.eq_dec b a) as [->|Ne].
      * apply elements_upd_short; [exact Ou|]. apply H. reflexivity.
      * apply (elements_upd_other arrays a 0); [exact Ou|]. exact Ne.
    + assert (n = length (nth a arrays [])) as -> by lia. cbn [elements slen slice_ok].
      rewrite app_nth2, Nat.sub_diag by lia. rewrite firstn_all. cbn [nth].
      split. { change (x :: repeat 0 (room (length (nth a arrays [])))) with ([x] ++ repeat 0 (room (length (nth a arrays [])))).
        rewrite app_assoc. rewrite firstn_app. rewrite app_length. cbn [length].
        replace (S (length (nth a arrays [])) - (length (nth a arrays []) + 1)) with 0 by lia. rewrite firstn_O, app_nil_r.
        apply firstn_all2. rewrite app_length. cbn. lia. }
      split; [rewrite !app_length; cbn; lia|]. split; [reflexivity|]. split; [intros u; apply slice_ok_more|].
      split; [intros u Ou; left; apply elements_more; exact Ou|]. split; [intros u Ou _; apply elements_more; exact Ou|].
      intros u Ou Sh. destruct (Fresh _ u Ou Sh).
Qed.

(* the arrays a loop of appends starts from stay as they are *)
Definition fresh_from (n : nat) (sl : slice) : Prop := match sl with Nil => True | Slice a _ => n <= a end.

Lemma append_all_spec l : forall arrays sl arrays' sl' n0, slice_ok arrays sl -> fresh_from n0 sl ->
  n0 <= length arrays -> append_all arrays sl l = (arrays', sl') ->
  elements arrays' sl' = elements arrays sl ++ l
  /\ slice_ok arrays' sl' /\ fresh_from n0 sl'
  /\ (forall u, slice_ok arrays u -> slice_ok arrays' u)
  /\ (forall u, slice_ok arrays u -> (forall a n, u = Slice a n -> a < n0) -> elements arrays' u = elements arrays u).
Proof.
  induction l as [|x l IH]; intros arrays sl arrays' sl' n0 O F N E; cbn [Lists.append_all] in E.
  - inversion E; subst. rewrite app_nil_r. auto.
  - destruct (append_to arrays sl x) as [A1 s1] eqn:E1. pose proof (append_to_spec _ _ _ _ _ O E1) as (El & O1 & _ & K & _ & U & Sh).
    assert (fresh_from n0 s1) as F1.
    { destruct sl as [|a n]; cbn [Lists.append_to] in E1; [inversion E1; subst; exact N|].
      destruct (Nat.ltb n _); inversion E1; subst; [exact F|exact N]. }
    assert (n0 <= length A1) as N1.
    { destruct sl as [|a n]; cbn [Lists.append_to] in E1; [inversion E1; subst; rewrite app_length; lia|].
      destruct (Nat.ltb n _); inversion E1; subst; [rewrite upd_length; exact N|rewrite app_length; lia]. }
    destruct (IH A1 s1 arrays' sl' n0 O1 F1 N1 E) as (El' & O' & F' & K' & U').
    split; [rewrite El', El, <- app_assoc; reflexivity|]. split; [exact O'|]. split; [exact F'|].
    split; [auto|]. intros u Ou H. rewrite U' by auto. apply U; [exact Ou|].
    intros S0. destruct u as [|b m]; [destruct S0|]. destruct sl as [|a n]; [destruct S0|]. cbn in S0, F. subst b.
    specialize (H a m eq_refl). lia.
Qed.

End Room.
