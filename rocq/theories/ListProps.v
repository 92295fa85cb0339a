(* Lists of data records: all programs, and programs that change only lists of their own *)
From Coq Require Import ZArith NArith Bool Ascii String List Lia.
Import ListNotations.
From Verif Require Import GoBase GoTime Tables Codec Records File Heap SpecHeap HeapFacts Lists SpecLists ListFacts ListMain.
Local Open Scope string_scope.
Local Open Scope nat_scope.
Local Open Scope list_scope.
Local Notation length := List.length.

Section Programs.

Variable spare room : nat -> nat.

(* ---- all programs ---- *)

Lemma step_sound fuel w c w' : l_sound w -> l_step spare room fuel w c = Some w' -> l_sound w'.
Proof.
  intros S E. destruct c as [c|i|v|v x|v k x]; cbn [l_step] in E; [eapply call_sound; eauto| | | |];
    destruct w as [h A fs vs]; unfold l_sound in *; cbn [lwHeap lwArrays lwFiles lwLists] in *; pose proof S as (F & V & D).
  - destruct (nth_error fs i) as [f|] eqn:Ei; [|discriminate]. inversion E; subst. cbn. split; [exact F|]. split; [|exact D].
    intros v u Ev. apply nth_error_snoc in Ev as [Ev|[_ ->]]; [eapply V; eauto|eapply F; eauto].
  - destruct (nth_error vs v) as [sl|] eqn:Ev; [|discriminate]. inversion E; subst. cbn.
    split; [intros i f Ei; apply slice_ok_more; eapply F; eauto|]. split; [|exact D].
    intros v' u Ev'. apply nth_error_snoc in Ev' as [Ev'|[_ ->]]; [apply slice_ok_more; eapply V; eauto|].
    split; [rewrite app_length; cbn; lia|]. rewrite app_nth2, Nat.sub_diag by lia. cbn. rewrite app_length. lia.
  - destruct (nth_error vs v) as [sl|] eqn:Ev; [|discriminate]. destruct (Nat.ltb _ _); [|discriminate].
    destruct (append_to room A sl x) as [A' sl'] eqn:Ea. inversion E; subst. cbn.
    pose proof (append_to_spec room _ _ _ _ _ (V _ _ Ev) Ea) as (_ & O' & _ & K & _).
    split; [intros i f Ei; apply K; eapply F; eauto|]. split; [|exact D].
    intros v' u Ev'. apply nth_error_upd_inv in Ev' as [(_ & -> & _)|[_ Ev']]; [exact O'|apply K; eapply V; eauto].
  - destruct (nth_error vs v) as [[|a n]|] eqn:Ev; try discriminate. destruct (_ && _)%bool; [|discriminate]. inversion E; subst. cbn.
    split; [intros i f Ei; apply slice_ok_upd; eapply F; eauto|]. split; [|exact D].
    intros v' u Ev'. apply slice_ok_upd. eapply V; eauto.
Qed.

Lemma start_sound : l_sound l_start.
Proof.
  split; [|split]; cbn.
  - intros [|i] f E; discriminate E.
  - intros [|i] f E; discriminate E.
  - intros [|i] j f g E; discriminate E.
Qed.

Lemma run_sound fuel cs : forall w w', l_sound w -> l_run spare room fuel w cs = Some w' -> l_sound w'.
Proof.
  induction cs as [|c cs IH]; intros w w' S E; cbn [l_run] in E; [inversion E; subst; exact S|].
  destruct (l_step spare room fuel w c) as [w1|] eqn:E1; [|discriminate]. eapply IH; [|exact E]. eapply step_sound; eauto.
Qed.

(* calls do to the files what they do where lists are values, whatever else the program does *)
Theorem run_calls fuel cs w c : l_run spare room fuel l_start cs = Some w ->
  h_step spare fuel (fst (seen w)) c = option_map (fun w' => fst (seen w')) (l_step spare room fuel w (LCall c)).
Proof.
  intros R. apply run_sound in R; [|apply start_sound]. cbn [l_step]. destruct (l_call spare room fuel w c) as [w'|] eqn:E; cbn [option_map].
  - eapply call_seen; eauto.
  - apply (call_fails spare room); assumption.
Qed.

(* SetType, Parse and the other calls but AddDataRecord leave all lists alone *)
Theorem run_lists fuel cs w c w' : l_run spare room fuel l_start cs = Some w ->
  l_step spare room fuel w (LCall c) = Some w' -> (forall i r, c <> HAddDataRecord i r) -> snd (seen w') = snd (seen w).
Proof.
  intros R E N. apply run_sound in R; [|apply start_sound]. pose proof R as (F & V & D). destruct w as [h A fs vs].
  cbn [l_step] in E. unfold seen. cbn [snd lwArrays lwLists lwFiles] in *.
  destruct c as [p|p|p|p|s|r st|s st|r s|i r|i r|i t|i input iv|i]; cbn [l_call lwHeap lwArrays lwFiles lwLists] in E;
    try (destruct (h_step spare fuel (mkWorld h []) _) as [w1|]; [|discriminate]; inversion E; subst; reflexivity).
  - cbn [new_record_at] in E. inversion E; subst. reflexivity.
  - destruct (Nat.ltb _ _); [|discriminate]. unfold with_lfile in E. cbn [lwFiles lwLists] in E. destruct (nth_error fs i); [|discriminate].
    inversion E; subst. reflexivity.
  - destruct (N i r eq_refl).
  - unfold with_lfile in E. cbn [lwFiles lwLists] in E. destruct (nth_error fs i) as [f|] eqn:Ei; [|discriminate].
    destruct (l_set_type room h A f t) as [[h' A'] f'] eqn:Ea. inversion E; subst. cbn [lwArrays lwLists]. apply map_ext_in. intros u I.
    apply In_nth_error in I as [v Ev]. eapply set_type_ok; [eapply F; eauto|exact Ea|eapply V; eauto].
  - unfold with_lfile in E. cbn [lwFiles lwLists] in E. destruct (nth_error fs i) as [f|] eqn:Ei; [|discriminate].
    destruct (l_parse spare room fuel h A f input iv) as [[[h' A'] f']|] eqn:Ea; [|discriminate]. inversion E; subst. cbn [lwArrays lwLists].
    apply map_ext_in. intros u I. apply In_nth_error in I as [v Ev].
    destruct (parse_ok spare room fuel h A f input iv h' A' f' (F _ _ Ei) Ea) as (_ & _ & U). apply U. eapply V; eauto.
  - unfold with_lfile in E. cbn [lwFiles lwLists] in E. destruct (nth_error fs i) as [f|] eqn:Ei; [|discriminate].
    destruct (h_generate h _) as [[h' n]|]; [|discriminate]. inversion E; subst. reflexivity.
Qed.

(* AddDataRecord changes at most one element of a list, the one after the last of the file *)
Theorem run_add fuel cs w i r w' f v l l' : l_run spare room fuel l_start cs = Some w ->
  l_step spare room fuel w (LCall (HAddDataRecord i r)) = Some w' ->
  nth_error (wFiles (fst (seen w))) i = Some f ->
  nth_error (snd (seen w)) v = Some l -> nth_error (snd (seen w')) v = Some l' ->
  changed_at (length (hfBases f)) r l l'.
Proof.
  intros R E Ef El El'. apply run_sound in R; [|apply start_sound]. pose proof R as (F & V & D). destruct w as [h A fs vs].
  cbn [l_step l_call] in E. unfold seen in *. cbn [snd fst wFiles lwHeap lwArrays lwLists lwFiles] in *.
  destruct (Nat.ltb _ _); [|discriminate]. unfold with_lfile in E. cbn [lwFiles lwLists] in E. rewrite nth_error_map in Ef.
  destruct (nth_error fs i) as [g|] eqn:Ei; [|discriminate]. inversion Ef; subst; clear Ef.
  destruct (l_add_data_record room h A g r) as [A' f'] eqn:Ea. inversion E; subst; clear E. cbn [lwArrays lwLists] in *.
  rewrite nth_error_map in El, El'. destruct (nth_error vs v) as [u|] eqn:Ev; [|discriminate]. inversion El; subst. inversion El'; subst.
  destruct (add_data_ok room h A g r A' f' (F _ _ Ei) Ea) as (_ & _ & C). apply C. eapply V; eauto.
Qed.

(* ---- programs that change only lists of their own ---- *)

Definition own_ok (fs : list lfile) (vs : list slice) (own : list bool) : Prop :=
  length own = length vs
  /\ (forall v u i f, nth_error vs v = Some u -> nth_error own v = Some false -> nth_error fs i = Some f ->
        shares u (lfBases f) -> slen u <= slen (lfBases f))
  /\ (forall v u i f, nth_error vs v = Some u -> nth_error own v = Some true -> nth_error fs i = Some f -> ~ shares u (lfBases f))
  /\ (forall v u v' u', nth_error vs v = Some u -> nth_error own v = Some true -> nth_error vs v' = Some u' -> v' <> v ->
        ~ shares u u').

Definition l_polite (w : lworld) (own : list bool) : Prop := l_sound w /\ own_ok (lwFiles w) (lwLists w) own.

Lemma own_dec (own : list bool) v n : length own = n -> v < n -> nth_error own v = Some true \/ nth_error own v = Some false.
Proof.
  intros L H. destruct (nth_error own v) as [[|]|] eqn:E; auto. apply nth_error_None in E. lia.
Qed.

(* what a file may write leaves the lists of the program alone *)
Lemma lists_kept A fs vs own i f A' f' : sound A fs vs -> own_ok fs vs own -> nth_error fs i = Some f -> keeps A f A' f' ->
  map (elements A') vs = map (elements A) vs /\ own_ok (upd i f' fs) vs own.
Proof.
  intros (F & V & D) (L & P1 & P2 & P3) Ei (O' & K & U & Sh).
  assert (forall v u, nth_error vs v = Some u -> shares u (lfBases f) -> slen u <= slen (lfBases f)) as Short.
  { intros v u Ev S. assert (v < length vs) as Lv by (apply nth_error_Some; congruence).
    destruct (own_dec own v _ L Lv) as [T|T]; [destruct (P2 v u i f Ev T Ei S)|exact (P1 v u i f Ev T Ei S)]. }
  split.
  - apply map_ext_in. intros u I. apply In_nth_error in I as [v Ev]. apply U; [eapply V; eauto|eapply Short; eauto].
  - split; [exact L|]. split; [|split; [|exact P3]].
    + intros v u j g Ev T Ej S. apply nth_error_upd_inv in Ej as [(-> & -> & _)|[N Ej]]; [|eapply P1; eauto].
      apply Sh in S as [S Le]; [|eapply V; eauto]. pose proof (P1 v u i f Ev T Ei S). lia.
    + intros v u j g Ev T Ej S. apply nth_error_upd_inv in Ej as [(-> & -> & _)|[N Ej]]; [|eapply P2; eauto].
      apply Sh in S as [S Le]; [|eapply V; eauto]. exact (P2 v u i f Ev T Ei S).
Qed.

Lemma call_polite fuel w own c w' : l_polite w own -> l_call spare room fuel w c = Some w' ->
  l_polite w' own /\ snd (seen w') = snd (seen w).
Proof.
  intros [S P] E. pose proof (call_sound spare room fuel w c w' S E) as S'. unfold l_polite, seen. cbn [snd].
  destruct (call_changes spare room fuel w c w' S E) as [(Ea & El & Ef)|(i & f & f' & Ei & K & Ef & El)].
  - rewrite Ea, El. split; [|reflexivity]. split; [exact S'|]. destruct Ef as [->|(p & hd & t & ->)]; [exact P|].
    destruct P as (L & P1 & P2 & P3). split; [exact L|]. split; [|split; [|exact P3]].
    + intros v u i f Ev T Ei Sh. apply nth_error_snoc in Ei as [Ei|[_ ->]]; [eapply P1; eauto|]. apply shares_sym in Sh. destruct Sh.
    + intros v u i f Ev T Ei Sh. apply nth_error_snoc in Ei as [Ei|[_ ->]]; [eapply P2; eauto|]. apply shares_sym in Sh. destruct Sh.
  - destruct (lists_kept _ _ _ _ _ _ _ _ S P Ei K) as [Eq P']. rewrite El, Ef. split; [|exact Eq]. split; [exact S'|exact P'].
Qed.

(* a list of the program's own: what is written into its array is seen nowhere else *)
Lemma own_apart A fs vs own v u : sound A fs vs -> own_ok fs vs own -> nth_error vs v = Some u -> nth_error own v = Some true ->
  (forall i f, nth_error fs i = Some f -> ~ shares (lfBases f) u) /\ (forall v' u', nth_error vs v' = Some u' -> v' <> v -> ~ shares u' u).
Proof.
  intros _ (L & P1 & P2 & P3) Ev T. split.
  - intros i f Ei Sh. apply shares_sym in Sh. exact (P2 v u i f Ev T Ei Sh).
  - intros v' u' Ev' N Sh. apply shares_sym in Sh. exact (P3 v u v' u' Ev T Ev' N Sh).
Qed.

Lemma step_polite fuel w own c w' : l_polite w own -> own_only own c -> l_step spare room fuel w c = Some w' ->
  l_polite w' (own_after own c) /\ plain_step spare fuel (seen w) c (seen w').
Proof.
  intros [S P] Ow E. pose proof (step_sound fuel w c w' S E) as S'. destruct c as [c|i|v|v x|v k x]; cbn [l_step own_only own_after] in *.
  - destruct (call_polite fuel w own c w' (conj S P) E) as [P' Eq]. split; [exact P'|].
    pose proof (call_seen spare room fuel w c w' S E) as H. destruct (seen w) as [w0 vs0] eqn:E0. destruct (seen w') as [w1 vs1] eqn:E1.
    cbn [fst snd] in *. subst vs1. constructor. exact H.
  - destruct w as [h A fs vs]. cbn [lwHeap lwArrays lwFiles lwLists] in *. destruct (nth_error fs i) as [f|] eqn:Ei; [|discriminate].
    inversion E; subst; clear E. split.
    + split; [exact S'|]. cbn [lwFiles lwLists]. destruct S as (F & V & D), P as (L & P1 & P2 & P3).
      split; [rewrite !app_length, L; reflexivity|]. split; [|split].
      * intros v u j g Ev T Ej Sh. apply nth_error_snoc in Ev as [Ev|[Nv ->]].
        -- apply nth_error_snoc in T as [T|[Nt _]]; [eapply P1; eauto|]. assert (v < length vs) by (apply nth_error_Some; congruence). lia.
        -- destruct (Nat.eq_dec i j) as [->|N]; [rewrite Ei in Ej; inversion Ej; subst; lia|]. destruct (D i j f g Ei Ej N Sh).
      * intros v u j g Ev T Ej. apply nth_error_snoc in T as [T|[_ T]]; [|discriminate T].
        apply nth_error_snoc in Ev as [Ev|[Nv ->]]; [eapply P2; eauto|]. assert (v < length own) by (apply nth_error_Some; congruence). lia.
      * intros v u v' u' Ev T Ev' N. apply nth_error_snoc in T as [T|[_ T]]; [|discriminate T].
        apply nth_error_snoc in Ev as [Ev|[Nv ->]]; [|assert (v < length own) by (apply nth_error_Some; congruence); lia].
        apply nth_error_snoc in Ev' as [Ev'|[_ ->]]; [eapply P3; eauto|]. eapply P2; eauto.
    + unfold seen. cbn [lwHeap lwArrays lwFiles lwLists]. rewrite map_app. cbn [map].
      change (elements A (lfBases f)) with (hfBases (lfile_value A f)). constructor. cbn [wFiles]. rewrite nth_error_map, Ei. reflexivity.
  - destruct w as [h A fs vs]. cbn [lwHeap lwArrays lwFiles lwLists] in *. destruct (nth_error vs v) as [sl|] eqn:Ev; [|discriminate].
    inversion E; subst; clear E. destruct S as (F & V & D). split.
    + split; [exact S'|]. cbn [lwFiles lwLists]. destruct P as (L & P1 & P2 & P3).
      assert (forall u, slice_ok A u -> ~ shares u (Slice (length A) (length (elements A sl)))) as Fr.
      { intros u Ou. apply (fresh_apart A); [exact Ou|]. cbn. lia. }
      split; [rewrite !app_length, L; reflexivity|]. split; [|split].
      * intros v' u j g Ev' T Ej Sh. apply nth_error_snoc in T as [T|[_ T]]; [|discriminate T].
        apply nth_error_snoc in Ev' as [Ev'|[Nv ->]]; [eapply P1; eauto|]. assert (v' < length own) by (apply nth_error_Some; congruence). lia.
      * intros v' u j g Ev' T Ej Sh. apply nth_error_snoc in Ev' as [Ev'|[Nv ->]].
        -- apply nth_error_snoc in T as [T|[Nt _]]; [eapply P2; eauto|]. assert (v' < length vs) by (apply nth_error_Some; congruence). lia.
        -- apply shares_sym in Sh. eapply Fr; [|exact Sh]. eapply F; eauto.
      * intros v' u v2 u2 Ev' T Ev2 N Sh. apply nth_error_snoc in Ev' as [Ev'|[Nv ->]].
        -- assert (v' < length vs) as Lv by (apply nth_error_Some; congruence).
           apply nth_error_snoc in T as [T|[Nt _]]; [|lia].
           apply nth_error_snoc in Ev2 as [Ev2|[_ ->]]; [exact (P3 v' u v2 u2 Ev' T Ev2 N Sh)|]. eapply Fr; [|exact Sh]. eapply V; eauto.
        -- apply nth_error_snoc in Ev2 as [Ev2|[N2 ->]]; [|congruence]. apply shares_sym in Sh. eapply Fr; [|exact Sh]. eapply V; eauto.
    + unfold seen. cbn [lwHeap lwArrays lwFiles lwLists]. rewrite map_app. cbn [map].
      replace (map (lfile_value (A ++ [elements A sl ++ repeat 0 (room (length (elements A sl)))])) fs) with (map (lfile_value A) fs)
        by (apply map_ext_in; intros f I; apply In_nth_error in I as [j Ej]; unfold lfile_value; rewrite elements_more; [reflexivity|eapply F; eauto]).
      replace (map (elements (A ++ [elements A sl ++ repeat 0 (room (length (elements A sl)))])) vs) with (map (elements A) vs)
        by (apply map_ext_in; intros u I; apply In_nth_error in I as [j Ej]; rewrite elements_more; [reflexivity|eapply V; eauto]).
      replace (elements (A ++ [elements A sl ++ repeat 0 (room (length (elements A sl)))]) (Slice (length A) (length (elements A sl))))
        with (elements A sl)
        by (cbn [elements]; rewrite app_nth2, Nat.sub_diag by lia; cbn [nth]; rewrite firstn_app, firstn_all, Nat.sub_diag, firstn_O, app_nil_r; reflexivity).
      constructor. rewrite nth_error_map, Ev. reflexivity.
  - destruct w as [h A fs vs]. cbn [lwHeap lwArrays lwFiles lwLists] in *. destruct (nth_error vs v) as [sl|] eqn:Ev; [|discriminate].
    destruct (Nat.ltb_spec x (length (hRecords h))) as [Lx|]; [|discriminate].
    destruct (append_to room A sl x) as [A' sl'] eqn:Ea. inversion E; subst; clear E.
    destruct (own_apart A fs vs own v sl S P Ev Ow) as [Af Av]. destruct S as (F & V & D), P as (L & P1 & P2 & P3).
    pose proof (append_to_spec room _ _ _ _ _ (V _ _ Ev) Ea) as (El & _ & _ & _ & _ & U & Sh). split.
    + split; [exact S'|]. cbn [lwFiles lwLists]. split; [rewrite upd_length; exact L|]. split; [|split].
      * intros v' u i f Ev' T Ei. apply nth_error_upd_inv in Ev' as [(-> & -> & _)|[N Ev']]; [congruence|]. eapply P1; eauto.
      * intros v' u i f Ev' T Ei Hs. apply nth_error_upd_inv in Ev' as [(-> & -> & _)|[N Ev']]; [|eapply P2; eauto].
        apply shares_sym, Sh in Hs; [|eapply F; eauto]. eapply Af; eauto.
      * intros v' u v2 u2 Ev' T Ev2 N Hs. apply nth_error_upd_inv in Ev' as [(-> & -> & _)|[N' Ev']];
          apply nth_error_upd_inv in Ev2 as [(-> & -> & _)|[N2 Ev2]]; try congruence.
        -- apply shares_sym, Sh in Hs; [|eapply V; eauto]. eapply Av; eauto.
        -- apply Sh in Hs; [|eapply V; eauto]. eapply Av; eauto.
        -- exact (P3 v' u v2 u2 Ev' T Ev2 N Hs).
    + unfold seen. cbn [lwHeap lwArrays lwFiles lwLists].
      replace (map (lfile_value A') fs) with (map (lfile_value A) fs)
        by (apply map_ext_in; intros f I; apply In_nth_error in I as [j Ej]; unfold lfile_value;
            rewrite U; [reflexivity|eapply F; eauto|intros Hs; destruct (Af j f Ej Hs)]).
      rewrite (map_upd_other (elements A) (elements A')) by (intros j u N Ej; apply U; [eapply V; eauto|intros Hs; destruct (Av j u Ej N Hs)]).
      rewrite El. rewrite upd_in_place by (rewrite map_length; apply nth_error_Some; congruence).
      constructor; [rewrite nth_error_map, Ev; reflexivity|exact Lx].
  - destruct w as [h A fs vs]. cbn [lwHeap lwArrays lwFiles lwLists] in *. destruct (nth_error vs v) as [[|a n]|] eqn:Ev; try discriminate.
    destruct (Nat.ltb_spec x (length (hRecords h))) as [Lx|]; [|discriminate]. destruct (Nat.ltb_spec k n) as [Lk|]; [|discriminate].
    cbn [andb] in E. inversion E; subst; clear E. destruct (own_apart A fs vs own v _ S P Ev Ow) as [Af Av]. split.
    + split; [exact S'|exact P].
    + destruct S as (F & V & D). unfold seen. cbn [lwHeap lwArrays lwFiles lwLists]. set (A' := upd a (upd k x (nth a A [])) A).
      replace (map (lfile_value A') fs) with (map (lfile_value A) fs)
        by (apply map_ext_in; intros f I; apply In_nth_error in I as [j Ej]; unfold lfile_value, A';
            rewrite (elements_upd_other A a n); [reflexivity|eapply F; eauto|eapply Af; eauto]).
      assert (vs = upd v (Slice a n) vs) as Eu.
      { clear -Ev. revert v Ev. induction vs as [|y l IH]; intros [|v] Ev; cbn in *; try congruence. f_equal. apply IH. exact Ev. }
      replace (map (elements A') vs) with (in_place v (in_place k x (elements A (Slice a n))) (map (elements A) vs)).
      2:{ rewrite Eu at 2. rewrite (map_upd_other (elements A) (elements A'));
            [|intros j u N Ej; apply (elements_upd_other A a n); [eapply V; eauto|eapply Av; eauto]].
          unfold A'. rewrite elements_upd_at by (auto; eapply V; eauto).
          rewrite upd_in_place by (rewrite map_length; apply nth_error_Some; congruence). reflexivity. }
      constructor; [rewrite nth_error_map, Ev; reflexivity|exact Lx|]. rewrite elements_length by (eapply V; eauto). exact Lk.
Qed.

Lemma polite_ok w own : polite spare room w own -> l_polite w own.
Proof.
  induction 1 as [|w own fuel c w' _ IH Ow E]; [|eapply step_polite; eauto].
  split; [apply start_sound|]. split; [reflexivity|]. split; [|split]; intros [|v] u; intros; discriminate.
Qed.

Theorem polite_plain fuel w own c w' : polite spare room w own -> own_only own c -> l_step spare room fuel w c = Some w' ->
  plain_step spare fuel (seen w) c (seen w').
Proof. intros P Ow E. eapply step_polite; eauto. apply polite_ok, P. Qed.

Lemma plain_det fuel p c p1 p2 : plain_step spare fuel p c p1 -> plain_step spare fuel p c p2 -> p1 = p2.
Proof. intros A B. destruct A; inversion B; subst; congruence. Qed.

(* every statement that can be executed on values can be executed *)
Theorem plain_polite fuel w own c p : polite spare room w own -> own_only own c -> plain_step spare fuel (seen w) c p ->
  exists w', l_step spare room fuel w c = Some w' /\ seen w' = p.
Proof.
  intros P Ow H. destruct (l_step spare room fuel w c) as [w'|] eqn:E.
  - exists w'. split; [reflexivity|]. eapply plain_det; [eapply polite_plain; eauto|exact H].
  - exfalso. apply polite_ok in P as [S _]. pose proof S as (F & V & D). destruct c as [c|i|v|v x|v k x]; cbn [l_step] in E.
    + apply (call_fails spare room) in E; [|exact S]. unfold seen in *. cbn [fst] in E. inversion H; subst. congruence.
    + destruct w as [h A fs vs]. unfold seen in H. cbn [lwHeap lwArrays lwFiles lwLists] in *. inversion H; subst. cbn [wFiles] in *.
      match goal with Q : nth_error _ i = Some _ |- _ => rewrite nth_error_map in Q; destruct (nth_error fs i); discriminate end.
    + destruct w as [h A fs vs]. unfold seen in H. cbn [lwHeap lwArrays lwFiles lwLists] in *. inversion H; subst.
      match goal with Q : nth_error _ v = Some _ |- _ => rewrite nth_error_map in Q; destruct (nth_error vs v); discriminate end.
    + destruct w as [h A fs vs]. unfold seen in H. cbn [lwHeap lwArrays lwFiles lwLists] in *. inversion H; subst. cbn [wHeap] in *.
      match goal with Q : nth_error _ v = Some _ |- _ => rewrite nth_error_map in Q end. destruct (nth_error vs v); [|discriminate].
      match goal with L : x < _ |- _ => apply Nat.ltb_lt in L; rewrite L in E end. destruct (append_to room A _ x). discriminate.
    + destruct w as [h A fs vs]. unfold seen in H. cbn [lwHeap lwArrays lwFiles lwLists] in *. inversion H; subst. cbn [wHeap] in *.
      match goal with Q : nth_error _ v = Some _ |- _ => rename Q into Hv end. rewrite nth_error_map in Hv. destruct (nth_error vs v) as [sl|] eqn:Ev; [|discriminate]. inversion Hv; subst.
      rewrite elements_length in * by (eapply V; eauto). destruct sl as [|a n]; [cbn in *; lia|]. cbn [slen] in *.
      match goal with L : x < _, L' : k < _ |- _ => apply Nat.ltb_lt in L; apply Nat.ltb_lt in L'; rewrite L, L' in E end. discriminate.
Qed.

(* ---- the reach of what is done to lists that are shared ---- *)

Theorem run_append fuel cs w v x w' l : l_run spare room fuel l_start cs = Some w ->
  l_step spare room fuel w (LAppend v x) = Some w' -> nth_error (snd (seen w)) v = Some l ->
  nth_error (snd (seen w')) v = Some (l ++ [x])
  /\ length (snd (seen w')) = length (snd (seen w))
  /\ (forall v' u u', v' <> v -> nth_error (snd (seen w)) v' = Some u -> nth_error (snd (seen w')) v' = Some u' ->
        changed_at (length l) x u u')
  /\ Forall2 (fun f f' => hfPacked f' = hfPacked f /\ hfHeader f' = hfHeader f /\ hfTrailer f' = hfTrailer f
                          /\ changed_at (length l) x (hfBases f) (hfBases f'))
       (wFiles (fst (seen w))) (wFiles (fst (seen w'))).
Proof.
  intros R E El. apply run_sound in R; [|apply start_sound]. pose proof R as (F & V & D). destruct w as [h A fs vs].
  cbn [l_step] in E. unfold seen in *. cbn [snd fst wFiles lwHeap lwArrays lwLists lwFiles] in *.
  rewrite nth_error_map in El. destruct (nth_error vs v) as [sl|] eqn:Ev; [|discriminate]. inversion El; subst; clear El.
  destruct (Nat.ltb _ _); [|discriminate]. destruct (append_to room A sl x) as [A' sl'] eqn:Ea. inversion E; subst; clear E.
  cbn [lwArrays lwLists lwFiles]. pose proof (append_to_spec room _ _ _ _ _ (V _ _ Ev) Ea) as (El & _ & _ & _ & C & _ & _).
  assert (v < length vs) as Lv by (apply nth_error_Some; congruence). rewrite elements_length by (eapply V; eauto).
  split; [rewrite nth_error_map, nth_error_upd_same by exact Lv; cbn; f_equal; exact El|].
  split; [rewrite !map_length, upd_length; reflexivity|]. split.
  - intros v' u u' N Eu Eu'. rewrite nth_error_map in Eu, Eu'. rewrite nth_error_upd_other in Eu' by congruence.
    destruct (nth_error vs v') as [s|] eqn:Es; [|discriminate]. inversion Eu; subst. inversion Eu'; subst. apply C. eapply V; eauto.
  - assert (forall f, In f fs -> slice_ok A (lfBases f)) as O by (intros f I; apply In_nth_error in I as [j Ej]; eapply F; eauto).
    clear -O C. induction fs as [|f fs IH]; cbn [map]; constructor; [|apply IH; intros g I; apply O; right; exact I].
    split; [reflexivity|]. split; [reflexivity|]. split; [reflexivity|]. apply C, O. left. reflexivity.
Qed.

Theorem run_assign fuel cs w v k x w' l : l_run spare room fuel l_start cs = Some w ->
  l_step spare room fuel w (LAssign v k x) = Some w' -> nth_error (snd (seen w)) v = Some l ->
  k < length l
  /\ nth_error (snd (seen w')) v = Some (in_place k x l)
  /\ length (snd (seen w')) = length (snd (seen w))
  /\ (forall v' u u', nth_error (snd (seen w)) v' = Some u -> nth_error (snd (seen w')) v' = Some u' -> changed_at k x u u')
  /\ Forall2 (fun f f' => hfPacked f' = hfPacked f /\ hfHeader f' = hfHeader f /\ hfTrailer f' = hfTrailer f
                          /\ changed_at k x (hfBases f) (hfBases f'))
       (wFiles (fst (seen w))) (wFiles (fst (seen w'))).
Proof.
  intros R E El. apply run_sound in R; [|apply start_sound]. pose proof R as (F & V & D). destruct w as [h A fs vs].
  cbn [l_step] in E. unfold seen in *. cbn [snd fst wFiles lwHeap lwArrays lwLists lwFiles] in *.
  rewrite nth_error_map in El. destruct (nth_error vs v) as [sl|] eqn:Ev; [|discriminate]. inversion El; subst; clear El.
  destruct sl as [|a n]; [discriminate|]. destruct (Nat.ltb_spec k n) as [Lk|]; [|rewrite andb_false_r in E; discriminate].
  destruct (_ && _)%bool; [|discriminate]. inversion E; subst; clear E. cbn [lwArrays lwLists lwFiles].
  split; [rewrite elements_length by (eapply V; eauto); exact Lk|].
  split; [rewrite nth_error_map, Ev; cbn [option_map]; rewrite elements_upd_at by (auto; eapply V; eauto); reflexivity|].
  split; [rewrite !map_length; reflexivity|]. split.
  - intros v' u u' Eu Eu'. rewrite nth_error_map in Eu, Eu'. destruct (nth_error vs v') as [s|] eqn:Es; [|discriminate].
    inversion Eu; subst. inversion Eu'; subst. apply elements_upd_any. eapply V; eauto.
  - assert (forall f, In f fs -> slice_ok A (lfBases f)) as O by (intros f I; apply In_nth_error in I as [j Ej]; eapply F; eauto).
    clear -O. induction fs as [|f fs IH]; cbn [map]; constructor; [|apply IH; intros g I; apply O; right; exact I].
    split; [reflexivity|]. split; [reflexivity|]. split; [reflexivity|]. apply elements_upd_any, O. left. reflexivity.
Qed.

(* ---- whole programs ---- *)

(* programs that only read lists of data records: a list stays what it was when it was returned *)
Theorem reading_keeps fuel cs : forall w own w' v l, polite spare room w own ->
  (forall c, In c cs -> match c with LAppend _ _ | LAssign _ _ _ => False | _ => True end) ->
  l_run spare room fuel w cs = Some w' -> nth_error (snd (seen w)) v = Some l -> nth_error (snd (seen w')) v = Some l.
Proof.
  induction cs as [|c cs IH]; intros w own w' v l P H E El; cbn [l_run] in E; [inversion E; subst; exact El|].
  destruct (l_step spare room fuel w c) as [w1|] eqn:E1; [|discriminate].
  assert (own_only own c) as Ow by (specialize (H c (or_introl eq_refl)); destruct c; cbn; auto; contradiction).
  pose proof (polite_plain fuel w own c w1 P Ow E1) as St.
  apply (IH w1 (own_after own c)) with (v := v) (l := l) in E; [exact E|econstructor; eauto|intros c' I; apply H; right; exact I|].
  specialize (H c (or_introl eq_refl)). remember (seen w) as p eqn:Ep. remember (seen w1) as p1 eqn:Ep1.
  destruct St; cbn [snd] in *; try contradiction; [exact El| |]; rewrite nth_error_app1; auto; apply nth_error_Some; congruence.
Qed.

End Programs.
