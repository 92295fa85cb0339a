(* The calls of considerate programs: what they keep and what they do *)
From Coq Require Import ZArith NArith Bool Ascii String List Lia.
Import ListNotations.
From Verif Require Import GoBase GoBaseFacts GoTime Tables Codec Records File
  SpecCodec SpecLayouts SpecRecords SpecFile SpecValidate SpecCounters SpecApi Heap SpecHeap
  ParseFacts AgreeFacts ApiFacts HeapFacts.
Local Open Scope string_scope.
Local Open Scope nat_scope.
Local Open Scope list_scope.
Local Notation length := List.length.

Definition shape (c : hrecord) : nat * bool :=
  match c with HHeader p _ => (0, p) | HBase p _ => (1, p) | HTrailer p _ => (2, p) end.

Definition at_shape (h : heap) (s : nat * bool) (r : nat) : Prop :=
  r < length (hRecords h) /\ shape (cell h r) = s.

Definition file_in (h : heap) (f : hfile) : Prop :=
  at_shape h (0, hfPacked f) (hfHeader f) /\ Forall (at_shape h (1, hfPacked f)) (hfBases f)
  /\ at_shape h (2, hfPacked f) (hfTrailer f).

Definition all_slots (l : list hfile) : list nat := flat_map slots l.

Definition inv (w : world) (left : list nat) : Prop :=
  wf (wHeap w) /\ apart left (wHeap w) /\ Forall (file_in (wHeap w)) (wFiles w) /\ NoDup (all_slots (wFiles w))
  /\ (forall r, In r left -> ~ In r (all_slots (wFiles w))) /\ Forall (fun r => r < length (hRecords (wHeap w))) left.

Lemma in_files_slots w r : in_files w r <-> In r (all_slots (wFiles w)).
Proof. unfold in_files, all_slots. rewrite in_flat_map. reflexivity. Qed.

Lemma file_in_slots h f r : file_in h f -> In r (slots f) -> r < length (hRecords h).
Proof.
  intros (A & B & C) [<-|[<-|I]]; [apply A|apply C|]. rewrite Forall_forall in B. apply (B r I).
Qed.

(* ---- shapes ---- *)

Definition kept (h h' : heap) : Prop :=
  forall r, r < length (hRecords h) -> r < length (hRecords h') /\ shape (cell h' r) = shape (cell h r).

Lemma kept_grown h h' : grown h h' -> kept h h'.
Proof. intros G r L. rewrite (grown_cell h h') by assumption. apply grown_lengths in G. split; [lia|reflexivity]. Qed.

Lemma kept_trans h1 h2 h3 : kept h1 h2 -> kept h2 h3 -> kept h1 h3.
Proof. intros A B r L. destruct (A r L) as [L2 E]. destruct (B r L2) as [L3 E']. split; [exact L3|congruence]. Qed.

Lemma kept_at h h' s r : kept h h' -> at_shape h s r -> at_shape h' s r.
Proof. intros K [L E]. destruct (K r L) as [L' E']. split; [exact L'|congruence]. Qed.

Lemma kept_file h h' f : kept h h' -> file_in h f -> file_in h' f.
Proof.
  intros K (A & B & C). split; [|split]; eauto using kept_at. revert B. apply Forall_impl. intros r. apply kept_at. exact K.
Qed.

Lemma kept_files h h' l : kept h h' -> Forall (file_in h) l -> Forall (file_in h') l.
Proof. intros K. apply Forall_impl. intros f. apply kept_file. exact K. Qed.

(* ---- assignment to a record ---- *)

Lemma cell_set h r c x : r < length (hRecords h) -> cell (set_cell h r c) x = if Nat.eqb x r then c else cell h x.
Proof.
  intros L. unfold cell, set_cell. cbn. destruct (Nat.eqb_spec x r) as [->|N]; [apply nth_upd_same; exact L|].
  apply nth_upd_other. auto.
Qed.

Lemma set_cell_length h r c : length (hRecords (set_cell h r c)) = length (hRecords h).
Proof. apply upd_length. Qed.

Lemma value_set h r c x : r < length (hRecords h) ->
  record_value (set_cell h r c) x = if Nat.eqb x r then cell_value h c else record_value h x.
Proof. intros L. unfold record_value. rewrite cell_set by exact L. destruct (Nat.eqb x r); reflexivity. Qed.

Lemma wf_set h r c : r < length (hRecords h) -> wf h -> wf_cell h c -> wf (set_cell h r c).
Proof.
  intros L W K x Lx. rewrite set_cell_length in Lx. rewrite cell_set by exact L. destruct (Nat.eqb x r); [exact K|].
  exact (W x Lx).
Qed.

Lemma apart_parts left h h' : (forall r, parts (cell h' r) = parts (cell h r)) -> length (hRecords h') = length (hRecords h) ->
  apart left h -> apart left h'.
Proof.
  intros E L [A B]. split.
  - intros r. rewrite L, E. apply A.
  - intros r r' a n n'. rewrite L, !E. apply B.
Qed.

Lemma apart_set left h r c : r < length (hRecords h) -> parts c = parts (cell h r) -> apart left h -> apart left (set_cell h r c).
Proof.
  intros L E. apply apart_parts; [|apply set_cell_length]. intros x. rewrite cell_set by exact L.
  destruct (Nat.eqb_spec x r) as [->|]; auto.
Qed.

Lemma kept_set h r c : r < length (hRecords h) -> shape c = shape (cell h r) -> kept h (set_cell h r c).
Proof.
  intros L E x Lx. rewrite set_cell_length. split; [exact Lx|]. rewrite cell_set by exact L.
  destruct (Nat.eqb_spec x r) as [->|]; auto.
Qed.

(* ---- assignment to a segment ---- *)

Lemma wf_seg h s x : wf h -> wf (set_seg h s x).
Proof.
  intros W r L. specialize (W r L). change (cell (set_seg h s x) r) with (cell h r). destruct (cell h r); auto.
  assert (length (hSegments (set_seg h s x)) = length (hSegments h)) as E by apply upd_length.
  destruct W as (W1 & W2 & W3 & W4 & W5 & W6 & W7 & W8). cbn [wf_cell]. unfold wf_base, wf_slice, wf_option in *. rewrite E. auto 10.
Qed.

Lemma seg_set h s x y : s < length (hSegments h) -> seg_value (set_seg h s x) y = if Nat.eqb y s then x else seg_value h y.
Proof.
  intros L. unfold seg_value, set_seg. cbn. destruct (Nat.eqb_spec y s) as [->|N]; [apply nth_upd_same; exact L|].
  apply nth_upd_other. auto.
Qed.

(* ---- append ---- *)

Section Spare.
Variable spare : nat -> nat.

(* what append changes: at most what a longer part of the same array shows *)
Lemma append_spec h sl s h' sl' : wf_slice h sl -> s < length (hSegments h) -> slice_append spare h sl s = (h', sl') ->
  hSegments h' = hSegments h /\ hRecords h' = hRecords h /\ length (hArrays h) <= length (hArrays h')
  /\ slice_refs h' sl' = slice_refs h sl ++ [s] /\ wf_slice h' sl'
  /\ (forall a n, In (a, n) (part sl') -> exists m, n = S m /\ (In (a, m) (part sl) \/ length (hArrays h) <= a))
  /\ (forall a n, a < length (hArrays h) -> n <= length (nth a (hArrays h) []) ->
       (forall m, In (a, m) (part sl) -> n <= m) -> n <= length (nth a (hArrays h') []) /\
       firstn n (nth a (hArrays h') []) = firstn n (nth a (hArrays h) [])).
Proof.
  intros W L E. destruct sl as [|a n]; cbn [slice_append] in E.
  - inversion E; subst; clear E. cbn.
    repeat split; auto.
    + rewrite app_length. lia.
    + rewrite app_nth2, Nat.sub_diag by lia. reflexivity.
    + rewrite app_length. cbn. lia.
    + rewrite app_nth2, Nat.sub_diag by lia. cbn. lia.
    + rewrite app_nth2, Nat.sub_diag by lia. cbn. repeat constructor. exact L.
    + intros a n [I|[]]. inversion I; subst. exists 0. split; [reflexivity|]. right. lia.
    + rewrite app_nth1 by assumption. assumption.
    + rewrite app_nth1 by assumption. reflexivity.
  - destruct W as (La & Ln & F). destruct (Nat.ltb_spec n (length (nth a (hArrays h) []))) as [D|D]; inversion E; subst; clear E; cbn.
    + repeat split; auto.
      * rewrite upd_length. lia.
      * rewrite nth_upd_same by exact La. apply firstn_S_upd. exact D.
      * rewrite upd_length. exact La.
      * rewrite nth_upd_same by exact La. rewrite upd_length. exact D.
      * rewrite nth_upd_same by exact La. change (Forall (fun x => x < length (hSegments h)) (firstn (S n) (upd n s (nth a (hArrays h) [])))).
        rewrite firstn_S_upd by exact D. apply Forall_app. auto.
      * intros b m [I|[]]. inversion I; subst. exists n. auto.
      * rewrite nth_upd. destruct (_ && _)%bool eqn:B; [|assumption]. apply andb_prop in B as [B _]. apply Nat.eqb_eq in B. subst.
        rewrite upd_length. assumption.
      * rewrite nth_upd. destruct (_ && _)%bool eqn:B; [|reflexivity]. apply andb_prop in B as [B _]. apply Nat.eqb_eq in B. subst.
        apply firstn_upd. apply H1. left. reflexivity.
    + assert (n = length (nth a (hArrays h) [])) as En by lia.
      assert (firstn (S n) (firstn n (nth a (hArrays h) []) ++ s :: repeat 0 (spare n)) = firstn n (nth a (hArrays h) []) ++ [s]) as Fs.
      { rewrite firstn_app, firstn_firstn, firstn_length. replace (Nat.min (S n) n) with n by lia.
        replace (S n - Nat.min n (length (nth a (hArrays h) []))) with 1 by lia. reflexivity. }
      repeat split; auto.
      * rewrite app_length. lia.
      * rewrite app_nth2, Nat.sub_diag by lia. exact Fs.
      * rewrite app_length. cbn. lia.
      * rewrite app_nth2, Nat.sub_diag by lia. cbn [nth]. rewrite app_length, firstn_length. cbn. lia.
      * rewrite app_nth2, Nat.sub_diag by lia. cbn [nth].
        change (Forall (fun x => x < length (hSegments h)) (firstn (S n) (firstn n (nth a (hArrays h) []) ++ s :: repeat 0 (spare n)))).
        rewrite Fs. apply Forall_app. auto.
      * intros b m [I|[]]. inversion I; subst. eexists. split; [reflexivity|]. right. lia.
      * rewrite app_nth1 by assumption. assumption.
      * rewrite app_nth1 by assumption. reflexivity.
Qed.

(* a slice another one does not interfere with *)
Lemma untouched_slice h h' sl : hSegments h' = hSegments h -> length (hArrays h) <= length (hArrays h') ->
  (forall a n, In (a, n) (part sl) -> n <= length (nth a (hArrays h') []) /\
     firstn n (nth a (hArrays h') []) = firstn n (nth a (hArrays h) [])) ->
  wf_slice h sl -> wf_slice h' sl /\ slice_refs h' sl = slice_refs h sl.
Proof.
  intros S L K W. destruct sl as [|a n]; [split; [exact I|reflexivity]|]. destruct W as (A & B & C).
  destruct (K a n (or_introl eq_refl)) as [K1 K2]. cbn. rewrite K2, S. repeat split; auto. lia.
Qed.

Lemma untouched_cell h h' c : hSegments h' = hSegments h -> length (hArrays h) <= length (hArrays h') ->
  (forall a n, In (a, n) (parts c) -> n <= length (nth a (hArrays h') []) /\
     firstn n (nth a (hArrays h') []) = firstn n (nth a (hArrays h) [])) ->
  wf_cell h c -> wf_cell h' c /\ cell_value h' c = cell_value h c.
Proof.
  intros S L K W. destruct c as [p st|p b|p st]; try (split; [exact I|reflexivity]).
  destruct W as (W1 & W2 & W3).
  destruct (untouched_slice h h' (hbJ1 b)) as [U1 V1]; auto. { intros a n I. apply K. cbn. apply in_or_app. auto. }
  destruct (untouched_slice h h' (hbJ2 b)) as [U2 V2]; auto. { intros a n I. apply K. cbn. apply in_or_app. auto. }
  split.
  - cbn. split; [exact U1|]. split; [exact U2|]. unfold wf_option. rewrite S. exact W3.
  - cbn. f_equal. unfold base_value. rewrite V1, V2.
    assert (forall x, seg_value h' x = seg_value h x) as Es by (intros x; unfold seg_value; rewrite S; reflexivity).
    rewrite !(map_ext _ _ Es).
    assert (forall o, option_map (seg_value h') o = option_map (seg_value h) o) as Eo by (intros [x|]; cbn; [rewrite Es|]; reflexivity).
    rewrite !Eo. reflexivity.
Qed.

Lemma put_spec h k s b h' b' : wf_base h b -> NoDup (map fst (part (hbJ1 b) ++ part (hbJ2 b))) -> s < length (hSegments h) ->
  h_put spare h k s b = (h', b') -> sKind (seg_value h s) = k ->
  hSegments h' = hSegments h /\ hRecords h' = hRecords h /\ length (hArrays h) <= length (hArrays h')
  /\ wf_base h' b' /\ base_value h' b' = put_segment (seg_value h s) (base_value h b)
  /\ NoDup (map fst (part (hbJ1 b') ++ part (hbJ2 b')))
  /\ (forall a n, In (a, n) (part (hbJ1 b') ++ part (hbJ2 b')) ->
       (exists m, m <= n /\ In (a, m) (part (hbJ1 b) ++ part (hbJ2 b))) \/ length (hArrays h) <= a)
  /\ (forall a n, a < length (hArrays h) -> n <= length (nth a (hArrays h) []) ->
       (forall m, In (a, m) (part (hbJ1 b) ++ part (hbJ2 b)) -> n <= m) -> n <= length (nth a (hArrays h') []) /\
       firstn n (nth a (hArrays h') []) = firstn n (nth a (hArrays h) [])).
Proof.
  intros W D L E Ek. destruct b as [st j1 j2 k1 k2 k3 k4 l1 n1]. cbn [hbJ1 hbJ2] in *.
  assert (seg_value h' = seg_value h \/ True) as _ by (right; exact I).
  destruct W as (W1 & W2 & W3 & W4 & W5 & W6 & W7 & W8). cbn [hbJ1 hbJ2 hbK1 hbK2 hbK3 hbK4 hbL1 hbN1] in *.
  destruct k; cbn [h_put] in E.
  1,2: destruct (slice_append spare h _ s) as [h1 sl] eqn:A; inversion E; subst; clear E.
  1: pose proof (append_spec _ _ _ _ _ W1 L A) as (S & R & La & Rf & Wf & Pt & Un).
  2: pose proof (append_spec _ _ _ _ _ W2 L A) as (S & R & La & Rf & Wf & Pt & Un).
  1,2: assert (forall x, seg_value h' x = seg_value h x) as Es by (intros x; unfold seg_value; rewrite S; reflexivity).
  1,2: assert (forall o, option_map (seg_value h') o = option_map (seg_value h) o) as Eo by (intros [x|]; cbn; [rewrite Es|]; reflexivity).
  - destruct (untouched_slice h h' j2) as [U2 V2]; auto.
    { intros a n I. destruct j2 as [|a2 m2]; [contradiction|]. destruct I as [I|[]]. inversion I; subst. destruct W2 as (X & Y & Z).
      apply Un; auto. intros m Im. exfalso. destruct j1 as [|a1 m1]; [contradiction|]. destruct Im as [Im|[]]. inversion Im; subst.
      cbn in D. inversion D; subst. apply H1. left. reflexivity. }
    split; [exact S|]. split; [exact R|]. split; [exact La|]. split; [|split; [|split; [|split]]].
    + repeat split; cbn; auto; unfold wf_option; rewrite S; auto.
    + unfold base_value, put_segment. rewrite Ek. cbn. rewrite Rf, V2, !(map_ext _ _ Es), !Eo, map_app. reflexivity.
    + cbn. destruct sl as [|a n]; [exact (NoDup_remove_1 _ _ _ D) || (destruct j1; cbn in *; [exact D|inversion D; assumption])|].
      destruct (Pt a n (or_introl eq_refl)) as (m & -> & [Im|Im]).
      * destruct j1 as [|a1 m1]; [contradiction|]. destruct Im as [Im|[]]. inversion Im; subst. exact D.
      * destruct j2 as [|a2 m2]; cbn; repeat constructor; cbn; auto. intros [->|[]]. destruct W2 as (X & _). lia.
    + intros a n I. cbn in I. apply in_app_or in I as [I|I].
      * destruct (Pt a n I) as (m & -> & [Im|Im]); [left; exists m; split; [lia|]; apply in_or_app; auto|auto].
      * left. exists n. split; [lia|]. apply in_or_app. auto.
    + intros a n X Y Z. apply Un; auto. intros m Im. apply Z. apply in_or_app. auto.
  - destruct (untouched_slice h h' j1) as [U1 V1]; auto.
    { intros a n I. destruct j1 as [|a1 m1]; [contradiction|]. destruct I as [I|[]]. inversion I; subst. destruct W1 as (X & Y & Z).
      apply Un; auto. intros m Im. exfalso. destruct j2 as [|a2 m2]; [contradiction|]. destruct Im as [Im|[]]. inversion Im; subst.
      cbn in D. inversion D; subst. apply H1. left. reflexivity. }
    split; [exact S|]. split; [exact R|]. split; [exact La|]. split; [|split; [|split; [|split]]].
    + repeat split; cbn; auto; unfold wf_option; rewrite S; auto.
    + unfold base_value, put_segment. rewrite Ek. cbn. rewrite Rf, V1, !(map_ext _ _ Es), !Eo, map_app. reflexivity.
    + cbn. destruct sl as [|a n]; [destruct j1; cbn in *; [constructor|repeat constructor; auto]|].
      destruct (Pt a n (or_introl eq_refl)) as (m & -> & [Im|Im]).
      * destruct j2 as [|a2 m2]; [contradiction|]. destruct Im as [Im|[]]. inversion Im; subst. destruct j1; exact D.
      * destruct j1 as [|a1 m1]; cbn; repeat constructor; cbn; auto. intros [->|[]]. destruct W1 as (X & _). lia.
    + intros a n I. cbn in I. apply in_app_or in I as [I|I].
      * left. exists n. split; [lia|]. apply in_or_app. auto.
      * destruct (Pt a n I) as (m & -> & [Im|Im]); [left; exists m; split; [lia|]; apply in_or_app; auto|auto].
    + intros a n X Y Z. apply Un; auto. intros m Im. apply Z. apply in_or_app. auto.
  - inversion E; subst; clear E. repeat split; cbn; auto; [unfold put_segment; rewrite Ek; reflexivity|]. intros a n I. left. eauto.
  - inversion E; subst; clear E. repeat split; cbn; auto; [unfold put_segment; rewrite Ek; reflexivity|]. intros a n I. left. eauto.
  - inversion E; subst; clear E. repeat split; cbn; auto; [unfold put_segment; rewrite Ek; reflexivity|]. intros a n I. left. eauto.
  - inversion E; subst; clear E. repeat split; cbn; auto; [unfold put_segment; rewrite Ek; reflexivity|]. intros a n I. left. eauto.
  - inversion E; subst; clear E. repeat split; cbn; auto; [unfold put_segment; rewrite Ek; reflexivity|]. intros a n I. left. eauto.
  - inversion E; subst; clear E. repeat split; cbn; auto; [unfold put_segment; rewrite Ek; reflexivity|]. intros a n I. left. eauto.
Qed.

Lemma add_segment_spec left h r s : wf h -> apart left h -> r < length (hRecords h) -> s < length (hSegments h) -> ~ In r left ->
  let h' := h_add_segment spare h r s in
  wf h' /\ apart left h' /\ kept h h' /\ length (hRecords h') = length (hRecords h) /\
  forall x, x < length (hRecords h) -> record_value h' x =
    if Nat.eqb x r then fst (record_add_segment (seg_value h s) (record_value h r)) else record_value h x.
Proof.
  intros W P Lr Ls N. unfold h_add_segment, record_value at 2. destruct (cell h r) as [p st|p b|p st] eqn:C.
  1,3: cbn; split; [exact W|]; split; [exact P|]; split; [apply kept_grown, grown_refl|]; split; [reflexivity|];
    intros x Lx; unfold record_value; destruct (Nat.eqb_spec x r) as [->|]; [rewrite C|]; reflexivity.
  cbn [cell_value record_add_segment]. unfold base_add_segment. destruct (seg_validate (seg_value h s)).
  { cbn. split; [exact W|]; split; [exact P|]; split; [apply kept_grown, grown_refl|]; split; [reflexivity|].
    intros x Lx. unfold record_value. destruct (Nat.eqb_spec x r) as [->|]; [rewrite C|]; reflexivity. }
  destruct (h_put _ _ _ _ _) as [h1 b'] eqn:E.
  pose proof (W r Lr) as Wb. rewrite C in Wb. destruct P as [P1 P2]. pose proof (P1 r Lr) as Db. rewrite C in Db. cbn in Db, Wb.
  pose proof (put_spec _ _ _ _ _ _ Wb Db Ls E eq_refl) as (S & R & La & Wb' & V & D & Pt & Un).
  assert (r < length (hRecords h1)) as Lr1 by (rewrite R; exact Lr).
  assert (forall x, x < length (hRecords h) -> x <> r -> wf_cell h1 (cell h x) /\ cell_value h1 (cell h x) = cell_value h (cell h x)) as K.
  { intros x Lx Ne. apply untouched_cell; auto. intros a n I. pose proof (parts_wf h _ a n (W x Lx) I) as [A B]. apply Un; auto.
    intros m Im. assert (In (a, m) (parts (cell h r))) as Im' by (rewrite C; exact Im).
    destruct (P2 r x a m n Lr Lx (fun e => Ne (eq_sym e)) N Im' I) as [_ X]. exact X. }
  assert (forall x, cell h1 x = cell h x) as Cx by (intros x; unfold cell; rewrite R; reflexivity).
  split; [|split; [|split; [|split]]].
  - intros x Lx. rewrite set_cell_length, R in Lx. rewrite cell_set by exact Lr1. destruct (Nat.eqb_spec x r) as [->|Ne].
    + exact Wb'.
    + rewrite Cx. apply K; assumption.
  - split.
    + intros x Lx. rewrite set_cell_length, R in Lx. rewrite cell_set by exact Lr1. destruct (Nat.eqb_spec x r) as [->|Ne]; [exact D|].
      rewrite Cx. apply P1. exact Lx.
    + intros x y a n m Lx Ly Ne Nx Ix Iy. rewrite set_cell_length, R in Lx, Ly. rewrite cell_set, Cx in Ix, Iy by exact Lr1.
      destruct (Nat.eqb_spec x r) as [->|Nxr], (Nat.eqb_spec y r) as [->|Nyr].
      * congruence.
      * destruct (Pt a n Ix) as [(m' & Lm & Im)|X].
        -- assert (In (a, m') (parts (cell h r))) as Im' by (rewrite C; exact Im).
           destruct (P2 r y a m' m Lr Ly Ne Nx Im' Iy). split; [assumption|lia].
        -- apply (parts_wf h) in Iy as [Iy _]; [lia|apply W; exact Ly].
      * exfalso. destruct (Pt a m Iy) as [(m' & Lm & Im)|X].
        -- assert (In (a, m') (parts (cell h r))) as Im' by (rewrite C; exact Im).
           destruct (P2 x r a n m' Lx Lr Ne Nx Ix Im'). contradiction.
        -- apply (parts_wf h) in Ix as [Ix _]; [lia|apply W; exact Lx].
      * exact (P2 x y a n m Lx Ly Ne Nx Ix Iy).
  - intros x Lx. rewrite set_cell_length, R. split; [exact Lx|]. rewrite cell_set by exact Lr1.
    destruct (Nat.eqb_spec x r) as [->|Ne]; [rewrite C; reflexivity|rewrite Cx; reflexivity].
  - rewrite set_cell_length, R. reflexivity.
  - intros x Lx. rewrite value_set by exact Lr1. destruct (Nat.eqb_spec x r) as [->|Ne].
    + cbn [cell_value fst]. rewrite V. reflexivity.
    + unfold record_value. rewrite Cx. apply K; assumption.
Qed.

End Spare.
