(* Lists of data records are values in programs that change only their own *)
From Coq Require Import ZArith NArith Bool Ascii String List Lia.
Import ListNotations.
From Verif Require Import GoBase GoTime Tables Codec Records File Heap SpecHeap HeapFacts Lists SpecLists ListFacts.
Local Open Scope string_scope.
Local Open Scope nat_scope.
Local Open Scope list_scope.
Local Notation length := List.length.

Lemma nth_error_snoc {A} (l : list A) x i y : nth_error (l ++ [x]) i = Some y ->
  nth_error l i = Some y \/ (i = length l /\ y = x).
Proof.
  intros E. destruct (Nat.lt_ge_cases i (length l)) as [L|L].
  - left. rewrite nth_error_app1 in E by exact L. exact E.
  - right. rewrite nth_error_app2 in E by exact L. destruct (i - length l) as [|k] eqn:D; [|destruct k; discriminate].
    cbn in E. inversion E. split; [lia|reflexivity].
Qed.

Lemma nth_error_upd_inv {A} (l : list A) i x j y : nth_error (upd i x l) j = Some y ->
  (j = i /\ y = x /\ i < length l) \/ (j <> i /\ nth_error l j = Some y).
Proof.
  intros E. destruct (Nat.eq_dec j i) as [->|N].
  - left. assert (i < length l) as L by (rewrite <- (upd_length i x l); apply nth_error_Some; congruence).
    rewrite nth_error_upd_same in E by exact L. inversion E. auto.
  - right. rewrite nth_error_upd_other in E by congruence. auto.
Qed.

Section Programs.

Variable spare room : nat -> nat.

(* ---- all programs ---- *)

Definition sound (A : list (list nat)) (fs : list lfile) (vs : list slice) : Prop :=
  (forall i f, nth_error fs i = Some f -> slice_ok A (lfBases f))
  /\ (forall v u, nth_error vs v = Some u -> slice_ok A u)
  /\ (forall i j f g, nth_error fs i = Some f -> nth_error fs j = Some g -> i <> j -> ~ shares (lfBases f) (lfBases g)).

Definition l_sound (w : lworld) : Prop := sound (lwArrays w) (lwFiles w) (lwLists w).

(* what a call on file i may do to the arrays: A', f' instead of A, f; it writes nothing
   that another slice has, except beyond the end of its own *)
Definition keeps (A : list (list nat)) (f : lfile) (A' : list (list nat)) (f' : lfile) : Prop :=
  slice_ok A' (lfBases f')
  /\ (forall u, slice_ok A u -> slice_ok A' u)
  /\ (forall u, slice_ok A u -> (shares u (lfBases f) -> slen u <= slen (lfBases f)) -> elements A' u = elements A u)
  /\ (forall u, slice_ok A u -> shares u (lfBases f') -> shares u (lfBases f) /\ slen (lfBases f) <= slen (lfBases f')).

Lemma keeps_same A f f' : slice_ok A (lfBases f) -> lfBases f' = lfBases f -> keeps A f A f'.
Proof. intros O E. unfold keeps. rewrite E. repeat split; auto. Qed.

Lemma keeps_append A f x A' sl f' : slice_ok A (lfBases f) -> append_to room A (lfBases f) x = (A', sl) -> lfBases f' = sl ->
  keeps A f A' f'.
Proof.
  intros O E Ef. pose proof (append_to_spec room _ _ _ _ _ O E) as (_ & O' & L & K & _ & U & Sh). unfold keeps. rewrite Ef.
  split; [exact O'|]. split; [exact K|]. split; [exact U|]. intros u Ou S. split; [auto|]. lia.
Qed.

Lemma fresh_apart A u sl : slice_ok A u -> fresh_from (length A) sl -> ~ shares u sl.
Proof. destruct u as [|a n], sl as [|b m]; cbn; auto. intros [L _] F ->. lia. Qed.

Lemma old_below A u : slice_ok A u -> forall a n, u = Slice a n -> a < length A.
Proof. intros O a n ->. apply O. Qed.

Lemma keeps_fresh_nil A f l A' sl f' : append_all room A Nil l = (A', sl) -> lfBases f' = sl -> keeps A f A' f' /\ elements A' sl = l.
Proof.
  intros E Ef. destruct (append_all_spec room l A Nil A' sl (length A) Logic.I Logic.I (le_n _) E) as (El & O & F & K & U).
  split; [|exact El]. unfold keeps. rewrite Ef. split; [exact O|]. split; [exact K|].
  split; [intros u Ou _; apply U; [exact Ou|apply old_below; exact Ou]|].
  intros u Ou S. destruct (fresh_apart A u sl Ou F S).
Qed.

Lemma keeps_fresh_empty A f l A' sl f' : append_all room (A ++ [[]]) (Slice (length A) 0) l = (A', sl) -> lfBases f' = sl ->
  keeps A f A' f' /\ elements A' sl = l.
Proof.
  intros E Ef.
  assert (slice_ok (A ++ [[]]) (Slice (length A) 0)) as O0 by (split; [rewrite app_length; cbn; lia|lia]).
  assert (length A <= length (A ++ [[]])) as L by (rewrite app_length; lia).
  destruct (append_all_spec room l _ _ A' sl (length A) O0 (le_n _) L E) as (El & O & F & K & U).
  split; [|exact El]. unfold keeps. rewrite Ef. split; [exact O|].
  split; [intros u Ou; apply K, slice_ok_more; exact Ou|].
  split; [intros u Ou _; rewrite U; [apply elements_more; exact Ou|apply slice_ok_more; exact Ou|apply old_below; exact Ou]|].
  intros u Ou S. destruct (fresh_apart A u sl Ou F S).
Qed.

(* each call on a file does to the file what the call on lists that are values does *)
Lemma set_record_ok h A f r : slice_ok A (lfBases f) -> keeps A f A (l_set_record h A f r)
  /\ lfile_value A (l_set_record h A f r) = h_set_record h (lfile_value A f) r.
Proof.
  intros O. split; [apply keeps_same; [exact O|reflexivity]|]. unfold l_set_record, h_set_record, lfile_value.
  destruct (record_validate _); cbn; [reflexivity|]. destruct (_ || _)%bool; [reflexivity|]. destruct (_ || _)%bool; reflexivity.
Qed.

Lemma add_data_ok h A f r A' f' : slice_ok A (lfBases f) -> l_add_data_record room h A f r = (A', f') ->
  keeps A f A' f' /\ lfile_value A' f' = h_add_data_record h (lfile_value A f) r
  /\ forall u, slice_ok A u -> changed_at (length (elements A (lfBases f))) r (elements A u) (elements A' u).
Proof.
  intros O E. unfold l_add_data_record, h_add_data_record in *. destruct (record_validate _).
  - inversion E; subst. split; [apply keeps_same; auto|]. split; [reflexivity|]. intros u _. left. reflexivity.
  - cbn [lfile_value hfPacked hfHeader hfBases hfTrailer]. destruct (_ || _)%bool.
    + destruct (append_to room A (lfBases f) r) as [A1 sl] eqn:Ea. inversion E; subst; clear E.
      split; [eapply keeps_append; eauto|]. pose proof (append_to_spec room _ _ _ _ _ O Ea) as (El & _ & _ & _ & C & _).
      split; [unfold lfile_value; cbn; rewrite El; reflexivity|]. intros u Ou. rewrite elements_length by exact O. apply C. exact Ou.
    + inversion E; subst. split; [apply keeps_same; auto|]. split; [reflexivity|]. intros u _. left. reflexivity.
Qed.

Lemma set_type_ok h A f t h' A' f' : slice_ok A (lfBases f) -> l_set_type room h A f t = (h', A', f') ->
  keeps A f A' f' /\ (h', lfile_value A' f') = h_set_type h (lfile_value A f) t
  /\ forall u, slice_ok A u -> elements A' u = elements A u.
Proof.
  intros O E. unfold l_set_type, h_set_type in *. cbn [lfile_value hfPacked hfHeader hfBases hfTrailer] in *.
  assert (forall g : lfile, lfBases g = lfBases f -> keeps A f A g /\ forall u, slice_ok A u -> elements A u = elements A u) as Same
    by (intros g Eg; split; [apply keeps_same; assumption|reflexivity]).
  destruct (_ && _)%bool; [inversion E; subst; split; [apply Same; reflexivity|auto]|].
  destruct (bytes_eqb (format_name (lfPacked f)) t); [inversion E; subst; split; [apply Same; reflexivity|auto]|].
  destruct (cell h (lfHeader f)) as [hp st|bp b|tp st]; try (inversion E; subst; split; [apply Same; reflexivity|auto]; fail).
  destruct (negb _); [inversion E; subst; split; [apply Same; reflexivity|auto]|].
  destruct (new_record_at h _) as [h1 hd]. destruct (h_convert_bases _ h1 _) as [h2 [bs|]];
    [|inversion E; subst; split; [apply Same; reflexivity|auto]].
  destruct (append_all room A Nil bs) as [A1 sl] eqn:Ea.
  assert (forall u, slice_ok A u -> elements A1 u = elements A u) as Un.
  { destruct (append_all_spec room bs A Nil A1 sl (length A) Logic.I Logic.I (le_n _) Ea) as (_ & _ & _ & _ & U).
    intros u Ou. apply U; [exact Ou|apply old_below; exact Ou]. }
  assert (forall g, lfBases g = sl -> keeps A f A1 g /\ elements A1 sl = bs) as Fr by (intros g; eapply keeps_fresh_nil; eauto).
  destruct (cell h2 (lfTrailer f)) as [tp st'|bp b|tp st'].
  - inversion E; subst. destruct (Fr (mkLFile (lfPacked f) hd sl (lfTrailer f)) eq_refl) as [K El]. split; [exact K|].
    split; [unfold lfile_value; cbn; rewrite El; reflexivity|exact Un].
  - inversion E; subst. destruct (Fr (mkLFile (lfPacked f) hd sl (lfTrailer f)) eq_refl) as [K El]. split; [exact K|].
    split; [unfold lfile_value; cbn; rewrite El; reflexivity|exact Un].
  - destruct (negb _).
    + inversion E; subst. destruct (Fr (mkLFile (lfPacked f) hd sl (lfTrailer f)) eq_refl) as [K El]. split; [exact K|].
      split; [unfold lfile_value; cbn; rewrite El; reflexivity|exact Un].
    + destruct (new_record_at h2 _) as [h3 t3]. inversion E; subst. edestruct Fr as [K El]; [|split; [exact K|]]; [reflexivity|].
      split; [unfold lfile_value; cbn; rewrite El; reflexivity|exact Un].
Qed.

Lemma h_parse_packed fuel h f input iv h' g : h_parse spare fuel h f input iv = Some (h', g) -> hfPacked g = hfPacked f.
Proof.
  unfold h_parse. destruct (cell h (hfHeader f)); try discriminate. destruct (cell h (hfTrailer f)); try discriminate.
  destruct (record_parse _ _ _) as [v x]. destruct x as [head| |].
  - destruct (parse_loop _ _ _ _ _ _); try discriminate;
      try (destruct (store_records _ _ _) as [h2 refs]);
      repeat match goal with
      | |- context [if ?b then _ else _] => destruct b
      | |- context [let '(_, _) := ?x in _] => destruct x
      end; intros E; inversion E; reflexivity.
  - intros E. inversion E. reflexivity.
  - intros E. inversion E. reflexivity.
Qed.

Lemma parse_ok fuel h A f input iv h' A' f' : slice_ok A (lfBases f) -> l_parse spare room fuel h A f input iv = Some (h', A', f') ->
  keeps A f A' f' /\ h_parse spare fuel h (lfile_value A f) input iv = Some (h', lfile_value A' f')
  /\ forall u, slice_ok A u -> elements A' u = elements A u.
Proof.
  intros O E. unfold l_parse in E. destruct (h_parse spare fuel h (lfile_value A f) input iv) as [[h1 g]|] eqn:Eh; [|discriminate].
  apply h_parse_packed in Eh as P. cbn [lfile_value hfPacked] in P.
  destruct (append_all room (A ++ [[]]) (Slice (length A) 0) (hfBases g)) as [A1 sl] eqn:Ea. inversion E; subst; clear E.
  destruct (keeps_fresh_empty A f (hfBases g) A' sl (mkLFile (lfPacked f) (hfHeader g) sl (hfTrailer g)) Ea eq_refl) as [K El].
  split; [exact K|]. split; [f_equal; f_equal; unfold lfile_value; cbn; rewrite El, <- P; destruct g; reflexivity|].
  assert (slice_ok (A ++ [[]]) (Slice (length A) 0)) as O0 by (split; [rewrite app_length; cbn; lia|lia]).
  assert (length A <= length (A ++ [[]])) as L by (rewrite app_length; lia).
  destruct (append_all_spec room (hfBases g) _ _ A' sl (length A) O0 (le_n _) L Ea) as (_ & _ & _ & _ & U).
  intros u Ou. rewrite U; [apply elements_more; exact Ou|apply slice_ok_more; exact Ou|apply old_below; exact Ou].
Qed.

(* files after a call on one of them *)
Lemma files_after A fs vs i f A' f' : sound A fs vs -> nth_error fs i = Some f -> keeps A f A' f' ->
  sound A' (upd i f' fs) vs /\ map (lfile_value A') (upd i f' fs) = upd i (lfile_value A' f') (map (lfile_value A) fs).
Proof.
  intros (F & V & D) Ei (O' & K & U & Sh).
  assert (forall j g, j <> i -> nth_error fs j = Some g -> ~ shares (lfBases g) (lfBases f)) as Ap by (intros j g N Ej; eapply D; eauto).
  split; [split; [|split]|].
  - intros j g Ej. apply nth_error_upd_inv in Ej as [(-> & -> & _)|[N Ej]]; [exact O'|]. apply K. eapply F; eauto.
  - intros v u Ev. apply K. eapply V; eauto.
  - intros j k g g' Ej Ek N S. apply nth_error_upd_inv in Ej as [(-> & -> & _)|[Nj Ej]]; apply nth_error_upd_inv in Ek as [(-> & -> & _)|[Nk Ek]].
    + congruence.
    + apply shares_sym in S. apply Sh in S as [S _]; [|eapply F; eauto]. eapply Ap; eauto.
    + apply Sh in S as [S _]; [|eapply F; eauto]. eapply Ap; eauto.
    + exact (D j k g g' Ej Ek N S).
  - apply map_upd_other. intros j g N Ej. unfold lfile_value. rewrite U; [reflexivity|eapply F; eauto|].
    intros S. destruct (Ap j g N Ej S).
Qed.

Lemma call_changes fuel w c w' : l_sound w -> l_call spare room fuel w c = Some w' ->
  (lwArrays w' = lwArrays w /\ lwLists w' = lwLists w
     /\ (lwFiles w' = lwFiles w \/ exists p hd t, lwFiles w' = lwFiles w ++ [mkLFile p hd Nil t]))
  \/ exists i f f', nth_error (lwFiles w) i = Some f /\ keeps (lwArrays w) f (lwArrays w') f'
     /\ lwFiles w' = upd i f' (lwFiles w) /\ lwLists w' = lwLists w.
Proof.
  destruct w as [h A fs vs]. unfold l_sound. cbn [lwHeap lwArrays lwFiles lwLists]. intros S E. pose proof S as (F & V & D).
  destruct c as [p|p|p|p|s|r st|s st|r s|i r|i r|i t|i input iv|i]; cbn [l_call lwHeap lwArrays lwFiles lwLists] in E;
    try (destruct (h_step spare fuel (mkWorld h []) _) as [w1|]; [|discriminate]; inversion E; subst; left; cbn; auto; fail).
  - destruct (new_record_at h _) as [h1 hd]. destruct (new_record_at h1 _) as [h2 t]. inversion E; subst. left. cbn.
    split; [reflexivity|]. split; [reflexivity|]. right. eauto.
  - destruct (Nat.ltb _ _); [|discriminate]. unfold with_lfile in E. cbn [lwFiles lwLists] in E. destruct (nth_error fs i) as [f|] eqn:Ei; [|discriminate].
    inversion E; subst. right. cbn [lwArrays lwFiles lwLists]. exists i, f, (l_set_record h A f r). split; [exact Ei|].
    split; [apply set_record_ok; eapply F; eauto|auto].
  - destruct (Nat.ltb _ _); [|discriminate]. unfold with_lfile in E. cbn [lwFiles lwLists] in E. destruct (nth_error fs i) as [f|] eqn:Ei; [|discriminate].
    destruct (l_add_data_record room h A f r) as [A' f'] eqn:Ea. inversion E; subst. right. cbn [lwArrays lwFiles lwLists].
    exists i, f, f'. split; [exact Ei|]. split; [eapply add_data_ok; eauto|auto].
  - unfold with_lfile in E. cbn [lwFiles lwLists] in E. destruct (nth_error fs i) as [f|] eqn:Ei; [|discriminate].
    destruct (l_set_type room h A f t) as [[h' A'] f'] eqn:Ea. inversion E; subst. right. cbn [lwArrays lwFiles lwLists].
    exists i, f, f'. split; [exact Ei|]. split; [eapply set_type_ok; eauto|auto].
  - unfold with_lfile in E. cbn [lwFiles lwLists] in E. destruct (nth_error fs i) as [f|] eqn:Ei; [|discriminate].
    destruct (l_parse spare room fuel h A f input iv) as [[[h' A'] f']|] eqn:Ea; [|discriminate]. inversion E; subst. right. cbn [lwArrays lwFiles lwLists].
    exists i, f, f'. split; [exact Ei|]. split; [eapply parse_ok; eauto|auto].
  - unfold with_lfile in E. cbn [lwFiles lwLists] in E. destruct (nth_error fs i) as [f|] eqn:Ei; [|discriminate].
    destruct (h_generate h _) as [[h' n]|]; [|discriminate]. inversion E; subst. right. cbn [lwArrays lwFiles lwLists].
    exists i, f, f. split; [exact Ei|]. split; [apply keeps_same; [eapply F; eauto|reflexivity]|auto].
Qed.

Lemma call_sound fuel w c w' : l_sound w -> l_call spare room fuel w c = Some w' -> l_sound w'.
Proof.
  intros S E. destruct (call_changes fuel w c w' S E) as [(Ea & El & Ef)|(i & f & f' & Ei & K & Ef & El)]; unfold l_sound in *.
  - rewrite Ea, El. destruct Ef as [->|(p & hd & t & ->)]; [exact S|]. destruct S as (F & V & D). split; [|split].
    + intros i f Ei. apply nth_error_snoc in Ei as [Ei|[_ ->]]; [eapply F; eauto|exact Logic.I].
    + exact V.
    + intros i j f g Ei Ej N Sh. apply nth_error_snoc in Ei as [Ei|[Ni ->]]; [|destruct Sh]. apply nth_error_snoc in Ej as [Ej|[Nj ->]].
      * exact (D i j f g Ei Ej N Sh).
      * apply shares_sym in Sh. destruct Sh.
  - rewrite Ef, El. eapply files_after; eauto.
Qed.

(* the step of a call, on what is seen of the files *)
Lemma call_seen fuel w c w' : l_sound w -> l_call spare room fuel w c = Some w' ->
  h_step spare fuel (fst (seen w)) c = Some (fst (seen w')).
Proof.
  destruct w as [h A fs vs]. unfold l_sound, seen. cbn [lwHeap lwArrays lwFiles lwLists fst]. intros S E. pose proof S as (F & V & D).
  assert (forall h' A' i f f', nth_error fs i = Some f -> keeps A f A' f' ->
    mkWorld h' (map (lfile_value A') (upd i f' fs)) = mkWorld h' (upd i (lfile_value A' f') (map (lfile_value A) fs))) as Up.
  { intros h' A' i f f' Ei K. f_equal. eapply files_after; eauto. }
  assert (forall i, nth_error (map (lfile_value A) fs) i = option_map (lfile_value A) (nth_error fs i)) as Nm by (intros; apply nth_error_map).
  destruct c as [p|p|p|p|s|r st|s st|r s|i r|i r|i t|i input iv|i]; cbn [l_call lwHeap lwArrays lwFiles lwLists] in E;
    cbn [h_step wHeap wFiles] in *.
  - cbn [new_record_at] in *. inversion E; subst. cbn [lwHeap lwArrays lwFiles]. rewrite map_app. reflexivity.
  - inversion E; subst. reflexivity.
  - inversion E; subst. reflexivity.
  - inversion E; subst. reflexivity.
  - inversion E; subst. reflexivity.
  - destruct (Nat.ltb _ _); [|discriminate]. inversion E; subst. reflexivity.
  - destruct (Nat.ltb _ _); [|discriminate]. inversion E; subst. reflexivity.
  - destruct (_ && _)%bool; [|discriminate]. inversion E; subst. reflexivity.
  - destruct (Nat.ltb _ _); [|discriminate]. unfold with_lfile in E. unfold with_file. cbn [lwFiles lwLists wFiles] in *. rewrite Nm.
    destruct (nth_error fs i) as [f|] eqn:Ei; [|discriminate]. inversion E; subst. cbn [option_map lwHeap lwArrays lwFiles].
    destruct (set_record_ok h A f r (F _ _ Ei)) as [K Q]. rewrite (Up h A i f _ Ei K), Q. reflexivity.
  - destruct (Nat.ltb _ _); [|discriminate]. unfold with_lfile in E. unfold with_file. cbn [lwFiles lwLists wFiles] in *. rewrite Nm.
    destruct (nth_error fs i) as [f|] eqn:Ei; [|discriminate]. destruct (l_add_data_record room h A f r) as [A' f'] eqn:Ea.
    inversion E; subst. cbn [option_map lwHeap lwArrays lwFiles].
    destruct (add_data_ok h A f r A' f' (F _ _ Ei) Ea) as (K & Q & _). rewrite (Up h A' i f _ Ei K), Q. reflexivity.
  - unfold with_lfile in E. unfold with_file. cbn [lwFiles lwLists wFiles] in *. rewrite Nm.
    destruct (nth_error fs i) as [f|] eqn:Ei; [|discriminate]. destruct (l_set_type room h A f t) as [[h' A'] f'] eqn:Ea.
    inversion E; subst. cbn [option_map lwHeap lwArrays lwFiles].
    destruct (set_type_ok h A f t h' A' f' (F _ _ Ei) Ea) as (K & Q & _). rewrite <- Q, (Up h' A' i f _ Ei K). reflexivity.
  - unfold with_lfile in E. unfold with_file. cbn [lwFiles lwLists wFiles] in *. rewrite Nm.
    destruct (nth_error fs i) as [f|] eqn:Ei; [|discriminate]. destruct (l_parse spare room fuel h A f input iv) as [[[h' A'] f']|] eqn:Ea; [|discriminate].
    inversion E; subst. cbn [option_map lwHeap lwArrays lwFiles].
    destruct (parse_ok fuel h A f input iv h' A' f' (F _ _ Ei) Ea) as (K & Q & _). rewrite Q, (Up h' A' i f _ Ei K). reflexivity.
  - unfold with_lfile in E. unfold with_file. cbn [lwFiles lwLists wFiles] in *. rewrite Nm.
    destruct (nth_error fs i) as [f|] eqn:Ei; [|discriminate]. cbn [option_map]. destruct (h_generate h _) as [[h' n]|]; [|discriminate].
    inversion E; subst. cbn [lwHeap lwArrays lwFiles].
    assert (keeps A f A f) as K by (apply keeps_same; [eapply F; eauto|reflexivity]). rewrite (Up h' A i f _ Ei K). reflexivity.
Qed.

(* calls fail where they fail on values *)
Lemma call_fails fuel w c : l_sound w -> l_call spare room fuel w c = None -> h_step spare fuel (fst (seen w)) c = None.
Proof.
  destruct w as [h A fs vs]. unfold l_sound, seen. cbn [lwHeap lwArrays lwFiles lwLists fst]. intros S E.
  assert (forall i, nth_error (map (lfile_value A) fs) i = option_map (lfile_value A) (nth_error fs i)) as Nm by (intros; apply nth_error_map).
  destruct c as [p|p|p|p|s|r st|s st|r s|i r|i r|i t|i input iv|i]; cbn [l_call lwHeap lwArrays lwFiles lwLists] in E;
    cbn [h_step wHeap wFiles] in *; try discriminate.
  - destruct (Nat.ltb _ _); [discriminate|reflexivity].
  - destruct (Nat.ltb _ _); [discriminate|reflexivity].
  - destruct (_ && _)%bool; [discriminate|reflexivity].
  - destruct (Nat.ltb _ _); [|reflexivity]. unfold with_lfile in E. unfold with_file. cbn [lwFiles lwLists wFiles] in *. rewrite Nm.
    destruct (nth_error fs i); [discriminate|reflexivity].
  - destruct (Nat.ltb _ _); [|reflexivity]. unfold with_lfile in E. unfold with_file. cbn [lwFiles lwLists wFiles] in *. rewrite Nm.
    destruct (nth_error fs i) as [f|]; [|reflexivity]. destruct (l_add_data_record room h A f r). discriminate.
  - unfold with_lfile in E. unfold with_file. cbn [lwFiles lwLists wFiles] in *. rewrite Nm.
    destruct (nth_error fs i) as [f|]; [|reflexivity]. destruct (l_set_type room h A f t) as [[? ?] ?]. discriminate.
  - unfold with_lfile in E. unfold with_file. cbn [lwFiles lwLists wFiles] in *. rewrite Nm.
    destruct (nth_error fs i) as [f|]; [|reflexivity]. cbn [option_map]. unfold l_parse in E.
    destruct (h_parse _ _ _ _ _ _) as [[h1 g]|]; [|reflexivity]. destruct (append_all _ _ _ _). discriminate.
  - unfold with_lfile in E. unfold with_file. cbn [lwFiles lwLists wFiles] in *. rewrite Nm.
    destruct (nth_error fs i) as [f|]; [|reflexivity]. cbn [option_map]. destruct (h_generate _ _) as [[? ?]|]; [discriminate|reflexivity].
Qed.

End Programs.
