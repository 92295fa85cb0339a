(* Considerate programs: every call does to the values of files and records what it
   does where records are values *)
From Coq Require Import ZArith NArith Bool Ascii String List Lia.
Import ListNotations.
From Verif Require Import GoBase GoBaseFacts GoTime Tables Codec Records File
  SpecCodec SpecLayouts SpecRecords SpecFile SpecValidate SpecCounters SpecApi Heap SpecHeap
  ParseFacts AgreeFacts ApiFacts HeapFacts HeapSteps.
Local Open Scope string_scope.
Local Open Scope nat_scope.
Local Open Scope list_scope.
Local Notation length := List.length.

(* ---- SetType ---- *)

Definition convert_cell (p : bool) (c : hrecord) : hrecord :=
  match c with HHeader _ st => HHeader p st | HBase _ b => HBase p b | HTrailer _ st => HTrailer p st end.

Lemma convert_parts p c : parts (convert_cell p c) = parts c.
Proof. destruct c; reflexivity. Qed.

Lemma convert_wf h p c : wf_cell h c -> wf_cell h (convert_cell p c).
Proof. destruct c; auto. Qed.

Lemma convert_spec p l : forall h, Forall (at_shape h (1, negb p)) l ->
  h_convert_bases p h l = (mkHeap (hSegments h) (hArrays h) (hRecords h ++ map (fun r => convert_cell p (cell h r)) l),
                           Some (seq (length (hRecords h)) (length l))).
Proof.
  induction l as [|r l IH]; intros h F; cbn [h_convert_bases].
  - cbn. rewrite app_nil_r. destruct h; reflexivity.
  - inversion F as [|? ? [L Sh] F']; subst. destruct (cell h r) as [q st|q b|q st] eqn:C; inversion Sh; subst. rewrite eqb_reflx.
    unfold new_record_at. set (h1 := mkHeap _ _ _).
    assert (grown h h1) as G by apply (grown_new_record h (HBase p b)).
    rewrite (IH h1).
    + cbn [map seq length]. rewrite C. cbn [convert_cell].
      assert (map (fun x => convert_cell p (cell h1 x)) l = map (fun x => convert_cell p (cell h x)) l) as ->.
      { apply map_ext_in. intros x I. rewrite (grown_cell h h1); [reflexivity|exact G|]. rewrite Forall_forall in F'. apply F'. exact I. }
      unfold h1. cbn [hSegments hArrays hRecords]. rewrite app_length, Nat.add_1_r, <- app_assoc. reflexivity.
    + revert F'. apply Forall_impl. intros x. apply kept_at. apply kept_grown. exact G.
Qed.

Lemma convert_values p h l : Forall (at_shape h (1, negb p)) l ->
  convert_bases p (map (record_value h) l) = Some (map (fun r => cell_value h (convert_cell p (cell h r))) l).
Proof.
  induction 1 as [|r l [L Sh] F IH]; [reflexivity|]. unfold convert_bases in *. cbn [map fold_right]. rewrite IH.
  unfold record_value. destruct (cell h r) as [q st|q b|q st]; inversion Sh; subst. cbn. rewrite eqb_reflx. reflexivity.
Qed.

(* copies of records that were not left behind *)
Lemma apart_copies left l l' h h' p : wf h -> apart left h -> NoDup l -> Forall (fun r => r < length (hRecords h)) l ->
  (forall r, In r l -> ~ In r left) -> (forall r, In r l -> In r l') -> Forall (fun r => r < length (hRecords h)) left ->
  hArrays h' = hArrays h -> hRecords h' = hRecords h ++ map (fun r => convert_cell p (cell h r)) l -> apart (left ++ l') h'.
Proof.
  intros W [P1 P2] D F N S FL EA ER.
  assert (forall r, r < length (hRecords h') -> (r < length (hRecords h) /\ cell h' r = cell h r)
    \/ (length (hRecords h) <= r /\ exists x, nth_error l (r - length (hRecords h)) = Some x /\ cell h' r = convert_cell p (cell h x))) as K.
  { intros r L. unfold cell at 1 3. rewrite ER in *. rewrite app_length, map_length in L.
    destruct (Nat.lt_ge_cases r (length (hRecords h))) as [A|A].
    - left. split; [exact A|]. apply app_nth1. exact A.
    - right. split; [exact A|]. destruct (nth_error l (r - length (hRecords h))) as [x|] eqn:E.
      + exists x. split; [reflexivity|]. rewrite app_nth2 by exact A. apply nth_error_nth.
        exact (map_nth_error (fun r => convert_cell p (cell h r)) _ _ E).
      + apply nth_error_None in E. lia. }
  rewrite Forall_forall in F. split.
  - intros r L. destruct (K r L) as [[A ->]|(A & x & E & ->)]; [auto|]. rewrite convert_parts. apply P1. apply F.
    eapply nth_error_In. exact E.
  - intros r r' a n n' L L' Ne Nl I I'.
    destruct (K r L) as [[A Er]|(A & x & E & Er)], (K r' L') as [[A' Er']|(A' & x' & E' & Er')]; rewrite Er in I; rewrite Er' in I';
      rewrite ?convert_parts in I; rewrite ?convert_parts in I'.
    + destruct (P2 r r' a n n' A A' Ne) as [X Y]; auto. { intros X. apply Nl. apply in_or_app. auto. }
      split; [apply in_or_app; auto|exact Y].
    + exfalso. pose proof (nth_error_In _ _ E') as Ix. destruct (Nat.eq_dec r x') as [->|Nx].
      * apply Nl. apply in_or_app. auto.
      * destruct (P2 r x' a n n' A (F _ Ix) Nx) as [X Y]; auto. { intros X. apply Nl. apply in_or_app. auto. }
        exact (N x' Ix X).
    + pose proof (nth_error_In _ _ E) as Ix. destruct (Nat.eq_dec x r') as [->|Nx].
      * split; [apply in_or_app; auto|]. pose proof (P1 r' A') as Dr.
        replace n' with n; [lia|]. clear -Dr I I'. induction (parts (cell h r')) as [|[b m] ps IH]; [contradiction|].
        cbn in Dr. inversion Dr; subst. destruct I as [I|I], I' as [I'|I'].
        -- congruence.
        -- inversion I; subst. exfalso. apply H1. apply in_map_iff. exists (a, n'). auto.
        -- inversion I'; subst. exfalso. apply H1. apply in_map_iff. exists (a, n). auto.
        -- auto.
      * destruct (P2 x r' a n n' (F _ Ix) A' Nx (N _ Ix) I I') as [X Y]. split; [apply in_or_app; auto|exact Y].
    + exfalso. pose proof (nth_error_In _ _ E) as Ix. pose proof (nth_error_In _ _ E') as Ix'.
      assert (x <> x') as Nx.
      { intros ->. apply Ne. assert (r - length (hRecords h) = r' - length (hRecords h)) as Q; [|lia].
        eapply NoDup_nth_error; [exact D| |congruence]. apply nth_error_Some. congruence. }
      destruct (P2 x x' a n n' (F _ Ix) (F _ Ix') Nx (N _ Ix) I I') as [X Y]. exact (N x' Ix' X).
Qed.

Lemma set_type_spec h f p : file_in h f -> hfPacked f = negb p ->
  let n := length (hRecords h) in
  h_set_type h f (type_name p) =
    (mkHeap (hSegments h) (hArrays h)
       (hRecords h ++ map (fun r => convert_cell p (cell h r)) (hfHeader f :: hfBases f ++ [hfTrailer f])),
     mkHFile p n (seq (S n) (length (hfBases f))) (S n + length (hfBases f)))
  /\ fst (file_set_type (file_value h f) (type_name p)) =
       mkFile p (cell_value h (convert_cell p (cell h (hfHeader f))))
         (map (fun r => cell_value h (convert_cell p (cell h r))) (hfBases f))
         (cell_value h (convert_cell p (cell h (hfTrailer f)))).
Proof.
  intros ([L0 S0] & FB & [L2 S2]) Ep. rewrite Ep in *. cbn zeta. split.
  - unfold h_set_type.
    replace (negb (bytes_eqb (type_name p) (lit "character")) && negb (bytes_eqb (type_name p) (lit "packed")))%bool with false by (destruct p; reflexivity).
    rewrite Ep. replace (bytes_eqb (format_name (negb p)) (type_name p)) with false by (destruct p; reflexivity).
    replace (bytes_eqb (type_name p) (lit "packed")) with p by (destruct p; reflexivity).
    destruct (cell h (hfHeader f)) as [q st|q b|q st] eqn:C0; inversion S0; subst. rewrite eqb_reflx. cbn [negb].
    unfold new_record_at at 1. set (h1 := mkHeap _ _ (hRecords h ++ [HHeader p st])).
    assert (grown h h1) as G by apply (grown_new_record h (HHeader p st)).
    assert (Forall (at_shape h1 (1, negb p)) (hfBases f)) as FB1.
    { revert FB. apply Forall_impl. intros x. apply kept_at. apply kept_grown. exact G. }
    rewrite (convert_spec p (hfBases f) h1 FB1). set (h2 := mkHeap _ _ (hRecords h1 ++ _)).
    assert (grown h1 h2) as G2 by (repeat split; eexists; try reflexivity; symmetry; apply app_nil_r).
    assert (cell h2 (hfTrailer f) = cell h (hfTrailer f)) as C2.
    { rewrite (grown_cell h1 h2); [|exact G2|apply grown_lengths in G; lia]. apply (grown_cell h h1); assumption. }
    rewrite C2. destruct (cell h (hfTrailer f)) as [q' st'|q' b'|q' st'] eqn:C3; inversion S2; subst. rewrite eqb_reflx. cbn [negb].
    unfold new_record_at. cbn [map]. rewrite map_app. cbn [map]. rewrite C0, C3. cbn [convert_cell].
    assert (map (fun x => convert_cell p (cell h1 x)) (hfBases f) = map (fun x => convert_cell p (cell h x)) (hfBases f)) as Em.
    { apply map_ext_in. intros x I. rewrite (grown_cell h h1); [reflexivity|exact G|]. rewrite Forall_forall in FB. apply FB. exact I. }
    unfold h2. rewrite Em. unfold h1. cbn [hSegments hArrays hRecords]. rewrite !app_length, map_length. cbn [length].
    rewrite Nat.add_1_r, <- !app_assoc. reflexivity.
  - unfold file_set_type, file_value. cbn [flPacked flHeader flBases flTrailer].
    replace (negb (bytes_eqb (type_name p) (lit "character")) && negb (bytes_eqb (type_name p) (lit "packed")))%bool with false by (destruct p; reflexivity).
    rewrite Ep. replace (bytes_eqb (format_name (negb p)) (type_name p)) with false by (destruct p; reflexivity).
    replace (bytes_eqb (type_name p) (lit "packed")) with p by (destruct p; reflexivity).
    destruct (cell h (hfHeader f)) as [q st|q b|q st] eqn:C0; inversion S0; subst.
    assert (record_value h (hfHeader f) = RHeader (negb p) st) as -> by (unfold record_value; rewrite C0; reflexivity).
    cbv beta iota zeta. rewrite eqb_reflx. cbn [negb set_header flBases flPacked flHeader flTrailer].
    rewrite (convert_values p h (hfBases f) FB). cbn [set_bases flBases flPacked flHeader flTrailer].
    destruct (cell h (hfTrailer f)) as [q' st'|q' b'|q' st'] eqn:C3; inversion S2; subst.
    assert (record_value h (hfTrailer f) = RTrailer (negb p) st') as -> by (unfold record_value; rewrite C3; reflexivity).
    cbn [set_header flTrailer flHeader]. rewrite eqb_reflx. reflexivity.
Qed.

Lemma set_type_same_spec h f t : (t <> type_name true /\ t <> type_name false) \/ t = type_name (hfPacked f) ->
  h_set_type h f t = (h, f) /\ fst (file_set_type (file_value h f) t) = file_value h f.
Proof.
  intros [[A B]|E].
  - apply bytes_eqb_neq in A, B. unfold h_set_type, file_set_type, type_name in *. unfold lit. rewrite A, B. split; reflexivity.
  - subst t. unfold h_set_type, file_set_type. cbn [flPacked file_value].
    destruct (hfPacked f); split; reflexivity.
Qed.

(* ---- the files of a program ---- *)

Lemma upd_split {A} i (x y : A) l : nth_error l i = Some y -> exists a b, l = a ++ y :: b /\ upd i x l = a ++ x :: b /\ length a = i.
Proof.
  revert i. induction l as [|z l IH]; intros [|i] E; try discriminate.
  - inversion E; subst. exists [], l. repeat split.
  - cbn in E. destruct (IH i E) as (a & b & -> & Eu & L). exists (z :: a), b. cbn. rewrite Eu, L. repeat split.
Qed.

Lemma slots_upd l i f f' : nth_error l i = Some f -> NoDup (all_slots l) -> NoDup (slots f') ->
  (forall r, In r (slots f') -> In r (slots f) \/ ~ In r (all_slots l)) -> NoDup (all_slots (upd i f' l)).
Proof.
  intros E D D' K. destruct (upd_split i f' f l E) as (a & b & -> & -> & _). clear E. unfold all_slots in *.
  rewrite flat_map_app in *. cbn [flat_map] in *.
  assert (forall r, In r (slots f') -> In r (flat_map slots a) -> False) as Ka.
  { intros r I J. destruct (K r I) as [X|X]; [|apply X; apply in_or_app; auto].
    clear -D J X. apply in_split in J as (u & v & Ea). rewrite Ea in D. rewrite <- app_assoc in D. cbn [app flat_map] in D. apply NoDup_remove_2 in D.
    apply D. rewrite !in_app_iff. auto. }
  assert (forall r, In r (slots f') -> In r (flat_map slots b) -> False) as Kb.
  { intros r I J. destruct (K r I) as [X|X]; [|apply X; rewrite !in_app_iff; auto].
    clear -D J X. apply in_split in X as (u & v & Ef). rewrite Ef in D. rewrite <- (app_assoc u), app_assoc in D. cbn [app flat_map] in D.
    apply NoDup_remove_2 in D. apply D. rewrite !in_app_iff. auto. }
  assert (NoDup (flat_map slots a) /\ NoDup (flat_map slots b) /\ forall r, In r (flat_map slots a) -> ~ In r (flat_map slots b)) as (Da & Db & Dab).
  { clear -D. revert D. generalize (flat_map slots a) (flat_map slots b) (slots f). intros u v m D. repeat split.
    - induction u; [constructor|]. cbn [app flat_map] in D. inversion D; subst. constructor; [|auto]. intros X. apply H1. apply in_or_app. auto.
    - induction u; cbn [app flat_map] in D; [|inversion D; auto]. induction m; [exact D|cbn [app flat_map] in D; inversion D; auto].
    - intros r I J. apply in_split in I as (x & y & ->). rewrite <- app_assoc in D. cbn [app flat_map] in D. apply NoDup_remove_2 in D. apply D.
      rewrite !in_app_iff. auto. }
  assert (NoDup (slots f' ++ flat_map slots b)) as D2.
  { clear -D' Db Kb. induction (slots f') as [|r s IH]; [exact Db|]. inversion D'; subst. cbn. constructor.
    - intros X. apply in_app_or in X as [X|X]; [contradiction|]. apply (Kb r); cbn; auto.
    - apply IH; auto. intros x I. apply Kb. right. exact I. }
  clear -Da D2 Ka Dab. induction (flat_map slots a) as [|r s IH]; [exact D2|]. inversion Da; subst. cbn [app]. constructor.
  - rewrite !in_app_iff. intros [X|[X|X]]; [contradiction|apply (Ka r X); left; reflexivity|apply (Dab r); [left; reflexivity|exact X]].
  - apply IH; auto.
    + intros x I J. apply (Ka x I). right. exact J.
    + intros x I. apply Dab. right. exact I.
Qed.

Lemma slots_in_upd l i f f' r : nth_error l i = Some f -> In r (all_slots (upd i f' l)) -> In r (slots f') \/ In r (all_slots l).
Proof.
  intros E I. unfold all_slots in *. apply in_flat_map in I as (g & I & J). apply In_upd in I as [->|I]; [auto|].
  right. apply in_flat_map. eauto.
Qed.

Lemma slots_of_one l i f : nth_error l i = Some f -> NoDup (all_slots l) -> NoDup (slots f).
Proof.
  intros E D. apply nth_error_split in E as (a & b & -> & _). unfold all_slots in D. rewrite flat_map_app in D. cbn [app flat_map] in D.
  revert D. generalize (flat_map slots a) (flat_map slots b). intros u v D.
  assert (NoDup (slots f ++ v)) as D'.
  { induction u; [exact D|]. inversion D; auto. }
  clear D. induction (slots f); [constructor|]. cbn in D'. inversion D'; subst. constructor; [|auto].
  intros X. apply H1. apply in_or_app. auto.
Qed.

Lemma slots_disjoint l i j f g r : nth_error l i = Some f -> nth_error l j = Some g -> i <> j -> NoDup (all_slots l) ->
  In r (slots f) -> In r (slots g) -> False.
Proof.
  revert i j. induction l as [|x l IH]; intros i j Ei Ej N D If Ig; [destruct i; discriminate|].
  unfold all_slots in D. cbn [app flat_map] in D.
  assert (forall y, In y (slots x) -> In y (flat_map slots l) -> False) as K.
  { intros y I J. apply in_split in I as (u & v & Es). rewrite Es in D. rewrite <- app_assoc in D. cbn [app flat_map] in D.
    apply NoDup_remove_2 in D. apply D. rewrite !in_app_iff. auto. }
  destruct i as [|i], j as [|j]; cbn in Ei, Ej.
  - congruence.
  - inversion Ei; subst. apply (K r If). apply in_flat_map. exists g. split; [eapply nth_error_In; eauto|exact Ig].
  - inversion Ej; subst. apply (K r Ig). apply in_flat_map. exists f. split; [eapply nth_error_In; eauto|exact If].
  - apply (IH i j); auto. clear -D. induction (slots x); [exact D|]. inversion D; auto.
Qed.

Lemma slot_in_all l i f r : nth_error l i = Some f -> In r (slots f) -> In r (all_slots l).
Proof. intros E I. apply in_flat_map. exists f. split; [eapply nth_error_In; eauto|exact I]. Qed.

(* a call that changes one file *)
Lemma inv_upd w left left' i f f' h' : inv w left -> nth_error (wFiles w) i = Some f -> kept (wHeap w) h' ->
  wf h' -> apart (left ++ left') h' -> file_in h' f' -> NoDup (slots f') ->
  (forall r, In r (slots f') -> ~ In r left /\ ~ In r left' /\ (In r (slots f) \/ ~ In r (all_slots (wFiles w)))) ->
  (forall r, In r left' -> In r (slots f)) ->
  inv (mkWorld h' (upd i f' (wFiles w))) (left ++ left').
Proof.
  intros (W & P & F & D & N & L) E K W' P' F' D' S SL. unfold inv. cbn [wHeap wFiles].
  split; [exact W'|]. split; [exact P'|]. split; [|split; [|split]].
  - apply Forall_forall. intros g I. apply In_upd in I as [->|I]; [exact F'|]. rewrite Forall_forall in F.
    apply (kept_file (wHeap w)); auto.
  - apply (slots_upd _ _ f); auto. intros r I. apply S. exact I.
  - intros r I J. assert (In r (slots f') -> False) as X.
    { intros X. destruct (S r X) as (A & B & _). apply in_app_or in I as [I|I]; auto. }
    unfold all_slots in J. apply in_flat_map in J as (g & Ig & Jg).
    apply In_nth_error in Ig as (j & Ej). destruct (Nat.eq_dec i j) as [->|Ne].
    + rewrite nth_error_upd_same in Ej by (apply nth_error_Some; congruence). inversion Ej; subst. auto.
    + rewrite nth_error_upd_other in Ej by exact Ne. apply in_app_or in I as [I|I].
      * apply (N r I). eapply slot_in_all; eauto.
      * apply SL in I. eapply (slots_disjoint (wFiles w) i j); eauto.
  - apply Forall_app. split.
    + revert L. apply Forall_impl. intros r Lr. apply (K r Lr).
    + apply Forall_forall. intros r I. apply SL in I. rewrite Forall_forall in F.
      pose proof (file_in_slots _ _ _ (F f (nth_error_In _ _ E)) I) as Lr. apply (K r Lr).
Qed.
