(* Appended segments in any order and number *)
From Coq Require Import ZArith NArith Bool Ascii String List Lia Permutation.
Import ListNotations.
From Verif Require Import GoBase GoTime Regex Tables Codec Records File GoBaseFacts SpecCodec SpecLayouts
  SpecRecords TimeFacts FieldFacts RecordFacts RoundTrip.
Local Open Scope string_scope.
Local Open Scope Z_scope.
Local Open Scope list_scope.
Local Notation length := List.length.

Lemma of_kind_app k a b : of_kind k (a ++ b) = of_kind k a ++ of_kind k b.
Proof. apply filter_app. Qed.

Lemma last_of_app {A} (l : list A) x : last_of (l ++ [x]) = Some x.
Proof. unfold last_of. rewrite rev_app_distr. reflexivity. Qed.

Lemma fold_put_grouped st segs : grouped st segs
  (fold_left (fun b s => put_segment s b) segs (mkBase st [] [] None None None None None None)).
Proof.
  induction segs as [|s segs IH] using rev_ind; [repeat split|].
  rewrite fold_left_app. cbn [fold_left]. set (b := fold_left _ segs _) in *.
  destruct IH as (F & G1 & G2 & G3 & G4 & G5 & G6 & G7 & G8).
  unfold grouped. rewrite !of_kind_app. unfold put_segment. unfold of_kind at 2 4 6 8 10 12 14 16. cbn [filter].
  destruct (sKind s); cbn [bFields bJ1 bJ2 bK1 bK2 bK3 bK4 bL1 bN1 kind_eq_dec];
    rewrite <- ?G1, <- ?G2, <- ?G3, <- ?G4, <- ?G5, <- ?G6, <- ?G7, <- ?G8; cbn;
    rewrite ?app_nil_r, ?last_of_app, <- ?G3, <- ?G4, <- ?G5, <- ?G6, <- ?G7, <- ?G8; repeat split; assumption.
Qed.

Lemma parse_fixed_segs b z segs more : fields_fit false b -> base_bdw_is b 0 -> base_rdw_is b z ->
  Forall seg_good segs -> 426 + Z.of_nat (segs_size segs) <= z -> no_segment more ->
  base_parse_char new_base (firstn 426 (base_string_char b) ++ flat_map seg_string segs ++ more) false
  = (fold_left (fun b s => put_segment s b) segs (clear_j (set_bFields new_base (bFields b))), Ok z).
Proof.
  intros [T R] Hb Hz G Sz Nm.
  destruct (write_fields_bdw false _ _ _ (bFields b) 0 (base_scheme false) T Hb)
    as (sp & s' & Sp & Es & NDl & Lo & So & W).
  rewrite bdw_text_zero in W. cbn [app] in W.
  pose proof (scheme_fit_values _ _ _ _ _ (base_scheme false) T R) as V.
  pose proof (text_length _ 0 sp (bFields b) Lo V) as L. rewrite base_doc_width in L. cbn [record_size] in L.
  pose proof (base_nodup _ T) as ND.
  unfold base_string_char, pad_block. change (base_layout false) with baseSegmentCharacterFormat in W.
  rewrite W, <- !app_assoc, firstn_app_exact by (symmetry; exact L).
  pose proof (segs_text_length _ G) as Ls. pose proof (segs_count _ G) as Lc.
  set (body := flat_map seg_string segs ++ more).
  set (record := text sp (bFields b) ++ body).
  assert (426 <= length record)%nat as Lr by (unfold record; rewrite app_length; lia).
  unfold base_parse_char.
  assert (Nat.ltb (length record) UnpackedRecordLength = false) as -> by (apply Nat.ltb_ge; exact Lr).
  rewrite (parse_skip (base_doc false) baseSegmentCharacterFormat base_struct (bFields b) (bFields new_base) 0 record body);
    auto using (base_scheme false).
  - cbv zeta.
    assert (base_bdw (set_bFields new_base (bFields b)) = 0) as Eb.
    { unfold base_bdw. cbn [set_bFields bFields]. apply get_int_holds; auto. }
    rewrite Eb. change (0 <? 0) with false. cbv iota.
    assert (Nat.ltb (length record) UnpackedRecordLength = false) as -> by (apply Nat.ltb_ge; exact Lr).
    unfold record at 2. rewrite skipn_app_exact by (symmetry; exact L).
    unfold body. rewrite read_segments_good; auto.
    + rewrite <- base_eta. set (b' := fold_left _ segs _).
      assert (bFields b' = bFields b) as Ef.
      { destruct (fold_put_grouped (bFields b) segs) as [F _]. exact F. }
      unfold base_bdw, base_rdw. rewrite Ef. rewrite (get_int_holds _ _ 0 ND Hb), (get_int_holds _ _ z ND Hz).
      change (0 <? 0) with false. change (0 =? 0) with true. cbn [andb].
      unfold UnpackedRecordLength. destruct (Z.ltb_spec z (Z.of_nat (0 + segs_size segs + 426))); [lia|reflexivity].
    + unfold record, body. rewrite !app_length. lia.
  - reflexivity.
  - left. reflexivity.
  - exists z. destruct (text_starts_with_word false _ _ _ _ z (base_scheme false) T R (doc_word_base false) Hz sp Sp)
      as (w & tl & Et & Lw & Rb & _).
    unfold record. rewrite Et, <- app_assoc, firstn_app_exact by (symmetry; exact Lw). exact Rb.
  - lia.
  - intros sp2 Sp2. change baseSegmentCharacterFormat with (base_layout false) in Sp2.
    rewrite Sp in Sp2. injection Sp2 as <-. reflexivity.
Qed.

Lemma parse_variable_segs b z segs more : fields_fit false b -> base_bdw_is b z ->
  Forall seg_good segs -> 430 + Z.of_nat (segs_size segs) <= z < 10000 -> no_segment more ->
  base_parse_char new_base (firstn 430 (base_string_char b) ++ flat_map seg_string segs ++ more) true
  = (fold_left (fun b s => put_segment s b) segs (clear_j (set_bFields new_base (bFields b))), Ok z).
Proof.
  intros [T R] Hb G Sz Nm.
  destruct (write_fields_bdw false _ _ _ (bFields b) z (base_scheme false) T Hb)
    as (sp & s' & Sp & Es & NDl & Lo & So & W).
  destruct (bdw_text_written false z ltac:(lia)) as (Lb & Wb & Rb).
  { cbn. split; [|discriminate]. change (10 ^ Z.of_nat 4) with 10000. lia. }
  pose proof (scheme_fit_values _ _ _ _ _ (base_scheme false) T R) as V.
  pose proof (text_length _ 0 sp (bFields b) Lo V) as L. rewrite base_doc_width in L. cbn [record_size] in L.
  pose proof (base_nodup _ T) as ND.
  unfold base_string_char, pad_block. change (base_layout false) with baseSegmentCharacterFormat in W.
  rewrite W. rewrite <- (app_assoc (bdw_text false z ++ text sp (bFields b))).
  rewrite firstn_app_exact by (rewrite app_length, L, Lb; reflexivity). rewrite <- app_assoc.
  pose proof (segs_text_length _ G) as Ls. pose proof (segs_count _ G) as Lc.
  set (body := flat_map seg_string segs ++ more).
  set (record := bdw_text false z ++ text sp (bFields b) ++ body).
  assert (430 <= length record)%nat as Lr by (unfold record; rewrite !app_length; lia).
  unfold base_parse_char.
  assert (Nat.ltb (length record) UnpackedRecordLength = false) as ->
    by (apply Nat.ltb_ge; unfold UnpackedRecordLength; lia).
  rewrite (parse_shift false (base_doc false) baseSegmentCharacterFormat base_struct (bFields b)
             (bFields new_base) z record (bdw_text false z) body);
    auto using (base_scheme false).
  - cbv zeta.
    assert (base_bdw (set_bFields new_base (bFields b)) = z) as Eb.
    { unfold base_bdw. cbn [set_bFields bFields]. apply get_int_holds; auto. }
    rewrite Eb. assert (0 <? z = true) as E0 by (apply Z.ltb_lt; lia). rewrite E0.
    assert (Nat.ltb (length record) (UnpackedRecordLength + 4) = false) as -> by (apply Nat.ltb_ge; exact Lr).
    assert (skipn (UnpackedRecordLength + 4) record = body) as ->.
    { unfold record. rewrite app_assoc. apply skipn_app_exact. rewrite app_length, Lb, L. reflexivity. }
    unfold body. rewrite read_segments_good; auto.
    + rewrite <- base_eta. set (b' := fold_left _ segs _).
      assert (bFields b' = bFields b) as Ef.
      { destruct (fold_put_grouped (bFields b) segs) as [F _]. exact F. }
      unfold base_bdw, base_rdw. rewrite Ef, (get_int_holds _ _ z ND Hb).
      rewrite E0. assert (z =? 0 = false) as -> by (apply Z.eqb_neq; lia). cbn [andb].
      unfold UnpackedRecordLength.
      destruct (Z.ltb_spec z (Z.of_nat (0 + segs_size segs + (426 + 4)))); [lia|reflexivity].
    + unfold record, body. rewrite !app_length. lia.
  - reflexivity.
  - intros sp2 Sp2. change baseSegmentCharacterFormat with (base_layout false) in Sp2.
    rewrite Sp in Sp2. injection Sp2 as <-. reflexivity.
Qed.

Lemma parse_packed_segs b z segs more : fields_fit true b -> base_bdw_is b z ->
  Forall seg_good segs -> 370 + Z.of_nat (segs_size segs) <= z < 65536 -> no_segment more ->
  base_parse_packed new_base (firstn 370 (base_string_packed b) ++ flat_map seg_string segs ++ more) true
  = (fold_left (fun b s => put_segment s b) segs (clear_j (set_bFields new_base (bFields b))), Ok z).
Proof.
  intros [T R] Hb G Sz Nm.
  destruct (write_fields_bdw true _ _ _ (bFields b) z (base_scheme true) T Hb)
    as (sp & s' & Sp & Es & NDl & Lo & So & W).
  destruct (bdw_text_written true z ltac:(lia)) as (Lb & Wb & Rb); [cbn; lia|].
  pose proof (scheme_fit_values _ _ _ _ _ (base_scheme true) T R) as V.
  pose proof (text_length _ 0 sp (bFields b) Lo V) as L. rewrite base_doc_width in L. cbn [record_size] in L.
  pose proof (base_nodup _ T) as ND.
  unfold base_string_packed, pad_block. change (base_layout true) with baseSegmentPackedFormat in W.
  rewrite W. rewrite <- (app_assoc (bdw_text true z ++ text sp (bFields b))).
  rewrite firstn_app_exact by (rewrite app_length, L, Lb; reflexivity). rewrite <- app_assoc.
  pose proof (segs_text_length _ G) as Ls. pose proof (segs_count _ G) as Lc.
  set (body := flat_map seg_string segs ++ more).
  set (record := bdw_text true z ++ text sp (bFields b) ++ body).
  assert (370 <= length record)%nat as Lr by (unfold record; rewrite !app_length; lia).
  unfold base_parse_packed.
  assert (Nat.ltb (length record) PackedRecordLength = false) as ->
    by (apply Nat.ltb_ge; unfold PackedRecordLength; lia).
  rewrite (parse_shift true (base_doc true) baseSegmentPackedFormat base_struct (bFields b)
             (bFields new_base) z record (bdw_text true z) body);
    auto using (base_scheme true).
  - cbv zeta.
    assert (Nat.ltb (length record) (PackedRecordLength + 4) = false) as -> by (apply Nat.ltb_ge; exact Lr).
    assert (skipn (PackedRecordLength + 4) record = body) as ->.
    { unfold record. rewrite app_assoc. apply skipn_app_exact. rewrite app_length, Lb, L. reflexivity. }
    unfold body. rewrite read_segments_good; auto.
    + rewrite <- base_eta. set (b' := fold_left _ segs _).
      assert (bFields b' = bFields b) as Ef.
      { destruct (fold_put_grouped (bFields b) segs) as [F _]. exact F. }
      unfold base_bdw. rewrite Ef, (get_int_holds _ _ z ND Hb).
      unfold PackedRecordLength.
      destruct (Z.ltb_spec z (Z.of_nat (0 + segs_size segs + (366 + 4)))); [lia|reflexivity].
    + unfold record, body. rewrite !app_length. lia.
  - reflexivity.
  - intros sp2 Sp2. change baseSegmentPackedFormat with (base_layout true) in Sp2.
    rewrite Sp in Sp2. injection Sp2 as <-. reflexivity.
Qed.

Lemma grouped_fixed b z segs more : fields_fit false b -> base_bdw_is b 0 -> base_rdw_is b z ->
  Forall seg_good segs -> 426 + Z.of_nat (segs_size segs) <= z -> no_segment more ->
  exists b', base_parse_char new_base (firstn 426 (base_string_char b) ++ flat_map seg_string segs ++ more) false
    = (b', Ok z) /\ grouped (bFields b) segs b'.
Proof. intros. eexists. split; [apply parse_fixed_segs; auto|apply fold_put_grouped]. Qed.

Lemma grouped_variable b z segs more : fields_fit false b -> base_bdw_is b z ->
  Forall seg_good segs -> 430 + Z.of_nat (segs_size segs) <= z < 10000 -> no_segment more ->
  exists b', base_parse_char new_base (firstn 430 (base_string_char b) ++ flat_map seg_string segs ++ more) true
    = (b', Ok z) /\ grouped (bFields b) segs b'.
Proof. intros. eexists. split; [apply parse_variable_segs; auto|apply fold_put_grouped]. Qed.

Lemma grouped_packed b z segs more : fields_fit true b -> base_bdw_is b z ->
  Forall seg_good segs -> 370 + Z.of_nat (segs_size segs) <= z < 65536 -> no_segment more ->
  exists b', base_parse_packed new_base (firstn 370 (base_string_packed b) ++ flat_map seg_string segs ++ more) true
    = (b', Ok z) /\ grouped (bFields b) segs b'.
Proof. intros. eexists. split; [apply parse_packed_segs; auto|apply fold_put_grouped]. Qed.

(* the same as calls of AddApplicableSegment *)
Fixpoint add_all (segs : list segment) (b : base) : base :=
  match segs with [] => b | s :: l => add_all l (fst (base_add_segment s b)) end.

Lemma add_all_fold segs : Forall (fun s => seg_validate s = None) segs -> forall b,
  add_all segs b = fold_left (fun b s => put_segment s b) segs b.
Proof.
  induction 1 as [|s segs V _ IH]; intros b; [reflexivity|]. cbn. unfold base_add_segment. rewrite V. apply IH.
Qed.
