(* Round trips of segments, headers, trailers and base segments *)
From Coq Require Import ZArith NArith Bool Ascii String List Lia.
Import ListNotations.
From Verif Require Import GoBase GoBaseFacts GoTime Regex Tables Codec Records
  SpecCodec SpecLayouts SpecRecords TimeFacts FieldFacts RecordFacts.
Local Open Scope string_scope.
Local Open Scope Z_scope.
Local Open Scope list_scope.
Local Notation length := List.length.

(* ---- the tables implement the documented layouts ---- *)

Lemma seg_scheme k : scheme_plain (seg_doc k) (seg_layout k) (seg_struct k) = true.
Proof. destruct k; vm_compute; reflexivity. Qed.

Lemma base_scheme packed : scheme_bdw packed (base_doc packed) (base_layout packed) base_struct = true.
Proof. destruct packed; vm_compute; reflexivity. Qed.

Lemma header_scheme packed :
  scheme_bdw packed (header_doc packed) (header_layout packed) header_struct = true.
Proof. destruct packed; vm_compute; reflexivity. Qed.

Lemma trailer_scheme packed :
  scheme_plain (trailer_doc packed) (trailer_layout packed) trailer_struct = true.
Proof. destruct packed; vm_compute; reflexivity. Qed.

Lemma seg_doc_width k : doc_width (seg_doc k) = seg_size k.
Proof. destruct k; reflexivity. Qed.
Lemma base_doc_width p : doc_width (base_doc p) = record_size p.
Proof. destruct p; vm_compute; reflexivity. Qed.
Lemma header_doc_width p : doc_width (header_doc p) = record_size p.
Proof. destruct p; vm_compute; reflexivity. Qed.
Lemma trailer_doc_width p : doc_width (trailer_doc p) = record_size p.
Proof. destruct p; vm_compute; reflexivity. Qed.

Lemma seg_length_size k : seg_length k = seg_size k.
Proof. destruct k; reflexivity. Qed.

Lemma base_segments_of b : base_segments b = segments_of b.
Proof. reflexivity. Qed.

Lemma get_int_holds st n z : NoDup (map fst st) -> holds st n (VInt z) -> get_int n st = z.
Proof. intros ND H. unfold get_int. rewrite (In_lookup n (VInt z) st ND H). reflexivity. Qed.

Lemma get_str_holds st n s : NoDup (map fst st) -> holds st n (VStr s) -> get_str n st = s.
Proof. intros ND H. unfold get_str. rewrite (In_lookup n (VStr s) st ND H). reflexivity. Qed.

Lemma seg_nodup s : seg_typed s -> NoDup (map fst (sFields s)).
Proof.
  intros T. rewrite (has_type_names _ _ T). apply nodupb_NoDup. destruct (sKind s); reflexivity.
Qed.

Lemma base_nodup st : has_type base_struct st -> NoDup (map fst st).
Proof. intros T. rewrite (has_type_names _ _ T). apply nodupb_NoDup. vm_compute. reflexivity. Qed.
Lemma header_nodup st : has_type header_struct st -> NoDup (map fst st).
Proof. intros T. rewrite (has_type_names _ _ T). apply nodupb_NoDup. vm_compute. reflexivity. Qed.
Lemma trailer_nodup st : has_type trailer_struct st -> NoDup (map fst st).
Proof. intros T. rewrite (has_type_names _ _ T). apply nodupb_NoDup. vm_compute. reflexivity. Qed.

Lemma new_fields_type s : has_type s (new_fields s).
Proof.
  unfold has_type, new_fields. rewrite map_map. cbn. induction s as [|[n k] s IH]; [reflexivity|].
  cbn. rewrite IH. destruct k; reflexivity.
Qed.

Lemma new_segment_typed k : seg_typed (new_segment k).
Proof. destruct k; reflexivity. Qed.
Lemma new_header_typed : has_type header_struct new_header.
Proof. reflexivity. Qed.
Lemma new_trailer_typed : has_type trailer_struct new_trailer.
Proof. reflexivity. Qed.

(* ---- segments ---- *)

Lemma seg_string_length s : seg_fits s -> length (seg_string s) = seg_size (sKind s).
Proof.
  intros [T R]. unfold seg_string. rewrite <- seg_doc_width.
  apply (write_fields_plain_length _ _ (seg_struct (sKind s))); auto using seg_scheme.
Qed.

Lemma seg_round_trip s s0 rest iv : sKind s0 = sKind s -> seg_typed s0 -> seg_fits s ->
  seg_parse s0 (seg_string s ++ rest) iv = (s, Ok (seg_size (sKind s))).
Proof.
  intros K T0 F. pose proof (seg_string_length s F) as L. destruct F as [T R].
  unfold seg_parse. rewrite K, seg_length_size.
  assert (Nat.ltb (length (seg_string s ++ rest)) (seg_size (sKind s)) = false) as ->.
  { apply Nat.ltb_ge. rewrite app_length. lia. }
  rewrite (parse_plain (char_policy iv) true (seg_doc (sKind s)) (seg_layout (sKind s))
             (seg_struct (sKind s)) (sFields s) (sFields s0) _ rest); auto using seg_scheme.
  - destruct s; reflexivity.
  - unfold seg_typed in T0. rewrite K in T0. exact T0.
Qed.

(* the segment identifier is the first two bytes *)
Lemma seg_string_mark s : seg_good s -> firstn 2 (seg_string s) = seg_mark (sKind s).
Proof.
  intros [[T R] [H _]]. unfold seg_string, write_fields.
  pose proof (In_lookup _ _ _ (seg_nodup s T) H) as Lk.
  destruct s as [k st]. cbn [sKind sFields] in *.
  destruct k; match goal with |- firstn 2 (flat_map ?g ?l) = _ =>
      let l' := eval vm_compute in l in change l with l' end;
    cbn [flat_map fst snd]; rewrite Lk; reflexivity.
Qed.

Lemma kind_of_mark k : kind_of_identifier (seg_mark k) = Some k.
Proof. destruct k; reflexivity. Qed.

Lemma kind_of_identifier_mark s k : kind_of_identifier s = Some k -> s = seg_mark k.
Proof.
  unfold kind_of_identifier. intros H. apply find_some in H as [_ H]. apply bytes_eqb_eq in H.
  subst. destruct k; reflexivity.
Qed.

Lemma no_segment_stop rest : no_segment rest ->
  Nat.ltb 2 (length rest) = false \/ kind_of_identifier (firstn 2 rest) = None.
Proof.
  intros [H|H]; [left; apply Nat.ltb_ge; exact H|right].
  destruct (kind_of_identifier (firstn 2 rest)) as [k|] eqn:E; [|reflexivity].
  apply kind_of_identifier_mark in E. exfalso. exact (H k E).
Qed.

Lemma read_segments_good iv : forall segs fuel b rest off,
  Forall seg_good segs -> no_segment rest -> (length segs < fuel)%nat ->
  read_segments fuel (flat_map seg_string segs ++ rest) off b iv
  = (fold_left (fun b s => put_segment s b) segs b, Ok (off + segs_size segs)%nat).
Proof.
  induction segs as [|s segs IH]; intros fuel b rest off G N Hf.
  - destruct fuel; [lia|]. cbn [flat_map app read_segments fold_left segs_size]. rewrite Nat.add_0_r.
    destruct (no_segment_stop rest N) as [-> | ->]; [reflexivity|].
    destruct (Nat.ltb 2 (length rest)); reflexivity.
  - destruct fuel as [|fuel]; [cbn in Hf; lia|]. inversion G as [|? ? Gs Gr]; subst.
    cbn [flat_map]. rewrite <- app_assoc. set (more := flat_map seg_string segs ++ rest).
    cbn [read_segments].
    pose proof (seg_string_length s (proj1 Gs)) as L.
    assert (Nat.ltb 2 (length (seg_string s ++ more)) = true) as ->.
    { apply Nat.ltb_lt. rewrite app_length, L. destruct (sKind s); cbn; lia. }
    assert (firstn 2 (seg_string s ++ more) = seg_mark (sKind s)) as ->.
    { rewrite firstn_app, (seg_string_mark s Gs). rewrite L.
      replace (2 - seg_size (sKind s))%nat with 0%nat by (destruct (sKind s); reflexivity).
      apply app_nil_r. }
    rewrite kind_of_mark.
    rewrite (seg_round_trip s) by (auto using new_segment_typed; apply Gs).
    unfold base_add_segment. destruct Gs as [Gf [Gm Gv]]. rewrite Gv.
    rewrite (skipn_app_exact (seg_string s) more) by (symmetry; exact L).
    unfold more. rewrite IH; auto; [|cbn in Hf; lia]. cbn [fold_left segs_size]. rewrite Nat.add_assoc. reflexivity.
Qed.

Lemma segs_text_length segs : Forall seg_good segs ->
  length (flat_map seg_string segs) = segs_size segs.
Proof.
  induction 1 as [|s segs G _ IH]; [reflexivity|]. cbn. rewrite app_length, IH, seg_string_length; [reflexivity|apply G].
Qed.

Lemma segs_count segs : Forall seg_good segs -> (length segs <= segs_size segs)%nat.
Proof.
  induction 1 as [|s segs G _ IH]; [cbn; lia|]. cbn. destruct (sKind s); cbn; lia.
Qed.

Lemma fold_put_J1 l : Forall (fun s => sKind s = J1) l -> forall b,
  fold_left (fun b s => put_segment s b) l b =
  mkBase (bFields b) (bJ1 b ++ l) (bJ2 b) (bK1 b) (bK2 b) (bK3 b) (bK4 b) (bL1 b) (bN1 b).
Proof.
  induction 1 as [|s l K _ IH]; intros b; cbn [fold_left].
  - rewrite app_nil_r. destruct b; reflexivity.
  - rewrite IH. unfold put_segment. rewrite K. cbn. rewrite <- app_assoc. reflexivity.
Qed.

Lemma fold_put_J2 l : Forall (fun s => sKind s = J2) l -> forall b,
  fold_left (fun b s => put_segment s b) l b =
  mkBase (bFields b) (bJ1 b) (bJ2 b ++ l) (bK1 b) (bK2 b) (bK3 b) (bK4 b) (bL1 b) (bN1 b).
Proof.
  induction 1 as [|s l K _ IH]; intros b; cbn [fold_left].
  - rewrite app_nil_r. destruct b; reflexivity.
  - rewrite IH. unfold put_segment. rewrite K. cbn. rewrite <- app_assoc. reflexivity.
Qed.

Lemma fold_put_K1 o : (forall s, o = Some s -> sKind s = K1) -> forall st j1 j2 xk2 xk3 xk4 xl1 xn1,
  fold_left (fun b s => put_segment s b) (opt_to_list o) (mkBase st j1 j2 None xk2 xk3 xk4 xl1 xn1)
  = mkBase st j1 j2 o xk2 xk3 xk4 xl1 xn1.
Proof.
  intros K *. destruct o as [s|]; [|reflexivity]. cbn [opt_to_list fold_left]. unfold put_segment.
  rewrite (K s eq_refl). reflexivity.
Qed.

Lemma fold_put_K2 o : (forall s, o = Some s -> sKind s = K2) -> forall st j1 j2 xk1 xk3 xk4 xl1 xn1,
  fold_left (fun b s => put_segment s b) (opt_to_list o) (mkBase st j1 j2 xk1 None xk3 xk4 xl1 xn1)
  = mkBase st j1 j2 xk1 o xk3 xk4 xl1 xn1.
Proof.
  intros K *. destruct o as [s|]; [|reflexivity]. cbn [opt_to_list fold_left]. unfold put_segment.
  rewrite (K s eq_refl). reflexivity.
Qed.

Lemma fold_put_K3 o : (forall s, o = Some s -> sKind s = K3) -> forall st j1 j2 xk1 xk2 xk4 xl1 xn1,
  fold_left (fun b s => put_segment s b) (opt_to_list o) (mkBase st j1 j2 xk1 xk2 None xk4 xl1 xn1)
  = mkBase st j1 j2 xk1 xk2 o xk4 xl1 xn1.
Proof.
  intros K *. destruct o as [s|]; [|reflexivity]. cbn [opt_to_list fold_left]. unfold put_segment.
  rewrite (K s eq_refl). reflexivity.
Qed.

Lemma fold_put_K4 o : (forall s, o = Some s -> sKind s = K4) -> forall st j1 j2 xk1 xk2 xk3 xl1 xn1,
  fold_left (fun b s => put_segment s b) (opt_to_list o) (mkBase st j1 j2 xk1 xk2 xk3 None xl1 xn1)
  = mkBase st j1 j2 xk1 xk2 xk3 o xl1 xn1.
Proof.
  intros K *. destruct o as [s|]; [|reflexivity]. cbn [opt_to_list fold_left]. unfold put_segment.
  rewrite (K s eq_refl). reflexivity.
Qed.

Lemma fold_put_L1 o : (forall s, o = Some s -> sKind s = L1) -> forall st j1 j2 xk1 xk2 xk3 xk4 xn1,
  fold_left (fun b s => put_segment s b) (opt_to_list o) (mkBase st j1 j2 xk1 xk2 xk3 xk4 None xn1)
  = mkBase st j1 j2 xk1 xk2 xk3 xk4 o xn1.
Proof.
  intros K *. destruct o as [s|]; [|reflexivity]. cbn [opt_to_list fold_left]. unfold put_segment.
  rewrite (K s eq_refl). reflexivity.
Qed.

Lemma fold_put_N1 o : (forall s, o = Some s -> sKind s = N1) -> forall st j1 j2 xk1 xk2 xk3 xk4 xl1,
  fold_left (fun b s => put_segment s b) (opt_to_list o) (mkBase st j1 j2 xk1 xk2 xk3 xk4 xl1 None)
  = mkBase st j1 j2 xk1 xk2 xk3 xk4 xl1 o.
Proof.
  intros K *. destruct o as [s|]; [|reflexivity]. cbn [opt_to_list fold_left]. unfold put_segment.
  rewrite (K s eq_refl). reflexivity.
Qed.

(* putting the segments of b, in order, into a record without segments gives b *)
Lemma fold_put_segments b : segs_placed b ->
  fold_left (fun b s => put_segment s b) (segments_of b)
    (mkBase (bFields b) [] [] None None None None None None) = b.
Proof.
  intros (P1 & P2 & P3 & P4 & P5 & P6 & P7 & P8). unfold segments_of. rewrite !fold_left_app.
  rewrite (fold_put_J1 (bJ1 b) P1), (fold_put_J2 (bJ2 b) P2). cbn [bFields bJ1 bJ2 bK1 bK2 bK3 bK4 bL1 bN1 app].
  rewrite (fold_put_K1 _ P3), (fold_put_K2 _ P4), (fold_put_K3 _ P5), (fold_put_K4 _ P6),
    (fold_put_L1 _ P7), (fold_put_N1 _ P8).
  destruct b; reflexivity.
Qed.

(* ---- record text up to the segments ---- *)

Lemma text_starts_with_word packed doc l s st z :
  scheme_bdw packed doc l s = true -> has_type s st -> record_fits doc st ->
  (exists doc', doc = Doc "RecordDescriptorWord" 4 (if packed then FWord else FNumber) true :: doc') ->
  holds st "RecordDescriptorWord" (VInt z) ->
  forall sp, to_specifications l = (BDW, bdw_field packed) :: sp ->
  exists w rest, text sp st = w ++ rest /\ length w = 4%nat /\ reads_back (bdw_field packed) w (VInt z)
    /\ written (Doc "RecordDescriptorWord" 4 (if packed then FWord else FNumber) true) (VInt z) w.
Proof.
  intros H T R [doc' ->] Hz sp Sp.
  pose proof (scheme_nodup _ _ _ _ _ H T) as ND. pose proof (scheme_fit_values _ _ _ _ _ H T R) as V.
  destruct (scheme_bdw_inv _ _ _ _ H) as (sp' & s' & Sp' & -> & NDl & Lo & So).
  rewrite Sp in Sp'. injection Sp' as <-.
  destruct sp as [|[n f] sp]; [discriminate|]. cbn [layout_ok] in Lo.
  apply andb_prop in Lo as [Lo _]. apply andb_prop in Lo as [Lo E]. apply andb_prop in Lo as [En _].
  apply String.eqb_eq in En. cbn in En. subst n.
  set (d := Doc "RecordDescriptorWord" 4 (if packed then FWord else FNumber) true) in *.
  pose proof (V d (or_introl eq_refl)) as Vd. replace (is_reserved d) with false in Vd by (destruct packed; reflexivity).
  destruct Vd as [v [Lv F]]. cbn [dName d] in Lv.
  rewrite (In_lookup _ _ _ ND Hz) in Lv. injection Lv as <-.
  exists (to_string f (Some (VInt z))), (text sp st).
  destruct (field_written d f (VInt z) E ltac:(destruct packed; discriminate) F) as (L & W & Rb).
  split; [|split; [exact L|split]].
  - cbn [text flat_map fst snd]. rewrite (In_lookup _ _ _ ND Hz). reflexivity.
  - intros n r. destruct (Rb n r) as [R1 R2]. clear W.
    unfold entry_ok in E. repeat (apply andb_prop in E as [E ?]).
    destruct f as [fs fl ft fr]. cbn [fLength fType fRequired dWidth dKind dMust d] in *.
    match goal with X : type_ok _ ft = true |- _ => rename X into Et end.
    match goal with X : Bool.eqb true _ = true |- _ => destruct fr; try discriminate X end.
    apply Nat.eqb_eq in E. subst fl.
    assert (is_valid_type (mkField fs 4 ft required) (to_string (mkField fs 4 ft required) (Some (VInt z))) n r = None
            -> is_valid_type (bdw_field packed) (to_string (mkField fs 4 ft required) (Some (VInt z))) n r = None) as Q.
    { generalize (to_string (mkField fs 4 ft required) (Some (VInt z))). intros u.
      unfold is_valid_type, bdw_field, bdw_type.
      destruct packed; split_type Et; cbn;
        repeat match goal with |- context [if ?c then _ else _] => destruct c end;
        try reflexivity; try discriminate; auto. }
    split; [exact (Q R1)|].
    rewrite <- R2. generalize (to_string (mkField fs 4 ft required) (Some (VInt z))). intros u.
    destruct packed; split_type Et; reflexivity.
  - exact W.
Qed.

Lemma doc_word_base p : exists doc', base_doc p = Doc "RecordDescriptorWord" 4 (if p then FWord else FNumber) true :: doc'.
Proof. destruct p; eexists; reflexivity. Qed.
Lemma doc_word_header p : exists doc', header_doc p = Doc "RecordDescriptorWord" 4 (if p then FWord else FNumber) true :: doc'.
Proof. destruct p; eexists; reflexivity. Qed.

(* ---- headers ---- *)

Lemma word_range (p : bool) st doc z : record_fits doc st ->
  (exists doc', doc = Doc "RecordDescriptorWord" 4 (if p then FWord else FNumber) true :: doc') ->
  NoDup (map fst st) -> holds st "RecordDescriptorWord" (VInt z) ->
  0 <= z < (if p then 65536 else 10000).
Proof.
  intros R [doc' ->] ND H. destruct (R _ (or_introl eq_refl)) as [v [Hv F]]; [destruct p; discriminate|].
  cbn in Hv. apply (In_lookup _ _ _ ND) in Hv. apply (In_lookup _ _ _ ND) in H. rewrite H in Hv.
  injection Hv as <-. unfold fits in F. destruct p; cbn in F; [exact F|]. apply F.
Qed.

Lemma header_round_trip_fixed h h0 z rest :
  header_fits false h -> has_type header_struct h0 ->
  holds h BDW (VInt 0) -> holds h0 BDW (VInt 0) -> holds h "RecordDescriptorWord" (VInt z) ->
  header_parse_char h0 (header_string false h ++ rest) false = (h, Ok z).
Proof.
  intros [T R] T0 Hb Hb0 Hz.
  destruct (write_fields_bdw false _ _ _ h 0 (header_scheme false) T Hb)
    as (sp & s' & Sp & Es & NDl & Lo & So & W).
  rewrite bdw_text_zero in W. cbn [app] in W.
  pose proof (scheme_fit_values _ _ _ _ _ (header_scheme false) T R) as V.
  pose proof (text_length _ 0 sp h Lo V) as L. rewrite header_doc_width in L. cbn [record_size] in L.
  unfold header_string, pad_block. rewrite W. unfold header_parse_char.
  set (record := (text sp h ++ _) ++ rest).
  assert (exists more, record = text sp h ++ more) as [more Em].
  { eexists. unfold record. rewrite <- app_assoc. reflexivity. }
  assert (426 <= length record)%nat as Lr by (rewrite Em, app_length; lia).
  assert (Nat.ltb (length record) UnpackedRecordLength = false) as -> by (apply Nat.ltb_ge; exact Lr).
  rewrite (parse_skip (header_doc false) headerRecordCharacterFormat header_struct h h0 0 record more);
    auto using (header_scheme false).
  - cbv zeta. unfold header_result, header_bdw, header_rdw.
    rewrite (get_int_holds h BDW 0), (get_int_holds h "RecordDescriptorWord" z) by (auto using header_nodup).
    reflexivity.
  - exists z. destruct (text_starts_with_word false _ _ _ h z (header_scheme false) T R (doc_word_header false) Hz sp Sp)
      as (w & tl & Et & Lw & Rb & _).
    rewrite Em, Et, <- app_assoc, firstn_app_exact by (symmetry; exact Lw). exact Rb.
  - lia.
  - intros sp2 Sp2. change headerRecordCharacterFormat with (header_layout false) in Sp2.
    rewrite Sp in Sp2. injection Sp2 as <-. exact Em.
Qed.

Lemma header_round_trip_variable h h0 z rest :
  header_fits false h -> has_type header_struct h0 -> holds h BDW (VInt z) -> 0 < z < 10000 ->
  header_parse_char h0 (header_string false h ++ rest) true = (h, Ok z).
Proof.
  intros [T R] T0 Hb Rz.
  destruct (write_fields_bdw false _ _ _ h z (header_scheme false) T Hb)
    as (sp & s' & Sp & Es & NDl & Lo & So & W).
  destruct (bdw_text_written false z ltac:(lia)) as (Lb & Wb & Rb).
  { cbn. split; [|discriminate]. change (10 ^ Z.of_nat 4) with 10000. lia. }
  pose proof (scheme_fit_values _ _ _ _ _ (header_scheme false) T R) as V.
  pose proof (text_length _ 0 sp h Lo V) as L. rewrite header_doc_width in L. cbn [record_size] in L.
  unfold header_string, pad_block. rewrite W. unfold header_parse_char.
  set (record := ((bdw_text false z ++ text sp h) ++ _) ++ rest).
  assert (exists more, record = bdw_text false z ++ text sp h ++ more) as [more Em].
  { eexists. unfold record. rewrite <- !app_assoc. reflexivity. }
  assert (426 <= length record)%nat as Lr by (rewrite Em, !app_length; lia).
  assert (Nat.ltb (length record) UnpackedRecordLength = false) as -> by (apply Nat.ltb_ge; exact Lr).
  rewrite (parse_shift false (header_doc false) headerRecordCharacterFormat header_struct h h0 z record
             (bdw_text false z) more); auto using (header_scheme false).
  - cbv zeta. unfold header_result, header_bdw.
    rewrite (get_int_holds h BDW z) by (auto using header_nodup).
    destruct (Z.ltb_spec 0 z); [reflexivity|lia].
  - intros sp2 Sp2. change headerRecordCharacterFormat with (header_layout false) in Sp2.
    rewrite Sp in Sp2. injection Sp2 as <-. exact Em.
Qed.

(* ---- trailers ---- *)

Lemma trailer_text_length p t : trailer_fits p t ->
  length (write_fields (trailer_layout p) t) = record_size p.
Proof.
  intros [T R]. rewrite <- trailer_doc_width.
  apply (write_fields_plain_length _ _ trailer_struct); auto using trailer_scheme.
Qed.

Lemma trailer_round_trip p t t0 z rest iv :
  trailer_fits p t -> has_type trailer_struct t0 -> holds t "RecordDescriptorWord" (VInt z) ->
  (if p then trailer_parse_packed else trailer_parse_char) t0 (trailer_string p t ++ rest) iv = (t, Ok z).
Proof.
  intros F T0 Hz. pose proof (trailer_text_length p t F) as L. destruct F as [T R].
  unfold trailer_string, pad_block. rewrite <- app_assoc.
  set (more := repeat blank_char _ ++ rest).
  set (record := write_fields (trailer_layout p) t ++ more).
  assert (record_size p <= length record)%nat as Lr by (unfold record; rewrite app_length; lia).
  assert (forall pol chk rname,
    parse_fields pol chk (trailer_layout p) rname record (map fst t0) 0 t0 = (t, Ok tt)) as P.
  { intros. apply (parse_plain _ _ (trailer_doc p) (trailer_layout p) trailer_struct t t0 record more);
      auto using trailer_scheme. }
  assert (trailer_rdw t = z) as Ez by (apply get_int_holds; auto using trailer_nodup).
  destruct p; cbn [trailer_layout record_size] in *; unfold trailer_parse_packed, trailer_parse_char.
  - assert (Nat.ltb (length record) PackedRecordLength = false) as -> by (apply Nat.ltb_ge; exact Lr).
    rewrite P, Ez. reflexivity.
  - assert (Nat.ltb (length record) UnpackedRecordLength = false) as -> by (apply Nat.ltb_ge; exact Lr).
    rewrite P, Ez. reflexivity.
Qed.

(* ---- packed headers ---- *)

Lemma header_text_id sp h id : to_specifications (header_layout true) = (BDW, bdw_field true) :: sp ->
  has_type header_struct h -> holds h "RecordIdentifier" (VStr id) ->
  exists w more, text sp h = w ++ fmt_left 6 id ++ more
    /\ w = to_string (mkField 0 4 descriptor required) (lookup "RecordDescriptorWord" h).
Proof.
  intros Sp T H. vm_compute in Sp. injection Sp as <-.
  exists (to_string (mkField 0 4 descriptor required) (lookup "RecordDescriptorWord" h)).
  eexists. split; [|reflexivity].
  unfold text. cbn [flat_map fst snd].
  rewrite (In_lookup "RecordIdentifier" _ _ (header_nodup h T) H). reflexivity.
Qed.

Lemma header_round_trip_packed h h0 z id rest iv :
  header_fits true h -> has_type header_struct h0 -> holds h BDW (VInt z) -> 0 < z < 65536 ->
  holds h "RecordIdentifier" (VStr id) -> to_upper id = lit "HEADER" ->
  header_parse_packed h0 (header_string true h ++ rest) iv = (h, Ok z).
Proof.
  intros [T R] T0 Hb Rz Hid Hup.
  destruct (write_fields_bdw true _ _ _ h z (header_scheme true) T Hb)
    as (sp & s' & Sp & Es & NDl & Lo & So & W).
  destruct (bdw_text_written true z ltac:(lia)) as (Lb & Wb & Rb); [cbn; lia|].
  pose proof (scheme_fit_values _ _ _ _ _ (header_scheme true) T R) as V.
  pose proof (text_length _ 0 sp h Lo V) as L. rewrite header_doc_width in L. cbn [record_size] in L.
  unfold header_string, pad_block. rewrite W. unfold header_parse_packed.
  set (record := ((bdw_text true z ++ text sp h) ++ _) ++ rest).
  assert (exists more, record = bdw_text true z ++ text sp h ++ more) as [more Em].
  { eexists. unfold record. rewrite <- !app_assoc. reflexivity. }
  assert (366 <= length record)%nat as Lr by (rewrite Em, !app_length; lia).
  assert (Nat.ltb (length record) PackedRecordLength = false) as -> by (apply Nat.ltb_ge; exact Lr).
  assert (is_variable_length record = true) as ->.
  { unfold is_variable_length. apply andb_true_iff. split; [apply Nat.ltb_lt; lia|].
    apply bytes_eqb_eq. destruct (header_text_id sp h id Sp T Hid) as (w & tl & Et & Ew).
    assert (length w = 4%nat) as Lw.
    { destruct (R (Doc "RecordDescriptorWord" 4 FWord true) (or_introl eq_refl)) as [v [Hv F]]; [discriminate|].
      cbn [dName] in Hv. rewrite (In_lookup _ _ _ (header_nodup h T) Hv) in Ew. rewrite Ew.
      apply (field_written (Doc "RecordDescriptorWord" 4 FWord true) (mkField 0 4 descriptor required) v); auto; discriminate. }
    assert (length id = 6%nat) as Lid by (rewrite <- (map_length upper_char); change (map upper_char id) with (to_upper id); rewrite Hup; reflexivity).
    assert (fmt_left 6 id = id) as Ei.
    { rewrite fmt_left_ascii.
      - rewrite Lid, firstn_all2 by lia. apply app_nil_r.
      - destruct (R (Doc "RecordIdentifier" 6 FText true) (or_intror (or_introl eq_refl))) as [v [Hv F]]; [discriminate|].
        cbn [dName] in Hv. apply (In_lookup _ _ _ (header_nodup h T)) in Hv.
        rewrite (In_lookup _ _ _ (header_nodup h T) Hid) in Hv. injection Hv as <-.
        destruct F as (_ & A & _). apply forall_text in A. apply (forallb_impl _ _ _ alnum_ascii A). }
    rewrite Em, Et, Ei.
    replace (bdw_text true z ++ (w ++ id ++ tl) ++ more) with ((bdw_text true z ++ w) ++ id ++ (tl ++ more))
      by (rewrite <- !app_assoc; reflexivity).
    rewrite skipn_app_exact by (rewrite app_length; lia).
    rewrite firstn_app_exact by (symmetry; exact Lid). exact Hup. }
  rewrite (parse_shift true (header_doc true) headerRecordPackedFormat header_struct h h0 z record
             (bdw_text true z) more); auto using (header_scheme true).
  - cbv zeta. unfold header_result, header_bdw.
    rewrite (get_int_holds h BDW z) by (auto using header_nodup).
    destruct (Z.ltb_spec 0 z); [reflexivity|lia].
  - intros sp2 Sp2. change headerRecordPackedFormat with (header_layout true) in Sp2.
    rewrite Sp in Sp2. injection Sp2 as <-. exact Em.
Qed.

(* ---- base segments ---- *)

Lemma no_segment_pad n rest : (n <> 0)%nat -> no_segment (repeat blank_char n ++ rest).
Proof.
  intros N. right. intros k. destruct n as [|n]; [lia|]. cbn [repeat app firstn].
  destruct k; cbn; intros H; injection H; discriminate.
Qed.

Lemma no_segment_padding (n : nat) rest : (n <> 0)%nat \/ no_segment rest ->
  no_segment (repeat blank_char n ++ rest).
Proof.
  intros [H|H]; [apply no_segment_pad; exact H|].
  destruct n; [exact H|]. apply no_segment_pad. lia.
Qed.

Lemma clamped_range z : 0 < z <= 65535 -> clampedBlockSize z = z.
Proof.
  intros H. unfold clampedBlockSize. change maxRecordPad with 65535.
  destruct (Z.leb_spec z 0); [lia|]. destruct (Z.ltb_spec 65535 z); [lia|]. reflexivity.
Qed.

Lemma base_eta b : mkBase (bFields b) [] [] None None None None None None
  = clear_j (set_bFields new_base (bFields b)).
Proof. reflexivity. Qed.

Lemma base_round_trip_fixed b z rest :
  base_fits false b -> base_bdw_is b 0 -> base_rdw_is b z -> base_size false b <= z ->
  (base_size false b < z \/ no_segment rest) ->
  base_parse_char new_base (base_string_char b ++ rest) false = (b, Ok z).
Proof.
  intros ([T P] & R & G) Hb Hz Sz Ns. unfold base_size in *. cbn [record_size] in *.
  destruct (write_fields_bdw false _ _ _ (bFields b) 0 (base_scheme false) T Hb)
    as (sp & s' & Sp & Es & NDl & Lo & So & W).
  rewrite bdw_text_zero in W. cbn [app] in W.
  pose proof (scheme_fit_values _ _ _ _ _ (base_scheme false) T R) as V.
  pose proof (text_length _ 0 sp (bFields b) Lo V) as L. rewrite base_doc_width in L. cbn [record_size] in L.
  pose proof (base_nodup _ T) as ND.
  pose proof (word_range false _ _ z R (doc_word_base false) ND Hz) as Rz.
  unfold base_string_char, pad_block. change (base_layout false) with baseSegmentCharacterFormat in W.
  rewrite W, base_segments_of. unfold base_rdw. rewrite (get_int_holds _ _ z ND Hz).
  pose proof (segs_text_length _ G) as Ls. pose proof (segs_count _ G) as Lc.
  rewrite clamped_range by lia. rewrite app_length, L, Ls.
  set (pn := Z.to_nat _).
  rewrite <- !app_assoc. set (more := repeat blank_char pn ++ rest).
  assert (no_segment more) as Nm.
  { apply no_segment_padding. destruct Ns as [Ns|Ns]; [left; unfold pn; lia|right; exact Ns]. }
  set (body := flat_map seg_string (segments_of b) ++ more).
  set (record := text sp (bFields b) ++ body).
  assert (426 <= length record)%nat as Lr by (unfold record; rewrite app_length; lia).
  unfold base_parse_char.
  assert (Nat.ltb (length record) UnpackedRecordLength = false) as -> by (apply Nat.ltb_ge; exact Lr).
  rewrite (parse_skip (base_doc false) baseSegmentCharacterFormat base_struct (bFields b) (bFields new_base) 0 record body);
    auto using (base_scheme false).
  - cbv zeta.
    assert (base_bdw (set_bFields new_base (bFields b)) = 0) as Eb.
    { unfold base_bdw. cbn [set_bFields bFields]. apply get_int_holds; auto. }
    rewrite Eb. change (0 <? 0) with false. cbv iota.
    assert (Nat.ltb (length record) UnpackedRecordLength = false) as -> by (apply Nat.ltb_ge; exact Lr).
    unfold record at 2. rewrite skipn_app_exact by (symmetry; exact L).
    unfold body. rewrite read_segments_good; auto.
    + rewrite <- base_eta, fold_put_segments by exact P.
      unfold base_bdw, base_rdw. rewrite (get_int_holds _ _ 0 ND Hb), (get_int_holds _ _ z ND Hz).
      change (0 <? 0) with false. change (0 =? 0) with true. cbn [andb].
      unfold UnpackedRecordLength. destruct (Z.ltb_spec z (Z.of_nat (0 + segs_size (segments_of b) + 426))); [lia|reflexivity].
    + unfold record, body. rewrite !app_length. lia.
  - reflexivity.
  - left. reflexivity.
  - exists z. destruct (text_starts_with_word false _ _ _ _ z (base_scheme false) T R (doc_word_base false) Hz sp Sp)
      as (w & tl & Et & Lw & Rb & _).
    unfold record. rewrite Et, <- app_assoc, firstn_app_exact by (symmetry; exact Lw). exact Rb.
  - lia.
  - intros sp2 Sp2. change baseSegmentCharacterFormat with (base_layout false) in Sp2.
    rewrite Sp in Sp2. injection Sp2 as <-. reflexivity.
Qed.

Lemma base_round_trip_variable b z r rest :
  base_fits false b -> base_bdw_is b z -> base_rdw_is b r -> base_size false b + 4 <= z < 10000 ->
  (base_size false b + 4 < r \/ no_segment rest) ->
  base_parse_char new_base (base_string_char b ++ rest) true = (b, Ok z).
Proof.
  intros ([T P] & R & G) Hb Hz Sz Ns. unfold base_size in *. cbn [record_size] in *.
  destruct (write_fields_bdw false _ _ _ (bFields b) z (base_scheme false) T Hb)
    as (sp & s' & Sp & Es & NDl & Lo & So & W).
  destruct (bdw_text_written false z ltac:(lia)) as (Lb & Wb & Rb).
  { cbn. split; [|discriminate]. change (10 ^ Z.of_nat 4) with 10000. lia. }
  pose proof (scheme_fit_values _ _ _ _ _ (base_scheme false) T R) as V.
  pose proof (text_length _ 0 sp (bFields b) Lo V) as L. rewrite base_doc_width in L. cbn [record_size] in L.
  pose proof (base_nodup _ T) as ND.
  pose proof (word_range false _ _ r R (doc_word_base false) ND Hz) as Rz.
  unfold base_string_char, pad_block. change (base_layout false) with baseSegmentCharacterFormat in W.
  rewrite W, base_segments_of. unfold base_rdw. rewrite (get_int_holds _ _ r ND Hz).
  pose proof (segs_text_length _ G) as Ls. pose proof (segs_count _ G) as Lc.
  rewrite !app_length, L, Ls, Lb.
  set (pn := Z.to_nat _).
  rewrite <- !app_assoc. set (more := repeat blank_char pn ++ rest).
  assert (no_segment more) as Nm.
  { apply no_segment_padding. destruct Ns as [Ns|Ns]; [left; unfold pn|right; exact Ns].
    rewrite clamped_range by lia. lia. }
  set (body := flat_map seg_string (segments_of b) ++ more).
  set (record := bdw_text false z ++ text sp (bFields b) ++ body).
  assert (430 <= length record)%nat as Lr by (unfold record; rewrite !app_length; lia).
  unfold base_parse_char.
  assert (Nat.ltb (length record) UnpackedRecordLength = false) as ->
    by (apply Nat.ltb_ge; unfold UnpackedRecordLength; lia).
  rewrite (parse_shift false (base_doc false) baseSegmentCharacterFormat base_struct (bFields b)
             (bFields new_base) z record (bdw_text false z) body);
    auto using (base_scheme false).
  - cbv zeta.
    assert (base_bdw (set_bFields new_base (bFields b)) = z) as Eb.
    { unfold base_bdw. cbn [set_bFields bFields]. apply get_int_holds; auto. }
    rewrite Eb. assert (0 <? z = true) as E0 by (apply Z.ltb_lt; lia). rewrite E0.
    assert (Nat.ltb (length record) (UnpackedRecordLength + 4) = false) as -> by (apply Nat.ltb_ge; exact Lr).
    assert (skipn (UnpackedRecordLength + 4) record = body) as ->.
    { unfold record. rewrite app_assoc. apply skipn_app_exact. rewrite app_length, Lb, L. reflexivity. }
    unfold body. rewrite read_segments_good; auto.
    + rewrite <- base_eta, fold_put_segments by exact P.
      unfold base_bdw, base_rdw. rewrite (get_int_holds _ _ z ND Hb).
      rewrite E0. assert (z =? 0 = false) as -> by (apply Z.eqb_neq; lia). cbn [andb].
      unfold UnpackedRecordLength.
      destruct (Z.ltb_spec z (Z.of_nat (0 + segs_size (segments_of b) + (426 + 4)))); [lia|reflexivity].
    + unfold record, body. rewrite !app_length. lia.
  - reflexivity.
  - intros sp2 Sp2. change baseSegmentCharacterFormat with (base_layout false) in Sp2.
    rewrite Sp in Sp2. injection Sp2 as <-. reflexivity.
Qed.

Lemma base_round_trip_packed b z r rest :
  base_fits true b -> base_bdw_is b z -> base_rdw_is b r -> base_size true b + 4 <= z < 65536 ->
  (base_size true b < r <= 65531 \/ no_segment rest) ->
  base_parse_packed new_base (base_string_packed b ++ rest) true = (b, Ok z).
Proof.
  intros ([T P] & R & G) Hb Hz Sz Ns. unfold base_size in *. cbn [record_size] in *.
  destruct (write_fields_bdw true _ _ _ (bFields b) z (base_scheme true) T Hb)
    as (sp & s' & Sp & Es & NDl & Lo & So & W).
  destruct (bdw_text_written true z ltac:(lia)) as (Lb & Wb & Rb); [cbn; lia|].
  pose proof (scheme_fit_values _ _ _ _ _ (base_scheme true) T R) as V.
  pose proof (text_length _ 0 sp (bFields b) Lo V) as L. rewrite base_doc_width in L. cbn [record_size] in L.
  pose proof (base_nodup _ T) as ND.
  unfold base_string_packed, pad_block. change (base_layout true) with baseSegmentPackedFormat in W.
  rewrite W, base_segments_of. unfold base_rdw, base_bdw.
  rewrite (get_int_holds _ _ r ND Hz), (get_int_holds _ _ z ND Hb).
  assert (0 <? z = true) as E0 by (apply Z.ltb_lt; lia). rewrite E0.
  pose proof (segs_text_length _ G) as Ls. pose proof (segs_count _ G) as Lc.
  rewrite !app_length, L, Ls, Lb.
  set (pn := Z.to_nat _).
  rewrite <- !app_assoc. set (more := repeat blank_char pn ++ rest).
  assert (no_segment more) as Nm.
  { apply no_segment_padding. destruct Ns as [Ns|Ns]; [left; unfold pn|right; exact Ns].
    rewrite clamped_range by lia. lia. }
  set (body := flat_map seg_string (segments_of b) ++ more).
  set (record := bdw_text true z ++ text sp (bFields b) ++ body).
  assert (370 <= length record)%nat as Lr by (unfold record; rewrite !app_length; lia).
  unfold base_parse_packed.
  assert (Nat.ltb (length record) PackedRecordLength = false) as ->
    by (apply Nat.ltb_ge; unfold PackedRecordLength; lia).
  rewrite (parse_shift true (base_doc true) baseSegmentPackedFormat base_struct (bFields b)
             (bFields new_base) z record (bdw_text true z) body);
    auto using (base_scheme true).
  - cbv zeta.
    assert (Nat.ltb (length record) (PackedRecordLength + 4) = false) as -> by (apply Nat.ltb_ge; exact Lr).
    assert (skipn (PackedRecordLength + 4) record = body) as ->.
    { unfold record. rewrite app_assoc. apply skipn_app_exact. rewrite app_length, Lb, L. reflexivity. }
    unfold body. rewrite read_segments_good; auto.
    + rewrite <- base_eta, fold_put_segments by exact P.
      unfold base_bdw. rewrite (get_int_holds _ _ z ND Hb).
      unfold PackedRecordLength.
      destruct (Z.ltb_spec z (Z.of_nat (0 + segs_size (segments_of b) + (366 + 4)))); [lia|reflexivity].
    + unfold record, body. rewrite !app_length. lia.
  - reflexivity.
  - intros sp2 Sp2. change baseSegmentPackedFormat with (base_layout true) in Sp2.
    rewrite Sp in Sp2. injection Sp2 as <-. reflexivity.
Qed.
