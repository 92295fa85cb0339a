(* Properties C21, C22, C23, C25, C26, C62: reading records *)
From Coq Require Import ZArith NArith Bool Ascii String List Lia.
Import ListNotations.
From Verif Require Import GoBase GoTime Tables Codec Records File SpecCodec SpecLayouts SpecRecords SpecFile
  RecordFacts RecordRead ParseFacts ParseProps SegOrder Check Samples.
Local Open Scope string_scope.
Local Open Scope Z_scope.
Local Open Scope list_scope.
Local Notation length := List.length.

(* C21: reading never panics, whatever the bytes, the flag and the previous
   contents of the receiver (record_ok, file_ok: values of the Go types) *)
Theorem C21_segment : forall s data isVariableLength,
  seg_typed s -> snd (seg_parse s data isVariableLength) <> Panic.
Proof. exact seg_parse_no_panic. Qed.
Print Assumptions C21_segment.

Theorem C21_record : forall r data isVariableLength,
  record_ok r -> snd (record_parse r data isVariableLength) <> Panic.
Proof. exact (fun r data iv H => proj1 (proj2 (record_parse_ok r data iv H))). Qed.
Print Assumptions C21_record.

Theorem C21_file : forall fuel f input isVariableLength f' r,
  file_ok f -> file_parse fuel f input isVariableLength = Some (f', r) -> r <> Panic.
Proof. exact (fun fuel f i iv f' r H E => proj1 (proj2 (file_parse_ok fuel f i iv f' r H E))). Qed.
Print Assumptions C21_file.

Example C21_case : record_ok (RBase true (sample_base 1208 1204)) /\ seg_typed (sample_segment J2)
  /\ file_ok (new_file_p true)
  /\ snd (record_parse (RBase true (sample_base 1208 1204)) (repeat "0"%char 370) true) = Ok 12336
  /\ snd (record_parse (RBase false new_base) (repeat "x"%char 426) true)
     = Err (ErrNumeric "BlockDescriptorWord" "base segment")
  /\ option_map snd (file_parse 100 (new_file_p true)
       (header_string true (sample_header 430 426) ++ repeat "0"%char 1000) true)
     = Some (Err (ErrSegmentLength "base record")).
Proof.
  split; [split; [split; [apply has_typeb_ok; vm_compute; reflexivity|apply segs_placedb_ok; vm_compute; reflexivity]|
    repeat constructor; apply has_typeb_ok; vm_compute; reflexivity]|].
  split; [apply has_typeb_ok; vm_compute; reflexivity|].
  split; [repeat split; try (eexists; reflexivity); try apply has_typeb_ok; try (vm_compute; reflexivity); constructor|].
  vm_compute. repeat split.
Qed.

(* C22: writing never panics *)
Theorem C22_record : forall r, record_ok r -> record_panics r = false.
Proof. exact record_no_panic. Qed.
Print Assumptions C22_record.

Theorem C22_segment : forall s, seg_typed s -> seg_panics s = false.
Proof. exact seg_no_panic. Qed.
Print Assumptions C22_segment.

(* a field of another Go type would panic: the facts above depend on the layouts
   fitting the structures *)
Example C22_case : record_ok (RHeader true (sample_header 430 426)) /\ record_ok (RTrailer false (sample_trailer 426))
  /\ fields_panic (header_layout true) [("BlockDescriptorWord", VStr (lit "430"))] = true.
Proof. repeat split; vm_compute; reflexivity. Qed.

(* C23: what reading accepts is well-formed: every field holds a documented value
   of its width (record_reads, see read_fits), segments are valid, of their type
   and marked *)
Theorem C23_segment : forall s0 data isVariableLength s n,
  seg_typed s0 -> seg_parse s0 data isVariableLength = (s, Ok n) ->
  sKind s = sKind s0 /\ n = seg_size (sKind s) /\ seg_typed s /\ record_reads (seg_doc (sKind s)) (sFields s).
Proof. exact seg_reads_well. Qed.
Print Assumptions C23_segment.

Theorem C23_base : forall (packed : bool) b0 data isVariableLength b n,
  base_typed b0 -> Forall (fun s => exists p, seg_read_from s p) (segments_of b0) ->
  (if packed then base_parse_packed else base_parse_char) b0 data isVariableLength = (b, Ok n) ->
  base_reads packed b.
Proof. exact base_reads_well. Qed.
Print Assumptions C23_base.

Theorem C23_header : forall (packed : bool) h0 data isVariableLength h n,
  has_type header_struct h0 ->
  (if packed then header_parse_packed else header_parse_char) h0 data isVariableLength = (h, Ok n) ->
  has_type header_struct h /\ record_reads (header_doc packed) h.
Proof. exact header_reads_well. Qed.
Print Assumptions C23_header.

Theorem C23_trailer : forall (packed : bool) t0 data isVariableLength t n,
  has_type trailer_struct t0 ->
  (if packed then trailer_parse_packed else trailer_parse_char) t0 data isVariableLength = (t, Ok n) ->
  has_type trailer_struct t /\ record_reads (trailer_doc packed) t.
Proof. exact trailer_reads_well. Qed.
Print Assumptions C23_trailer.

(* some accepted texts *)
Example C23_case :
  snd (base_parse_char new_base (base_string_char (sample_base 0 1300)) false) = Ok 1300
  /\ snd (base_parse_packed new_base (base_string_packed (sample_base 1208 1204)) true) = Ok 1208
  /\ snd (header_parse_char new_header (header_string false (sample_header 0 426)) false) = Ok 426
  /\ snd (trailer_parse_char new_trailer (trailer_string false (sample_trailer 426)) false) = Ok 426
  /\ snd (seg_parse (new_segment N1) (seg_string (sample_segment N1)) false) = Ok 146%nat.
Proof. vm_compute. repeat split. Qed.

(* C25: canonical text is rewritten byte for byte *)
Theorem C25_segment : forall s0 p rest isVariableLength s n,
  seg_typed s0 -> seg_parse s0 (p ++ rest) isVariableLength = (s, Ok n) ->
  canonical_body (seg_doc (sKind s0)) p -> seg_string s = p.
Proof. exact seg_canonical_again. Qed.
Print Assumptions C25_segment.

Theorem C25_base : forall body ks parts pad b n,
  base_parse_char new_base (body ++ List.concat parts ++ pad) false = (b, Ok n) ->
  canonical_body (base_doc false) body -> segs_text ks parts -> in_order ks -> blanks pad ->
  n = Z.of_nat (length (body ++ List.concat parts ++ pad)) ->
  base_string_char b = body ++ List.concat parts ++ pad.
Proof. exact base_canonical_again_fixed. Qed.
Print Assumptions C25_base.

Theorem C25_header : forall h0 body pad h n,
  has_type header_struct h0 -> holds h0 "BlockDescriptorWord" (VInt 0) ->
  header_parse_char h0 (body ++ pad) false = (h, Ok n) ->
  canonical_body (header_doc false) body -> blanks pad -> n = Z.of_nat (length (body ++ pad)) ->
  header_string false h = body ++ pad.
Proof. exact header_canonical_again_fixed. Qed.
Print Assumptions C25_header.

Theorem C25_trailer : forall (packed : bool) t0 body pad isVariableLength t n,
  has_type trailer_struct t0 ->
  (if packed then trailer_parse_packed else trailer_parse_char) t0 (body ++ pad) isVariableLength = (t, Ok n) ->
  canonical_body (trailer_doc packed) body -> blanks pad -> n = Z.of_nat (length (body ++ pad)) ->
  trailer_string packed t = body ++ pad.
Proof. exact trailer_canonical_again. Qed.
Print Assumptions C25_trailer.

Definition C25_text : bytes := base_string_char (sample_base 0 1300).
Definition C25_kinds : list segkind := [J1; J2; J2; K1; K2; K3; K4; L1; N1].
Example C25_case :
  canonical_body (base_doc false) (firstn 426 C25_text)
  /\ segs_text C25_kinds (map seg_string (segments_of (sample_base 0 1300)))
  /\ in_order C25_kinds
  /\ C25_text = firstn 426 C25_text ++ List.concat (map seg_string (segments_of (sample_base 0 1300))) ++ repeat " "%char 36
  /\ snd (base_parse_char new_base C25_text false) = Ok 1300 /\ length C25_text = 1300%nat.
Proof.
  split; [apply canonical_bodyb_ok; vm_compute; reflexivity|].
  split; [repeat constructor; try (vm_compute; reflexivity); apply canonical_bodyb_ok; vm_compute; reflexivity|].
  split; [exists 1%nat, 2%nat, [K1; K2; K3; K4; L1; N1]; split; [reflexivity|exists (fun _ => true); reflexivity]|].
  vm_compute. repeat split.
Qed.

(* C26: the full statement (without settled, and for any descriptor word) is false, see
   C26_refuted. Reading the written record again gives the same record, provided no number
   is negative and required dates are present (settled) *)
Theorem C26_segment_partial : forall s0 data isVariableLength s n s1 rest isVariableLength',
  seg_typed s0 -> seg_parse s0 data isVariableLength = (s, Ok n) -> seg_settled s ->
  sKind s1 = sKind s -> seg_typed s1 ->
  seg_parse s1 (seg_string s ++ rest) isVariableLength' = (s, Ok n).
Proof. exact seg_again. Qed.
Print Assumptions C26_segment_partial.

Theorem C26_base_fixed_partial : forall data b n rest,
  base_parse_char new_base data false = (b, Ok n) -> base_settled false b ->
  (base_size false b < n \/ no_segment rest) ->
  base_parse_char new_base (base_string_char b ++ rest) false = (b, Ok n).
Proof. exact base_again_fixed. Qed.
Print Assumptions C26_base_fixed_partial.

Theorem C26_base_variable_partial : forall data b n rest bdw rdw,
  base_parse_char new_base data true = (b, Ok n) -> base_settled false b ->
  base_bdw_is b bdw -> 0 < bdw -> base_rdw_is b rdw ->
  (base_size false b + 4 < rdw \/ no_segment rest) ->
  base_parse_char new_base (base_string_char b ++ rest) true = (b, Ok n).
Proof. exact base_again_variable. Qed.
Print Assumptions C26_base_variable_partial.

Theorem C26_base_packed_partial : forall data b n rest rdw,
  base_parse_packed new_base data true = (b, Ok n) -> base_settled true b ->
  base_rdw_is b rdw -> (base_size true b < rdw <= 65531 \/ no_segment rest) ->
  base_parse_packed new_base (base_string_packed b ++ rest) true = (b, Ok n).
Proof. exact base_again_packed. Qed.
Print Assumptions C26_base_packed_partial.

Theorem C26_header_fixed_partial : forall data h0 h n rest h1,
  has_type header_struct h0 -> holds h0 "BlockDescriptorWord" (VInt 0) ->
  header_parse_char h0 data false = (h, Ok n) -> settled (header_doc false) h ->
  has_type header_struct h1 -> holds h1 "BlockDescriptorWord" (VInt 0) ->
  header_parse_char h1 (header_string false h ++ rest) false = (h, Ok n).
Proof. exact header_again_fixed. Qed.
Print Assumptions C26_header_fixed_partial.

Theorem C26_header_variable_partial : forall data h0 h n bdw rest h1,
  has_type header_struct h0 ->
  header_parse_char h0 data true = (h, Ok n) -> settled (header_doc false) h ->
  holds h "BlockDescriptorWord" (VInt bdw) -> 0 < bdw -> has_type header_struct h1 ->
  header_parse_char h1 (header_string false h ++ rest) true = (h, Ok n).
Proof. exact header_again_variable. Qed.
Print Assumptions C26_header_variable_partial.

Theorem C26_header_packed_partial : forall data h0 h n bdw id isVariableLength rest h1 isVariableLength',
  has_type header_struct h0 ->
  header_parse_packed h0 data isVariableLength = (h, Ok n) -> settled (header_doc true) h ->
  holds h "BlockDescriptorWord" (VInt bdw) -> 0 < bdw ->
  holds h "RecordIdentifier" (VStr id) -> to_upper id = lit "HEADER" ->
  has_type header_struct h1 ->
  header_parse_packed h1 (header_string true h ++ rest) isVariableLength' = (h, Ok n).
Proof. exact header_again_packed. Qed.
Print Assumptions C26_header_packed_partial.

Theorem C26_trailer_partial : forall (packed : bool) data t0 t n isVariableLength rest t1 isVariableLength',
  has_type trailer_struct t0 ->
  (if packed then trailer_parse_packed else trailer_parse_char) t0 data isVariableLength = (t, Ok n) ->
  settled (trailer_doc packed) t -> has_type trailer_struct t1 ->
  (if packed then trailer_parse_packed else trailer_parse_char) t1 (trailer_string packed t ++ rest) isVariableLength'
  = (t, Ok n).
Proof. exact trailer_again. Qed.
Print Assumptions C26_trailer_partial.

(* accepted text that is not canonical: segments out of order, one of them replaced *)
Definition C26_text : bytes :=
  firstn 426 (base_string_char (sample_base 0 1700))
  ++ seg_string (sample_segment L1) ++ seg_string (sample_segment J2)
  ++ seg_string (sample_segment J1) ++ seg_string (sample_segment L1).
Definition C26_read : base := fst (base_parse_char new_base C26_text false).
Example C26_case :
  base_parse_char new_base C26_text false = (C26_read, Ok 1700) /\ base_settled false C26_read
  /\ base_size false C26_read < 1700 /\ length C26_text = 834%nat
  /\ length (base_string_char C26_read) = 1700%nat.
Proof.
  split; [vm_compute; reflexivity|]. split; [apply base_settledb_ok; vm_compute; reflexivity|].
  vm_compute. repeat split.
Qed.

(* ... and without the conditions it fails: a negative counter is accepted on
   reading but its text is not *)
Theorem C26_refuted : exists data t n,
  trailer_parse_char new_trailer data false = (t, Ok n) /\
  forall t' m, trailer_parse_char new_trailer (trailer_string false t) false <> (t', Ok m).
Proof.
  exists (firstn 11 (trailer_string false (sample_trailer 426)) ++ lit "-00000005"
          ++ skipn 20 (trailer_string false (sample_trailer 426))).
  eexists _, 426. split; [vm_compute; reflexivity|].
  intros t' m. vm_compute. discriminate.
Qed.
Print Assumptions C26_refuted.

(* C62: appended segments in any order and number *)
Theorem C62_fixed : forall b rdw segs rest,
  fields_fit false b -> base_bdw_is b 0 -> base_rdw_is b rdw ->
  Forall seg_good segs -> 426 + Z.of_nat (segs_size segs) <= rdw -> no_segment rest ->
  exists b', base_parse_char new_base (firstn 426 (base_string_char b) ++ flat_map seg_string segs ++ rest) false
    = (b', Ok rdw) /\ grouped (bFields b) segs b'.
Proof. exact grouped_fixed. Qed.
Print Assumptions C62_fixed.

Theorem C62_variable : forall b bdw segs rest,
  fields_fit false b -> base_bdw_is b bdw ->
  Forall seg_good segs -> 430 + Z.of_nat (segs_size segs) <= bdw < 10000 -> no_segment rest ->
  exists b', base_parse_char new_base (firstn 430 (base_string_char b) ++ flat_map seg_string segs ++ rest) true
    = (b', Ok bdw) /\ grouped (bFields b) segs b'.
Proof. exact grouped_variable. Qed.
Print Assumptions C62_variable.

Theorem C62_packed : forall b bdw segs rest,
  fields_fit true b -> base_bdw_is b bdw ->
  Forall seg_good segs -> 370 + Z.of_nat (segs_size segs) <= bdw < 65536 -> no_segment rest ->
  exists b', base_parse_packed new_base (firstn 370 (base_string_packed b) ++ flat_map seg_string segs ++ rest) true
    = (b', Ok bdw) /\ grouped (bFields b) segs b'.
Proof. exact grouped_packed. Qed.
Print Assumptions C62_packed.

Definition C62_segs : list segment :=
  map sample_segment [N1; J2; K3; J1; K3; J2; J1].
Example C62_case : fields_fit false (sample_plain 0 1500) /\ Forall seg_good C62_segs
  /\ 426 + Z.of_nat (segs_size C62_segs) <= 1500
  /\ length (of_kind J2 C62_segs) = 2%nat /\ last_of (of_kind K3 C62_segs) = Some (sample_segment K3)
  /\ no_segment (repeat " "%char 100).
Proof.
  split; [split; [apply has_typeb_ok; vm_compute; reflexivity|apply record_fitsb_ok; vm_compute; reflexivity]|].
  split; [repeat constructor; apply seg_goodb_ok; vm_compute; reflexivity|].
  split; [vm_compute; discriminate|]. split; [reflexivity|]. split; [reflexivity|].
  right. intros k. destruct k; vm_compute; discriminate.
Qed.
