(* Properties C01-C06: segments and records survive a write/read round trip *)
From Coq Require Import ZArith NArith Bool Ascii String List Lia.
Import ListNotations.
From Verif Require Import GoBase GoTime Tables Codec Records
  SpecCodec SpecLayouts SpecRecords RecordFacts RoundTrip Check Samples.
Local Open Scope string_scope.
Local Open Scope Z_scope.
Local Open Scope list_scope.

(* C01: for a segment of any kind whose values fit, parsing its text into any
   segment of the same kind, whatever bytes follow, gives the segment back and
   reports the documented size. *)
Theorem C01_segment_round_trip : forall s s0 rest isVariableLength,
  sKind s0 = sKind s -> seg_typed s0 -> seg_fits s ->
  seg_parse s0 (seg_string s ++ rest) isVariableLength = (s, Ok (seg_size (sKind s))).
Proof. exact seg_round_trip. Qed.
Print Assumptions C01_segment_round_trip.

Example C01_case : forall k, sKind (sample_segment k) = k
  /\ seg_typed (new_segment k) /\ seg_fits (sample_segment k) /\ sample_segment k <> new_segment k.
Proof.
  intros k. split; [destruct k; reflexivity|]. split; [apply new_segment_typed|].
  split; [apply seg_fitsb_ok; destruct k; vm_compute; reflexivity|destruct k; discriminate].
Qed.

(* C02, fixed-length character header: no block descriptor word *)
Theorem C02_header_fixed : forall h h0 rdw rest,
  header_fits false h -> has_type header_struct h0 ->
  holds h "BlockDescriptorWord" (VInt 0) -> holds h0 "BlockDescriptorWord" (VInt 0) ->
  holds h "RecordDescriptorWord" (VInt rdw) ->
  header_parse_char h0 (header_string false h ++ rest) false = (h, Ok rdw).
Proof. exact header_round_trip_fixed. Qed.
Print Assumptions C02_header_fixed.

Example C02_fixed_case : header_fits false (sample_header 0 426)
  /\ has_type header_struct new_header /\ holds new_header "BlockDescriptorWord" (VInt 0)
  /\ holds (sample_header 0 426) "BlockDescriptorWord" (VInt 0)
  /\ holds (sample_header 0 426) "RecordDescriptorWord" (VInt 426).
Proof.
  split; [apply header_fitsb_ok; vm_compute; reflexivity|]. split; [reflexivity|].
  repeat split; apply holdsb_ok; vm_compute; reflexivity.
Qed.

(* C02, variable-blocked character header *)
Theorem C02_header_variable : forall h h0 bdw rest,
  header_fits false h -> has_type header_struct h0 ->
  holds h "BlockDescriptorWord" (VInt bdw) -> 0 < bdw < 10000 ->
  header_parse_char h0 (header_string false h ++ rest) true = (h, Ok bdw).
Proof. exact header_round_trip_variable. Qed.
Print Assumptions C02_header_variable.

Example C02_variable_case : header_fits false (sample_header 430 426)
  /\ holds (sample_header 430 426) "BlockDescriptorWord" (VInt 430).
Proof. split; [apply header_fitsb_ok|apply holdsb_ok]; vm_compute; reflexivity. Qed.

(* C02, packed header; the identifier must read HEADER in either case, because
   the reader looks for it to find the block descriptor word *)
Theorem C02_header_packed : forall h h0 bdw id rest isVariableLength,
  header_fits true h -> has_type header_struct h0 ->
  holds h "BlockDescriptorWord" (VInt bdw) -> 0 < bdw < 65536 ->
  holds h "RecordIdentifier" (VStr id) -> to_upper id = lit "HEADER" ->
  header_parse_packed h0 (header_string true h ++ rest) isVariableLength = (h, Ok bdw).
Proof. exact header_round_trip_packed. Qed.
Print Assumptions C02_header_packed.

Example C02_packed_case : header_fits true (sample_header 370 366)
  /\ holds (sample_header 370 366) "BlockDescriptorWord" (VInt 370)
  /\ holds (sample_header 370 366) "RecordIdentifier" (VStr (lit "HEADER"))
  /\ to_upper (lit "HEADER") = lit "HEADER".
Proof.
  split; [apply header_fitsb_ok; vm_compute; reflexivity|].
  split; [apply holdsb_ok; vm_compute; reflexivity|].
  split; [apply lookup_In; vm_compute; reflexivity|reflexivity].
Qed.

(* C03: fixed-length character base segment with its appended segments *)
Theorem C03_base_fixed : forall b rdw rest,
  base_fits false b -> base_bdw_is b 0 -> base_rdw_is b rdw -> base_size false b <= rdw ->
  (base_size false b < rdw \/ no_segment rest) ->
  base_parse_char new_base (base_string_char b ++ rest) false = (b, Ok rdw).
Proof. exact base_round_trip_fixed. Qed.
Print Assumptions C03_base_fixed.

Example C03_case : base_fits false (sample_base 0 1264)
  /\ base_bdw_is (sample_base 0 1264) 0 /\ base_rdw_is (sample_base 0 1264) 1264
  /\ base_size false (sample_base 0 1264) = 1264 /\ length (segments_of (sample_base 0 1264)) = 9%nat
  /\ no_segment (base_string_char (sample_plain 0 426)).
Proof.
  split; [apply base_fitsb_ok; vm_compute; reflexivity|].
  split; [apply holdsb_ok; vm_compute; reflexivity|].
  split; [apply holdsb_ok; vm_compute; reflexivity|].
  split; [vm_compute; reflexivity|]. split; [vm_compute; reflexivity|].
  right. intros k. destruct k; vm_compute; discriminate.
Qed.

(* C04: variable-blocked character base segment *)
Theorem C04_base_variable : forall b bdw rdw rest,
  base_fits false b -> base_bdw_is b bdw -> base_rdw_is b rdw ->
  base_size false b + 4 <= bdw < 10000 ->
  (base_size false b + 4 < rdw \/ no_segment rest) ->
  base_parse_char new_base (base_string_char b ++ rest) true = (b, Ok bdw).
Proof. exact base_round_trip_variable. Qed.
Print Assumptions C04_base_variable.

Example C04_case : base_fits false (sample_base 1268 1264)
  /\ base_bdw_is (sample_base 1268 1264) 1268 /\ base_rdw_is (sample_base 1268 1264) 1264
  /\ base_size false (sample_base 1268 1264) + 4 = 1268
  /\ no_segment (base_string_char (sample_plain 430 426)).
Proof.
  split; [apply base_fitsb_ok; vm_compute; reflexivity|].
  split; [apply holdsb_ok; vm_compute; reflexivity|].
  split; [apply holdsb_ok; vm_compute; reflexivity|].
  split; [vm_compute; reflexivity|].
  right. intros k. destruct k; vm_compute; discriminate.
Qed.

(* C05: packed base segment *)
Theorem C05_base_packed : forall b bdw rdw rest,
  base_fits true b -> base_bdw_is b bdw -> base_rdw_is b rdw ->
  base_size true b + 4 <= bdw < 65536 ->
  (base_size true b < rdw <= 65531 \/ no_segment rest) ->
  base_parse_packed new_base (base_string_packed b ++ rest) true = (b, Ok bdw).
Proof. exact base_round_trip_packed. Qed.
Print Assumptions C05_base_packed.

Example C05_case : base_fits true (sample_base 1208 1204)
  /\ base_bdw_is (sample_base 1208 1204) 1208 /\ base_rdw_is (sample_base 1208 1204) 1204
  /\ base_size true (sample_base 1208 1204) + 4 = 1208
  /\ no_segment (base_string_packed (sample_plain 370 366)).
Proof.
  split; [apply base_fitsb_ok; vm_compute; reflexivity|].
  split; [apply holdsb_ok; vm_compute; reflexivity|].
  split; [apply holdsb_ok; vm_compute; reflexivity|].
  split; [vm_compute; reflexivity|].
  right. intros k. destruct k; vm_compute; discriminate.
Qed.

(* C06: trailers, character (packed = false) and packed *)
Theorem C06_trailer_round_trip : forall packed t t0 rdw rest isVariableLength,
  trailer_fits packed t -> has_type trailer_struct t0 -> holds t "RecordDescriptorWord" (VInt rdw) ->
  (if packed then trailer_parse_packed else trailer_parse_char)
    t0 (trailer_string packed t ++ rest) isVariableLength = (t, Ok rdw).
Proof. exact trailer_round_trip. Qed.
Print Assumptions C06_trailer_round_trip.

Example C06_case : trailer_fits false (sample_trailer 426) /\ trailer_fits true (sample_trailer 366)
  /\ has_type trailer_struct new_trailer
  /\ holds (sample_trailer 426) "RecordDescriptorWord" (VInt 426).
Proof.
  split; [apply trailer_fitsb_ok; vm_compute; reflexivity|].
  split; [apply trailer_fitsb_ok; vm_compute; reflexivity|].
  split; [reflexivity|]. apply holdsb_ok; vm_compute; reflexivity.
Qed.
