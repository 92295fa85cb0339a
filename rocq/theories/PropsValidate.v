(* Properties C27, C28, C29, C30, C56: validation *)
From Coq Require Import ZArith NArith Bool Ascii String List Lia.
Import ListNotations.
From Verif Require Import GoBase GoTime Tables Codec Records SpecCodec SpecLayouts SpecRecords SpecValidate
  RegexFacts ValidateFacts Check Samples.
Local Open Scope string_scope.
Local Open Scope Z_scope.
Local Open Scope list_scope.
Local Notation length := List.length.

(* C27: character base segments *)
Theorem C27_base_validate : forall b,
  has_type base_struct (bFields b) -> good_times (bFields b) ->
  (base_validate false b = None
   <-> complete (base_doc false) (bFields b) /\ base_rules false (bFields b)).
Proof. exact (base_validate_spec false). Qed.
Print Assumptions C27_base_validate.

(* C28: packed base segments *)
Theorem C28_packed_validate : forall b,
  has_type base_struct (bFields b) -> good_times (bFields b) ->
  (base_validate true b = None
   <-> complete (base_doc true) (bFields b) /\ base_rules true (bFields b)).
Proof. exact (base_validate_spec true). Qed.
Print Assumptions C28_packed_validate.

(* the sample is valid, and stops being so when its account status is replaced *)
Example C27_case : let b := sample_base 0 1300 in
  has_type base_struct (bFields b) /\ good_times (bFields b) /\ base_validate false b = None
  /\ base_validate true b = None
  /\ base_validate false (with_field "AccountStatus" (VStr (lit "13")) b)
     = Some (ErrInvalidValueOfField "payment rating" "base segment")
  /\ base_validate false (with_field "PaymentHistoryProfile" (VStr (repeat "Z"%char 24)) b) = None
  /\ base_validate true (with_field "PaymentHistoryProfile" (VStr (repeat "Z"%char 24)) b)
     = Some (ErrInvalidValueOfField "payment history profile" "packed base segment").
Proof.
  split; [apply has_typeb_ok; vm_compute; reflexivity|].
  split; [apply good_timesb_ok; vm_compute; reflexivity|].
  vm_compute. repeat split.
Qed.

(* The rules do not speak about three fields of the base segment whose comments list
   the values available: a record with undocumented values in them is valid *)
Theorem C27_refuted : exists b,
  has_type base_struct (bFields b) /\ good_times (bFields b) /\ base_validate false b = None /\
  ~ coded (bFields b) "GenerationCode" generation_codes /\
  ~ coded (bFields b) "AddressIndicator" [""; " "; "C"; "Y"; "N"; "M"; "S"; "B"; "U"; "D"; "P"] /\
  ~ coded (bFields b) "ResidenceCode" [""; " "; "O"; "R"].
Proof.
  exists (with_field "GenerationCode" (VStr (lit "X")) (with_field "AddressIndicator" (VStr (lit "X"))
           (with_field "ResidenceCode" (VStr (lit "X")) (sample_base 0 1300)))).
  assert (has_type base_struct (bFields (with_field "GenerationCode" (VStr (lit "X")) (with_field "AddressIndicator" (VStr (lit "X"))
           (with_field "ResidenceCode" (VStr (lit "X")) (sample_base 0 1300)))))) as T by (apply has_typeb_ok; vm_compute; reflexivity).
  pose proof (RoundTrip.base_nodup _ T) as ND.
  split; [exact T|]. split; [apply good_timesb_ok; vm_compute; reflexivity|]. split; [vm_compute; reflexivity|].
  repeat split; intros H;
    [apply (coded_iff _ _ T ND _ generation_codes) in H
    |apply (coded_iff _ _ T ND _ [""; " "; "C"; "Y"; "N"; "M"; "S"; "B"; "U"; "D"; "P"]) in H
    |apply (coded_iff _ _ T ND _ [""; " "; "O"; "R"]) in H];
    try field; try codes; vm_compute in H; discriminate.
Qed.
Print Assumptions C27_refuted.

(* C29: appended segments *)
Theorem C29_segment_validate : forall s, seg_typed s -> good_times (sFields s) ->
  (seg_validate s = None <-> complete (seg_doc (sKind s)) (sFields s) /\ seg_rules (sKind s) (sFields s)).
Proof. exact seg_validate_spec. Qed.
Print Assumptions C29_segment_validate.

Example C29_case : forall k, let s := sample_segment k in
  seg_typed s /\ good_times (sFields s) /\ seg_validate s = None
  /\ (seg_validate (new_segment k) = None <-> k = K3).
Proof.
  intros k s. split; [apply has_typeb_ok; destruct k; vm_compute; reflexivity|].
  split; [apply good_timesb_ok; destruct k; vm_compute; reflexivity|].
  destruct k; (split; [vm_compute; reflexivity|]); vm_compute; split; intros H; congruence.
Qed.

(* C30: header and trailer *)
Theorem C30_header_validate : forall (packed : bool) h, has_type header_struct h -> good_times h ->
  (header_validate packed h = None <-> complete (header_doc packed) h).
Proof. exact header_validate_spec. Qed.
Print Assumptions C30_header_validate.

Theorem C30_trailer_validate : forall (packed : bool) t, has_type trailer_struct t ->
  (trailer_validate packed t = None <-> complete (trailer_doc packed) t).
Proof. exact trailer_validate_spec. Qed.
Print Assumptions C30_trailer_validate.

Example C30_case : has_type header_struct (sample_header 0 426) /\ good_times (sample_header 0 426)
  /\ header_validate false (sample_header 0 426) = None
  /\ header_validate false (set_field "ReporterName" (VStr []) (sample_header 0 426))
     = Some (ErrFieldRequired "ReporterName" "header record")
  /\ trailer_validate true (sample_trailer 426) = None
  /\ trailer_validate true new_trailer = Some (ErrFieldRequired "RecordDescriptorWord" "packed trailer record").
Proof.
  split; [apply has_typeb_ok; vm_compute; reflexivity|].
  split; [apply good_timesb_ok; vm_compute; reflexivity|].
  vm_compute. repeat split.
Qed.

(* C56: the telephone test never fails, so impossible numbers are valid *)
Theorem C56_never_refused : forall number record, is_phone_number number record = None.
Proof. exact phone_any. Qed.
Print Assumptions C56_never_refused.

Theorem C56_refuted : exists b z, holds (bFields b) "TelephoneNumber" (VInt z) /\ z < 0 /\ base_validate false b = None.
Proof.
  exists (with_field "TelephoneNumber" (VInt (-5)) (sample_base 0 1300)), (-5).
  split; [|split; [lia|vm_compute; reflexivity]].
  unfold holds. vm_compute. repeat ((left; reflexivity) || right).
Qed.
Print Assumptions C56_refuted.
