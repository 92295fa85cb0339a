(* Properties of generated trailers and of File.Validate: C31 - C34 *)
From Coq Require Import ZArith NArith Bool Ascii String List Lia.
Import ListNotations.
From Verif Require Import GoBase GoTime Tables Codec Records File
  SpecCodec SpecLayouts SpecRecords SpecFile SpecValidate SpecCounters CounterFacts CounterProps CounterCase Check Samples.
Local Open Scope string_scope.
Local Open Scope Z_scope.
Local Open Scope list_scope.
Local Notation length := List.length.

(* C31: each counter is the number of parts of the data records that satisfy its
   condition.  Partial: the condition for the K3 counter is the one of the code. *)
Theorem C31_counters_partial : forall f, data_ok (flPacked f) (flBases f) -> exists t,
  file_generate_trailer f = Ok (RTrailer (flPacked f) t)
  /\ has_type trailer_struct t
  /\ counters_right (flBases f) t
  /\ holds t "RecordDescriptorWord" (VInt (Z.of_nat (record_size (flPacked f))))
  /\ holds t "RecordIdentifier" (VStr (list_ascii_of_string "TRAILER")).
Proof. exact generated. Qed.
Print Assumptions C31_counters_partial.

(* every number of the trailer is the length of the record, the number of blocks or
   one of the counters *)
Theorem C31_all_counters : forall n, In (n, KInt) trailer_struct ->
  n = "RecordDescriptorWord" \/ n = "BlockCount" \/ exists P, In (n, P) counters.
Proof. exact number_fields. Qed.
Print Assumptions C31_all_counters.

(* a count is a function of the data records *)
Theorem C31_count_unique : forall (P : part -> Prop) l a b, counted P l a -> counted P l b -> a = b.
Proof. exact (@counted_unique part). Qed.
Print Assumptions C31_count_unique.

Example C31_case : forall packed, let f := sample_file packed 0 1300 in
  data_ok (flPacked f) (flBases f)
  /\ map (fun n => get_int n (record_fields (flTrailer f)))
       ["TotalBaseRecords"; "BlockCount"; "TotalStatusCode62"; "TotalConsumerSegmentsJ1"; "TotalConsumerSegmentsJ2";
        "TotalSocialNumbersAllSegments"; "TotalTelephoneNumbersAllSegments"; "TotalChangeSegments"]
     = [2; 4; 2; 1; 2; 5; 5; 1].
Proof. intros packed f. split; [apply data_okb_ok|]; destruct packed; vm_compute; reflexivity. Qed.

(* The comment of the K3 counter asks for all records with mortgage information: a
   valid K3 segment naming an agency is not counted *)
Theorem C31_refuted : exists f s,
  data_ok (flPacked f) (flBases f)
  /\ In (PSeg K3 (sFields s)) (parts (flBases f)) /\ seg_validate s = None
  /\ coded_number (sFields s) "AgencyIdentifier" [1; 2]
  /\ exists t, file_generate_trailer f = Ok (RTrailer (flPacked f) t)
     /\ holds t "TotalMortgageInformationSegments" (VInt 0).
Proof. exact mortgage_not_counted. Qed.
Print Assumptions C31_refuted.

(* C32: generating and installing a trailer makes the file valid *)
Theorem C32_generate_validate : forall f, file_ok f -> file_times f -> flBases f <> [] ->
  record_valid (flHeader f) -> Forall record_valid (flBases f) ->
  exists t, file_generate_trailer f = Ok t
    /\ file_set_record f t = (set_trailer f t, None)
    /\ file_validate (set_trailer f t) = Ok tt.
Proof. exact generate_then_validate. Qed.
Print Assumptions C32_generate_validate.

(* C33: what File.Validate accepts *)
Theorem C33_file_validate : forall f, file_ok f -> file_times f ->
  (file_validate f = Ok tt <->
   record_valid (flHeader f) /\ record_valid (flTrailer f) /\ Forall record_valid (flBases f)
   /\ counters_right (flBases f) (record_fields (flTrailer f))).
Proof. exact file_validate_spec. Qed.
Print Assumptions C33_file_validate.

(* so no file without data records is valid *)
Theorem C33_some_data : forall f p t, flTrailer f = RTrailer p t -> has_type trailer_struct t -> file_validate f = Ok tt ->
  flBases f <> [].
Proof. exact valid_some_data. Qed.
Print Assumptions C33_some_data.

Example C33_case : forall packed, let f := sample_file packed 0 1300 in
  file_ok f /\ file_times f /\ flBases f <> [] /\ file_validate f = Ok tt
  /\ record_validate (flHeader f) = None /\ first_error record_validate (flBases f) = None
  /\ file_validate (set_bases f (flBases f ++ [RBase packed (sample_base 0 1300)]))
     = Err (ErrInvalidValueOfField "TotalBaseRecords" "trailer record").
Proof.
  intros packed f.
  assert (file_okb f = true) as O by (destruct packed; vm_compute; reflexivity).
  apply file_okb_ok in O as [O T]. split; [exact O|]. split; [exact T|].
  destruct packed; vm_compute; repeat split; discriminate.
Qed.

(* C34: the totals of a generated trailer add up *)
Theorem C34_sums : forall f, data_ok (flPacked f) (flBases f) -> exists t,
  file_generate_trailer f = Ok (RTrailer (flPacked f) t)
  /\ (exists z, holds t "TotalSocialNumbersAllSegments" (VInt z) /\
        adds_up t ["TotalSocialNumbersBaseSegments"; "TotalSocialNumbersJ1Segments"; "TotalSocialNumbersJ2Segments"] z)
  /\ (exists z, holds t "TotalDatesBirthAllSegments" (VInt z) /\
        adds_up t ["TotalDatesBirthBaseSegments"; "TotalDatesBirthJ1Segments"; "TotalDatesBirthJ2Segments"] z)
  /\ (Forall record_valid (flBases f) ->
      adds_up t (map status_total status_codes) (Z.of_nat (length (flBases f)))
      /\ holds t "TotalBaseRecords" (VInt (Z.of_nat (length (flBases f))))).
Proof. exact generated_sums. Qed.
Print Assumptions C34_sums.

Example C34_case : forall packed, let f := sample_file packed 0 1300 in
  data_ok (flPacked f) (flBases f) /\ Forall record_valid (flBases f).
Proof.
  intros packed f.
  assert (file_okb f = true) as O by (destruct packed; vm_compute; reflexivity).
  apply file_okb_ok in O as [O T]. split; [apply file_data_ok; assumption|].
  apply file_validate_spec; [exact O|exact T|]. destruct packed; vm_compute; reflexivity.
Qed.
