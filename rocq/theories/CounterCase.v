(* A record with mortgage information that the K3 counter leaves out *)
From Coq Require Import ZArith NArith Bool Ascii String List Lia.
Import ListNotations.
From Verif Require Import GoBase GoTime Tables Codec Records File
  SpecCodec SpecLayouts SpecRecords SpecFile SpecValidate SpecCounters CounterFacts CounterProps Check Samples.
Local Open Scope string_scope.
Local Open Scope Z_scope.
Local Open Scope list_scope.
Local Notation length := List.length.

Definition agency_segment : segment :=
  mkSegment K3 (set_field "AgencyIdentifier" (VInt 1) (sFields (sample_segment K3))).
Definition agency_file : file :=
  set_bases (new_file_p false) [RBase false (put_segment agency_segment (sample_plain 0 1300))].

Lemma mortgage_not_counted : exists f s,
  data_ok (flPacked f) (flBases f)
  /\ In (PSeg K3 (sFields s)) (parts (flBases f)) /\ seg_validate s = None
  /\ coded_number (sFields s) "AgencyIdentifier" [1; 2]
  /\ exists t, file_generate_trailer f = Ok (RTrailer (flPacked f) t)
     /\ holds t "TotalMortgageInformationSegments" (VInt 0).
Proof.
  exists agency_file, agency_segment.
  assert (data_ok (flPacked agency_file) (flBases agency_file)) as D by (apply data_okb_ok; vm_compute; reflexivity).
  split; [exact D|]. split; [vm_compute; repeat ((left; reflexivity) || right)|]. split; [vm_compute; reflexivity|].
  split; [exists 1; split; [left; reflexivity|]; vm_compute; repeat ((left; reflexivity) || right)|].
  destruct (generated _ D) as (t & E & T & _). exists t. split; [exact E|].
  assert (get_int "TotalMortgageInformationSegments" t = 0) as Z.
  { assert (match file_generate_trailer agency_file with Ok r => get_int "TotalMortgageInformationSegments" (record_fields r) | _ => 1 end = 0) as H
      by (vm_compute; reflexivity).
    rewrite E in H. exact H. }
  apply (ValidateFacts.get_int_iff _ _ T (trailer_nodup _ T)); [ValidateFacts.field|exact Z].
Qed.
