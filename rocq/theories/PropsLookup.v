(* Properties of looking things up: C92 *)
From Coq Require Import ZArith NArith Bool Ascii String List Lia.
Import ListNotations.
From Verif Require Import GoBase GoTime Tables Codec Records File SpecCodec SpecLayouts SpecRecords SpecFile
  SpecLookup Check Samples LookupFacts.
Local Open Scope string_scope.
Local Open Scope Z_scope.
Local Open Scope list_scope.
Local Notation length := List.length.

(* C92: GetSegments gives the segments of a record that have the name, in order; none
   for other names and other records *)
Theorem C92_segments : forall r name, record_ok r ->
  record_get_segments name r = filter (fun s => bytes_eqb (lit (lookup_name (sKind s))) name) (record_segments r).
Proof. exact get_segments_spec. Qed.
Print Assumptions C92_segments.

Example C92_segments_case : record_ok (RBase false (sample_base 0 1264))
  /\ length (record_get_segments (lit "j2") (RBase false (sample_base 0 1264))) = 2%nat
  /\ record_get_segments (lit "J2") (RBase false (sample_base 0 1264)) = [].
Proof. split; [apply base_okb_ok; vm_compute; reflexivity|split; vm_compute; reflexivity]. Qed.

(* Length and BlockSize are the descriptor words ... *)
Theorem C92_length : forall r z, record_ok r -> says_length r z -> record_length r = z.
Proof. exact length_spec. Qed.
Print Assumptions C92_length.

Theorem C92_block : forall r z, record_ok r -> says_block r z -> record_block_size r = z.
Proof. exact block_spec. Qed.
Print Assumptions C92_block.

Example C92_length_case : record_ok (RBase false (sample_base 1268 1264))
  /\ says_length (RBase false (sample_base 1268 1264)) 1264 /\ says_block (RBase false (sample_base 1268 1264)) 1268.
Proof.
  split; [apply base_okb_ok; vm_compute; reflexivity|]. split; apply holdsb_ok; vm_compute; reflexivity.
Qed.

(* ... and what Parse returns, whatever was parsed into whatever record *)
Theorem C92_parsed : forall r d iv r' n, record_parse r d iv = (r', Ok n) ->
  n = if 0 <? record_block_size r' then record_block_size r' else record_length r'.
Proof. exact parsed_size. Qed.
Print Assumptions C92_parsed.

Example C92_parsed_case : exists r' n,
  record_parse (RHeader false new_header) (header_string false (sample_header 0 426)) false = (r', Ok n) /\ n = 426.
Proof. do 2 eexists. split; vm_compute; reflexivity. Qed.

(* Length of a segment is that of its text (C12) *)
Theorem C92_segment_length : forall k, seg_length k = seg_size k.
Proof. exact segment_length_spec. Qed.
Print Assumptions C92_segment_length.

(* GetRecord gives the header and the trailer under these two names and refuses others *)
Theorem C92_get_record : forall f, file_get_record f (lit "header") = Ok (flHeader f)
  /\ file_get_record f (lit "trailer") = Ok (flTrailer f)
  /\ forall name, name <> lit "header" -> name <> lit "trailer" -> file_get_record f name = Err (ErrInvalidRecord name).
Proof. exact get_record_spec. Qed.
Print Assumptions C92_get_record.

(* "a record that was set is found under its name" is false of packed files ... *)
Theorem C92_own_name_refuted : exists f r f', file_ok f /\ file_set_record f r = (f', None)
  /\ file_get_record f' (lit (record_name r)) <> Ok r.
Proof. exact own_name_case. Qed.
Print Assumptions C92_own_name_refuted.

(* ... it is found under the name it would have in a character file, and nothing else
   has changed.  Missing: its own name *)
Theorem C92_set_get_partial : forall f r f', file_ok f -> file_set_record f r = (f', None) ->
  (is_header (flPacked f) r ->
     file_get_record f' (lit "header") = Ok r /\ file_get_record f' (lit "trailer") = file_get_record f (lit "trailer"))
  /\ (is_trailer (flPacked f) r ->
     file_get_record f' (lit "trailer") = Ok r /\ file_get_record f' (lit "header") = file_get_record f (lit "header"))
  /\ (is_header (flPacked f) r \/ is_trailer (flPacked f) r).
Proof. exact set_get_spec. Qed.
Print Assumptions C92_set_get_partial.

Example C92_set_get_case : file_ok (sample_file true 370 366)
  /\ exists f', file_set_record (sample_file true 370 366) (RHeader true (sample_header 370 366)) = (f', None).
Proof. split; [apply file_okb_ok; vm_compute; reflexivity|]. eexists. vm_compute. reflexivity. Qed.
