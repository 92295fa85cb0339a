(* Properties of the streaming reader: C10, C40-C43, C60 *)
From Coq Require Import ZArith NArith Bool Ascii String List Lia.
Import ListNotations.
From Verif Require Import GoBase GoTime Tables Codec Records File Reader
  SpecCodec SpecLayouts SpecRecords SpecFile SpecFiles SpecReader Check Samples
  BreakFacts FileRoundTrip FileCases ReaderFacts ReaderProps ReaderCases.
Local Open Scope string_scope.
Local Open Scope Z_scope.
Local Open Scope list_scope.
Local Notation length := List.length.

(* C10: String, then the streaming reader, gives the file back: for fixed,
   variable-blocked and packed files, with and without line breaks, for every
   number of goroutines and every way of delivering the bytes *)
Theorem C10_stream : forall k f isNewLine goroutines evs, file_streams k f -> patient evs ->
  (length (concurrent_string f isNewLine goroutines) < useful evs)%nat ->
  read_from evs (concurrent_string f isNewLine goroutines) = Some (Ok f).
Proof. exact stream_round_trip. Qed.
Print Assumptions C10_stream.

Example C10_fixed_case : file_streams FixedFile fixed_file /\ length (flBases fixed_file) = 3%nat.
Proof. exact (conj fixed_file_streams eq_refl). Qed.
Example C10_variable_case : file_streams VariableFile variable_file /\ length (flBases variable_file) = 3%nat.
Proof. exact (conj variable_file_streams eq_refl). Qed.
Example C10_packed_case : file_streams PackedFile packed_file /\ length (flBases packed_file) = 3%nat.
Proof. exact (conj packed_file_streams eq_refl). Qed.
Example C10_reads_case : forall n, patient (byte_reads n) /\ useful (byte_reads n) = n.
Proof. exact (fun n => conj (byte_reads_patient n) (byte_reads_useful n)). Qed.

(* C40: the outcome does not depend on how the bytes are delivered ... *)
Theorem C40_chunks : forall evs evs' s r r', patient evs -> patient evs' ->
  read_from evs s = Some r -> read_from evs' s = Some r' -> r = r'.
Proof. exact chunks_ignored. Qed.
Print Assumptions C40_chunks.

(* ... and there is one as soon as there are more reads than bytes *)
Theorem C40_ends : forall evs s, patient evs -> (length s < useful evs)%nat ->
  exists r, read_from evs s = Some r.
Proof. exact enough_reads. Qed.
Print Assumptions C40_ends.

Example C40_case : patient (byte_reads 4000) /\ patient (odd_reads 10)
  /\ read_from (byte_reads 4000) (file_text true fixed_file) = Some (Ok fixed_file)
  /\ read_from (odd_reads 10) (file_text true fixed_file) = Some (Ok fixed_file).
Proof.
  refine (conj (byte_reads_patient 4000) (conj (odd_reads_patient 10) (conj _ _))); vm_compute; reflexivity.
Qed.

(* an io.Reader that makes no progress 101 times in a row is given up on; Read
   then reports a missing record, not the error of the scanner *)
Theorem C40_impatient : exists evs evs' s f, patient evs'
  /\ read_from evs' s = Some (Ok f) /\ read_from evs s = Some (Err (ErrInvalidSegment (lit "trailer"))).
Proof. exact impatient_case. Qed.
Print Assumptions C40_impatient.

(* C41: line breaks put in anywhere do not change the outcome while each record
   fits the buffer of the scanner ... *)
Theorem C41_breaks : forall s s' evs evs' r r', broken_up s s' -> within_buffer s -> within_buffer s' ->
  patient evs -> patient evs' -> read_from evs s = Some r -> read_from evs' s' = Some r' -> r = r'.
Proof. exact breaks_ignored. Qed.
Print Assumptions C41_breaks.

(* ... as in every file that is written *)
Theorem C41_written : forall k f isNewLine, file_streams k f -> within_buffer (file_text isNewLine f).
Proof. exact written_within. Qed.
Print Assumptions C41_written.

(* beyond that limit they do *)
Theorem C41_limit : exists s s' evs evs' f, broken_up s s' /\ patient evs /\ patient evs'
  /\ read_from evs s = Some (Ok f)
  /\ read_from evs' s' = Some (Err (ErrInvalidSegment (lit "header"))).
Proof. exact limit_case. Qed.
Print Assumptions C41_limit.

Example C41_case : broken_up (file_text false packed_file) (repeat lf_char 5 ++ file_text false packed_file)
  /\ within_buffer (file_text false packed_file) /\ within_buffer (repeat lf_char 5 ++ file_text false packed_file).
Proof.
  refine (conj (broken_up_breaks 5 _) (conj (written_within _ _ false packed_file_streams) _)).
  apply within_end. vm_compute. discriminate.
Qed.

(* C42: a successful read means that the input, line breaks removed, is a header
   record, exactly the returned data records and a trailer record, each as long
   as its first four bytes say, followed by something that is ignored (see C43) *)
Theorem C42_accepts : forall evs s f, patient evs -> read_from evs s = Some (Ok f) ->
  exists h ds t more, unbroken s (h ++ List.concat ds ++ t ++ more)
    /\ sized_record h /\ Forall sized_record ds /\ sized_record t
    /\ (exists a b, h = a ++ lit "HEADER" ++ b /\ (length a = 4%nat \/ length a = 8%nat))
    /\ (exists n, record_parse (RHeader (flPacked f) new_header) h (is_variable_length h) = (flHeader f, Ok n))
    /\ Forall2 (fun d b => exists n, record_parse (RBase (flPacked f) new_base) d (is_variable_length h) = (b, Ok n))
         ds (flBases f)
    /\ (exists n, record_parse (RTrailer (flPacked f) new_trailer) t (is_variable_length h) = (flTrailer f, Ok n)).
Proof. exact reader_accepts. Qed.
Print Assumptions C42_accepts.

Example C42_case : patient (odd_reads 10)
  /\ read_from (odd_reads 10) (file_text false packed_file) = Some (Ok packed_file)
  /\ length (flBases packed_file) = 3%nat.
Proof.
  exact (conj (odd_reads_patient 10) (conj (eq_refl : read_from (odd_reads 10) (file_text false packed_file) = Some (Ok packed_file)) eq_refl)).
Qed.

(* C43: "nothing is left after the trailer" is false: further data records may
   follow it ... *)
Theorem C43_refuted : exists f more, file_streams FixedFile f /\ no_breaks more /\ more <> [] /\
  forall evs, patient evs -> (length (file_text true f ++ more) < useful evs)%nat ->
    read_from evs (file_text true f ++ more) = Some (Ok f).
Proof. exact trailing_case. Qed.
Print Assumptions C43_refuted.

(* ... and whatever follows is ignored *)
Theorem C43_trailing : forall k f isNewLine more evs, file_streams k f -> patient evs ->
  (length (file_text isNewLine f ++ more) < useful evs)%nat ->
  read_from evs (file_text isNewLine f ++ more) = Some (Ok f).
Proof. exact trailing_ignored. Qed.
Print Assumptions C43_trailing.

(* C60: the layout of every written header is recognised, whatever follows it *)
Theorem C60_detected : forall k h rest, header_in k h -> holds h "RecordIdentifier" (VStr (lit "HEADER")) ->
  is_variable_length (header_string (packed_of k) h ++ rest) = blocked k
  /\ is_packed (header_string (packed_of k) h ++ rest) = packed_of k
  /\ is_metro_file (header_string (packed_of k) h ++ rest) = true.
Proof. exact header_detected. Qed.
Print Assumptions C60_detected.

Example C60_case : holds (sample_header 430 426) "RecordIdentifier" (VStr (lit "HEADER"))
  /\ exists h bs t, variable_file = file_of VariableFile h bs t /\ header_in VariableFile h.
Proof.
  refine (conj (holds_str (sample_header 430 426) "RecordIdentifier" (lit "HEADER") eq_refl) _).
  destruct variable_file_in as (h & bs & t & E & H & _). exact (ex_intro _ h (ex_intro _ bs (ex_intro _ t (conj E H)))).
Qed.
