(* What generated trailers depend on, and texts that determine their files: C69 - C71 *)
From Coq Require Import ZArith NArith Bool Ascii String List Lia Permutation.
Import ListNotations.
From Verif Require Import GoBase GoTime Tables Codec Records File
  SpecCodec SpecLayouts SpecRecords SpecFile SpecValidate SpecCounters SpecFiles Reader SpecReader
  CounterProps Check Samples FileCases ReaderCases OrderFacts TextFacts.
Local Open Scope string_scope.
Local Open Scope Z_scope.
Local Open Scope list_scope.
Local Notation length := List.length.

(* C69: a generated trailer depends on the format and the data records only, not on
   their order, the header or the trailer there was before ... *)
Theorem C69_generate : forall f f', flPacked f = flPacked f' -> Permutation (flBases f) (flBases f') ->
  file_generate_trailer f = file_generate_trailer f'.
Proof. exact trailer_permute. Qed.
Print Assumptions C69_generate.

(* ... and Validate accepts a file in every order of its data records or in none *)
Theorem C69_validate : forall packed h t l l', Permutation l l' ->
  file_validate (mkFile packed h l t) = Ok tt -> file_validate (mkFile packed h l' t) = Ok tt.
Proof. exact validate_permute. Qed.
Print Assumptions C69_validate.

Example C69_case : forall packed, let f := sample_file packed 0 1300 in
  file_validate f = Ok tt /\ Permutation (flBases f) (rev (flBases f)) /\ flBases f <> rev (flBases f)
  /\ file_validate (set_bases f (rev (flBases f))) = Ok tt.
Proof.
  intros packed f. split; [destruct packed; vm_compute; reflexivity|]. split; [apply Permutation_rev|].
  split; [intros E|destruct packed; vm_compute; reflexivity].
  assert (map (fun r => match r with RBase _ b => length (segments_of b) | _ => O end) (flBases f)
          = map (fun r => match r with RBase _ b => length (segments_of b) | _ => O end) (rev (flBases f))) as M by (rewrite <- E; reflexivity).
  destruct packed; vm_compute in M; discriminate.
Qed.

(* C70: the counters for the data records of two files together are the sums of the
   counters for each; header and trailer blocks are counted once *)
Theorem C70_sums : forall f f1 f2, flPacked f1 = flPacked f -> flPacked f2 = flPacked f ->
  flBases f = flBases f1 ++ flBases f2 ->
  data_ok (flPacked f) (flBases f1) -> data_ok (flPacked f) (flBases f2) ->
  exists t t1 t2, file_generate_trailer f = Ok (RTrailer (flPacked f) t)
    /\ file_generate_trailer f1 = Ok (RTrailer (flPacked f) t1)
    /\ file_generate_trailer f2 = Ok (RTrailer (flPacked f) t2)
    /\ (forall n P a b, In (n, P) counters -> holds t1 n (VInt a) -> holds t2 n (VInt b) -> holds t n (VInt (a + b)))
    /\ (forall a b, holds t1 "BlockCount" (VInt a) -> holds t2 "BlockCount" (VInt b) ->
          holds t "BlockCount" (VInt (a + b - 2))).
Proof. exact trailer_append. Qed.
Print Assumptions C70_sums.

Example C70_case : forall packed, let f1 := sample_file packed 0 1300 in
  let f := set_bases f1 (flBases f1 ++ flBases f1) in
  data_ok packed (flBases f1)
  /\ (match file_generate_trailer f1, file_generate_trailer f with
      | Ok t1, Ok t => map (fun n => (get_int n (record_fields t1), get_int n (record_fields t)))
                         ["TotalBaseRecords"; "BlockCount"; "TotalConsumerSegmentsJ2"; "TotalSocialNumbersAllSegments"]
      | _, _ => [] end) = [(2, 4); (4, 6); (2, 4); (5, 10)].
Proof. intros packed f1 f. split; [apply data_okb_ok|]; destruct packed; vm_compute; reflexivity. Qed.

(* C71: no two segments share a text, whatever follows them ... *)
Theorem C71_segment : forall s s' r r', seg_good s -> seg_good s' ->
  seg_string s ++ r = seg_string s' ++ r' -> s = s' /\ r = r'.
Proof. exact segment_text_good. Qed.
Print Assumptions C71_segment.

(* ... nor do two records of a kind of file ... *)
Theorem C71_header : forall k h h' r r', header_in k h -> header_in k h' ->
  record_string (RHeader (packed_of k) h) ++ r = record_string (RHeader (packed_of k) h') ++ r' -> h = h' /\ r = r'.
Proof. exact header_text. Qed.
Print Assumptions C71_header.

Theorem C71_base : forall k b b' r r', base_in k b -> base_in k b' -> no_segment r -> no_segment r' ->
  record_string (RBase (packed_of k) b) ++ r = record_string (RBase (packed_of k) b') ++ r' -> b = b' /\ r = r'.
Proof. exact base_text_same. Qed.
Print Assumptions C71_base.

Theorem C71_trailer : forall k t t' r r', trailer_in k t -> trailer_in k t' ->
  record_string (RTrailer (packed_of k) t) ++ r = record_string (RTrailer (packed_of k) t') ++ r' -> t = t' /\ r = r'.
Proof. exact trailer_text. Qed.
Print Assumptions C71_trailer.

(* ... nor two files, with or without line breaks ... *)
Theorem C71_file : forall k f g isNewLine isNewLine' n m, file_in k f -> file_in k g ->
  concurrent_string f isNewLine n = concurrent_string g isNewLine' m -> f = g.
Proof. exact file_text_same. Qed.
Print Assumptions C71_file.

(* ... even of different kinds *)
Theorem C71_kinds : forall k k' f g isNewLine isNewLine' n m, file_streams k f -> file_streams k' g ->
  concurrent_string f isNewLine n = concurrent_string g isNewLine' m -> f = g.
Proof. exact stream_text_same. Qed.
Print Assumptions C71_kinds.

Example C71_case : file_in FixedFile fixed_file /\ file_streams FixedFile fixed_file
  /\ file_streams VariableFile variable_file /\ file_streams PackedFile packed_file
  /\ (forall k, seg_good (sample_segment k)).
Proof.
  refine (conj fixed_file_in (conj fixed_file_streams (conj variable_file_streams (conj packed_file_streams _)))).
  intros k. apply seg_goodb_ok. destruct k; vm_compute; reflexivity.
Qed.
