(* Properties of the numbers of JSON: C105 *)
From Coq Require Import ZArith NArith Bool Ascii String List Lia.
Import ListNotations.
From Verif Require Import GoBase GoTime GoLayout Json Tables Codec Records File Reader JsonFile JsonLeft GoFloat
  SpecCodec SpecRecords SpecJson JsonCases SpecSparse SparseCases SpecMerge MergeCases SpecAccept AcceptCases
  SpecNumbers NumberFacts NumberRound NumberText NumberShort NumberNotation NumberMain NumberCases.
Local Open Scope string_scope.
Local Open Scope Z_scope.
Local Open Scope list_scope.
Local Notation length := List.length.

(* C105: "the numbers of JSON files may be spelled in any way JSON knows, and are
   read as what they amount to or refused" *)

(* refuted: CreateFile refuses a word of the header that is spelled 426.000,
   which UnmarshalJSON reads as 426 *)
Theorem C105_words_refuted : exists rt j j' s s' f e, rtFloat rt = go_float /\ orders rt /\ plain_json j /\ tidy j /\ respelled j j'
  /\ spells j s /\ spells j' s' /\ file_from_json rt s = Ok f /\ unmarshal_file rt j' (new_file_p false) = Ok f /\ file_from_json rt s' = Err e.
Proof. exact worded_refuted. Qed.
Print Assumptions C105_words_refuted.

(* refuted: a number that is not whole is read as a whole one *)
Theorem C105_broken_refuted : exists rt t n d, rtFloat rt = go_float /\ orders rt /\ amounts t false n d /\ n mod d <> 0
  /\ unmarshal_file rt (in_record (lit "trailer") (lit "totalBaseRecords") t) (new_file_p false) = Ok (counted_file 7).
Proof. exact broken_refuted. Qed.
Print Assumptions C105_broken_refuted.

(* refuted: a whole number above 2^53 is read as another *)
Theorem C105_large_refuted : exists rt t z z', rtFloat rt = go_float /\ orders rt /\ whole_number t z /\ z' <> z
  /\ unmarshal_file rt (in_record (lit "trailer") (lit "totalBaseRecords") t) (new_file_p false) = Ok (counted_file z').
Proof. exact large_refuted. Qed.
Print Assumptions C105_large_refuted.

(* whole numbers up to 2^53 are read as what they amount to, in any spelling *)
Theorem C105_whole : forall t z, whole_number t z -> Z.abs z <= 2 ^ 53 -> go_float t = Some (itoa z).
Proof. exact float_whole. Qed.
Print Assumptions C105_whole.

Example C105_whole_case : whole_number long_12 (-12) /\ go_float long_12 = Some (lit "-12") /\ whole_number long_2 2 /\ go_float long_2 = Some (lit "2").
Proof. exact (conj long_12_whole (conj (C105_whole _ _ long_12_whole ltac:(lia)) (conj long_2_whole (C105_whole _ _ long_2_whole ltac:(lia))))). Qed.

(* what is read as a whole number up to 2^53 differs from it by one part in 2^53 at most *)
Theorem C105_near : forall t neg n d s z, amounts t neg n d -> go_float t = Some s -> parse_int 64 s = (z, None) -> Z.abs z <= 2 ^ 53 ->
  if z =? 0 then 2 ^ 1075 * n <= d else neg = (z <? 0) /\ 2 ^ 53 * Z.abs (Z.abs z * d - n) <= Z.abs z * d.
Proof. exact float_near. Qed.
Print Assumptions C105_near.

Example C105_near_case : amounts broken_7 false (7 * 10 ^ 20 + 1) (10 ^ 20) /\ (go_float broken_7 = Some (lit "7") /\ parse_int 64 (lit "7") = (7, None))
  /\ amounts (lit "1e-400") false 1 (10 ^ 400) /\ go_float (lit "1e-400") = Some (lit "0").
Proof. exact (conj broken_amount (conj broken_case tiny_case)). Qed.

(* exactly those are read as a whole number up to 2^53 that have no binary64 number nearer to them *)
Theorem C105_reads : forall t neg n d z, amounts t neg n d -> 0 < Z.abs z <= 2 ^ 53 ->
  ((exists s, go_float t = Some s /\ parse_int 64 s = (z, None)) <-> neg = (z <? 0) /\ nearest_whole n d (Z.abs z)).
Proof. exact reads_nearest. Qed.
Print Assumptions C105_reads.
Theorem C105_zero : forall t neg n d, amounts t neg n d ->
  ((exists s, go_float t = Some s /\ parse_int 64 s = (0, None)) <-> 2 ^ 1075 * n <= d).
Proof. exact reads_zero. Qed.
Print Assumptions C105_zero.

Example C105_reads_case : amounts broken_7 false (7 * 10 ^ 20 + 1) (10 ^ 20) /\ nearest_whole (7 * 10 ^ 20 + 1) (10 ^ 20) 7
  /\ amounts (lit "1e-400") false 1 (10 ^ 400) /\ 2 ^ 1075 * 1 <= 10 ^ 400.
Proof. exact (conj broken_amount (conj broken_nearest (conj (proj1 tiny_case) tiny_bound))). Qed.

(* the float64 that is read is the nearest one *)
Theorem C105_nearest : forall n d m e, 0 <= n -> 0 < d -> to_double n d = Some (m, e) ->
  nearest n d m e /\ forall m' e', nearest n d m' e' -> (m', e') = (m, e).
Proof. exact nearest_only. Qed.
Print Assumptions C105_nearest.

Example C105_nearest_case : to_double 1 10 = Some (7205759403792794, -56) /\ nearest 1 10 7205759403792794 (-56).
Proof. exact tenth_nearest. Qed.

(* exactly those are refused that are half a step above the largest number of binary64, or more *)
Theorem C105_range : forall t neg n d, amounts t neg n d -> (go_float t = None <-> (2 ^ 54 - 1) * 2 ^ 970 * d <= n).
Proof. exact float_range. Qed.
Print Assumptions C105_range.

Example C105_range_case : amounts (lit "1e309") false (10 ^ 309) 1 /\ go_float (lit "1e309") = None
  /\ amounts (lit "1e308") false (10 ^ 308) 1 /\ go_float (lit "1e308") = Some (lit "1e+308").
Proof. exact range_case. Qed.

(* the text that is written amounts to a number with the same nearest binary64 number, and is
   written as it is if it is read again *)
Theorem C105_written : forall t neg n d s, amounts t neg n d -> go_float t = Some s ->
  go_float s = Some s /\ exists n' d' m e, amounts s neg n' d' /\ nearest n d m e /\ nearest n' d' m e.
Proof. exact float_written. Qed.
Print Assumptions C105_written.

(* no decimal c' * 10^p' with fewer digits has the same nearest binary64 number *)
Theorem C105_short : forall t neg n d s, amounts t neg n d -> go_float t = Some s ->
  exists c p m e, amounts s neg (c * 10 ^ Z.max p 0) (10 ^ Z.max (- p) 0) /\ nearest n d m e /\ nearest (c * 10 ^ Z.max p 0) (10 ^ Z.max (- p) 0) m e
    /\ forall c' p' j, 0 <= c' -> 0 <= j -> c' * 10 ^ Z.max p' 0 < (2 ^ 54 - 1) * 2 ^ 970 * 10 ^ Z.max (- p') 0 ->
         nearest (c' * 10 ^ Z.max p' 0) (10 ^ Z.max (- p') 0) m e -> c' < 10 ^ j -> c < 10 ^ j.
Proof. exact float_short. Qed.
Print Assumptions C105_short.

Example C105_written_case : amounts (lit "-0.00000012300") true 123 (10 ^ 9) /\ go_float (lit "-0.00000012300") = Some (lit "-1.23e-7")
  /\ amounts (lit "0.30000000000000004") false 30000000000000004 (10 ^ 17) /\ go_float (lit "0.30000000000000004") = Some (lit "0.30000000000000004")
  /\ amounts (lit "0.30000000000000001") false 30000000000000001 (10 ^ 17) /\ go_float (lit "0.30000000000000001") = Some (lit "0.3").
Proof. exact written_case. Qed.

(* it has an exponent exactly if the binary64 number is below that of 1e-6, or at least 1e21 *)
Theorem C105_notation : forall t neg n d s, amounts t neg n d -> go_float t = Some s ->
  exists m e m0 e0, nearest n d m e /\ nearest 1 (10 ^ 6) m0 e0
    /\ (In "e"%char s <-> 0 < m /\ (m * 2 ^ (e + 1074) < m0 * 2 ^ (e0 + 1074) \/ 10 ^ 21 * 2 ^ 1074 <= m * 2 ^ (e + 1074))).
Proof. exact float_notation. Qed.
Print Assumptions C105_notation.

Example C105_notation_case : go_float (lit "1e-6") = Some (lit "0.000001") /\ go_float (lit "0.0000009") = Some (lit "9e-7")
  /\ go_float (lit "1e20") = Some (lit "100000000000000000000") /\ go_float (lit "1E21") = Some (lit "1e+21").
Proof. exact notation_case. Qed.

(* UnmarshalJSON of files: the spelling of whole numbers makes no difference; the file is
   the one that the JSON says *)
Theorem C105_file_partial : forall rt j j' f g, rtFloat rt = go_float -> orders rt -> plain_json j -> tidy j -> framed f -> respelled j j' ->
  (unmarshal_file rt j' f = Ok g <-> takes_file (rtZone rt) j f g).
Proof. exact file_numbers. Qed.
Print Assumptions C105_file_partial.

Example C105_file_case : rtFloat float_host = go_float /\ orders float_host /\ plain_json short_json /\ tidy short_json /\ framed held_file
  /\ respelled short_json long_json /\ short_json <> long_json /\ takes_file (rtZone float_host) short_json held_file mixed_file.
Proof.
  split; [reflexivity|]. split; [exact float_host_orders|]. split; [exact short_plain|]. split; [exact short_tidy|]. split; [exact held_framed|].
  split; [exact long_respelled|]. split; [|exact short_taken]. intros E. assert (print short_json = print long_json) as P by (rewrite E; reflexivity).
  vm_compute in P. discriminate P.
Qed.

(* UnmarshalJSON of data records *)
Theorem C105_record_partial : forall rt n j j' b c, rtFloat rt = go_float -> orders rt -> plain_json j -> tidy j -> respelled j j' ->
  (unmarshal_base rt n j' b = Ok c <-> takes_base (rtZone rt) j b c).
Proof. exact base_numbers. Qed.
Print Assumptions C105_record_partial.

Example C105_record_case : plain_json short_record_json /\ tidy short_record_json /\ respelled short_record_json long_record_json
  /\ takes_base (rtZone float_host) short_record_json held_record mixed_record.
Proof. exact (conj short_record_plain (conj short_record_tidy (conj long_record_respelled short_record_taken))). Qed.

(* on any JSON: the same result, the same error, and the same left behind *)
Theorem C105_file_same : forall rt j j' f, rtFloat rt = go_float -> respelled j j' ->
  unmarshal_file rt j' f = unmarshal_file rt j f /\ left_file rt j' f = left_file rt j f.
Proof. exact file_respelled. Qed.
Print Assumptions C105_file_same.
Theorem C105_record_same : forall rt n j j' b, rtFloat rt = go_float -> respelled j j' ->
  unmarshal_base rt n j' b = unmarshal_base rt n j b /\ left_base rt n j' b = left_base rt n j b.
Proof. exact base_respelled. Qed.
Print Assumptions C105_record_same.

Example C105_same_case : respelled short_json long_json /\ respelled short_record_json long_record_json.
Proof. exact (conj long_respelled long_record_respelled). Qed.

(* CreateFile and NewFileFromReader, if the header is not spelled otherwise *)
Theorem C105_create_partial : forall rt j j' s s' w w' rest rest', rtFloat rt = go_float -> respelled_file j j' -> Forall white w -> Forall white w' ->
  spells j s -> spells j' s' ->
  file_from_json rt (w' ++ s' ++ rest') = file_from_json rt (w ++ s ++ rest) /\ left_create rt (w' ++ s' ++ rest') = left_create rt (w ++ s ++ rest).
Proof. exact create_respelled. Qed.
Print Assumptions C105_create_partial.
Theorem C105_reader_partial : forall rt evs j j' s s' w w' rest rest', rtFloat rt = go_float -> respelled_file j j' -> Forall white w -> Forall white w' ->
  (length w < 1024)%nat -> (length w' < 1024)%nat -> spells j s -> spells j' s' ->
  new_file_from_reader rt evs (w' ++ s' ++ rest') = new_file_from_reader rt evs (w ++ s ++ rest).
Proof. exact reader_respelled. Qed.
Print Assumptions C105_reader_partial.

Example C105_create_case : respelled_file cased_json long_cased_json /\ spells cased_json (print cased_json) /\ spells long_cased_json (print long_cased_json)
  /\ print cased_json <> print long_cased_json /\ file_from_json float_host (print long_cased_json) = Ok cased_file.
Proof. exact (conj long_cased_respelled (conj cased_spells (conj long_cased_spells (conj long_cased_other long_cased_read)))). Qed.

(* whatever is spelled otherwise: if CreateFile reads a file, it is the one the JSON says *)
Theorem C105_accepted : forall rt j j' s w rest f, rtFloat rt = go_float -> orders rt -> plain_json j -> tidy j -> respelled j j' -> Forall white w -> spells j' s ->
  (rest = [] \/ exists l, j' = JObj l) -> file_from_json rt (w ++ s ++ rest) = Ok f -> takes_new (rtZone rt) j f.
Proof. exact create_numbers. Qed.
Print Assumptions C105_accepted.

Example C105_accepted_case : plain_json cased_json /\ tidy cased_json /\ respelled cased_json long_cased_json /\ spells long_cased_json (print long_cased_json)
  /\ file_from_json float_host (print long_cased_json) = Ok cased_file.
Proof.
  exact (conj cased_plain (conj cased_tidy (conj (respelled_file_respelled _ _ long_cased_respelled) (conj long_cased_spells long_cased_read)))).
Qed.
