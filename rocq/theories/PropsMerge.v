(* Properties of JSON read into records and files that hold something already: C101 *)
From Coq Require Import ZArith NArith Bool Ascii String List Lia.
Import ListNotations.
From Verif Require Import GoBase GoTime GoLayout Json Tables Codec Records File Reader JsonFile
  SpecCodec SpecLayouts SpecRecords SpecJson JsonFacts JsonCases SpecSparse SparseFacts SparseCases SpecMerge MergeFacts MergeCases.
Local Open Scope string_scope.
Local Open Scope Z_scope.
Local Open Scope list_scope.
Local Notation length := List.length.

(* C101: "what is read from JSON does not depend on what the file held before" *)

(* the full statement fails: data records are added to those that are there *)
Theorem C101_refuted : exists rt j f f' g g', orders rt /\ plain_json j /\ flPacked f = flPacked f'
  /\ unmarshal_file rt j f = Ok g /\ unmarshal_file rt j f' = Ok g' /\ g <> g'.
Proof. exact merge_depends. Qed.
Print Assumptions C101_refuted.

(* nor does a file without data records become the file whose JSON is read *)
Theorem C101_own_refuted : exists rt f g h, orders rt /\ bare false f /\ bare false g
  /\ unmarshal_file rt (encode_file true g) f = Ok h /\ flHeader h <> flHeader g.
Proof. exact merge_own. Qed.
Print Assumptions C101_own_refuted.

(* nor for data records *)
Theorem C101_record_refuted : exists rt n j b b' c c', orders rt /\ plain_json j
  /\ unmarshal_base rt n j b = Ok c /\ unmarshal_base rt n j b' = Ok c' /\ c <> c'.
Proof. exact merge_record_depends. Qed.
Print Assumptions C101_record_refuted.

(* what becomes of a file, exactly *)
Theorem C101_file_partial : forall rt j f g, orders rt -> plain_json j -> amends_file j f g -> unmarshal_file rt j f = Ok g.
Proof. exact amended_file. Qed.
Print Assumptions C101_file_partial.

Example C101_file_case : orders plain_host /\ plain_json short_json /\ amends_file short_json held_file mixed_file.
Proof. exact (conj plain_host_orders (conj short_plain held_amended)). Qed.

(* what becomes of a data record, exactly *)
Theorem C101_record_partial : forall rt n j b c, orders rt -> plain_json j -> amends_base j b c -> unmarshal_base rt n j b = Ok c.
Proof. exact amended_base. Qed.
Print Assumptions C101_record_partial.

Example C101_record_case : plain_json short_record_json /\ amends_base short_record_json held_record mixed_record.
Proof. exact (conj short_record_plain held_record_amended). Qed.

(* the same JSON a second time: the data records are there twice, all else is as
   it was; a data record does not change *)
Theorem C101_twice : forall rt j f, orders rt -> plain_json j -> describes_file j f ->
  unmarshal_file rt j f = Ok (mkFile (flPacked f) (flHeader f) (flBases f ++ flBases f) (flTrailer f)).
Proof. exact file_again. Qed.
Print Assumptions C101_twice.
Theorem C101_record_twice : forall rt n j b, orders rt -> plain_json j -> describes_base j b -> unmarshal_base rt n j b = Ok b.
Proof. exact base_again. Qed.
Print Assumptions C101_record_twice.

Example C101_twice_case : describes_file short_json short_file /\ length (flBases short_file) = 2%nat /\ describes_base short_record_json short_record.
Proof. exact (conj short_described (conj eq_refl short_record_described)). Qed.

(* without data records, and with JSON that gives every field of header and
   trailer, it does not matter what was there *)
Theorem C101_whole : forall rt j p f f' g, orders rt -> plain_json j -> whole j -> bare p f -> bare p f' -> amends_file j f g ->
  unmarshal_file rt j f = Ok g /\ unmarshal_file rt j f' = Ok g.
Proof. exact whole_file. Qed.
Print Assumptions C101_whole.

Example C101_whole_case : plain_json whole_json /\ whole whole_json /\ bare false named_file /\ bare false (new_file_p false)
  /\ amends_file whole_json named_file whole_result.
Proof. exact whole_case. Qed.
