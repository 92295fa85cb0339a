(* Properties of JSON that leaves fields out: C76 *)
From Coq Require Import ZArith NArith Bool Ascii String List Lia.
Import ListNotations.
From Verif Require Import GoBase GoTime GoLayout Json Tables Codec Records File Reader JsonFile
  SpecCodec SpecLayouts SpecRecords SpecFile SpecFiles SpecReader SpecJson JsonFacts JsonCases SpecSparse DateFacts SparseFacts SparseCases.
Local Open Scope string_scope.
Local Open Scope Z_scope.
Local Open Scope list_scope.
Local Notation length := List.length.

(* C76: the file a JSON object describes is the file read from it: fields have the
   values under their keys, in any letter case and order, or nothing; other keys
   are ignored *)
Theorem C76_read : forall rt j f, orders rt -> plain_json j -> describes_file j f ->
  unmarshal_file rt j (new_file_p (flPacked f)) = Ok f.
Proof. exact described_file. Qed.
Print Assumptions C76_read.

(* so a text describes no two files *)
Theorem C76_unambiguous : forall j f g, plain_json j -> describes_file j f -> describes_file j g -> flPacked f = flPacked g -> f = g.
Proof. exact described_once. Qed.
Print Assumptions C76_unambiguous.

(* CreateFile on a text of the object, with any white space and with anything
   after its end *)
Theorem C76_create : forall rt j s w rest f, orders rt -> plain_json j -> plain_keys j -> describes_file j f -> format_kept f ->
  Forall white w -> spells j s -> file_from_json rt (w ++ s ++ rest) = Ok f.
Proof. exact described_text. Qed.
Print Assumptions C76_create.

(* NewFileFromReader on such a text *)
Theorem C76_reader : forall rt evs j s w rest f, orders rt -> plain_json j -> plain_keys j -> describes_file j f -> format_kept f ->
  Forall white w -> (length w < 1024)%nat -> spells j s -> new_file_from_reader rt evs (w ++ s ++ rest) = Some (Ok f).
Proof. exact described_read. Qed.
Print Assumptions C76_reader.

Example C76_case : orders plain_host /\ plain_json short_json /\ plain_keys short_json /\ describes_file short_json short_file
  /\ format_kept short_file.
Proof. exact (conj plain_host_orders (conj short_plain (conj short_keys (conj short_described short_kept)))). Qed.

(* of several members with one key the last one counts, whatever the others are *)
Theorem C76_last : forall rt j j' f, orders rt -> loose_json j -> settled j j' -> plain_json j' -> describes_file j' f ->
  unmarshal_file rt j (new_file_p (flPacked f)) = Ok f.
Proof. exact settled_described. Qed.
Print Assumptions C76_last.

Example C76_last_case : loose_json twice_json /\ settled twice_json short_json /\ plain_json short_json /\ describes_file short_json short_file.
Proof. exact twice_case. Qed.

(* data records and segments *)
Theorem C76_record : forall rt n j b, orders rt -> plain_json j -> describes_base j b -> unmarshal_base rt n j new_base = Ok b.
Proof. exact described_base. Qed.
Print Assumptions C76_record.

Example C76_record_case : plain_json short_record_json /\ describes_base short_record_json short_record /\ describes_base (JObj []) new_base.
Proof. exact (conj short_record_plain (conj short_record_described empty_record_described)). Qed.

(* dates may be written with a time of day, parts of a second and a zone, or as a
   day in one of three ways *)
Theorem C76_dates : forall zone t s, date_text_of t s -> time_unmarshal zone (print (JStr s)) = Some t.
Proof. exact date_unmarshal. Qed.
Print Assumptions C76_dates.

Example C76_dates_case : date_text_of (mkTime 2024 2 29 0 0 0 0 None) (lit "02/29/2024")
  /\ date_text_of (mkTime 2024 2 29 0 0 0 0 None) (lit "02-29-2024") /\ date_text_of (mkTime 2024 2 29 0 0 0 0 None) (lit "2024-02-29")
  /\ date_text_of (mkTime 2024 2 29 23 30 5 0 (Some (-18000))) (lit "2024-02-29T23:30:05-05:00")
  /\ date_text_of (mkTime 2024 2 29 23 30 5 120000000 None) (lit "2024-02-29T23:30:05.120Z")
  /\ date_text_of (mkTime 2024 2 29 23 30 5 0 (Some 0)) (lit "2024-02-29T23:30:05+00:00")
  /\ date_text_of (mkTime 2024 2 29 23 30 5 0 None) (lit "2024-02-29T23:30:05").
Proof. exact date_texts. Qed.

(* the keys of the fields *)
Example C76_keys_case : json_key "ECOACode" = lit "ecoaCode" /\ json_key "PRBCProgramIdentifier" = lit "prbcProgramIdentifier"
  /\ json_key "TotalConsumerSegmentsJ1" = lit "totalConsumerSegmentsJ1" /\ json_key "SocialSecurityNumber" = lit "socialSecurityNumber".
Proof. repeat split. Qed.
