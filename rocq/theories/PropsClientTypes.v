(* Properties of the file types of the client: C81, C82, C83 *)
From Coq Require Import ZArith NArith Bool Ascii String List Lia.
Import ListNotations.
From Verif Require Import GoBase GoTime GoLayout Json Tables JsonTables Codec Records File Reader JsonFile
  SpecCodec SpecLayouts SpecRecords SpecFile SpecFiles SpecReader SpecJson JsonFacts Samples FileCases JsonCases SpecSparse SpecSchema SchemaFacts
  SchemaCases ServerCases ClientTypes SpecClientTypes ClientTypesFacts ClientFileFacts ClientTypesCases.
Local Open Scope string_scope.
Local Open Scope Z_scope.
Local Open Scope list_scope.
Local Notation length := List.length.

(* C81: a file the client writes as JSON is read by the library as the file it
   stands for: every field has the value of its property *)
Theorem C81_read : forall rt c f, orders rt -> good_file c -> stands_for_file c f -> valid_segments f ->
  exists j, c_file c = Some j /\ unmarshal_file rt j (new_file_p (flPacked f)) = Ok f.
Proof. exact client_sent. Qed.
Print Assumptions C81_read.

Example C81_read_case : good_file (few_file None) /\ stands_for_file (few_file None) few_read /\ valid_segments few_read
  /\ length (flBases few_read) = 1%nat /\ flPacked few_read = false.
Proof. exact few_case. Qed.

(* every file of the client stands for one, in either format *)
Theorem C81_exists : forall p c, good_file c -> exists f, flPacked f = p /\ stands_for_file c f.
Proof. exact file_stands. Qed.
Print Assumptions C81_exists.

(* as a text, with any white space and anything after its end *)
Theorem C81_text : forall rt evs c f, orders rt -> good_file c -> stands_for_file c f -> valid_segments f -> format_kept f ->
  exists j, c_file c = Some j /\ forall s w rest, spells j s -> Forall white w ->
    file_from_json rt (w ++ s ++ rest) = Ok f
    /\ ((length w < 1024)%nat -> new_file_from_reader rt evs (w ++ s ++ rest) = Some (Ok f)).
Proof. exact client_sent_text. Qed.
Print Assumptions C81_text.

Example C81_text_case : format_kept few_read.
Proof. exact few_kept. Qed.

(* segments that are not valid make the library refuse the file *)
Theorem C81_refused : forall rt c f, orders rt -> good_file c -> stands_for_file c f -> ~ valid_segments f ->
  exists j, c_file c = Some j /\ forall g, unmarshal_file rt j (new_file_p (flPacked f)) <> Ok g.
Proof. exact client_refused. Qed.
Print Assumptions C81_refused.

Example C81_refused_case : good_file wrong_file /\ exists f, flPacked f = false /\ stands_for_file wrong_file f /\ ~ valid_segments f.
Proof. exact wrong_case. Qed.

(* the client has a member for every published property, of its type, nil only
   where the property is not required *)
Theorem C81_types : forall o, client_table o = map client_field (obj_schema o).
Proof. exact client_types. Qed.
Print Assumptions C81_types.

(* two properties do not count *)
Theorem C81_unknown : forall o c c' st, client_object o c' ->
  (forall k v, ~ In k (unknown_properties o) -> (In (k, Some v) c <-> In (k, Some v) c')) -> stands_for o c st -> stands_for o c' st.
Proof. exact unknown_lost. Qed.
Print Assumptions C81_unknown.

(* so different files of the client are the same file of the library *)
Theorem C81_lost : exists c c' f, c <> c' /\ good_file c /\ good_file c' /\ stands_for_file c f /\ stands_for_file c' f /\ valid_segments f.
Proof. exact few_lost. Qed.
Print Assumptions C81_lost.

(* C82: the JSON written for a valid file is read by the client.
   Not so: a missing date is written as an empty string, which the client refuses *)
Theorem C82_refuted : exists f, json_file f /\ file_validate f = Ok tt
  /\ forall isNil zone c, c_decode_file zone (encode_file isNil f) <> Some c.
Proof. exact unread. Qed.
Print Assumptions C82_refuted.

(* the client reads exactly the files whose published numbers have the published
   size and whose published dates are there, and has their published fields *)
Theorem C82_read_partial : forall zone isNil f c, json_file f ->
  (c_decode_file zone (encode_file isNil f) = Some c <-> readable_file f /\ receives_file isNil f c).
Proof. exact client_file_reads. Qed.
Print Assumptions C82_read_partial.

Theorem C82_readable_partial : forall zone isNil f, json_file f -> readable_file f ->
  exists c, c_decode_file zone (encode_file isNil f) = Some c /\ receives_file isNil f c.
Proof. exact client_file_read. Qed.
Print Assumptions C82_readable_partial.

(* in the character format all numbers have the published size *)
Theorem C82_dates : forall k f, k <> PackedFile -> file_in k f -> (readable_file f <-> file_each all_dated f).
Proof. exact file_dated. Qed.
Print Assumptions C82_dates.

(* a file without unpublished fields comes back from the client as it was *)
Theorem C82_returned : forall zone rt isNil f, orders rt -> json_file f -> readable_file f -> file_each published_only f ->
  exists c j, c_decode_file zone (encode_file isNil f) = Some c /\ c_file c = Some j
    /\ unmarshal_file rt j (new_file_p (flPacked f)) = Ok f.
Proof. exact client_returned. Qed.
Print Assumptions C82_returned.

Example C82_case : json_file open_file /\ file_validate open_file = Ok tt /\ readable_file open_file /\ file_each published_only open_file.
Proof. exact open_case. Qed.
Example C82_dates_case : FixedFile <> PackedFile /\ file_in FixedFile fixed_file.
Proof. split; [discriminate|exact fixed_file_in]. Qed.

(* the client sees nothing of the fields that are not published *)
Theorem C82_unpublished : forall o st st' c, (forall n v, ~ In n (unpublished_fields o) -> (holds st n v <-> holds st' n v)) ->
  has_type (obj_struct o) st -> receives o st c -> receives o st' c.
Proof. exact unpublished_lost. Qed.
Print Assumptions C82_unpublished.

(* so different files are the same for the client *)
Theorem C82_lost : exists f f', f <> f' /\ json_file f /\ json_file f' /\ file_validate f = Ok tt /\ file_validate f' = Ok tt
  /\ exists c, receives_file true f c /\ receives_file true f' c.
Proof. exact unseen. Qed.
Print Assumptions C82_lost.

(* C83: what the client writes it reads back *)
Theorem C83_file : forall zone f, good_file f -> exists j, c_file f = Some j /\ c_decode_file zone j = Some f.
Proof. exact file_survives. Qed.
Print Assumptions C83_file.

Theorem C83_record : forall zone r, good_record r -> exists j, c_record r = Some j /\ c_decode_record zone j crecord0 = Some r.
Proof. exact record_survives. Qed.
Print Assumptions C83_record.

Theorem C83_object : forall zone o c, good_object o c ->
  exists j, c_object c = Some j /\ j <> JNull /\ c_decode zone (client_table o) j (c_zero (client_table o)) = Some c.
Proof. exact object_survives. Qed.
Print Assumptions C83_object.

(* and does not write what it could not *)
Theorem C83_unwritten : forall c, c_object c = None <-> exists k v, In (k, Some v) c /\ untimely v.
Proof. exact object_refused. Qed.
Print Assumptions C83_unwritten.

Example C83_unwritten_case : untimely (VTime (mkTime 10000 1 1 0 0 0 0 None))
  /\ c_object [("dateOpened", Some (VTime (mkTime 10000 1 1 0 0 0 0 None)))] = None
  /\ c_object [("dateOpened", Some (VTime (mkTime 9999 1 1 0 0 0 0 None)))] <> None.
Proof.
  split; [eexists; split; [reflexivity|right; left; reflexivity]|]. split; [reflexivity|discriminate].
Qed.

Example C83_case : good_file (few_file (Some (word "20240506"))).
Proof. exact (few_good _ (or_intror eq_refl)). Qed.
