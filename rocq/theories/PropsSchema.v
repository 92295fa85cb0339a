(* Properties of the published interface: C77, C78, C79 *)
From Coq Require Import ZArith NArith Bool Ascii String List Lia.
Import ListNotations.
From Verif Require Import GoBase GoTime GoLayout Json Tables JsonTables Codec Records File Reader JsonFile Server
  SpecCodec SpecLayouts SpecRecords SpecFile SpecFiles SpecReader SpecJson JsonFacts Samples FileCases JsonCases SpecSparse SpecServer
  ServerCases SpecSchema SchemaFacts SchemaCases.
Local Open Scope string_scope.
Local Open Scope Z_scope.
Local Open Scope list_scope.
Local Notation length := List.length.

(* C77: a JSON file with the published properties is read as the file it
   describes; every published property has its field.
   Not so for two properties, and not for segments that are not valid. *)
Theorem C77_refuted : exists o p v v' l st, In p (obj_schema o) /\ v <> v'
  /\ conforms true (obj_schema o) (JObj ((lit (pKey p), v) :: l)) /\ conforms true (obj_schema o) (JObj ((lit (pKey p), v') :: l))
  /\ describes (obj_struct o) (obj_id o) ((lit (pKey p), v) :: l) st /\ describes (obj_struct o) (obj_id o) ((lit (pKey p), v') :: l) st.
Proof. exact property_lost. Qed.
Print Assumptions C77_refuted.

Theorem C77_read_partial : forall rt p j, orders rt -> plain_json j -> conforms_file true j ->
  (exists f, flPacked f = p /\ describes_file j f /\ unmarshal_file rt j (new_file_p p) = Ok f)
  \/ ((exists k x, segment_in j k x /\ invalid_segment k x) /\ forall f, unmarshal_file rt j (new_file_p p) <> Ok f).
Proof. exact conforming_read. Qed.
Print Assumptions C77_read_partial.

Example C77_read_case : orders plain_host /\ plain_json published_file /\ conforms_file true published_file
  /\ exists f, unmarshal_file plain_host published_file (new_file_p false) = Ok f /\ length (flBases f) = 1%nat
     /\ describes_file published_file f.
Proof. exact (conj plain_host_orders (conj published_plain (conj published_conforms published_accepted))). Qed.

(* the published properties have a field of their type, except two *)
Theorem C77_properties : forall o p, In p (obj_schema o) ->
  ((exists n, In (n, type_kind (pType p)) (obj_struct o) /\ lit (pKey p) = json_key n) <-> ~ In (pKey p) (unknown_properties o))
  /\ (forall n k, In (n, k) (obj_struct o) -> lit (pKey p) = json_key n -> k = type_kind (pType p)).
Proof. exact schema_fields. Qed.
Print Assumptions C77_properties.

(* and every field is published, except three *)
Theorem C77_fields : forall o n k, In (n, k) (obj_struct o) -> ((exists p, property_of o p n) <-> ~ In n (unpublished_fields o)).
Proof. exact schema_publishes. Qed.
Print Assumptions C77_fields.

Example C77_properties_case : In due_property (obj_schema (OSegment L1)) /\ In (pKey due_property) (unknown_properties (OSegment L1))
  /\ In ("CorrectionIndicator", KInt) (obj_struct OBase) /\ In "CorrectionIndicator" (unpublished_fields OBase).
Proof. exact published_names. Qed.

(* those two are ignored *)
Theorem C77_ignored : forall o key v l st, In key (unknown_properties o) -> clear_keys ((lit key, v) :: l) ->
  (describes (obj_struct o) (obj_id o) ((lit key, v) :: l) st <-> describes (obj_struct o) (obj_id o) l st).
Proof. exact unknown_ignored. Qed.
Print Assumptions C77_ignored.

Example C77_ignored_case : clear_keys (due "2024-02-29T00:00:00Z")
  /\ describes (obj_struct (OSegment L1)) (obj_id (OSegment L1)) (due "2024-02-29T00:00:00Z") (sFields sample_l1).
Proof. exact (conj (due_clear _) (due_described _)). Qed.

(* a file with data records that has the published properties is never valid:
   a payment history of one published code is not one of 24 characters *)
Theorem C77_invalid : forall c j f, plain_json j -> conforms_file c j -> describes_file j f -> flBases f <> [] ->
  file_validate f <> Ok tt.
Proof. exact conforming_file_invalid. Qed.
Print Assumptions C77_invalid.

Example C77_invalid_case : plain_json published_file /\ conforms_file true published_file
  /\ exists f, describes_file published_file f /\ flBases f <> [].
Proof. exact (conj published_plain (conj published_conforms published_described)). Qed.

(* C78: the JSON written for a file has the published properties.
   Not so for files: *)
Theorem C78_refuted : exists f, json_file f /\ file_validate f = Ok tt /\ ~ conforms_file false (encode_file true f).
Proof. exact written_refuted. Qed.
Print Assumptions C78_refuted.

(* for no valid file, and for none without data records if null is written for them *)
Theorem C78_never : forall c isNil f, json_file f -> file_validate f = Ok tt -> ~ conforms_file c (encode_file isNil f).
Proof. exact written_file_never. Qed.
Print Assumptions C78_never.

Example C78_never_case : json_file fresh_file /\ file_validate fresh_file = Ok tt.
Proof. exact (conj fresh_file_json fresh_file_valid). Qed.

Theorem C78_null : forall c f, flBases f = [] -> ~ conforms_file c (encode_file true f).
Proof. exact written_null_never. Qed.
Print Assumptions C78_null.

Example C78_null_case : flBases no_data = [] /\ conforms_file true (encode_file false no_data).
Proof. exact (conj eq_refl no_data_conforms). Qed.

(* for an object, exactly when its values are published or left out, and its
   highest credit is not zero *)
Theorem C78_object_partial : forall o st, has_type (obj_struct o) st -> json_fields st ->
  (conforms false (obj_schema o) (obj_json o st) <->
   (forall p n v, property_of o p n -> holds st n v -> documented (pType p) v \/ (empty v /\ ~ always_written o n))
   /\ (forall n v, In n (not_written o) -> holds st n v -> ~ empty v)).
Proof. exact object_conforms. Qed.
Print Assumptions C78_object_partial.

Example C78_object_case : (forall o, has_type (obj_struct o) (sample_fields o) /\ json_fields (sample_fields o))
  /\ (forall o, o <> OBase -> conforms true (obj_schema o) (obj_json o (sample_fields o)))
  /\ has_type (obj_struct OHeader) new_header /\ json_fields new_header
  /\ ~ conforms false (obj_schema OHeader) (obj_json OHeader new_header).
Proof. exact (conj samples_typed (conj samples_conform fresh_header_case)). Qed.

(* which fields are written, and with which values *)
Theorem C78_members : forall o st n v, has_type (obj_struct o) st -> holds st n v -> forall l, obj_json o st = JObj l ->
  (In (json_key n) (map fst l) <-> ~ empty v \/ always_written o n).
Proof. exact object_members. Qed.
Print Assumptions C78_members.

Theorem C78_values : forall o st l k j, has_type (obj_struct o) st -> json_fields st -> obj_json o st = JObj l -> In (k, j) l ->
  exists n v, holds st n v /\ k = json_key n /\ stated j v.
Proof. exact object_stated. Qed.
Print Assumptions C78_values.

(* fields not published are written too *)
Theorem C78_unpublished : forall o st n v, has_type (obj_struct o) st -> holds st n v -> In n (unpublished_fields o) ->
  ~ empty v \/ In n (also_written o) -> ~ conforms true (obj_schema o) (obj_json o st).
Proof. exact unpublished_written. Qed.
Print Assumptions C78_unpublished.

Example C78_unpublished_case : holds (sample_fields OBase) "ProcessingIndicator" (VInt 1)
  /\ In "ProcessingIndicator" (unpublished_fields OBase).
Proof. exact processing_written. Qed.

(* C79: an operation asked with published values gives a published answer.
   Not so for the format metro2: *)
Theorem C79_refuted : exists cpus rt rq w status h b, In w published_formats /\ asks_format rq (list_ascii_of_string w)
  /\ serve_print cpus rt rq = Some (Reply status h b) /\ ~ In status (published_statuses OpPrint).
Proof. exact statuses_refuted. Qed.
Print Assumptions C79_refuted.

(* that format is refused whenever the file can be read *)
Theorem C79_metro2 : forall op cpus rt rq rp, op <> OpValidator -> asks_format rq (lit "metro2") -> (exists f, reads rt rq f) ->
  answer op cpus rt rq = Some rp -> exists h b, rp = Reply 501 h b.
Proof. exact metro2_refused. Qed.
Print Assumptions C79_metro2.

Example C79_metro2_case : asks_format metro2_request (lit "metro2") /\ (exists f, reads plain_host metro2_request f)
  /\ status_of (answer OpPrint 8 plain_host metro2_request) = Some 501.
Proof. exact (conj (proj1 metro2_case) (conj (proj2 metro2_case) (proj1 metro2_answer))). Qed.

(* otherwise the answer is a published one *)
Theorem C79_statuses_partial : forall op cpus rt rq rp, answer op cpus rt rq = Some rp -> (op = OpPrint -> exists o, asks_form rq o) ->
  exists status h b, rp = Reply status h b /\ In status (published_statuses op).
Proof. exact published_answer. Qed.
Print Assumptions C79_statuses_partial.

Example C79_statuses_case :
  status_of (answer OpPrint 8 plain_host (body_request "text/plain" [("format", "json")] (file_text true fixed_file))) = Some 200
  /\ status_of (answer OpConvert 8 plain_host (body_request "text/plain" [("format", "json")] (file_text true fixed_file))) = Some 200
  /\ asks_form (body_request "text/plain" [("format", "json")] (file_text true fixed_file)) JsonOutput.
Proof. exact published_answers. Qed.
