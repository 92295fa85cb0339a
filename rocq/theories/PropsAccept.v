(* Properties of the JSON that is accepted: C102 *)
From Coq Require Import ZArith NArith Bool Ascii String List Lia.
Import ListNotations.
From Verif Require Import GoBase GoTime GoLayout Json Tables Codec Records File Reader JsonFile
  SpecCodec SpecLayouts SpecRecords SpecJson JsonFacts JsonCases SpecSparse SparseCases SpecMerge MergeCases SpecAccept AcceptFacts AcceptCases.
Local Open Scope string_scope.
Local Open Scope Z_scope.
Local Open Scope list_scope.
Local Notation length := List.length.

(* C102: "JSON is accepted exactly if it says a file, and the file it says is read;
   all else is refused with an error" *)

(* File.UnmarshalJSON, both directions *)
Theorem C102_file : forall rt j f g, orders rt -> plain_json j -> tidy j -> framed f ->
  (unmarshal_file rt j f = Ok g <-> takes_file (rtZone rt) j f g).
Proof. exact unmarshal_file_spec. Qed.
Print Assumptions C102_file.

Example C102_file_case : orders plain_host /\ plain_json short_json /\ tidy short_json /\ framed held_file
  /\ takes_file (rtZone plain_host) short_json held_file mixed_file.
Proof. exact (conj plain_host_orders (conj short_plain (conj short_tidy (conj held_framed short_taken)))). Qed.

(* UnmarshalJSON of data records, both directions *)
Theorem C102_record : forall rt n j b c, orders rt -> plain_json j -> tidy j ->
  (unmarshal_base rt n j b = Ok c <-> takes_base (rtZone rt) j b c).
Proof. exact unmarshal_base_spec. Qed.
Print Assumptions C102_record.

Example C102_record_case : plain_json short_record_json /\ tidy short_record_json
  /\ takes_base (rtZone plain_host) short_record_json held_record mixed_record.
Proof. exact (conj short_record_plain (conj short_record_tidy short_record_taken)). Qed.

(* CreateFile on a text of the JSON, with any white space; objects also with
   anything after their end *)
Theorem C102_create : forall rt j s w rest f, orders rt -> plain_json j -> tidy j -> Forall white w -> spells j s ->
  (rest = [] \/ exists l, j = JObj l) ->
  (file_from_json rt (w ++ s ++ rest) = Ok f <-> takes_new (rtZone rt) j f).
Proof. exact text_spec. Qed.
Print Assumptions C102_create.

(* NewFileFromReader on such a text *)
Theorem C102_reader : forall rt evs j s w rest f, orders rt -> plain_json j -> tidy j -> (exists l, j = JObj l) ->
  Forall white w -> (length w < 1024)%nat -> spells j s ->
  (new_file_from_reader rt evs (w ++ s ++ rest) = Some (Ok f) <-> takes_new (rtZone rt) j f).
Proof. exact read_spec. Qed.
Print Assumptions C102_reader.

Example C102_create_case : plain_json cased_json /\ tidy cased_json /\ takes_new (rtZone plain_host) cased_json cased_file.
Proof. exact (conj cased_plain (conj cased_tidy cased_taken)). Qed.

(* JSON says no two files *)
Theorem C102_once : forall zone j f g g', plain_json j -> tidy j -> framed f -> takes_file zone j f g -> takes_file zone j f g' -> g = g'.
Proof. exact file_once. Qed.
Print Assumptions C102_once.

(* what says no file is refused with an error *)
Theorem C102_refused : forall rt j f, orders rt -> plain_json j -> tidy j -> framed f -> (forall g, ~ takes_file (rtZone rt) j f g) ->
  exists e, unmarshal_file rt j f = Err e.
Proof. exact file_refused. Qed.
Print Assumptions C102_refused.
Theorem C102_record_refused : forall rt n j b, orders rt -> plain_json j -> tidy j -> (forall c, ~ takes_base (rtZone rt) j b c) ->
  exists e, unmarshal_base rt n j b = Err e.
Proof. exact base_refused. Qed.
Print Assumptions C102_record_refused.
Theorem C102_text_refused : forall rt j s w rest, orders rt -> plain_json j -> tidy j -> Forall white w -> spells j s ->
  (rest = [] \/ exists l, j = JObj l) -> (forall f, ~ takes_new (rtZone rt) j f) ->
  exists e, file_from_json rt (w ++ s ++ rest) = Err e.
Proof. exact text_refused. Qed.
Print Assumptions C102_text_refused.

(* thus: headers that are no objects, dates that are null, data records that are
   no objects, segments that are not valid *)
Theorem C102_header_shape : forall rt l j f, orders rt -> plain_json (JObj l) -> tidy (JObj l) -> framed f ->
  In (lit "header", j) l -> shapeless j -> exists e, unmarshal_file rt (JObj l) f = Err e.
Proof. exact header_shape. Qed.
Print Assumptions C102_header_shape.
Theorem C102_null_date : forall rt l o n k f, orders rt -> plain_json (JObj l) -> tidy (JObj l) -> framed f ->
  In (lit "header", JObj o) l -> In (k, JNull) o -> key_is n k -> In (n, KTime) header_struct ->
  exists e, unmarshal_file rt (JObj l) f = Err e.
Proof. exact header_null_date. Qed.
Print Assumptions C102_null_date.
Theorem C102_record_shape : forall rt l a j f, orders rt -> plain_json (JObj l) -> tidy (JObj l) -> framed f ->
  In (lit "data", JArr a) l -> In j a -> shapeless j -> exists e, unmarshal_file rt (JObj l) f = Err e.
Proof. exact record_shape. Qed.
Print Assumptions C102_record_shape.
Theorem C102_segment : forall rt n l k j b, orders rt -> plain_json (JObj l) -> tidy (JObj l) -> k <> J1 -> k <> J2 ->
  In (lit (seg_name k), j) l -> (forall s, ~ takes_segment (rtZone rt) k j s) -> exists e, unmarshal_base rt n (JObj l) b = Err e.
Proof. exact record_segment. Qed.
Print Assumptions C102_segment.

Example C102_refused_case : Forall (fun l => plain_json (JObj l) /\ tidy (JObj l)) [undated_json; array_json; counted_json; unknown_json]
  /\ In (lit "header", JArr []) array_json /\ shapeless (JArr [])
  /\ In (lit "activityDate", JNull) [(lit "activityDate", JNull)] /\ key_is "ActivityDate" (lit "activityDate") /\ In ("ActivityDate", KTime) header_struct
  /\ shapeless (number 1) /\ (forall s, ~ takes_segment (rtZone plain_host) K1 (JObj [(lit "creditorClassification", number 99)]) s).
Proof.
  split; [exact refused_plain|]. split; [left; reflexivity|]. split; [split; discriminate|]. split; [left; reflexivity|].
  split; [vm_compute; reflexivity|]. split; [vm_compute; tauto|]. split; [split; discriminate|exact unknown_untaken].
Qed.
