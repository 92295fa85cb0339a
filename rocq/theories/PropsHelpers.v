(* C111: helpers of the client *)
From Coq Require Import ZArith NArith Bool Ascii String List.
Import ListNotations.
From Verif Require Import GoBase GoTime Tables Codec Records File Json JsonFile ClientTypes ClientHelpers
  SpecCodec SpecLayouts SpecRecords SpecJson SpecSparse SpecSchema SpecClientTypes SpecHelpers SchemaCases HelperFacts.
Local Open Scope string_scope.
Local Open Scope Z_scope.
Local Open Scope list_scope.
Local Notation length := List.length.

(* [address] tells where the values of optional properties are, [stamp] is time.Time.String *)

(* partial: the text of a property is that of its value, if it is required or a time *)
Theorem C111_partial : forall address stamp o c p v, client_object o c -> In p (obj_schema o) -> In (pKey p, Some v) c ->
  pRequired p = true \/ kind_of v = KTime ->
  exists t, value_to_string address stamp (AObject (client_table o) (Some c)) (lit (pKey p)) = Ok t /\ own_text stamp v t.
Proof. exact text_partial. Qed.
Print Assumptions C111_partial.

(* the text of any other one is the same for different values, and not theirs *)
Theorem C111_refuted : exists o p a b s t, In p (obj_schema o) /\ client_object o a /\ client_object o b
  /\ In (pKey p, Some (VStr s)) a /\ In (pKey p, Some (VStr t)) b /\ s <> t
  /\ (forall address stamp, value_to_string address stamp (AObject (client_table o) (Some a)) (lit (pKey p))
                          = value_to_string address stamp (AObject (client_table o) (Some b)) (lit (pKey p)))
  /\ (forall address stamp w, value_to_string address stamp (AObject (client_table o) (Some a)) (lit (pKey p)) = Ok w -> ~ own_text stamp (VStr s) w).
Proof. exact text_refuted. Qed.
Print Assumptions C111_refuted.

(* it is an address *)
Theorem C111_address : forall address stamp o c p v, client_object o c -> In p (obj_schema o) -> In (pKey p, Some v) c ->
  pRequired p = false -> kind_of v <> KTime -> 0 <= address (pKey p) < 2 ^ 64 ->
  exists s, value_to_string address stamp (AObject (client_table o) (Some c)) (lit (pKey p)) = Ok (lit "0x" ++ s) /\ s <> [] /\ base16 s (address (pKey p)).
Proof. exact text_address. Qed.
Print Assumptions C111_address.

(* without a value the text is <nil>, for a name that is no property as well *)
Theorem C111_absent : forall address stamp o c key, client_object o c ->
  (forall p v, In p (obj_schema o) -> lit (pKey p) = key -> ~ In (pKey p, Some v) c) ->
  value_to_string address stamp (AObject (client_table o) (Some c)) key = Ok (lit "<nil>").
Proof. exact text_absent. Qed.
Print Assumptions C111_absent.

Example C111_case : forall stamp, let text := value_to_string (fun _ => 824633802768) stamp (AObject (client_table (OSegment L1)) (Some (l1_object "7"))) in
  text (lit "segmentIdentifier") = Ok (lit "L1") /\ text (lit "changeIndicator") = Ok (lit "-12")
  /\ text (lit "newConsumerAccountNumber") = Ok (lit "0xc000014010") /\ text (lit "balloonPaymentDueDate") = Ok (lit "<nil>")
  /\ text (lit "ChangeIndicator") = Ok (lit "<nil>").
Proof. exact text_case. Qed.
Example C111_object_case : forall number, client_object (OSegment L1) (l1_object number).
Proof. exact l1_client. Qed.

(* nil and nil pointers to objects panic; nothing else does *)
Theorem C111_panics : forall address stamp a key, value_to_string address stamp a key = Panic <-> a = ANil \/ exists tbl, a = AObject tbl None.
Proof. exact text_panics. Qed.
Print Assumptions C111_panics.

Theorem C111_others : forall address stamp t key,
  value_to_string address stamp (APlain t) key = Ok t /\ value_to_string address stamp APointer key = Ok [].
Proof. exact (fun _ _ _ _ => conj eq_refl eq_refl). Qed.
Print Assumptions C111_others.

(* types are compared by their names; nil is of every type *)
Theorem C111_type : forall typ expected name, type_check typ expected name = None <-> typ = None \/ typ = Some expected.
Proof. exact type_checked. Qed.
Print Assumptions C111_type.

Theorem C111_type_told : forall t expected name, t <> expected ->
  type_check (Some t) expected name = Some (lit "expected " ++ name ++ lit " to be of type " ++ expected ++ lit " but received " ++ t).
Proof. exact type_told. Qed.
Print Assumptions C111_type_told.

Example C111_type_case : type_check (Some (lit "int")) (lit "string") (lit "format") = Some (lit "expected format to be of type string but received int").
Proof. reflexivity. Qed.

(* the JSON of a parameter is what is printed, and nothing beside an error *)
Theorem C111_json : forall m t e, to_json m = (t, e) <-> (exists j, m = inl j /\ t = print j /\ e = None) \/ (exists x, m = inr x /\ t = [] /\ e = Some x).
Proof. exact json_told. Qed.
Print Assumptions C111_json.

Example C111_json_case : to_json (inl (JArr [JNull; JStr (lit "a")])) = (lit "[null,""a""]", None) /\ to_json (inr (lit "x")) = ([], Some (lit "x")).
Proof. split; reflexivity. Qed.

(* strict reading is reading where every member names a property, in upper or lower case *)
Theorem C111_strict : forall zone o l c c', plain_keys l ->
  (strict_decode zone (client_table o) (JObj l) c = Some c' <->
   c_decode zone (client_table o) (JObj l) c = Some c' /\ forall k j, In (k, j) l -> exists p, In p (obj_schema o) /\ names k p).
Proof. exact object_strict. Qed.
Print Assumptions C111_strict.

(* null changes nothing, what else is no object is refused *)
Theorem C111_strict_other : forall zone tbl j c, (forall l, j <> JObj l) ->
  (strict_decode zone tbl j c = Some c <-> j = JNull) /\ (forall c', strict_decode zone tbl j c = Some c' -> c' = c)
  /\ strict_decode zone tbl j c = c_decode zone tbl j c.
Proof. exact other_strict. Qed.
Print Assumptions C111_strict_other.

Example C111_strict_case : forall zone,
  strict_decode zone c_l1 (JObj [(lit "changeINDICATOR", JNum (lit "5"))]) (c_zero c_l1) <> None
  /\ strict_decode zone c_l1 (JObj [(lit "indicator", JNum (lit "5"))]) (c_zero c_l1) = None
  /\ c_decode zone c_l1 (JObj [(lit "indicator", JNum (lit "5"))]) (c_zero c_l1) = Some (c_zero c_l1).
Proof. exact strict_case. Qed.

(* what the client writes is read strictly *)
Theorem C111_strict_own : forall zone o c, good_object o c ->
  exists j, c_object c = Some j /\ strict_decode zone (client_table o) j (c_zero (client_table o)) = Some c.
Proof. exact own_strict. Qed.
Print Assumptions C111_strict_own.

Example C111_strict_own_case : good_object (OSegment L1) (l1_object "7").
Proof. exact strict_own_case. Qed.

(* what the server writes is not, where a field is not published *)
Theorem C111_strict_server : forall zone o st n v c, has_type (obj_struct o) st -> holds st n v -> In n (unpublished_fields o) -> ~ empty v ->
  strict_decode zone (client_table o) (obj_json o st) c = None.
Proof. exact server_strict. Qed.
Print Assumptions C111_strict_server.

Example C111_strict_server_case : holds (sample_fields OBase) "ProcessingIndicator" (VInt 1) /\ In "ProcessingIndicator" (unpublished_fields OBase) /\ ~ empty (VInt 1).
Proof. exact server_case. Qed.
