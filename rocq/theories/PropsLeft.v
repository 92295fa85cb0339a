(* Properties of what JSON that is refused leaves behind: C103 *)
From Coq Require Import ZArith NArith Bool Ascii String List Lia.
Import ListNotations.
From Verif Require Import GoBase GoTime GoLayout Json Tables Codec Records File Reader JsonFile JsonLeft
  SpecCodec SpecLayouts SpecRecords SpecJson JsonFacts JsonCases SpecSparse SparseCases SpecMerge MergeCases SpecAccept AcceptFacts AcceptCases
  SpecLeft LeftFacts LeftCases.
Local Open Scope string_scope.
Local Open Scope Z_scope.
Local Open Scope list_scope.
Local Notation length := List.length.

(* C103: "JSON that is refused leaves the file or record as it was" *)

(* full statement: forall rt j f g e, left_file rt j f = (g, Err e) -> g = f; it is
   false: a header is read in place, data records are added one by one *)
Theorem C103_refuted : exists rt j f g e, orders rt /\ plain_json j /\ tidy j /\ framed f /\ left_file rt j f = (g, Err e) /\ g <> f.
Proof. exact changed. Qed.
Print Assumptions C103_refuted.
Theorem C103_record_refuted : exists rt n j b c e, orders rt /\ plain_json j /\ tidy j /\ left_base rt n j b = (c, Err e) /\ c <> b.
Proof. exact changed_record. Qed.
Print Assumptions C103_record_refuted.

(* what is left, and whether there is an error, is what C102 is about *)
Theorem C103_agrees : forall rt j f, unmarshal_file rt j f =
  match left_file rt j f with (g, Ok _) => Ok g | (_, Err e) => Err e | (_, Panic) => Panic end.
Proof. exact file_agrees. Qed.
Print Assumptions C103_agrees.
Theorem C103_record_agrees : forall rt n j b, unmarshal_base rt n j b =
  match left_base rt n j b with (c, Ok _) => Ok c | (_, Err e) => Err e | (_, Panic) => Panic end.
Proof. exact base_agrees. Qed.
Print Assumptions C103_record_agrees.
Theorem C103_reader_agrees : forall rt evs input, new_file_from_reader rt evs input =
  option_map (fun r => match r with (Some f, Ok _) => Ok f | (_, Err e) => Err e | _ => Panic end) (left_new rt evs input).
Proof. exact new_told. Qed.
Print Assumptions C103_reader_agrees.

(* restricted: the format and what there was of data records is kept; a member that
   is refused is read up to its first fault, one that is not reached does nothing *)
Theorem C103_file_partial : forall rt j f, orders rt -> plain_json j -> tidy j -> framed f ->
  leaves_file (rtZone rt) j f (fst (left_file rt j f)).
Proof. exact file_left. Qed.
Print Assumptions C103_file_partial.

Example C103_file_case : plain_json broken_json /\ tidy broken_json /\ framed held_file
  /\ left_file plain_host broken_json held_file = (broken_file, Err (ErrOther "Unable to parse input json file")).
Proof. exact (conj broken_plain (conj broken_tidy (conj held_framed broken_left))). Qed.
Example C103_gone_case : left_file plain_host (JObj undated_json) held_file = (gone_file, Err (ErrOther "Unable to parse input json file")).
Proof. exact gone_left. Qed.
Example C103_data_case : left_file plain_host (JObj counted_json) held_file = (half_file, Err (ErrOther "Unable to parse input json file")).
Proof. exact half_left. Qed.
Example C103_order_case : earlier (lit "cycleIdentifier") (lit "dateCreated") /\ earlier (lit "dateCreated") (lit "reporterName") /\ ~ earlier (lit "b") (lit "a").
Proof. exact order_case. Qed.

(* of a header or trailer that is reached this is all there is to say *)
Theorem C103_once : forall rt s j old a b, NoDup (map fst s) -> tidy j -> has_type s old ->
  leaves_struct (rtZone rt) s j old a -> leaves_struct (rtZone rt) s j old b -> a = b.
Proof. exact leaves_struct_unique. Qed.
Print Assumptions C103_once.

(* a data record: its own fields and its segments are taken whole or not at all; J1
   and J2 segments are gone *)
Theorem C103_record_partial : forall rt n j b, orders rt -> plain_json j -> tidy j ->
  leaves_base (rtZone rt) j b (fst (left_base rt n j b)).
Proof. exact base_left. Qed.
Print Assumptions C103_record_partial.

Example C103_record_case : exists e, left_base plain_host 1 (JObj unknown_json) held_record = (bared_record, Err e).
Proof. exact bared_left. Qed.

(* JSON that is no object changes nothing *)
Theorem C103_nothing : forall rt j f, orders rt -> plain_json j -> tidy j -> framed f -> shapeless j -> fst (left_file rt j f) = f.
Proof. exact nothing_left. Qed.
Print Assumptions C103_nothing.
Theorem C103_record_nothing : forall rt n j b, orders rt -> plain_json j -> tidy j -> shapeless j -> fst (left_base rt n j b) = b.
Proof. exact nothing_left_base. Qed.
Print Assumptions C103_record_nothing.

(* if nothing but the header is refused, it is reached *)
Theorem C103_header : forall rt l v f q h r t, orders rt -> plain_json (JObj l) -> tidy (JObj l) -> framed f -> In (lit "header", v) l ->
  flHeader f = RHeader q h -> flTrailer f = RTrailer r t ->
  (forall x, In (lit "data", x) l -> exists bases, takes_list (takes_data (rtZone rt)) x bases) ->
  (forall x, In (lit "trailer", x) l -> exists t', takes_struct (rtZone rt) trailer_struct x t t') ->
  exists h', flHeader (fst (left_file rt (JObj l) f)) = RHeader q h' /\ leaves_struct (rtZone rt) header_struct v h h'.
Proof. exact header_reached. Qed.
Print Assumptions C103_header.

(* CreateFile and NewFileFromReader: what they return beside an error *)
Theorem C103_create : forall rt j s w rest, orders rt -> plain_json j -> tidy j -> Forall white w -> spells j s -> (rest = [] \/ exists l, j = JObj l) ->
  match left_create rt (w ++ s ++ rest) with
  | (None, _) => forall p, ~ takes_format (rtZone rt) j p
  | (Some g, _) => exists p h t, takes_format (rtZone rt) j p
      /\ fresh header_struct ("RecordIdentifier", lit "HEADER") h /\ fresh trailer_struct ("RecordIdentifier", lit "TRAILER") t
      /\ leaves_file (rtZone rt) j (mkFile p (RHeader p h) [] (RTrailer p t)) g
  end.
Proof. exact create_left. Qed.
Print Assumptions C103_create.

Example C103_create_case : exists e, left_create plain_host (print (JObj counted_json))
  = (Some (mkFile false (RHeader false new_header) [RBase false new_base] (RTrailer false new_trailer)), Err e).
Proof. exact half_created. Qed.
Example C103_create_none : exists e, left_create plain_host (print (JObj array_json)) = (None, Err e).
Proof. exact array_created. Qed.

(* a file comes with an error only when the input is taken for JSON *)
Theorem C103_reader : forall rt evs input g e, left_new rt evs input = Some (Some g, Err e) ->
  (exists a b, input = a ++ "{"%char :: b /\ (length a < 1024)%nat) /\ left_create rt input = (Some g, Err e).
Proof. exact new_left. Qed.
Print Assumptions C103_reader.

Example C103_reader_case : exists g e, left_new plain_host [] (print (JObj counted_json)) = Some (Some g, Err e).
Proof. exact half_read. Qed.
