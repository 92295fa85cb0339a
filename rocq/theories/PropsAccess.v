(* C95: the constructors and accessors of the generated client *)
From Coq Require Import ZArith NArith Bool Ascii String List.
Import ListNotations.
From Verif Require Import GoBase GoTime Tables JsonTables Codec Records Json JsonFile ClientTypes ClientAccess
  SpecCodec SpecJson SpecSchema SpecClientTypes SpecAccess AccessFacts.
Local Open Scope string_scope.
Local Open Scope Z_scope.
Local Open Scope list_scope.
Local Notation length := List.length.

(* A constructor asks for the required properties, in the order of the schema. *)
Theorem C95_parameters o : params_of o = map pKey (required_of o).
Proof. exact (params_required o). Qed.
Print Assumptions C95_parameters.
Example C95_parameters_case : params_of (OSegment L1) = ["segmentIdentifier"; "changeIndicator"].
Proof. reflexivity. Qed.

(* After the constructor and any calls of setters the getters return the value
   of the last call of a property or its argument; what has neither is not set. *)
Theorem C95_object o args l : arguments o args -> Forall (setting o) l ->
  exists st, after_calls o args l = Ok st /\ client_object o st /\
  forall p, In p (obj_schema o) -> let c := client_field p in
    (forall v, held o args p l v ->
       c_getter c (Some st) = v /\ c_getter_ok c (Some st) = (Some v, true) /\ c_has c (Some st) = true) /\
    ((forall v, ~ held o args p l v) ->
       pRequired p = false /\ c_getter c (Some st) = c_zero_value (ctype_of (pType p))
       /\ c_getter_ok c (Some st) = (None, false) /\ c_has c (Some st) = false).
Proof. exact (access_object o args l). Qed.
Print Assumptions C95_object.
(* a property is set twice and an argument is replaced *)
Definition l1_property (n : nat) : property := nth n (obj_schema (OSegment L1)) (mkProperty "" TText false).
Definition l1_args : list value := [VStr (lit "L1"); VInt 1].
Definition l1_calls : list (property * value) :=
  [(l1_property 2, VStr (lit "123")); (l1_property 1, VInt 3); (l1_property 2, VStr (lit "12"))].
Example C95_object_case : arguments (OSegment L1) l1_args /\ Forall (setting (OSegment L1)) l1_calls
  /\ after_calls (OSegment L1) l1_args l1_calls
     = Ok [("segmentIdentifier", Some (VStr (lit "L1"))); ("changeIndicator", Some (VInt 3));
           ("newConsumerAccountNumber", Some (VStr (lit "123"))); ("balloonPaymentDueDate", None)].
Proof.
  split; [|split; [|vm_compute; reflexivity]].
  - constructor; [reflexivity|]. constructor; [split; [reflexivity|split; [discriminate|reflexivity]]|constructor].
  - assert (forall n v, (n < 4)%nat -> fits_type (pType (l1_property n)) v -> setting (OSegment L1) (l1_property n, v)) as S.
    { intros n v H F. split; [|exact F]. cbn [fst]. apply nth_In. exact H. }
    repeat apply Forall_cons; try apply Forall_nil; apply S; try (cbn; Lia.lia); try reflexivity.
    split; [reflexivity|split; [discriminate|reflexivity]].
Qed.

(* The JSON of the object has the keys of the properties that hold a value and
   no other ones: the required ones and those that were set. *)
Theorem C95_written o args l st ms : arguments o args -> Forall (setting o) l ->
  after_calls o args l = Ok st -> c_object st = Some (JObj ms) ->
  forall k, In k (map fst ms) <-> exists p v, In p (obj_schema o) /\ k = lit (pKey p) /\ held o args p l v.
Proof. exact (access_written o args l st ms). Qed.
Print Assumptions C95_written.
Example C95_written_case : match after_calls (OSegment L1) l1_args l1_calls with Ok st => c_object st | _ => None end
  = Some (JObj [(lit "changeIndicator", JNum (lit "3")); (lit "newConsumerAccountNumber", JStr (lit "123")); (lit "segmentIdentifier", JStr (lit "L1"))]).
Proof. vm_compute. reflexivity. Qed.

(* Values that JSON keeps make objects that JSON keeps: those of C81 and C83. *)
Theorem C95_good o args l st : arguments o args -> Forall (setting o) l ->
  Forall portable args -> Forall (fun c => portable (snd c)) l ->
  after_calls o args l = Ok st -> good_object o st.
Proof. exact (access_good o args l st). Qed.
Print Assumptions C95_good.
Example C95_good_case : Forall portable [VInt 1; VInt (-3)].
Proof. repeat constructor; cbn; discriminate. Qed.

(* Of a nil pointer the getters return zero values; setters panic. *)
Theorem C95_nil c v : c_getter c None = c_zero_value (cType c) /\ c_getter_ok c None = (None, false)
  /\ c_has c None = false /\ c_setter c v None = Panic.
Proof. exact (access_nil c v). Qed.
Print Assumptions C95_nil.
Example C95_nil_case : c_getter (mkC "balloonPaymentDueDate" CText true) None = VStr [].
Proof. reflexivity. Qed.

Theorem C95_nil_parts k c fc :
  (get_base None = c_zero c_base /\ get_base_ok None = (None, false)) /\
  (get_many k None = None /\ get_many_ok k None = (None, false) /\ has_many k None = false) /\
  (get_one k None = c_zero (c_segment k) /\ get_one_ok k None = (None, false) /\ has_one k None = false) /\
  (get_header None = c_zero c_header /\ get_header_ok None = (None, false)) /\
  (get_trailer None = c_zero c_trailer /\ get_trailer_ok None = (None, false)) /\
  (get_data None = None /\ get_data_ok None = (None, false) /\ has_data None = false) /\
  set_record c None = Panic /\ set_file fc None = Panic.
Proof. exact (access_nil_parts k c fc). Qed.
Print Assumptions C95_nil_parts.

(* Data records and files: the same for their parts. *)
Theorem C95_record b l r : Forall rcall_exists l -> record_after b l = Ok r ->
  (exists v, base_held b l v /\ get_base (Some r) = v /\ get_base_ok (Some r) = (Some v, true)) /\
  (forall k, repeats k -> exists v, many_held k l v /\ get_many k (Some r) = v
     /\ get_many_ok k (Some r) = (v, match v with Some _ => true | None => false end)
     /\ has_many k (Some r) = match v with Some _ => true | None => false end) /\
  (forall k, ~ repeats k -> exists v, one_held k l v /\ get_one k (Some r) = match v with Some x => x | None => c_zero (c_segment k) end
     /\ get_one_ok k (Some r) = (v, match v with Some _ => true | None => false end)
     /\ has_one k (Some r) = match v with Some _ => true | None => false end).
Proof. exact (access_record b l r). Qed.
Print Assumptions C95_record.
Example C95_record_case :
  Forall rcall_exists [ROne K3 (c_zero c_k3); RMany J1 (Some [])]
  /\ record_after (c_zero c_base) [ROne K3 (c_zero c_k3); RMany J1 (Some [])]
     = Ok (mkCRecord (c_zero c_base) (Some []) None None None (Some (c_zero c_k3)) None None None).
Proof. split; [|reflexivity]. repeat constructor. intros [X|X]; discriminate. Qed.

Theorem C95_file h t l f : file_after h t l = Ok f ->
  (exists v, header_held h l v /\ get_header (Some f) = v /\ get_header_ok (Some f) = (Some v, true)) /\
  (exists v, trailer_held t l v /\ get_trailer (Some f) = v /\ get_trailer_ok (Some f) = (Some v, true)) /\
  (exists v, data_held l v /\ get_data (Some f) = v /\ get_data_ok (Some f) = (v, match v with Some _ => true | None => false end)
     /\ has_data (Some f) = match v with Some _ => true | None => false end).
Proof. exact (access_file h t l f). Qed.
Print Assumptions C95_file.
Example C95_file_case : file_after (c_zero c_header) (c_zero c_trailer) [FData None; FData (Some [])]
  = Ok (mkCFile (c_zero c_header) None (c_zero c_trailer)).
Proof. reflexivity. Qed.

Theorem C95_calls : (forall b l, exists r, record_after b l = Ok r) /\ (forall h t l, exists f, file_after h t l = Ok f).
Proof. exact (conj record_calls file_calls). Qed.
Print Assumptions C95_calls.

Theorem C95_good_record b l r : good_object OBase b -> Forall rcall_exists l -> Forall good_rcall l ->
  record_after b l = Ok r -> good_record r.
Proof. exact (access_good_record b l r). Qed.
Print Assumptions C95_good_record.
Theorem C95_good_file h t l f : good_object OHeader h -> good_object OTrailer t -> Forall good_fcall l ->
  file_after h t l = Ok f -> good_file f.
Proof. exact (access_good_file h t l f). Qed.
Print Assumptions C95_good_file.
Example C95_good_file_case : Forall good_fcall [FData None; FData (Some [])].
Proof. repeat constructor; [discriminate|]. intros a [= <-]. constructor. Qed.

(* Nullable types: a value that was set is returned until it is unset, and JSON
   keeps it, nil included. *)
Theorem C95_nullable (A : Type) (n : nullable A) v :
  n_get (n_set v n) = v /\ n_is_set (n_set v n) = true /\ n_get (n_unset n) = None /\ n_is_set (n_unset n) = false
  /\ n_new v = n_set v nullable0 /\ n_unset n = nullable0.
Proof. exact (nullable_calls n v). Qed.
Print Assumptions C95_nullable.
Theorem C95_nullable_json zone o v : (forall c, v = Some c -> good_object o c) ->
  exists j, n_marshal c_object (n_new v) = Some j /\ n_unmarshal zone (client_table o) j nullable0 = Some (n_new v).
Proof. exact (nullable_json zone o v). Qed.
Print Assumptions C95_nullable_json.
(* NullableInt32, NullableInt64, NullableString, and NullableTime if not nil *)
Theorem C95_nullable_value zone t v n : (forall x, v = Some x -> portable x /\ fits_type t x) -> (ctype_of t = CStamp -> v <> None) ->
  exists j, n_marshal_value (ctype_of t) (n_new v) = Ok j /\ n_unmarshal_value zone (ctype_of t) j n = Some (n_new v).
Proof. exact (nullable_value_json zone t v n). Qed.
Print Assumptions C95_nullable_value.
Example C95_nullable_case : n_is_set (n_set (Some 1) (n_unset (n_new (Some 2)))) = true.
Proof. reflexivity. Qed.

(* JSON does not keep that a value was not set. *)
Theorem C95_unset_refuted : forall zone o, exists j, n_marshal c_object (nullable0 : nullable cobject) = Some j
  /\ n_unmarshal zone (client_table o) j nullable0 = Some (n_new None) /\ n_new None <> (nullable0 : nullable cobject).
Proof. exact nullable_unset_lost. Qed.
Print Assumptions C95_unset_refuted.

(* A NullableTime that is nil, set or not, panics when it is written. *)
Theorem C95_time_refuted : forall b, n_marshal_value CStamp (mkNullable None b) = Panic.
Proof. exact nil_time_panics. Qed.
Print Assumptions C95_time_refuted.
