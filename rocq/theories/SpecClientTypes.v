(* Specification: the objects of the client and the records they stand for *)
From Coq Require Import ZArith NArith Bool Ascii String List.
Import ListNotations.
From Verif Require Import GoBase GoTime Tables JsonTables Codec Records File Json JsonFile SpecCodec SpecLayouts SpecRecords SpecJson SpecSparse SpecSchema ClientTypes.
Local Open Scope string_scope.
Local Open Scope Z_scope.
Local Open Scope list_scope.
Local Notation length := List.length.

(* ---- objects ---- *)

Definition client_table (o : object) : list cfield :=
  match o with OHeader => c_header | OTrailer => c_trailer | OBase => c_base | OSegment k => c_segment k end.

(* the bits of an integer property: 32 where only values are published *)
Definition bits_of (t : ptype) : Z := match t with TInt b => b | _ => 32 end.

(* the value is one of the type of the property *)
Definition fits_type (t : ptype) (v : value) : Prop :=
  match v with
  | VInt z => type_kind t = KInt /\ - 2 ^ (bits_of t - 1) <= z < 2 ^ (bits_of t - 1)
  | VStr _ => type_kind t = KStr
  | VTime _ => type_kind t = KTime
  end.

(* one value for every published property, none only if it is not required *)
Definition client_object (o : object) (c : cobject) : Prop :=
  Forall2 (fun p m => fst m = pKey p /\ match snd m with Some v => fits_type (pType p) v | None => pRequired p = false end) (obj_schema o) c.

(* values that JSON keeps: numbers up to 2^53, UTF-8 texts, times of years of
   four digits in UTC or in another zone of whole minutes *)
Definition portable (v : value) : Prop :=
  match v with
  | VInt z => Z.abs z <= 2 ^ 53
  | VStr s => utf8_text s
  | VTime t => calendar_time t /\ 0 <= tNsec t < 10 ^ 9 /\ (tOff t = None \/ exists z, tOff t = Some z /\ zone_minutes z)
  end.
(* no year of four digits, or a zone a day or more away: not to be written *)
Definition untimely (v : value) : Prop :=
  exists t, v = VTime t /\ (tYear t < 0 \/ 9999 < tYear t \/ exists z, tOff t = Some z /\ (z <= -86400 \/ 86400 <= z)).
Definition good_object (o : object) (c : cobject) : Prop :=
  client_object o c /\ forall k v, In (k, Some v) c -> portable v.

Definition good_many (k : segkind) (l : option (list cobject)) : Prop := forall a, l = Some a -> Forall (good_object (OSegment k)) a.
Definition good_one (k : segkind) (x : option cobject) : Prop := forall c, x = Some c -> good_object (OSegment k) c.
Definition good_record (r : crecord) : Prop :=
  good_object OBase (crBase r) /\ good_many J1 (crJ1 r) /\ good_many J2 (crJ2 r)
  /\ good_one K1 (crK1 r) /\ good_one K2 (crK2 r) /\ good_one K3 (crK3 r)
  /\ good_one K4 (crK4 r) /\ good_one L1 (crL1 r) /\ good_one N1 (crN1 r).
Definition good_file (f : cfile) : Prop :=
  good_object OHeader (cfHeader f) /\ good_object OTrailer (cfTrailer f) /\ forall l, cfData f = Some l -> Forall good_record l.

(* the type of the client for a published type *)
Definition ctype_of (t : ptype) : ctype :=
  match type_kind t with KInt => CInt (bits_of t) | KStr => CText | KTime => CStamp end.
Definition client_field (p : property) : cfield := mkC (pKey p) (ctype_of (pType p)) (negb (pRequired p)).

(* ---- what an object of the client stands for ---- *)

(* every field has the value the object has for its property; a field without
   one is left out *)
Definition stands_for (o : object) (c : cobject) (st : fields) : Prop :=
  has_type (obj_struct o) st /\
  forall n v, holds st n v ->
    (exists p, property_of o p n /\ In (pKey p, Some v) c)
    \/ ((forall p w, property_of o p n -> ~ In (pKey p, Some w) c) /\ left_out (obj_id o) n v).

Definition stands_for_segment (k : segkind) (c : cobject) (s : segment) : Prop := sKind s = k /\ stands_for (OSegment k) c (sFields s).
Definition listed {A} (x : option (list A)) : list A := match x with Some l => l | None => [] end.
Definition same_option {A B} (R : A -> B -> Prop) (x : option A) (y : option B) : Prop :=
  match x, y with Some a, Some b => R a b | None, None => True | _, _ => False end.

Definition stands_for_base (r : crecord) (b : base) : Prop :=
  stands_for OBase (crBase r) (bFields b)
  /\ Forall2 (stands_for_segment J1) (listed (crJ1 r)) (bJ1 b) /\ Forall2 (stands_for_segment J2) (listed (crJ2 r)) (bJ2 b)
  /\ same_option (stands_for_segment K1) (crK1 r) (bK1 b) /\ same_option (stands_for_segment K2) (crK2 r) (bK2 b)
  /\ same_option (stands_for_segment K3) (crK3 r) (bK3 b) /\ same_option (stands_for_segment K4) (crK4 r) (bK4 b)
  /\ same_option (stands_for_segment L1) (crL1 r) (bL1 b) /\ same_option (stands_for_segment N1) (crN1 r) (bN1 b).

Definition stands_for_file (c : cfile) (f : file) : Prop :=
  exists h bases t, f = mkFile (flPacked f) (RHeader (flPacked f) h) (map (RBase (flPacked f)) bases) (RTrailer (flPacked f) t)
  /\ stands_for OHeader (cfHeader c) h /\ Forall2 stands_for_base (listed (cfData c)) bases /\ stands_for OTrailer (cfTrailer c) t.

(* every segment of the file is valid *)
Definition valid_segments (f : file) : Prop :=
  forall p b s, In (RBase p b) (flBases f) -> In s (segments_of b) -> seg_validate s = None.

(* ---- what the client makes of a record ---- *)

(* a value the client can read: a number of its size, a date that is not missing *)
Definition client_reads (t : ptype) (v : value) : Prop := fits_type t v /\ v <> VTime no_date.
Definition client_readable (o : object) (st : fields) : Prop :=
  forall p n v, property_of o p n -> holds st n v -> client_reads (pType p) v.

(* the object has the values of the published fields; empty fields that are not
   written are nil, and so are the properties the record does not keep *)
Definition receives (o : object) (st : fields) (c : cobject) : Prop :=
  client_object o c /\
  forall p, In p (obj_schema o) ->
    (exists n v, property_of o p n /\ holds st n v
       /\ (((~ empty v \/ always_written o n \/ pRequired p = true) /\ In (pKey p, Some v) c)
           \/ (empty v /\ ~ always_written o n /\ pRequired p = false /\ In (pKey p, None) c)))
    \/ (In (pKey p) (unknown_properties o) /\ In (pKey p, None) c).

(* every object of a record and of a file *)
Definition base_each (P : object -> fields -> Prop) (b : base) : Prop :=
  P OBase (bFields b) /\ forall s, In s (segments_of b) -> P (OSegment (sKind s)) (sFields s).
Definition record_each (P : object -> fields -> Prop) (r : record) : Prop :=
  match r with
  | RHeader _ st => P OHeader st
  | RTrailer _ st => P OTrailer st
  | RBase _ b => base_each P b
  end.
Definition file_each (P : object -> fields -> Prop) (f : file) : Prop :=
  record_each P (flHeader f) /\ Forall (record_each P) (flBases f) /\ record_each P (flTrailer f).

Notation readable_base := (base_each client_readable).
Notation readable_file := (file_each client_readable).

(* no published date is missing *)
Definition all_dated (o : object) (st : fields) : Prop := forall p n, property_of o p n -> ~ holds st n (VTime no_date).

Definition receives_segment (k : segkind) (s : segment) (c : cobject) : Prop := receives (OSegment k) (sFields s) c.
(* no segments: no slice *)
Definition receives_many (k : segkind) (l : list segment) (x : option (list cobject)) : Prop :=
  match x with Some a => l <> [] /\ Forall2 (receives_segment k) l a | None => l = [] end.
Definition receives_base (b : base) (r : crecord) : Prop :=
  receives OBase (bFields b) (crBase r)
  /\ receives_many J1 (bJ1 b) (crJ1 r) /\ receives_many J2 (bJ2 b) (crJ2 r)
  /\ same_option (receives_segment K1) (bK1 b) (crK1 r) /\ same_option (receives_segment K2) (bK2 b) (crK2 r)
  /\ same_option (receives_segment K3) (bK3 b) (crK3 r) /\ same_option (receives_segment K4) (bK4 b) (crK4 r)
  /\ same_option (receives_segment L1) (bL1 b) (crL1 r) /\ same_option (receives_segment N1) (bN1 b) (crN1 r).
(* [isNil]: the slice of data records is nil *)
Definition receives_file (isNil : bool) (f : file) (c : cfile) : Prop :=
  exists h bases t, f = mkFile (flPacked f) (RHeader (flPacked f) h) (map (RBase (flPacked f)) bases) (RTrailer (flPacked f) t)
  /\ receives OHeader h (cfHeader c) /\ receives OTrailer t (cfTrailer c)
  /\ match cfData c with
     | Some l => (bases = [] -> isNil = false) /\ Forall2 receives_base bases l
     | None => bases = [] /\ isNil = true
     end.

(* ---- what gets lost on the way to the library and back ---- *)

(* nothing is stated for the properties the library does not keep *)
Definition known_only (o : object) (c : cobject) : Prop := forall k v, In (k, Some v) c -> ~ In k (unknown_properties o).
(* the fields that are not published are empty *)
Definition published_only (o : object) (st : fields) : Prop := forall n v, In n (unpublished_fields o) -> holds st n v -> empty v.
