(* The constructors and accessors of the generated client (pkg/client/model_*.go)
   and its Nullable types (the same files and pkg/client/utils.go).
   The generated functions follow one pattern for all types; they are modelled
   once, over the tables of ClientTypes.v. A pointer to a struct is an option,
   None for nil. That the pointers handed out by the ...Ok methods share memory with
   the struct is modelled in ClientMemory.v. *)
From Coq Require Import ZArith NArith Bool Ascii String List.
Import ListNotations.
From Verif Require Import GoBase GoTime Tables JsonTables Codec Records Json JsonFile ClientTypes.
Local Open Scope string_scope.
Local Open Scope Z_scope.
Local Open Scope list_scope.
Local Notation length := List.length.

(* ---- the parameters of the constructors, by the fields they are assigned to ---- *)

(* pkg/client/model_header_record.go:47-56 *)
Definition params_header : list string :=
  ["recordDescriptorWord"; "recordIdentifier"; "activityDate";
   "dateCreated"; "reporterName"; "reporterAddress"].
(* pkg/client/model_trailer_record.go:74-79 *)
Definition params_trailer : list string := ["recordDescriptorWord"; "recordIdentifier"].
(* pkg/client/model_base_segment.go:74-93 *)
Definition params_base : list string :=
  ["recordDescriptorWord"; "identificationNumber"; "consumerAccountNumber"; "accountType"; "highestCredit"; "termsDuration"; "accountStatus"; "paymentHistoryProfile";
   "currentBalance"; "dateAccountInformation"; "surname"; "firstName"; "ecoaCode"; "firstLineAddress"; "state"; "zipCode"].
(* pkg/client/model_j1_segment.go:39-46 *)
Definition params_j1 : list string := ["segmentIdentifier"; "surname"; "firstName"; "ecoaCode"].
(* pkg/client/model_j2_segment.go:47-58 *)
Definition params_j2 : list string :=
  ["segmentIdentifier"; "surname"; "firstName"; "ecoaCode";
   "firstLineAddress"; "city"; "state"; "zipCode"].
(* pkg/client/model_k1_segment.go:31-37 *)
Definition params_k1 : list string := ["segmentIdentifier"; "originalCreditorName"; "creditorClassification"].
(* pkg/client/model_k2_segment.go:31-37 *)
Definition params_k2 : list string := ["segmentIdentifier"; "purchasedIndicator"; "purchasedName"].
(* pkg/client/model_k3_segment.go:32-36 *)
Definition params_k3 : list string := ["segmentIdentifier"].
(* pkg/client/model_k4_segment.go:34-39 *)
Definition params_k4 : list string := ["segmentIdentifier"; "specializedPaymentIndicator"].
(* pkg/client/model_l1_segment.go:32-37 *)
Definition params_l1 : list string := ["segmentIdentifier"; "changeIndicator"].
(* pkg/client/model_n1_segment.go:36-41 *)
Definition params_n1 : list string := ["segmentIdentifier"; "employerName"].
(* pkg/client/model_data_record.go:21-31 *)
Definition params_segment (k : segkind) : list string :=
  match k with
  | J1 => params_j1 | J2 => params_j2 | K1 => params_k1 | K2 => params_k2
  | K3 => params_k3 | K4 => params_k4 | L1 => params_l1 | N1 => params_n1
  end.

(* ---- objects ---- *)

(* the statements this.X = x of a constructor, e.g. pkg/client/model_k4_segment.go:36-37 *)
Fixpoint assign (params : list string) (args : list value) (o : cobject) : cobject :=
  match params, args with
  | k :: ps, v :: vs => assign ps vs (c_set k (Some v) o)
  | _, _ => o
  end.
(* NewX, e.g. pkg/client/model_k4_segment.go:34-39; the compiler sees to the
   number of arguments *)
Definition c_new (tbl : list cfield) (params : list string) (args : list value) : cobject :=
  assign params args (c_zero tbl).
(* NewXWithDefaults, e.g. pkg/client/model_k3_segment.go:41-44 *)
Definition c_new_defaults (tbl : list cfield) : cobject := c_zero tbl.

(* GetX, e.g. pkg/client/model_k3_segment.go:47-54 and 71-77 *)
Definition c_getter (c : cfield) (o : option cobject) : value :=
  match o with
  | None => c_zero_value (cType c)
  | Some st => match c_get (cKey c) st with Some v => v | None => c_zero_value (cType c) end
  end.
(* GetXOk, e.g. pkg/client/model_k3_segment.go:58-63 and 81-86: what the pointer
   points to *)
Definition c_getter_ok (c : cfield) (o : option cobject) : option value * bool :=
  match o with
  | None => (None, false)
  | Some st => match c_get (cKey c) st with Some v => (Some v, true) | None => (None, false) end
  end.
(* HasX of optional fields, e.g. pkg/client/model_k3_segment.go:89-95 *)
Definition c_has (c : cfield) (o : option cobject) : bool :=
  match o with
  | None => false
  | Some st => match c_get (cKey c) st with Some _ => true | None => false end
  end.
(* SetX, e.g. pkg/client/model_k3_segment.go:66-68 and 98-100; a nil pointer panics *)
Definition c_setter (c : cfield) (v : value) (o : option cobject) : res cobject :=
  match o with
  | None => Panic
  | Some st => Ok (c_set (cKey c) (Some v) st)
  end.

(* ---- data records ---- *)

(* NewDataRecord, pkg/client/model_data_record.go:37-41 *)
Definition new_crecord (b : cobject) : crecord := mkCRecord b None None None None None None None None.

(* the fields, pkg/client/model_data_record.go:21-31 *)
Definition many_of (k : segkind) (r : crecord) : option (list cobject) :=
  match k with J1 => crJ1 r | J2 => crJ2 r | _ => None end.
(* pkg/client/model_data_record.go:21-31 *)
Definition one_of (k : segkind) (r : crecord) : option cobject :=
  match k with
  | K1 => crK1 r | K2 => crK2 r | K3 => crK3 r | K4 => crK4 r | L1 => crL1 r | N1 => crN1 r
  | _ => None
  end.

(* GetBase, pkg/client/model_data_record.go:52-59 *)
Definition get_base (r : option crecord) : cobject :=
  match r with None => c_zero c_base | Some x => crBase x end.
(* GetBaseOk, pkg/client/model_data_record.go:63-68 *)
Definition get_base_ok (r : option crecord) : option cobject * bool :=
  match r with None => (None, false) | Some x => (Some (crBase x), true) end.
(* GetJ1, GetJ2, pkg/client/model_data_record.go:76-82, 108-114; None is the nil slice *)
Definition get_many (k : segkind) (r : option crecord) : option (list cobject) :=
  match r with None => None | Some x => match many_of k x with Some l => Some l | None => None end end.
(* GetJ1Ok, GetJ2Ok, pkg/client/model_data_record.go:86-91, 118-123 *)
Definition get_many_ok (k : segkind) (r : option crecord) : option (list cobject) * bool :=
  match r with
  | None => (None, false)
  | Some x => match many_of k x with Some l => (Some l, true) | None => (None, false) end
  end.
(* GetK1 to GetN1, pkg/client/model_data_record.go:140-146, 172-178, 204-210, 236-242,
   268-274, 300-306 *)
Definition get_one (k : segkind) (r : option crecord) : cobject :=
  match r with
  | None => c_zero (c_segment k)
  | Some x => match one_of k x with Some o => o | None => c_zero (c_segment k) end
  end.
(* GetK1Ok to GetN1Ok, pkg/client/model_data_record.go:150-155, 182-187, 214-219, 246-251,
   278-283, 310-315 *)
Definition get_one_ok (k : segkind) (r : option crecord) : option cobject * bool :=
  match r with
  | None => (None, false)
  | Some x => match one_of k x with Some o => (Some o, true) | None => (None, false) end
  end.
(* HasJ1, HasJ2, pkg/client/model_data_record.go:94-100, 126-132 *)
Definition has_many (k : segkind) (r : option crecord) : bool :=
  match r with None => false | Some x => match many_of k x with Some _ => true | None => false end end.
(* HasK1 to HasN1, pkg/client/model_data_record.go:158-164, 190-196, 222-228, 254-260,
   286-292, 318-324 *)
Definition has_one (k : segkind) (r : option crecord) : bool :=
  match r with None => false | Some x => match one_of k x with Some _ => true | None => false end end.

(* the calls of setters: SetBase; SetJ1, SetJ2; SetK1 to SetN1;
   pkg/client/model_data_record.go:71-329 *)
Inductive rcall := RBase (b : cobject) | RMany (k : segkind) (l : option (list cobject)) | ROne (k : segkind) (o : cobject).
(* pkg/client/model_data_record.go:71-73, 103-105, 135-137, 167-169, 199-201, 231-233,
   263-265, 295-297, 327-329 *)
Definition set_part (c : rcall) (x : crecord) : crecord :=
  let '(mkCRecord b j1 j2 k1 k2 k3 k4 l1 n1) := x in
  match c with
  | RBase v => mkCRecord v j1 j2 k1 k2 k3 k4 l1 n1
  | RMany J1 v => mkCRecord b v j2 k1 k2 k3 k4 l1 n1
  | RMany J2 v => mkCRecord b j1 v k1 k2 k3 k4 l1 n1
  | RMany _ _ => x
  | ROne K1 v => mkCRecord b j1 j2 (Some v) k2 k3 k4 l1 n1
  | ROne K2 v => mkCRecord b j1 j2 k1 (Some v) k3 k4 l1 n1
  | ROne K3 v => mkCRecord b j1 j2 k1 k2 (Some v) k4 l1 n1
  | ROne K4 v => mkCRecord b j1 j2 k1 k2 k3 (Some v) l1 n1
  | ROne L1 v => mkCRecord b j1 j2 k1 k2 k3 k4 (Some v) n1
  | ROne N1 v => mkCRecord b j1 j2 k1 k2 k3 k4 l1 (Some v)
  | ROne _ _ => x
  end.
(* on a pointer, pkg/client/model_data_record.go:71-73 *)
Definition set_record (c : rcall) (r : option crecord) : res crecord :=
  match r with None => Panic | Some x => Ok (set_part c x) end.

(* ---- files ---- *)

(* NewFile, pkg/client/model_file.go:31-36 *)
Definition new_cfile (h t : cobject) : cfile := mkCFile h None t.
(* GetHeader, pkg/client/model_file.go:47-54 *)
Definition get_header (f : option cfile) : cobject := match f with None => c_zero c_header | Some x => cfHeader x end.
(* GetHeaderOk, pkg/client/model_file.go:58-63 *)
Definition get_header_ok (f : option cfile) : option cobject * bool :=
  match f with None => (None, false) | Some x => (Some (cfHeader x), true) end.
(* GetData, pkg/client/model_file.go:71-77 *)
Definition get_data (f : option cfile) : option (list crecord) :=
  match f with None => None | Some x => match cfData x with Some l => Some l | None => None end end.
(* GetDataOk, pkg/client/model_file.go:81-86 *)
Definition get_data_ok (f : option cfile) : option (list crecord) * bool :=
  match f with None => (None, false) | Some x => match cfData x with Some l => (Some l, true) | None => (None, false) end end.
(* HasData, pkg/client/model_file.go:89-95 *)
Definition has_data (f : option cfile) : bool :=
  match f with None => false | Some x => match cfData x with Some _ => true | None => false end end.
(* GetTrailer, pkg/client/model_file.go:103-110 *)
Definition get_trailer (f : option cfile) : cobject := match f with None => c_zero c_trailer | Some x => cfTrailer x end.
(* GetTrailerOk, pkg/client/model_file.go:114-119 *)
Definition get_trailer_ok (f : option cfile) : option cobject * bool :=
  match f with None => (None, false) | Some x => (Some (cfTrailer x), true) end.
(* SetHeader, SetData, SetTrailer; pkg/client/model_file.go:66-124 *)
Inductive fcall := FHeader (h : cobject) | FData (l : option (list crecord)) | FTrailer (t : cobject).
(* pkg/client/model_file.go:66-68, 98-100, 122-124 *)
Definition set_file_part (c : fcall) (x : cfile) : cfile :=
  match c with
  | FHeader h => mkCFile h (cfData x) (cfTrailer x)
  | FData l => mkCFile (cfHeader x) l (cfTrailer x)
  | FTrailer t => mkCFile (cfHeader x) (cfData x) t
  end.
(* on a pointer, pkg/client/model_file.go:66-68 *)
Definition set_file (c : fcall) (f : option cfile) : res cfile :=
  match f with None => Panic | Some x => Ok (set_file_part c x) end.

(* ---- Nullable types ---- *)

(* pkg/client/model_k3_segment.go:189-192, pkg/client/utils.go:43-46 *)
Record nullable (A : Type) := mkNullable { nValue : option A; nSet : bool }.
Arguments mkNullable {A}. Arguments nValue {A}. Arguments nSet {A}.
(* the zero value of the type, pkg/client/utils.go:43-46 *)
Definition nullable0 {A} : nullable A := mkNullable None false.
(* Get, pkg/client/model_k3_segment.go:194-196 *)
Definition n_get {A} (n : nullable A) : option A := nValue n.
(* Set, pkg/client/model_k3_segment.go:198-201 *)
Definition n_set {A} (v : option A) (n : nullable A) : nullable A := mkNullable v true.
(* IsSet, pkg/client/model_k3_segment.go:203-205 *)
Definition n_is_set {A} (n : nullable A) : bool := nSet n.
(* Unset, pkg/client/model_k3_segment.go:207-210 *)
Definition n_unset {A} (n : nullable A) : nullable A := mkNullable None false.
(* NewNullableX, pkg/client/model_k3_segment.go:212-214 *)
Definition n_new {A} (v : option A) : nullable A := mkNullable v true.
(* MarshalJSON of an object type, pkg/client/model_k3_segment.go:216-218; [enc] is that of the type *)
Definition n_marshal {A} (enc : A -> option json) (n : nullable A) : option json :=
  match nValue n with None => Some JNull | Some v => enc v end.
(* UnmarshalJSON of an object type, pkg/client/model_k3_segment.go:220-223 *)
Definition n_unmarshal (zone : bytes -> time -> time) (tbl : list cfield) (j : json) (n : nullable cobject) : option (nullable cobject) :=
  option_map (fun v => mkNullable v true) (c_decode_ptr zone tbl j (nValue n)).
(* UnmarshalJSON of NullableInt32, NullableInt64, NullableString and NullableTime,
   pkg/client/utils.go:146-149, 182-185, 290-293, 326-329; the other ones of
   utils.go are in ClientScalars.v and ClientSingles.v *)
Definition n_unmarshal_value (zone : bytes -> time -> time) (t : ctype) (j : json) (n : nullable value) : option (nullable value) :=
  option_map (fun v => mkNullable v true) (c_decode_value zone (mkC "" t true) (nValue n) j).
(* their MarshalJSON, pkg/client/utils.go:142-144, 178-180, 286-288, 322-324:
   json.Marshal of the pointer, but NullableTime calls the method of the time
   that its pointer points to *)
Definition n_marshal_value (t : ctype) (n : nullable value) : res json :=
  match t, nValue n with
  | CStamp, None => Panic
  | _, None => Ok JNull
  | _, Some v => match c_value v with Some j => Ok j | None => Err (ErrOther "json") end
  end.
