(* The memory behind the objects of the generated client (pkg/client/model_*.go):
   which pointers lead to which fields. A required field is part of its struct, an
   optional field is a pointer to a place of its own. Programs are sequences of calls
   on the eleven types without lists; objects, pointers and maps are numbered in the
   order in which they come up. What the compiler refuses answers [SNothing]; a
   program goes on after a panic, as after recover. *)
From Coq Require Import ZArith NArith Bool Arith Ascii String List.
Import ListNotations.
From Verif Require Import GoBase GoTime Tables JsonTables Codec Records Json JsonFile ClientTypes.
Local Open Scope string_scope.
Local Open Scope list_scope.
Local Notation length := List.length.

(* a struct at some place: the addresses of its required fields, the pointers in its
   optional ones, e.g. pkg/client/model_k3_segment.go:21-26 *)
Record mobject := mkMObject { mTable : list cfield; mSlot : string -> option nat }.
(* an element of a map[string]interface{}, e.g. pkg/client/model_k3_segment.go:174-187 *)
Inductive mentry := EValue (v : value) | EPointer (a : nat).
(* what the variables of a program with these objects hold, e.g. those of type
   pkg/client/model_k3_segment.go:21-26, the pointers of 58-63, the maps of 174-187 *)
Record memory := mkMemory {
  mCell : nat -> value; mNext : nat;
  mObject : nat -> option mobject; mObjects : nat;
  mPointer : nat -> option nat; mPointers : nat;
  mMap : nat -> option (string -> option mentry); mMaps : nat }.

(* the calls: NewX, a copy of a struct, SetX, GetX, HasX, GetXOk, writing and reading
   through a pointer, ToMap, an element of the map, the pointer in an element;
   e.g. pkg/client/model_k3_segment.go:32-187 *)
Inductive mcall :=
| PNew (tbl : list cfield) (params : list string) (args : list value)
| PCopy (i : nat)
| PSet (i : nat) (k : string) (v : value)
| PGet (i : nat) (k : string)
| PHas (i : nat) (k : string)
| PGetOk (i : nat) (k : string)
| PWrite (p : nat) (v : value)
| PRead (p : nat)
| PMap (i : nat)
| PEntry (m : nat) (k : string)
| PTake (m : nat) (k : string).
(* what a call shows, e.g. pkg/client/model_k3_segment.go:58-63 *)
Inductive seen := SValue (v : value) | SBool (b : bool) | SPanic | SNothing.

(* assignment to a variable, e.g. pkg/client/model_k3_segment.go:67 *)
Definition put {A} (f : nat -> A) (n : nat) (x : A) : nat -> A := fun j => if Nat.eqb j n then x else f j.
(* assignment to a field, e.g. pkg/client/model_k3_segment.go:99 *)
Definition put_slot (f : string -> option nat) (k : string) (a : nat) : string -> option nat :=
  fun l => if String.eqb l k then Some a else f l.

(* a field of a type, e.g. pkg/client/model_k3_segment.go:21-26 *)
Definition m_field (k : string) (tbl : list cfield) : option cfield := find (fun c => String.eqb (cKey c) k) tbl.
(* its place in the struct, e.g. pkg/client/model_k3_segment.go:21-26 *)
Fixpoint m_index (k : string) (tbl : list cfield) : nat :=
  match tbl with
  | [] => 0%nat
  | c :: r => if String.eqb (cKey c) k then 0%nat else Datatypes.S (m_index k r)
  end.

(* memory for a struct whose required fields hold [init] and whose optional fields are
   the pointers [shared], e.g. pkg/client/model_k3_segment.go:33 *)
Definition m_struct (tbl : list cfield) (init : cfield -> value) (shared : string -> option nat) (m : memory) : memory :=
  let at_field k :=
    match m_field k tbl with
    | Some c => if cPtr c then shared k else Some (mNext m + m_index k tbl)%nat
    | None => None
    end in
  let cell a :=
    if (mNext m <=? a)%nat
    then match nth_error tbl (a - mNext m) with Some c => init c | None => mCell m a end
    else mCell m a in
  mkMemory cell (mNext m + length tbl) (put (mObject m) (mObjects m) (Some (mkMObject tbl at_field))) (Datatypes.S (mObjects m))
    (mPointer m) (mPointers m) (mMap m) (mMaps m).

(* *p = v, e.g. of pkg/client/model_k3_segment.go:58-63 *)
Definition m_write (a : nat) (v : value) (m : memory) : memory :=
  mkMemory (put (mCell m) a v) (mNext m) (mObject m) (mObjects m) (mPointer m) (mPointers m) (mMap m) (mMaps m).

(* SetX, e.g. pkg/client/model_k3_segment.go:66-68 and 98-100: a required field is
   written where it is, an optional one gets the address of the parameter, a new variable *)
Definition m_set (i : nat) (k : string) (v : value) (m : memory) : memory :=
  match mObject m i with
  | None => m
  | Some o =>
      match m_field k (mTable o) with
      | None => m
      | Some c =>
          if cPtr c
          then mkMemory (put (mCell m) (mNext m) v) (Datatypes.S (mNext m))
                 (put (mObject m) i (Some (mkMObject (mTable o) (put_slot (mSlot o) k (mNext m))))) (mObjects m)
                 (mPointer m) (mPointers m) (mMap m) (mMaps m)
          else match mSlot o k with Some a => m_write a v m | None => m end
      end
  end.

(* the statements this.X = x of a constructor, e.g. pkg/client/model_k4_segment.go:36-37 *)
Fixpoint m_assign (i : nat) (params : list string) (args : list value) (m : memory) : memory :=
  match params, args with
  | k :: ps, v :: vs => m_assign i ps vs (m_set i k v m)
  | _, _ => m
  end.
(* NewX, e.g. pkg/client/model_k4_segment.go:34-39 *)
Definition m_new (tbl : list cfield) (params : list string) (args : list value) (m : memory) : memory :=
  m_assign (mObjects m) params args (m_struct tbl (fun c => c_zero_value (cType c)) (fun _ => None) m).

(* a variable for what is no object, e.g. of pkg/client/model_k3_segment.go:21-26 *)
Definition m_no_object (m : memory) : memory :=
  mkMemory (mCell m) (mNext m) (mObject m) (Datatypes.S (mObjects m)) (mPointer m) (mPointers m) (mMap m) (mMaps m).
(* x := *y of structs, e.g. pkg/client/model_k3_segment.go:21-26 *)
Definition m_copy (i : nat) (m : memory) : memory :=
  match mObject m i with
  | None => m_no_object m
  | Some o =>
      m_struct (mTable o)
        (fun c => match mSlot o (cKey c) with Some a => mCell m a | None => c_zero_value (cType c) end)
        (mSlot o) m
  end.

(* GetX, e.g. pkg/client/model_k3_segment.go:47-54 and 71-77 *)
Definition m_get (i : nat) (k : string) (m : memory) : seen :=
  match mObject m i with
  | None => SNothing
  | Some o =>
      match m_field k (mTable o) with
      | None => SNothing
      | Some c => match mSlot o k with Some a => SValue (mCell m a) | None => SValue (c_zero_value (cType c)) end
      end
  end.
(* HasX, e.g. pkg/client/model_k3_segment.go:89-95; there is none for required fields *)
Definition m_has (i : nat) (k : string) (m : memory) : seen :=
  match mObject m i with
  | None => SNothing
  | Some o =>
      match m_field k (mTable o) with
      | None => SNothing
      | Some c => if cPtr c then match mSlot o k with Some _ => SBool true | None => SBool false end else SNothing
      end
  end.
(* the pointer of GetXOk, e.g. pkg/client/model_k3_segment.go:58-63 and 81-86: the address
   of a required field, the pointer an optional field holds *)
Definition m_pointer_of (i : nat) (k : string) (m : memory) : option nat :=
  match mObject m i with
  | None => None
  | Some o => match m_field k (mTable o) with None => None | Some _ => mSlot o k end
  end.
(* a new variable that holds a pointer, e.g. of pkg/client/model_k3_segment.go:58-63 *)
Definition m_keep_pointer (a : option nat) (m : memory) : memory :=
  mkMemory (mCell m) (mNext m) (mObject m) (mObjects m) (put (mPointer m) (mPointers m) a) (Datatypes.S (mPointers m)) (mMap m) (mMaps m).

(* ToMap, e.g. pkg/client/model_k3_segment.go:174-187: required fields by value, optional
   ones by their pointers if they are not nil *)
Definition m_entries (o : mobject) (m : memory) : string -> option mentry :=
  fun k =>
    match m_field k (mTable o) with
    | None => None
    | Some c =>
        match mSlot o k with
        | None => None
        | Some a => if cPtr c then Some (EPointer a) else Some (EValue (mCell m a))
        end
    end.
(* a new variable that holds the map, e.g. of pkg/client/model_k3_segment.go:174-187 *)
Definition m_to_map (i : nat) (m : memory) : memory :=
  mkMemory (mCell m) (mNext m) (mObject m) (mObjects m) (mPointer m) (mPointers m)
    (put (mMap m) (mMaps m) (match mObject m i with Some o => Some (m_entries o m) | None => None end)) (Datatypes.S (mMaps m)).
(* an element, e.g. of pkg/client/model_k3_segment.go:174-187 *)
Definition m_element (n : nat) (k : string) (m : memory) : option mentry :=
  match mMap m n with Some f => f k | None => None end.
(* the value of an element, e.g. of pkg/client/model_k3_segment.go:174-187; that of
   a pointer is what it points to, as json.Marshal has it *)
Definition m_entry (n : nat) (k : string) (m : memory) : seen :=
  match m_element n k m with
  | None => SNothing
  | Some (EValue v) => SValue v
  | Some (EPointer a) => SValue (mCell m a)
  end.
(* the pointer in an element, e.g. of pkg/client/model_k3_segment.go:174-187 *)
Definition m_taken (n : nat) (k : string) (m : memory) : option nat :=
  match m_element n k m with Some (EPointer a) => Some a | _ => None end.

(* one call, e.g. pkg/client/model_k3_segment.go:32-187 *)
Definition m_step (m : memory) (c : mcall) : memory * seen :=
  match c with
  | PNew tbl params args => (m_new tbl params args m, SNothing)
  | PCopy i => (m_copy i m, SNothing)
  | PSet i k v => (m_set i k v m, SNothing)
  | PGet i k => (m, m_get i k m)
  | PHas i k => (m, m_has i k m)
  | PGetOk i k =>
      (m_keep_pointer (m_pointer_of i k m) m,
       SBool match m_pointer_of i k m with Some _ => true | None => false end)
  | PWrite p v => match mPointer m p with Some a => (m_write a v m, SNothing) | None => (m, SPanic) end
  | PRead p => match mPointer m p with Some a => (m, SValue (mCell m a)) | None => (m, SPanic) end
  | PMap i => (m_to_map i m, SNothing)
  | PEntry n k => (m, m_entry n k m)
  | PTake n k => (m_keep_pointer (m_taken n k m) m, match m_taken n k m with Some _ => SBool true | None => SPanic end)
  end.
(* before the first call of a program, e.g. of those in pkg/client/model_k3_segment.go:32-187 *)
Definition memory0 : memory :=
  mkMemory (fun _ => VInt 0) 0 (fun _ => None) 0 (fun _ => None) 0 (fun _ => None) 0.
(* a program, e.g. of the calls in pkg/client/model_k3_segment.go:32-187 *)
Definition m_run (l : list mcall) : memory := fold_left (fun m c => fst (m_step m c)) l memory0.
(* what a call shows after a program, e.g. of those in pkg/client/model_k3_segment.go:32-187 *)
Definition m_answer (l : list mcall) (c : mcall) : seen := snd (m_step (m_run l) c).
