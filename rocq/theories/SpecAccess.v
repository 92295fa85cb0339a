(* What objects of the client hold, by the calls that made them *)
From Coq Require Import ZArith NArith Bool Ascii String List.
Import ListNotations.
From Verif Require Import GoBase GoTime Tables JsonTables Codec Records Json JsonFile ClientTypes ClientAccess SpecCodec SpecJson SpecSchema SpecClientTypes.
Local Open Scope string_scope.
Local Open Scope Z_scope.
Local Open Scope list_scope.
Local Notation length := List.length.

(* ---- objects ---- *)

(* the properties a constructor asks for, in the order of the schema *)
Definition required_of (o : object) : list property := filter pRequired (obj_schema o).
Definition params_of (o : object) : list string :=
  match o with OHeader => params_header | OTrailer => params_trailer | OBase => params_base | OSegment k => params_segment k end.

(* arguments of the types of the properties *)
Definition arguments (o : object) (args : list value) : Prop :=
  Forall2 (fun p v => fits_type (pType p) v) (required_of o) args.

(* calls of setters with values of the types of the properties; the last comes first *)
Definition setting (o : object) (c : property * value) : Prop := In (fst c) (obj_schema o) /\ fits_type (pType (fst c)) (snd c).

(* what a property then holds: the value of its last call, else the argument *)
Inductive held (o : object) (args : list value) (p : property) : list (property * value) -> value -> Prop :=
| ByArgument n v : nth_error (required_of o) n = Some p -> nth_error args n = Some v -> held o args p [] v
| ByCall v l : held o args p ((p, v) :: l) v
| ByEarlier q v l w : pKey q <> pKey p -> held o args p l w -> held o args p ((q, v) :: l) w.

(* the object those calls make; the last call comes first *)
Fixpoint after_calls (o : object) (args : list value) (l : list (property * value)) : res cobject :=
  match l with
  | [] => Ok (c_new (client_table o) (params_of o) args)
  | (p, v) :: r =>
      match after_calls o args r with
      | Ok st => c_setter (client_field p) v (Some st)
      | e => e
      end
  end.

(* ---- records and files ---- *)

Fixpoint record_after (b : cobject) (l : list rcall) : res crecord :=
  match l with
  | [] => Ok (new_crecord b)
  | c :: r => match record_after b r with Ok x => set_record c (Some x) | e => e end
  end.

Inductive base_held (b : cobject) : list rcall -> cobject -> Prop :=
| BaseArgument : base_held b [] b
| BaseCall v l : base_held b (RBase v :: l) v
| BaseEarlier c l w : (forall v, c <> RBase v) -> base_held b l w -> base_held b (c :: l) w.
Inductive many_held (k : segkind) : list rcall -> option (list cobject) -> Prop :=
| ManyNone : many_held k [] None
| ManyCall v l : many_held k (RMany k v :: l) v
| ManyEarlier c l w : (forall v, c <> RMany k v) -> many_held k l w -> many_held k (c :: l) w.
Inductive one_held (k : segkind) : list rcall -> option cobject -> Prop :=
| OneNone : one_held k [] None
| OneCall v l : one_held k (ROne k v :: l) (Some v)
| OneEarlier c l w : (forall v, c <> ROne k v) -> one_held k l w -> one_held k (c :: l) w.

(* which setters there are *)
Definition repeats (k : segkind) : Prop := k = J1 \/ k = J2.
Definition rcall_exists (c : rcall) : Prop :=
  match c with RBase _ => True | RMany k _ => repeats k | ROne k _ => ~ repeats k end.
(* with objects JSON keeps *)
Definition good_rcall (c : rcall) : Prop :=
  match c with RBase b => good_object OBase b | RMany k l => good_many k l | ROne k o => good_object (OSegment k) o end.

Fixpoint file_after (h t : cobject) (l : list fcall) : res cfile :=
  match l with
  | [] => Ok (new_cfile h t)
  | c :: r => match file_after h t r with Ok x => set_file c (Some x) | e => e end
  end.
Inductive header_held (h : cobject) : list fcall -> cobject -> Prop :=
| HeaderArgument : header_held h [] h
| HeaderCall v l : header_held h (FHeader v :: l) v
| HeaderEarlier c l w : (forall v, c <> FHeader v) -> header_held h l w -> header_held h (c :: l) w.
Inductive trailer_held (t : cobject) : list fcall -> cobject -> Prop :=
| TrailerArgument : trailer_held t [] t
| TrailerCall v l : trailer_held t (FTrailer v :: l) v
| TrailerEarlier c l w : (forall v, c <> FTrailer v) -> trailer_held t l w -> trailer_held t (c :: l) w.
Inductive data_held : list fcall -> option (list crecord) -> Prop :=
| DataNone : data_held [] None
| DataCall v l : data_held (FData v :: l) v
| DataEarlier c l w : (forall v, c <> FData v) -> data_held l w -> data_held (c :: l) w.
Definition good_fcall (c : fcall) : Prop :=
  match c with
  | FHeader h => good_object OHeader h
  | FTrailer t => good_object OTrailer t
  | FData l => forall a, l = Some a -> Forall good_record a
  end.
