(* Specification: calls of the file and record interfaces and their histories *)
From Coq Require Import ZArith NArith Bool Ascii String List.
Import ListNotations.
From Verif Require Import GoBase GoTime Tables Codec Records File
  SpecCodec SpecLayouts SpecRecords SpecFile SpecValidate SpecCounters.
Local Open Scope string_scope.
Local Open Scope Z_scope.
Local Open Scope list_scope.
Local Notation length := List.length.

(* ---- histories ---- *)

Inductive call :=
| CallSetRecord (r : record)
| CallAddDataRecord (r : record)
| CallSetType (t : bytes)
| CallParse (input : bytes) (isVariableLength : bool)
| CallAddSegment (i : nat) (s : segment)    (* GetDataRecords()[i].AddApplicableSegment(s) *)
| CallGenerate.                             (* GeneratorTrailer, then SetRecord of the result *)

(* arguments of the Go types *)
Definition call_ok (c : call) : Prop :=
  match c with
  | CallSetRecord r | CallAddDataRecord r => record_ok r
  | CallAddSegment _ s => seg_typed s
  | _ => True
  end.

Fixpoint replace_nth {A} (i : nat) (x : A) (l : list A) : list A :=
  match l, i with
  | [], _ => []
  | _ :: l', O => x :: l'
  | y :: l', S i' => y :: replace_nth i' x l'
  end.

(* the file after a call that returns, with or without an error *)
Inductive called (f : file) : call -> file -> Prop :=
| called_set_record r : called f (CallSetRecord r) (fst (file_set_record f r))
| called_add_data_record r : called f (CallAddDataRecord r) (fst (file_add_data_record f r))
| called_set_type t : called f (CallSetType t) (fst (file_set_type f t))
| called_parse input iv fuel f' r : file_parse fuel f input iv = Some (f', r) -> called f (CallParse input iv) f'
| called_add_segment i s r : nth_error (flBases f) i = Some r ->
    called f (CallAddSegment i s) (set_bases f (replace_nth i (fst (record_add_segment s r)) (flBases f)))
| called_generate t : file_generate_trailer f = Ok t -> called f CallGenerate (fst (file_set_record f t)).

(* histories that start with NewFile *)
Inductive reachable : file -> Prop :=
| reach_new format f : new_file format = Ok f -> reachable f
| reach_call f c f' : reachable f -> call_ok c -> called f c f' -> reachable f'.

(* ---- files that differ in their format only ---- *)

Definition same_record (r r' : record) : Prop :=
  match r, r' with
  | RHeader _ h, RHeader _ h' => h = h'
  | RBase _ b, RBase _ b' => b = b'
  | RTrailer _ t, RTrailer _ t' => t = t'
  | _, _ => False
  end.

Definition same_contents (f f' : file) : Prop :=
  same_record (flHeader f) (flHeader f') /\ Forall2 same_record (flBases f) (flBases f')
  /\ same_record (flTrailer f) (flTrailer f').

(* the name of the format *)
Definition type_name (packed : bool) : bytes := list_ascii_of_string (if packed then "packed" else "character").

(* no data record has a month with code Z *)
Definition no_new_accounts (f : file) : Prop :=
  Forall (fun r => match r with
    | RBase _ b => forall s, holds (bFields b) "PaymentHistoryProfile" (VStr s) -> ~ In "Z"%char s
    | _ => True end) (flBases f).

(* ---- segments of a record ---- *)

(* the record after a segment was added: a J1 or J2 segment comes after those there
   are, another one takes the place of the one there is *)
Definition segment_added (s : segment) (b b' : base) : Prop :=
  bFields b' = bFields b /\
  forall k, segs_of k b' =
    match k with
    | J1 | J2 => segs_of k b ++ (if match sKind s, k with J1, J1 | J2, J2 => true | _, _ => false end then [s] else [])
    | _ => if match sKind s, k with
              | K1, K1 | K2, K2 | K3, K3 | K4, K4 | L1, L1 | N1, N1 => true | _, _ => false end
           then [s] else segs_of k b
    end.
