(* Specification: looking things up in records and files *)
From Coq Require Import ZArith NArith Bool Ascii String List.
Import ListNotations.
From Verif Require Import GoBase GoTime Tables Codec Records File SpecCodec SpecLayouts SpecRecords SpecFile.
Local Open Scope string_scope.
Local Open Scope Z_scope.
Local Open Scope list_scope.

(* the documented names of segments *)
Definition lookup_name (k : segkind) : string :=
  match k with
  | J1 => "j1" | J2 => "j2" | K1 => "k1" | K2 => "k2" | K3 => "k3" | K4 => "k4" | L1 => "l1" | N1 => "n1"
  end.

(* all segments of a record, in the order of its text *)
Definition record_segments (r : record) : list segment :=
  match r with
  | RBase _ b => segments_of b
  | RHeader _ _ | RTrailer _ _ => []
  end.

(* the descriptor words of a record; a trailer has one only *)
Definition says_length (r : record) (z : Z) : Prop :=
  match r with
  | RHeader _ st => holds st "RecordDescriptorWord" (VInt z)
  | RBase _ b => holds (bFields b) "RecordDescriptorWord" (VInt z)
  | RTrailer _ st => holds st "RecordDescriptorWord" (VInt z)
  end.
Definition says_block (r : record) (z : Z) : Prop :=
  match r with
  | RHeader _ st => holds st "BlockDescriptorWord" (VInt z)
  | RBase _ b => holds (bFields b) "BlockDescriptorWord" (VInt z)
  | RTrailer _ st => holds st "RecordDescriptorWord" (VInt z)
  end.
