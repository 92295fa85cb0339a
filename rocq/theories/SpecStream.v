(* Specification: several files one after another on one stream *)
From Coq Require Import ZArith NArith Bool Ascii String List.
Import ListNotations.
From Verif Require Import GoBase GoTime Tables Codec Records File SpecCodec SpecLayouts SpecRecords
  SpecFiles Reader SpecReader.
Local Open Scope string_scope.
Local Open Scope Z_scope.
Local Open Scope list_scope.
Local Notation length := List.length.

(* a file, its layout, whether its lines are broken, and the line breaks before it *)
Record part := mkPart { pcGap : bytes; pcKind : blocking; pcBreaks : bool; pcFile : file }.

Definition breaks_only (s : bytes) : Prop := Forall (fun c => c = cr_char \/ c = lf_char) s.

(* the file can be written and streamed back, and with the gap before it its first
   record still fits the buffer of the scanner *)
Definition part_ok (p : part) : Prop :=
  file_streams (pcKind p) (pcFile p) /\ breaks_only (pcGap p)
  /\ Z.of_nat (length (pcGap p)) + Z.of_nat (length (record_string (flHeader (pcFile p)))) <= scanner_limit.

Definition part_text (p : part) : bytes := pcGap p ++ file_text (pcBreaks p) (pcFile p).

(* fixed-length files before variable-blocked ones before packed ones *)
Definition rank (k : blocking) : nat :=
  match k with FixedFile => 0 | VariableFile => 1 | PackedFile => 2 end.

Fixpoint ascending (ks : list blocking) : Prop :=
  match ks with
  | k :: ((k' :: _) as ks') => (rank k <= rank k')%nat /\ ascending ks'
  | _ => True
  end.
