(* Specification: numeric dates in JSON *)
From Coq Require Import ZArith NArith Bool Ascii String List.
Import ListNotations.
From Verif Require Import GoBase GoTime SpecCodec Json GoLayout SpecJson.
Local Open Scope string_scope.
Local Open Scope Z_scope.
Local Open Scope list_scope.
Local Notation length := List.length.

(* a number in two digits, or in one *)
Inductive numeral : bool -> Z -> bytes -> Prop :=
| Padded z s : decimal_text 2 z s -> numeral true z s
| Single z s : decimal_text 1 z s -> numeral false z s.

(* the start of a day *)
Definition day_of (y m d : Z) : time := mkTime y m d 0 0 0 0 None.

(* a JSON text is read as a time (utils/time.go:15-24); zone: what the host makes
   of zone abbreviations *)
Definition reads_as (zone : bytes -> time -> time) (s : bytes) (t : time) : Prop := time_unmarshal zone (print (JStr s)) = Some t.

(* two numbers and a year *)
Definition year_last (sep : byte) (a b y : Z) (p q : bool) (s : bytes) : Prop :=
  exists s1 s2 s3, s = s1 ++ [sep] ++ s2 ++ [sep] ++ s3 /\ numeral p a s1 /\ numeral q b s2 /\ decimal_text 4 y s3.
(* a year and two numbers *)
Definition year_first (sep : byte) (y a b : Z) (p q : bool) (s : bytes) : Prop :=
  exists s1 s2 s3, s = s1 ++ [sep] ++ s2 ++ [sep] ++ s3 /\ decimal_text 4 y s1 /\ numeral p a s2 /\ numeral q b s3.
