(* Specification: reading and writing single fields *)
From Coq Require Import ZArith NArith Bool Ascii String List.
Import ListNotations.
From Verif Require Import GoBase GoTime Tables Codec SpecCodec.
Local Open Scope Z_scope.
Local Notation length := List.length.

(* layout entries of a type, with or without the zero-fill flag *)
Definition of_type (t : N) (f : field) : Prop := fType f = t \/ fType f = N.lor t zeroFill.

(* the text is accepted for the field and read as v; the names are those used in
   error messages *)
Definition reads (f : field) (s : bytes) (v : value) : Prop :=
  forall n r, is_valid_type f s n r = None /\ parse_value f s n r = Ok v.

(* the text is refused, with an error and not a panic *)
Definition refuses (f : field) (s : bytes) : Prop :=
  forall n r, (exists e, is_valid_type f s n r = Some e)
    \/ (is_valid_type f s n r = None /\ exists e, parse_value f s n r = Err e).

(* MMDDYYYY *)
Definition date_text (y m d : Z) (s : bytes) : Prop :=
  exists a b c, s = a ++ b ++ c
    /\ decimal_text 2 m a /\ decimal_text 2 d b /\ decimal_text 4 y c.

(* MMDDYYYYHHMMSS *)
Definition stamp_text (t : time) (s : bytes) : Prop :=
  exists a h mi sec, s = a ++ h ++ mi ++ sec
    /\ date_text (tYear t) (tMonth t) (tDay t) a
    /\ decimal_text 2 (tHour t) h /\ decimal_text 2 (tMin t) mi /\ decimal_text 2 (tSec t) sec.

Definition zeros (s : bytes) : Prop := s = repeat "0"%char (length s).

(* midnight UTC of a date *)
Definition at_midnight (y m d : Z) : time := mkTime y m d 0 0 0 0 None.
