(* What a number of JSON says (RFC 8259, section 6), whatever its exponent *)
From Coq Require Import ZArith NArith Bool Ascii String List.
Import ListNotations.
From Verif Require Import GoBase SpecCodec SpecJson.
Local Open Scope string_scope.
Local Open Scope Z_scope.
Local Open Scope list_scope.
Local Notation length := List.length.

(* an exponent *)
Definition exponent_any (t : bytes) (e : Z) : Prop :=
  t = [] /\ e = 0
  \/ exists c g ds, t = c :: g ++ ds /\ (c = "e"%char \/ c = "E"%char) /\ numerals ds
     /\ ((g = [] \/ g = lit "+") /\ e = decimal ds \/ g = lit "-" /\ e = - decimal ds).

(* t amounts to n / d, with a minus in front if neg; [digits] of it are before the exponent *)
Definition amounts_any (t : bytes) (neg : bool) (digits : Z) (n d : Z) : Prop :=
  exists whole fraction part exponent e,
    t = (if neg then lit "-" else []) ++ whole ++ fraction ++ exponent
    /\ (whole = lit "0" \/ numerals whole /\ forall r, whole <> "0"%char :: r)
    /\ (fraction = [] /\ part = [] \/ fraction = "."%char :: part /\ numerals part)
    /\ exponent_any exponent e
    /\ digits = Z.of_nat (length (whole ++ part))
    /\ 0 < d
    /\ n * 10 ^ Z.max 0 (Z.of_nat (length part) - e)
       = decimal (whole ++ part) * 10 ^ Z.max 0 (e - Z.of_nat (length part)) * d.
