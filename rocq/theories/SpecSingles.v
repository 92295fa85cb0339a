(* What JSON says about an int32 and a float32.  pkg/client/utils.go:115-221 *)
From Coq Require Import ZArith NArith Bool Ascii String List.
Import ListNotations.
From Verif Require Import GoBase Json SpecCodec SpecJson SpecNumbers SpecScalars SpecParams ClientSingles.
Local Open Scope string_scope.
Local Open Scope Z_scope.
Local Open Scope list_scope.

(* digits, no fraction and no exponent, in the range of int32 *)
Definition says_whole32 (j : json) (z : Z) : Prop :=
  exists (neg : bool) ds, j = JNum ((if neg then list_ascii_of_string "-" else []) ++ ds) /\ numerals ds
    /\ z = (if neg then - decimal ds else decimal ds) /\ - 2 ^ 31 <= z < 2 ^ 31.

(* a number, not half a step above the largest of binary32, and the nearest of them *)
Definition says_single (j : json) (x : float32) : Prop :=
  exists t neg n d m e, j = JNum t /\ amounts t neg n d /\ n < (2 ^ 25 - 1) * 2 ^ 103 * d /\ nearest32 n d m e /\ x = Single32 neg m e.

Definition finite32 (x : float32) : Prop := match x with Single32 _ m e => binary32 m e | _ => False end.
