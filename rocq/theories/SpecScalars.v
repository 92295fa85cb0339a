(* What JSON says about a flag, a whole number and a float64.
   pkg/client/utils.go:43-113, 223-257 *)
From Coq Require Import ZArith NArith Bool Ascii String List.
Import ListNotations.
From Verif Require Import GoBase Json SpecCodec SpecJson SpecNumbers ClientScalars.
Local Open Scope string_scope.
Local Open Scope Z_scope.
Local Open Scope list_scope.

(* JSON with a number whose exponent is of magnitude under 100000, or another literal *)
Definition sane (j : json) : Prop := forall t, j = JNum t -> exists neg n d, amounts t neg n d.

Definition says_flag (j : json) (b : bool) : Prop := j = JBool b.

(* digits, no fraction and no exponent, in the range of int64 *)
Definition says_whole (j : json) (z : Z) : Prop :=
  exists (neg : bool) ds, j = JNum ((if neg then lit "-" else []) ++ ds) /\ numerals ds
    /\ z = (if neg then - decimal ds else decimal ds) /\ - 2 ^ 63 <= z < 2 ^ 63.

(* a number, not half a step above the largest of binary64, and the nearest of them *)
Definition says_float (j : json) (x : float64) : Prop :=
  exists t neg n d m e, j = JNum t /\ amounts t neg n d /\ n < (2 ^ 54 - 1) * 2 ^ 970 * d /\ nearest n d m e /\ x = Finite neg m e.

Definition finite (x : float64) : Prop := match x with Finite _ m e => binary64 m e | _ => False end.
