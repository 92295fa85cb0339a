(* C105, C106, C109: numbers of JSON with exponents of any size *)
From Coq Require Import ZArith NArith Bool Ascii String List.
Import ListNotations.
From Verif Require Import GoBase Json GoFloat Client ClientScalars ClientParams ClientSingles SpecCodec SpecJson SpecNumbers SpecParams SpecExponents ExponentFacts.
Local Open Scope string_scope.
Local Open Scope Z_scope.
Local Open Scope list_scope.
Local Notation length := List.length.

(* every number has its digits; those of the other theorems are among them *)
Theorem C105_among : forall t neg n d, amounts t neg n d -> exists k, amounts_any t neg k n d.
Proof. exact amounts_among. Qed.
Print Assumptions C105_among.

(* partial, for numbers with no more than 9000 digits before the exponent: which are out of range *)
Theorem C105_exponent_range_partial : forall t neg k n d, amounts_any t neg k n d -> k <= 9000 -> (go_float t = None <-> (2 ^ 54 - 1) * 2 ^ 970 * d <= n).
Proof. exact any_range. Qed.
Print Assumptions C105_exponent_range_partial.

(* and what is written for the others *)
Theorem C105_exponent_partial : forall t neg k n d s, amounts_any t neg k n d -> k <= 9000 -> go_float t = Some s ->
  go_float s = Some s /\ exists n' d' m e, amounts s neg n' d' /\ nearest n d m e /\ nearest n' d' m e.
Proof. exact any_written. Qed.
Print Assumptions C105_exponent_partial.

Example C105_exponent_case : amounts_any (lit "7E+00100000") false 1 (7 * 10 ^ 100000) 1 /\ go_float (lit "7E+00100000") = None
  /\ amounts_any (lit "7e-100000") false 1 7 (10 ^ 100000) /\ go_float (lit "7e-100000") = Some (lit "0").
Proof. exact exponent_case. Qed.

(* with more digits a number that amounts to one is read as zero, or refused *)
Theorem C105_exponent_refuted :
  (exists t k, amounts_any t false k 1 1 /\ go_float t = Some (lit "0") /\ json_float (JNum t) = Some (Finite false 0 (-1074)))
  /\ (exists t k, amounts_any t false k 1 1 /\ go_float t = None /\ json_float (JNum t) = None).
Proof. exact exponent_refuted. Qed.
Print Assumptions C105_exponent_refuted.

(* the float64 of the client *)
Theorem C106_exponent_partial : forall t neg k n d x, amounts_any t neg k n d -> k <= 9000 ->
  (json_float (JNum t) = Some x <-> n < (2 ^ 54 - 1) * 2 ^ 970 * d /\ exists m e, x = Finite neg m e /\ nearest n d m e).
Proof. exact any_double. Qed.
Print Assumptions C106_exponent_partial.

(* its float32 *)
Theorem C109_exponent_partial : forall t neg k n d x, amounts_any t neg k n d -> k <= 9000 ->
  (json_single (JNum t) = Some x <-> n < (2 ^ 25 - 1) * 2 ^ 103 * d /\ exists m e, x = Single32 neg m e /\ nearest32 n d m e).
Proof. exact any_single. Qed.
Print Assumptions C109_exponent_partial.
