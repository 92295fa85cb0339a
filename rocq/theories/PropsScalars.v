(* C106: flags and numbers of the generated client *)
From Coq Require Import ZArith NArith Bool Ascii String List.
Import ListNotations.
From Verif Require Import GoBase Json ClientAccess ClientScalars SpecCodec SpecJson SpecNumbers SpecScalars ScalarFacts.
Local Open Scope string_scope.
Local Open Scope Z_scope.
Local Open Scope list_scope.

(* What is set is the same after JSON, nil and the sign of zero included. *)
Theorem C106_flag : forall v n, exists j, marshal_bool (n_new v) = Some j /\ unmarshal_bool j n = (n_new v, true).
Proof. exact bool_survives. Qed.
Print Assumptions C106_flag.
Theorem C106_whole : forall v n, (forall z, v = Some z -> - 2 ^ 63 <= z < 2 ^ 63) ->
  exists j, marshal_int (n_new v) = Some j /\ unmarshal_int j n = (n_new v, true).
Proof. exact int_survives. Qed.
Print Assumptions C106_whole.
Theorem C106_float : forall v n, (forall x, v = Some x -> finite x) ->
  exists j, marshal_float (n_new v) = Some j /\ unmarshal_float j n = (n_new v, true).
Proof. exact float_survives. Qed.
Print Assumptions C106_float.

Example C106_float_case : finite (Finite true 0 (-1074)) /\ float_json (Finite true 0 (-1074)) = Some (JNum (lit "-0"))
  /\ json_float (JNum (lit "-0")) = Some (Finite true 0 (-1074))
  /\ float_json (Finite false 7205759403792794 (-56)) = Some (JNum (lit "0.1")) /\ json_float (JNum (lit "1e-1")) = Some (Finite false 7205759403792794 (-56)).
Proof. exact float_case. Qed.

(* The JSON of a float64 is a number to which it is the nearest; infinities and NaN have none. *)
Theorem C106_float_text : forall neg m e, binary64 m e ->
  exists t n d, float_json (Finite neg m e) = Some (JNum t) /\ amounts t neg n d /\ n < (2 ^ 54 - 1) * 2 ^ 970 * d /\ nearest n d m e.
Proof. exact float_text. Qed.
Print Assumptions C106_float_text.
Theorem C106_infinite : forall n, (exists neg, nValue n = Some (Infinite neg)) \/ nValue n = Some NotANumber -> marshal_float n = None.
Proof. exact infinite_refused. Qed.
Print Assumptions C106_infinite.

Example C106_infinite_case : (exists neg, nValue (n_new (Some (Infinite true))) = Some (Infinite neg)) /\ marshal_float (n_new (Some NotANumber)) = None.
Proof. exact (conj (ex_intro _ true eq_refl) eq_refl). Qed.

(* What is taken, and as what: null, or what says such a value. *)
Theorem C106_takes_flag : forall j n n', unmarshal_bool j n = (n', true) <-> j = JNull /\ n' = n_new None \/ exists b, says_flag j b /\ n' = n_new (Some b).
Proof. exact bool_accepts. Qed.
Print Assumptions C106_takes_flag.
Theorem C106_takes_whole : forall j n n', sane j ->
  (unmarshal_int j n = (n', true) <-> j = JNull /\ n' = n_new None \/ exists z, says_whole j z /\ n' = n_new (Some z)).
Proof. exact int_accepts. Qed.
Print Assumptions C106_takes_whole.
Theorem C106_takes_float : forall j n n', sane j ->
  (unmarshal_float j n = (n', true) <-> j = JNull /\ n' = n_new None \/ exists x, says_float j x /\ n' = n_new (Some x)).
Proof. exact float_accepts. Qed.
Print Assumptions C106_takes_float.

Example C106_whole_case : says_whole (JNum (lit "-9223372036854775808")) (- 2 ^ 63) /\ sane (JNum (lit "-9223372036854775808")).
Proof. exact int_case. Qed.
Example C106_takes_case : exists j x, sane j /\ says_float j x /\ unmarshal_float j nullable0 = (n_new (Some x), true).
Proof. exact float_says_case. Qed.

(* refuted: what is refused leaves nil, and a value that was not set, as a set zero *)
Theorem C106_left_refuted : exists j n, unmarshal_int j (n_new (None : option Z)) = (n, false) /\ n <> n_new None
  /\ unmarshal_int j nullable0 = (n, false) /\ n <> nullable0.
Proof. exact refused_left. Qed.
Print Assumptions C106_left_refuted.

(* a value is left as it was *)
Theorem C106_left_partial : forall j,
  (forall n n', unmarshal_bool j n = (n', false) -> n' = n_new (Some (match n_get n with Some x => x | None => false end)))
  /\ (forall n n', unmarshal_int j n = (n', false) -> n' = n_new (Some (match n_get n with Some x => x | None => 0 end)))
  /\ (forall n n', unmarshal_float j n = (n', false) -> n' = n_new (Some (match n_get n with Some x => x | None => Finite false 0 (-1074) end))).
Proof. exact scalars_refuse. Qed.
Print Assumptions C106_left_partial.

Example C106_left_case : unmarshal_bool (JStr (lit "true")) (n_new (Some true)) = (n_new (Some true), false)
  /\ unmarshal_int (JNum (lit "9223372036854775808")) (n_new (Some 7)) = (n_new (Some 7), false).
Proof. exact (conj eq_refl eq_refl). Qed.

(* refuted: JSON does not keep that nothing was set *)
Theorem C106_unset_refuted : exists j, marshal_bool nullable0 = Some j /\ marshal_int nullable0 = Some j /\ marshal_float nullable0 = Some j
  /\ unmarshal_bool j nullable0 = (n_new None, true) /\ unmarshal_int j nullable0 = (n_new None, true) /\ unmarshal_float j nullable0 = (n_new None, true).
Proof. exact scalars_unset_lost. Qed.
Print Assumptions C106_unset_refuted.
