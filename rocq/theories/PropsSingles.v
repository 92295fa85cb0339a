(* C109: int32, int64 and float32 of the generated client *)
From Coq Require Import ZArith NArith Bool Ascii String List.
Import ListNotations.
From Verif Require Import GoBase Json ClientAccess ClientScalars ClientSingles SpecCodec SpecJson SpecNumbers SpecScalars SpecParams SpecSingles SingleFacts.
Local Open Scope string_scope.
Local Open Scope Z_scope.
Local Open Scope list_scope.

(* What is set is the same after JSON, nil and the sign of zero included. *)
Theorem C109_whole32 : forall v n, (forall z, v = Some z -> - 2 ^ 31 <= z < 2 ^ 31) ->
  exists j, marshal_int32 (n_new v) = Some j /\ unmarshal_int32 j n = (n_new v, true).
Proof. exact int32_survives. Qed.
Print Assumptions C109_whole32.
Theorem C109_whole64 : forall v n, (forall z, v = Some z -> - 2 ^ 63 <= z < 2 ^ 63) ->
  exists j, marshal_int64 (n_new v) = Some j /\ unmarshal_int64 j n = (n_new v, true).
Proof. exact int64_survives. Qed.
Print Assumptions C109_whole64.
Theorem C109_single : forall v n, (forall x, v = Some x -> finite32 x) ->
  exists j, marshal_single (n_new v) = Some j /\ unmarshal_single j n = (n_new v, true).
Proof. exact single_survives. Qed.
Print Assumptions C109_single.

Example C109_case : finite32 (Single32 true 13421773 (-27)) /\ single_json (Single32 true 13421773 (-27)) = Some (JNum (lit "-0.1"))
  /\ json_single (JNum (lit "-1e-1")) = Some (Single32 true 13421773 (-27)) /\ json_single (JNum (lit "1e39")) = None
  /\ single_json (Single32 false 8388608 (-149)) = Some (JNum (lit "1.1754944e-38")) /\ single_json (Single32 false 8388608 47) = Some (JNum (lit "1.1805916e+21"))
  /\ json_int32 (JNum (lit "-2147483648")) = Some (- 2 ^ 31) /\ json_int32 (JNum (lit "2147483648")) = None.
Proof. exact single_case. Qed.

(* The JSON of a float32 is a number to which it is the nearest. *)
Theorem C109_text : forall neg m e, binary32 m e ->
  exists t n d, single_json (Single32 neg m e) = Some (JNum t) /\ amounts t neg n d /\ n < (2 ^ 25 - 1) * 2 ^ 103 * d /\ nearest32 n d m e.
Proof. exact single_json_text. Qed.
Print Assumptions C109_text.

(* No decimal c' * 10^p' with fewer digits has the same nearest binary32 number. *)
Theorem C109_short : forall neg m e, binary32 m e ->
  exists t c p, single_json (Single32 neg m e) = Some (JNum t) /\ amounts t neg (c * 10 ^ Z.max p 0) (10 ^ Z.max (- p) 0)
  /\ forall c' p' j, 0 <= c' -> 0 <= j -> c' * 10 ^ Z.max p' 0 < (2 ^ 25 - 1) * 2 ^ 103 * 10 ^ Z.max (- p') 0 ->
       nearest32 (c' * 10 ^ Z.max p' 0) (10 ^ Z.max (- p') 0) m e -> c' < 10 ^ j -> c < 10 ^ j.
Proof. exact single_json_short. Qed.
Print Assumptions C109_short.

(* It has an exponent under the binary32 number nearest to 1e-6, and from that nearest to 1e21 on. *)
Theorem C109_notation : forall neg m e t, binary32 m e -> single_json (Single32 neg m e) = Some (JNum t) ->
  exists m1 e1 m2 e2, nearest32 1 (10 ^ 6) m1 e1 /\ nearest32 (10 ^ 21) 1 m2 e2
    /\ (In "e"%char t <-> 0 < m /\ (m * 2 ^ (e + 149) < m1 * 2 ^ (e1 + 149) \/ m2 * 2 ^ (e2 + 149) <= m * 2 ^ (e + 149))).
Proof. exact single_notation. Qed.
Print Assumptions C109_notation.

(* Infinities and NaN have no JSON. *)
Theorem C109_infinite : forall n, (exists neg, nValue n = Some (Infinite32 neg)) \/ nValue n = Some NotANumber32 -> marshal_single n = None.
Proof. exact infinite32_refused. Qed.
Print Assumptions C109_infinite.

Example C109_infinite_case : (exists neg, nValue (n_new (Some (Infinite32 true))) = Some (Infinite32 neg)) /\ marshal_single (n_new (Some NotANumber32)) = None.
Proof. exact (conj (ex_intro _ true eq_refl) eq_refl). Qed.

(* What is taken, and as what: null, or what says such a value. *)
Theorem C109_takes_whole32 : forall j n n', sane j ->
  (unmarshal_int32 j n = (n', true) <-> j = JNull /\ n' = n_new None \/ exists z, says_whole32 j z /\ n' = n_new (Some z)).
Proof. exact int32_accepts. Qed.
Print Assumptions C109_takes_whole32.
Theorem C109_takes_whole64 : forall j n n', sane j ->
  (unmarshal_int64 j n = (n', true) <-> j = JNull /\ n' = n_new None \/ exists z, says_whole j z /\ n' = n_new (Some z)).
Proof. exact int64_accepts. Qed.
Print Assumptions C109_takes_whole64.
Theorem C109_takes_single : forall j n n', sane j ->
  (unmarshal_single j n = (n', true) <-> j = JNull /\ n' = n_new None \/ exists x, says_single j x /\ n' = n_new (Some x)).
Proof. exact single_accepts. Qed.
Print Assumptions C109_takes_single.

Example C109_whole_case : says_whole32 (JNum (lit "-2147483648")) (- 2 ^ 31) /\ sane (JNum (lit "-2147483648"))
  /\ json_int32 (JNum (lit "2147483648")) = None /\ json_int32 (JNum (lit "-2147483649")) = None.
Proof. exact int32_case. Qed.
Example C109_takes_case : exists j x, sane j /\ says_single j x /\ unmarshal_single j nullable0 = (n_new (Some x), true).
Proof. exact single_taken. Qed.

(* refuted: what is refused leaves nil, and a value that was not set, as a set zero *)
Theorem C109_left_refuted : exists j n n32, unmarshal_int32 j (n_new None) = (n, false) /\ n <> n_new None /\ unmarshal_int32 j nullable0 = (n, false) /\ n <> nullable0
  /\ unmarshal_single j (n_new None) = (n32, false) /\ n32 <> n_new None /\ unmarshal_single j nullable0 = (n32, false) /\ n32 <> nullable0.
Proof. exact singles_left. Qed.
Print Assumptions C109_left_refuted.

(* a value is left as it was *)
Theorem C109_left_partial : forall j,
  (forall n n', unmarshal_int32 j n = (n', false) -> n' = n_new (Some (match n_get n with Some x => x | None => 0 end)))
  /\ (forall n n', unmarshal_int64 j n = (n', false) -> n' = n_new (Some (match n_get n with Some x => x | None => 0 end)))
  /\ (forall n n', unmarshal_single j n = (n', false) -> n' = n_new (Some (match n_get n with Some x => x | None => Single32 false 0 (-149) end))).
Proof. exact singles_refuse. Qed.
Print Assumptions C109_left_partial.

Example C109_left_case : unmarshal_int32 (JNum (lit "2147483648")) (n_new (Some 7)) = (n_new (Some 7), false)
  /\ unmarshal_single (JNum (lit "1e39")) (n_new (Some (Single32 true 0 (-149)))) = (n_new (Some (Single32 true 0 (-149))), false).
Proof. exact (conj eq_refl eq_refl). Qed.

(* refuted: JSON does not keep that nothing was set *)
Theorem C109_unset_refuted : exists j, marshal_int32 nullable0 = Some j /\ marshal_int64 nullable0 = Some j /\ marshal_single nullable0 = Some j
  /\ unmarshal_int32 j nullable0 = (n_new None, true) /\ unmarshal_int64 j nullable0 = (n_new None, true) /\ unmarshal_single j nullable0 = (n_new None, true).
Proof. exact singles_unset. Qed.
Print Assumptions C109_unset_refuted.
