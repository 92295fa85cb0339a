(* Proofs about the flags and numbers of the client, pkg/client/utils.go:43-113, 223-257 *)
From Coq Require Import ZArith NArith Bool Ascii String List Lia.
Import ListNotations.
From Verif Require Import GoBase GoBaseFacts Json JsonTextFacts GoFloat ClientAccess ClientScalars SpecCodec SpecJson FieldFacts FieldRead
  SpecNumbers NumberFacts NumberRound NumberText SpecScalars.
Local Open Scope string_scope.
Local Open Scope Z_scope.
Local Open Scope list_scope.
Local Notation length := List.length.

Lemma parse_signed (neg : bool) ds z : numerals ds ->
  (parse_int 64 ((if neg then lit "-" else []) ++ ds) = (z, None) <-> z = (if neg then - decimal ds else decimal ds) /\ - 2 ^ 63 <= z < 2 ^ 63).
Proof.
  intros N. pose proof (numerals_digits ds N) as D. destruct N as [N _]. pose proof (dval_range ds D) as P. rewrite decimal_dval.
  assert (parse_int 64 ((if neg then lit "-" else []) ++ ds) =
    if negb neg && (2 ^ 63 <=? dval ds) then (2 ^ 63 - 1, Some ErrRange) else if neg && (2 ^ 63 <? dval ds) then (- 2 ^ 63, Some ErrRange)
    else ((if neg then - dval ds else dval ds), None)) as ->.
  { destruct ds as [|c ds]; [congruence|]. destruct neg; unfold parse_int; cbn [lit app list_ascii_of_string].
    - cbn [byte_eqb]. change (byte_eqb "-" "+") with false. change (byte_eqb "-" "-") with true. cbv iota. rewrite D. reflexivity.
    - assert (byte_eqb c "+" = false /\ byte_eqb c "-" = false) as [-> ->].
      { cbn [forallb] in D. apply andb_prop in D as [Dc _]. split; destruct (byte_eqb c _) eqn:E; try reflexivity; apply byte_eqb_eq in E; subst c; discriminate. }
      rewrite D. reflexivity. }
  destruct neg; cbn [negb andb].
  - destruct (Z.ltb_spec (2 ^ 63) (dval ds)); split; intros H'.
    + discriminate.
    + lia.
    + injection H' as <-. lia.
    + destruct H' as [-> _]. reflexivity.
  - destruct (Z.leb_spec (2 ^ 63) (dval ds)); split; intros H'.
    + discriminate.
    + lia.
    + injection H' as <-. lia.
    + destruct H' as [-> _]. reflexivity.
Qed.

Lemma parse_tail (neg : bool) whole rest z : numerals whole -> parse_int 64 ((if neg then lit "-" else []) ++ whole ++ rest) = (z, None) -> forallb is_digit rest = true.
Proof.
  intros W P. pose proof (numerals_digits whole W) as D. destruct W as [N _]. destruct whole as [|w whole]; [congruence|].
  apply parse_int_inv in P as [(A & _)|(c & ds & E & C & A & _)].
  - rewrite !forallb_app in A. apply andb_prop in A as [_ A]. now apply andb_prop in A as [_ A].
  - destruct neg; cbn [lit app list_ascii_of_string] in E; injection E as E1 E2.
    + rewrite <- E2 in A. change (w :: whole ++ rest) with ((w :: whole) ++ rest) in A. rewrite forallb_app in A. now apply andb_prop in A as [_ A].
    + subst c. cbn [forallb] in D. apply andb_prop in D as [D _]. destruct C as [-> | ->]; discriminate.
Qed.

Lemma int_says j z : sane j -> (json_int j = Some z <-> says_whole j z).
Proof.
  intros S. split.
  - destruct j as [| |t| | |]; try discriminate. cbn [json_int]. destruct (parse_int 64 t) as [z' [err|]] eqn:P; [discriminate|]. intros [= ->].
    destruct (S t eq_refl) as (neg & n & d & whole & fraction & part & exponent & e & -> & W & F & X & _).
    assert (numerals whole) as W' by (destruct W as [->|[W _]]; [|exact W]; split; [discriminate|]; repeat constructor; vm_compute; discriminate).
    assert (fraction ++ exponent = []) as E.
    { pose proof (parse_tail neg whole (fraction ++ exponent) z W' P) as A.
      destruct F as [[-> _]|[-> _]]; [|cbn in A; discriminate]. cbn [app] in *.
      destruct X as [[-> _]|(c & g & ds & -> & C & _)]; [reflexivity|]. cbn [forallb] in A. destruct C as [-> | ->]; discriminate. }
    rewrite E, app_nil_r in P |- *. exists neg, whole. split; [reflexivity|]. split; [exact W'|]. now apply parse_signed in P.
  - intros (neg & ds & -> & N & R). apply (proj2 (parse_signed neg ds z N)) in R. cbn [json_int]. now rewrite R.
Qed.

Lemma float_says j x : sane j -> (json_float j = Some x <-> says_float j x).
Proof.
  assert (forall t neg n d, amounts t neg n d -> json_float (JNum t) = match to_double n d with Some (m, e) => Some (Finite neg m e) | None => None end) as K.
  { intros t neg n d A. pose proof (amounts_nonneg _ _ _ _ A) as [N _]. apply read_amount in A as (D & c & p & E & C & V). cbn [json_float]. rewrite E. unfold decimal_double.
    pose proof (ten_pos (Z.max (- p) 0) ltac:(lia)) as T. pose proof (ten_pos (Z.max p 0) ltac:(lia)) as T'.
    rewrite (to_double_scale (c * 10 ^ Z.max p 0) (10 ^ Z.max (- p) 0) n d); [reflexivity|apply Z.mul_nonneg_nonneg; lia|exact T|exact N|exact D|].
    symmetry. exact V. }
  intros S. split.
  - destruct j as [| |t| | |]; try discriminate. destruct (S t eq_refl) as (neg & n & d & A). rewrite (K t neg n d A). pose proof (amounts_nonneg _ _ _ _ A) as [N D].
    destruct (to_double n d) as [[m e]|] eqn:T; [|discriminate]. intros [= <-]. exists t, neg, n, d, m, e. split; [reflexivity|]. split; [exact A|].
    split; [|split; [exact (double_nearest n d m e N D T)|reflexivity]]. apply Z.nle_gt. intros L. apply (proj2 (to_double_none n d N D)) in L. rewrite L in T. discriminate T.
  - intros (t & neg & n & d & m & e & -> & A & L & R & ->). rewrite (K t neg n d A). pose proof (amounts_nonneg _ _ _ _ A) as [N D].
    destruct (to_double n d) as [[m' e']|] eqn:T; [|].
    + pose proof (nearest_double n d m' e' m e N D T R) as Q. injection Q as -> ->. reflexivity.
    + apply (proj1 (to_double_none n d N D)) in T. apply Z.le_ngt in T. contradiction.
Qed.

Lemma flag_says j b : json_bool j = Some b <-> says_flag j b.
Proof. unfold says_flag. split; [destruct j; try discriminate; now intros [= ->]|now intros ->]. Qed.

Lemma json_eq_null (j : json) : j = JNull \/ j <> JNull.
Proof. destruct j; [now left|right; discriminate..]. Qed.

(* a scalar decoder in general *)
Lemma s_accepts A zero dec (says : json -> A -> Prop) j n n' : (forall x, dec j = Some x <-> says j x) -> dec JNull = None ->
  (s_unmarshal zero dec j n = (n', true) <-> j = JNull /\ n' = n_new None \/ exists x, says j x /\ n' = n_new (Some x)).
Proof.
  intros S Z. split.
  - intros H. destruct (json_eq_null j) as [->|J]; [injection H as <-; auto|]. right.
    assert (s_unmarshal zero dec j n = match dec j with Some x => (mkNullable (Some x) true, true)
      | None => (mkNullable (Some (match nValue n with Some x => x | None => zero end)) true, false) end) as E by (destruct j; [congruence|reflexivity..]).
    rewrite E in H. destruct (dec j) as [x|] eqn:D; [|discriminate]. injection H as <-. exists x. split; [now apply S|reflexivity].
  - intros [[-> ->]|(x & X & ->)]; [reflexivity|]. apply S in X. destruct j; cbn [s_unmarshal]; rewrite ?X; congruence || reflexivity.
Qed.

Lemma s_refuses A (zero : A) dec j n n' : s_unmarshal zero dec j n = (n', false) ->
  n' = n_new (Some (match n_get n with Some x => x | None => zero end)).
Proof. intros H. unfold s_unmarshal in H. destruct j; try destruct (dec _); try discriminate; injection H as <-; reflexivity. Qed.

Lemma s_survives A zero enc dec (v : option A) n : (forall x, v = Some x -> exists j, enc x = Some j /\ j <> JNull /\ dec j = Some x) ->
  exists j, n_marshal enc (n_new v) = Some j /\ s_unmarshal zero dec j n = (n_new v, true).
Proof.
  intros H. destruct v as [x|]; [|exists JNull; split; reflexivity]. destruct (H x eq_refl) as (j & E & N & D). exists j. split; [exact E|].
  destruct j; cbn [s_unmarshal]; rewrite ?D; try reflexivity. congruence.
Qed.

Lemma int_text z : exists (neg : bool) ds, itoa z = (if neg then lit "-" else []) ++ ds /\ numerals ds /\ z = (if neg then - decimal ds else decimal ds).
Proof.
  unfold itoa. destruct (Z.ltb_spec z 0) as [L|L].
  - exists true, (utoa (- z)). pose proof (utoa_digits (- z) ltac:(lia)) as D. pose proof (utoa_nonempty (- z)) as N. rewrite decimal_dval, (dval_utoa (- z)) by lia.
    split; [reflexivity|]. split; [|lia]. apply digits_numerals; [|exact D]. destruct (utoa (- z)); [cbn in N; lia|discriminate].
  - exists false, (utoa z). pose proof (utoa_digits z ltac:(lia)) as D. pose proof (utoa_nonempty z) as N. rewrite decimal_dval, (dval_utoa z) by lia.
    split; [reflexivity|]. split; [|reflexivity]. apply digits_numerals; [|exact D]. destruct (utoa z); [cbn in N; lia|discriminate].
Qed.

Lemma float_text neg m e : binary64 m e -> exists t n d, float_json (Finite neg m e) = Some (JNum t) /\ amounts t neg n d /\ n < (2 ^ 54 - 1) * 2 ^ 970 * d /\ nearest n d m e.
Proof.
  intros F. destruct (print_total m e F) as [s P]. destruct (print_amounts m e s F P) as (n & d & N & A & T). pose proof (amounts_nonneg _ _ _ _ A) as [_ D].
  exists (if neg then "-"%char :: s else s), n, d. unfold float_json. rewrite P. split; [reflexivity|].
  split; [destruct neg; [now apply minus_amounts|exact A]|]. split; [|exact (double_nearest n d m e N D T)].
  apply Z.nle_gt. intros L. apply (proj2 (to_double_none n d N D)) in L. rewrite L in T. discriminate T.
Qed.

Lemma bool_survives v n : exists j, marshal_bool (n_new v) = Some j /\ unmarshal_bool j n = (n_new v, true).
Proof. apply s_survives. intros x ->. exists (JBool x). split; [reflexivity|]. split; [discriminate|reflexivity]. Qed.

Lemma int_survives v n : (forall z, v = Some z -> - 2 ^ 63 <= z < 2 ^ 63) -> exists j, marshal_int (n_new v) = Some j /\ unmarshal_int j n = (n_new v, true).
Proof.
  intros R. apply s_survives. intros z ->. exists (JNum (itoa z)). split; [reflexivity|]. split; [discriminate|]. specialize (R z eq_refl).
  destruct (int_text z) as (neg & ds & E & N & V). cbn [json_int]. rewrite E. rewrite (proj2 (parse_signed neg ds z N) (conj V R)). reflexivity.
Qed.

Lemma float_survives v n : (forall x, v = Some x -> finite x) -> exists j, marshal_float (n_new v) = Some j /\ unmarshal_float j n = (n_new v, true).
Proof.
  intros R. apply s_survives. intros x ->. specialize (R x eq_refl). destruct x as [neg m e| |]; try contradiction.
  destruct (float_text neg m e R) as (t & k & d & E & A & L & B). exists (JNum t). split; [exact E|]. split; [discriminate|].
  apply float_says; [intros t' [= <-]; exists neg, k, d; exact A|]. exists t, neg, k, d, m, e. auto.
Qed.

Lemma bool_accepts j n n' : unmarshal_bool j n = (n', true) <-> j = JNull /\ n' = n_new None \/ exists b, says_flag j b /\ n' = n_new (Some b).
Proof. apply s_accepts; [intros b; apply flag_says|reflexivity]. Qed.
Lemma int_accepts j n n' : sane j -> (unmarshal_int j n = (n', true) <-> j = JNull /\ n' = n_new None \/ exists z, says_whole j z /\ n' = n_new (Some z)).
Proof. intros S. apply s_accepts; [intros z; now apply int_says|reflexivity]. Qed.
Lemma float_accepts j n n' : sane j -> (unmarshal_float j n = (n', true) <-> j = JNull /\ n' = n_new None \/ exists x, says_float j x /\ n' = n_new (Some x)).
Proof. intros S. apply s_accepts; [intros x; now apply float_says|reflexivity]. Qed.

Lemma scalars_refuse j :
  (forall n n', unmarshal_bool j n = (n', false) -> n' = n_new (Some (match n_get n with Some x => x | None => false end)))
  /\ (forall n n', unmarshal_int j n = (n', false) -> n' = n_new (Some (match n_get n with Some x => x | None => 0 end)))
  /\ (forall n n', unmarshal_float j n = (n', false) -> n' = n_new (Some (match n_get n with Some x => x | None => Finite false 0 (-1074) end))).
Proof. split; [|split]; intros n n'; apply s_refuses. Qed.

Lemma refused_left : exists j n, unmarshal_int j (n_new (None : option Z)) = (n, false) /\ n <> n_new None
  /\ unmarshal_int j nullable0 = (n, false) /\ n <> nullable0.
Proof. exists (JNum (lit "1.0")), (n_new (Some 0)). split; [reflexivity|]. split; [discriminate|]. split; [reflexivity|discriminate]. Qed.

Lemma infinite_refused n : (exists neg, nValue n = Some (Infinite neg)) \/ nValue n = Some NotANumber -> marshal_float n = None.
Proof. unfold marshal_float, n_marshal. intros [[neg ->]| ->]; reflexivity. Qed.

Lemma scalars_unset_lost : exists j, marshal_bool nullable0 = Some j /\ marshal_int nullable0 = Some j /\ marshal_float nullable0 = Some j
  /\ unmarshal_bool j nullable0 = (n_new None, true) /\ unmarshal_int j nullable0 = (n_new None, true) /\ unmarshal_float j nullable0 = (n_new None, true).
Proof. exists JNull. repeat split. Qed.

(* cases *)
Lemma int_case : says_whole (JNum (lit "-9223372036854775808")) (- 2 ^ 63) /\ sane (JNum (lit "-9223372036854775808")).
Proof.
  assert (numerals (lit "9223372036854775808")) as N by (apply digits_numerals; [discriminate|reflexivity]). split.
  - exists true, (lit "9223372036854775808"). split; [reflexivity|]. split; [exact N|]. split; [reflexivity|]. split; [discriminate|reflexivity].
  - intros t [= <-]. exists true, (2 ^ 63), 1, (lit "9223372036854775808"), [], [], [], 0. split; [reflexivity|].
    split; [right; split; [exact N|discriminate]|]. split; [left; auto|]. split; [left; auto|]. split; reflexivity.
Qed.

Lemma float_case : finite (Finite true 0 (-1074)) /\ float_json (Finite true 0 (-1074)) = Some (JNum (lit "-0"))
  /\ json_float (JNum (lit "-0")) = Some (Finite true 0 (-1074))
  /\ float_json (Finite false 7205759403792794 (-56)) = Some (JNum (lit "0.1")) /\ json_float (JNum (lit "1e-1")) = Some (Finite false 7205759403792794 (-56)).
Proof. split; [right; split; [split; [discriminate|reflexivity]|reflexivity]|]. repeat split; vm_compute; reflexivity. Qed.

Lemma float_says_case : exists j x, sane j /\ says_float j x /\ unmarshal_float j nullable0 = (n_new (Some x), true).
Proof.
  destruct (float_text false 7205759403792794 (-56)) as (t & n & d & E & A & L & B); [left; split; split; (discriminate || reflexivity)|].
  exists (JNum t), (Finite false 7205759403792794 (-56)).
  assert (sane (JNum t)) as S by (intros t' [= <-]; exists false, n, d; exact A).
  assert (says_float (JNum t) (Finite false 7205759403792794 (-56))) as Y by (exists t, false, n, d, 7205759403792794, (-56); auto).
  split; [exact S|]. split; [exact Y|]. apply float_accepts; [exact S|]. right. eauto.
Qed.
