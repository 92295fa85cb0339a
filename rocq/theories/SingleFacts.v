(* Proofs about int32, int64 and float32 of the client, pkg/client/utils.go:115-221 *)
From Coq Require Import ZArith NArith Bool Ascii String List Lia.
Import ListNotations.
From Verif Require Import GoBase GoBaseFacts Json JsonTextFacts GoFloat Client ClientAccess ClientScalars ClientParams ClientSingles SpecCodec SpecJson FieldFacts FieldRead
  SpecNumbers SpecParams SpecScalars SpecSingles NumberFacts NumberRound NumberText NumberShort NumberNotation SingleRound SingleDigits SingleShort SingleText ScalarFacts.
Local Open Scope string_scope.
Local Open Scope Z_scope.
Local Open Scope list_scope.
Local Notation length := List.length.

(* ---- whole numbers ---- *)

Lemma json_int32_some j z : json_int32 j = Some z <-> json_int j = Some z /\ - 2 ^ 31 <= z < 2 ^ 31.
Proof.
  unfold json_int32. destruct (json_int j) as [y|]; [|split; [discriminate|intros [H _]; discriminate]].
  destruct (Z.ltb_spec y (- 2 ^ 31)) as [A|A]; [split; [discriminate|intros [[= ->] H]; lia]|]. destruct (Z.ltb_spec (2 ^ 31 - 1) y) as [B|B]; [split; [discriminate|intros [[= ->] H]; lia]|].
  cbn [orb]. split; [intros [= ->]; split; [reflexivity|lia]|now intros [H _]].
Qed.

Lemma int32_says j z : sane j -> (json_int32 j = Some z <-> says_whole32 j z).
Proof.
  intros S. rewrite json_int32_some, (int_says j z S). split.
  - intros [(neg & ds & J & N & V & _) R]. exists neg, ds. auto.
  - intros (neg & ds & J & N & V & R). split; [|exact R]. exists neg, ds. split; [exact J|]. split; [exact N|]. split; [exact V|lia].
Qed.

Lemma int32_survives v n : (forall z, v = Some z -> - 2 ^ 31 <= z < 2 ^ 31) -> exists j, marshal_int32 (n_new v) = Some j /\ unmarshal_int32 j n = (n_new v, true).
Proof.
  intros R. apply s_survives. intros z ->. exists (JNum (itoa z)). split; [reflexivity|]. split; [discriminate|]. specialize (R z eq_refl). apply json_int32_some. split; [|exact R].
  destruct (int_text z) as (neg & ds & E & N & V). cbn [json_int]. rewrite E. rewrite (proj2 (parse_signed neg ds z N)); [reflexivity|]. split; [exact V|lia].
Qed.
Lemma int64_survives v n : (forall z, v = Some z -> - 2 ^ 63 <= z < 2 ^ 63) -> exists j, marshal_int64 (n_new v) = Some j /\ unmarshal_int64 j n = (n_new v, true).
Proof. apply int_survives. Qed.

Lemma int32_accepts j n n' : sane j -> (unmarshal_int32 j n = (n', true) <-> j = JNull /\ n' = n_new None \/ exists z, says_whole32 j z /\ n' = n_new (Some z)).
Proof. intros S. apply s_accepts; [intros z; now apply int32_says|reflexivity]. Qed.
Lemma int64_accepts j n n' : sane j -> (unmarshal_int64 j n = (n', true) <-> j = JNull /\ n' = n_new None \/ exists z, says_whole j z /\ n' = n_new (Some z)).
Proof. apply int_accepts. Qed.

(* ---- float32 ---- *)

Lemma single_read t neg n d : amounts t neg n d -> json_single (JNum t) = match to_single n d with Some (m, e) => Some (Single32 neg m e) | None => None end.
Proof.
  intros A. pose proof (amounts_nonneg _ _ _ _ A) as [N _]. apply read_amount in A as (D & c & p & E & C & V). cbn [json_single]. rewrite E. unfold decimal_single.
  pose proof (ten_pos (Z.max (- p) 0) ltac:(lia)) as T. pose proof (ten_pos (Z.max p 0) ltac:(lia)) as T'.
  rewrite (to_single_scale (c * 10 ^ Z.max p 0) (10 ^ Z.max (- p) 0) n d); [reflexivity|apply Z.mul_nonneg_nonneg; lia|exact T|exact N|exact D|].
  symmetry. exact V.
Qed.

Lemma single_says j x : sane j -> (json_single j = Some x <-> says_single j x).
Proof.
  intros S. split.
  - destruct j as [| |t| | |]; try discriminate. destruct (S t eq_refl) as (neg & n & d & A). rewrite (single_read t neg n d A). pose proof (amounts_nonneg _ _ _ _ A) as [N D].
    destruct (to_single n d) as [[m e]|] eqn:T; [|discriminate]. intros [= <-]. exists t, neg, n, d, m, e. split; [reflexivity|]. split; [exact A|].
    split; [|split; [exact (single_nearest n d m e N D T)|reflexivity]]. apply Z.nle_gt. intros L. apply (proj2 (to_single_none n d N D)) in L. rewrite L in T. discriminate T.
  - intros (t & neg & n & d & m & e & -> & A & L & R & ->). rewrite (single_read t neg n d A). pose proof (amounts_nonneg _ _ _ _ A) as [N D].
    destruct (to_single n d) as [[m' e']|] eqn:T; [|].
    + pose proof (nearest_single n d m' e' m e N D T R) as Q. injection Q as -> ->. reflexivity.
    + apply (proj1 (to_single_none n d N D)) in T. apply Z.le_ngt in T. contradiction.
Qed.

Lemma print_single_told m e c p : binary32 m e -> 0 < m -> shortest_single 9 m e (places (m * 2 ^ Z.max e 0) (2 ^ Z.max (- e) 0) - 1) = Some (c, p) -> 0 < c ->
  exists s, print_single m e = Some s /\ amounts s false (c * 10 ^ Z.max p 0) (10 ^ Z.max (- p) 0).
Proof.
  intros F M E Cp. unfold print_single. assert (m =? 0 = false) as -> by (apply Z.eqb_neq; lia). rewrite E. eexists. split; [reflexivity|].
  apply shortest_inv32 in E as [_ T]; [|lia].
  pose proof (exponent_bound32 c p m e Cp M T) as B. pose proof (leading_strip c Cp) as Ld. destruct (strip_padded (utoa c)) as [j H].
  assert (length (utoa c) = (length (strip_zeros (utoa c)) + j)%nat) as Lu by (rewrite H at 1; now rewrite app_length, repeat_length).
  pose proof (dval_utoa c ltac:(lia)) as Vu. rewrite H, dval_app, repeat_length in Vu. rewrite <- (app_nil_r (repeat _ _)), dval_zeros in Vu. change (dval []) with 0 in Vu. rewrite Z.add_0_r in Vu. clear H.
  remember (strip_zeros (utoa c)) as t. set (dp := Z.of_nat (length (utoa c)) + p) in *.
  assert (point_n t dp * 10 ^ Z.max (- p) 0 = c * 10 ^ Z.max p 0 * point_d t dp) as V.
  { unfold point_n, point_d. rewrite <- Vu. rewrite <- !Z.mul_assoc. f_equal. rewrite <- !Z.pow_add_r by lia. f_equal. subst dp. lia. }
  destruct (_ || _).
  - apply (amounts_scale _ false _ _ _ _ (fmt_e_amounts t dp Ld ltac:(lia))); [apply ten_pos; lia|exact V].
  - apply (amounts_scale _ false _ _ _ _ (fmt_f_amounts t dp Ld)); [apply ten_pos; lia|exact V].
Qed.

Lemma print_single_amounts m e : binary32 m e -> exists s n d, print_single m e = Some s /\ 0 <= n /\ amounts s false n d /\ to_single n d = Some (m, e).
Proof.
  intros F. destruct (Z.eq_dec m 0) as [->|Q].
  { exists [zero_char], 0, 1. split; [reflexivity|]. split; [lia|]. split.
    - exists (lit "0"), [], [], [], 0. repeat split; try (left; auto; fail).
    - assert (e = -149) as -> by (destruct F; lia). reflexivity. }
  assert (0 < m) as M by (destruct F; lia). destruct (single_print m e F M) as (c & p & E & Cp & T & _). destruct (print_single_told m e c p F M E Cp) as (s & P & A).
  exists s, (c * 10 ^ Z.max p 0), (10 ^ Z.max (- p) 0). split; [exact P|]. split; [apply Z.mul_nonneg_nonneg; [lia|apply Z.pow_nonneg; lia]|]. split; [exact A|exact T].
Qed.
Lemma amounts_same t neg n d neg' n' d' : amounts t neg n d -> amounts t neg' n' d' -> n * d' = n' * d.
Proof.
  intros A B. apply read_amount in A as (D & c & p & E & C & V). apply read_amount in B as (D' & c' & p' & E' & _ & V'). rewrite E in E'. injection E' as _ <- <-.
  pose proof (ten_pos (Z.max (- p) 0) ltac:(lia)) as T. generalize dependent (10 ^ Z.max (- p) 0). intros x V V' T. apply (Z.mul_reg_r _ _ x); [lia|].
  replace (n * d' * x) with (n * x * d') by ring. replace (n' * d * x) with (n' * x * d) by ring. rewrite V, V'. ring.
Qed.

(* no decimal with fewer digits is read as the same float32 *)
Lemma print_single_short m e : binary32 m e -> exists s c p, print_single m e = Some s /\ 0 <= c /\ amounts s false (c * 10 ^ Z.max p 0) (10 ^ Z.max (- p) 0)
  /\ to_single (c * 10 ^ Z.max p 0) (10 ^ Z.max (- p) 0) = Some (m, e)
  /\ forall c' p' j, 0 <= c' -> 0 <= j -> c' < 10 ^ j -> decimal_single c' p' = Some (m, e) -> c < 10 ^ j.
Proof.
  intros F. destruct (print_single_amounts m e F) as (s & n & d & P & N & A & T). destruct (single_short m e F) as (c & p & C & B & U & _ & L).
  exists s, c, p. split; [exact P|]. split; [exact C|]. split; [|split; [exact U|exact L]].
  apply (amounts_scale _ false n d _ _ A); [apply ten_pos; lia|]. destruct (Z.eq_dec m 0) as [->|Q].
  - unfold single_text in B. unfold print_single in P. cbn [Z.eqb] in B, P. injection P as <-. exact (amounts_same _ _ _ _ _ _ _ A B).
  - assert (0 < m) as M by (destruct F; lia). destruct (single_print m e F M) as (c0 & p0 & E & Cp & _ & A0 & _).
    pose proof (amounts_same _ _ _ _ _ _ _ A0 B) as V. destruct (print_single_told m e c0 p0 F M E Cp) as (s' & P' & A'). rewrite P in P'. injection P' as <-.
    pose proof (amounts_same _ _ _ _ _ _ _ A A') as W.
    pose proof (ten_pos (Z.max (- p0) 0) ltac:(lia)) as X. generalize dependent (10 ^ Z.max (- p0) 0). intros x _ V _ W X.
    apply (Z.mul_reg_r _ _ x); [lia|]. replace (n * 10 ^ Z.max (- p) 0 * x) with (n * x * 10 ^ Z.max (- p) 0) by ring. rewrite W.
    replace (c * 10 ^ Z.max p 0 * d * x) with (c * 10 ^ Z.max p 0 * x * d) by ring. rewrite <- V. ring.
Qed.

Lemma single_json_text neg m e : binary32 m e -> exists t n d, single_json (Single32 neg m e) = Some (JNum t) /\ amounts t neg n d /\ n < (2 ^ 25 - 1) * 2 ^ 103 * d /\ nearest32 n d m e.
Proof.
  intros F. destruct (print_single_amounts m e F) as (s & n & d & P & N & A & T). pose proof (amounts_nonneg _ _ _ _ A) as [_ D].
  exists (if neg then "-"%char :: s else s), n, d. unfold single_json. rewrite P. split; [reflexivity|].
  split; [destruct neg; [now apply minus_amounts|exact A]|]. split; [|exact (single_nearest n d m e N D T)].
  apply Z.nle_gt. intros L. apply (proj2 (to_single_none n d N D)) in L. rewrite L in T. discriminate T.
Qed.

Lemma single_json_short neg m e : binary32 m e -> exists t c p, single_json (Single32 neg m e) = Some (JNum t) /\ amounts t neg (c * 10 ^ Z.max p 0) (10 ^ Z.max (- p) 0)
  /\ forall c' p' j, 0 <= c' -> 0 <= j -> c' * 10 ^ Z.max p' 0 < (2 ^ 25 - 1) * 2 ^ 103 * 10 ^ Z.max (- p') 0 ->
       nearest32 (c' * 10 ^ Z.max p' 0) (10 ^ Z.max (- p') 0) m e -> c' < 10 ^ j -> c < 10 ^ j.
Proof.
  intros F. destruct (print_single_short m e F) as (s & c & p & P & C & A & _ & L). exists (if neg then "-"%char :: s else s), c, p. unfold single_json. rewrite P. split; [reflexivity|].
  split; [destruct neg; [now apply minus_amounts|exact A]|]. intros c' p' j C' J B R K. apply (L c' p' j C' J K). unfold decimal_single.
  assert (0 <= c' * 10 ^ Z.max p' 0) as N by (apply Z.mul_nonneg_nonneg; [exact C'|apply Z.pow_nonneg; lia]). pose proof (ten_pos (Z.max (- p') 0) ltac:(lia)) as D.
  destruct (to_single _ _) as [[m' e']|] eqn:T; [exact (f_equal Some (eq_sym (nearest_single _ _ m' e' m e N D T R)))|].
  apply (proj1 (to_single_none _ _ N D)) in T. apply Z.le_ngt in T. contradiction.
Qed.

Lemma single_survives v n : (forall x, v = Some x -> finite32 x) -> exists j, marshal_single (n_new v) = Some j /\ unmarshal_single j n = (n_new v, true).
Proof.
  intros R. apply s_survives. intros x ->. specialize (R x eq_refl). destruct x as [neg m e| |]; try contradiction.
  destruct (single_json_text neg m e R) as (t & k & d & E & A & L & B). exists (JNum t). split; [exact E|]. split; [discriminate|].
  apply single_says; [intros t' [= <-]; exists neg, k, d; exact A|]. exists t, neg, k, d, m, e. auto.
Qed.

Lemma single_accepts j n n' : sane j -> (unmarshal_single j n = (n', true) <-> j = JNull /\ n' = n_new None \/ exists x, says_single j x /\ n' = n_new (Some x)).
Proof. intros S. apply s_accepts; [intros x; now apply single_says|reflexivity]. Qed.

Lemma infinite32_refused n : (exists neg, nValue n = Some (Infinite32 neg)) \/ nValue n = Some NotANumber32 -> marshal_single n = None.
Proof. unfold marshal_single, n_marshal. intros [[neg ->]| ->]; reflexivity. Qed.

Lemma singles_refuse j :
  (forall n n', unmarshal_int32 j n = (n', false) -> n' = n_new (Some (match n_get n with Some x => x | None => 0 end)))
  /\ (forall n n', unmarshal_int64 j n = (n', false) -> n' = n_new (Some (match n_get n with Some x => x | None => 0 end)))
  /\ (forall n n', unmarshal_single j n = (n', false) -> n' = n_new (Some (match n_get n with Some x => x | None => Single32 false 0 (-149) end))).
Proof. split; [|split]; intros n n'; apply s_refuses. Qed.

(* when a float32 has an exponent *)
Lemma step_up32 m m0 u k : m < 2 ^ 24 -> 2 ^ 23 <= m0 -> 0 < u -> 1 <= k -> m * u < m0 * (u * 2 ^ k).
Proof.
  intros M M0 U K. assert (2 <= 2 ^ k) as P by (change 2 with (2 ^ 1) at 1; apply Z.pow_le_mono_r; lia). generalize dependent (2 ^ k). intros w P.
  assert (2 ^ 24 <= m0 * w) by nia. replace (m0 * (u * w)) with (m0 * w * u) by ring. nia.
Qed.
Lemma less_single m e m0 e0 : binary32 m e -> 2 ^ 23 <= m0 < 2 ^ 24 -> -149 <= e0 ->
  (less_double (m, e) (m0, e0) = true <-> m * 2 ^ (e + 149) < m0 * 2 ^ (e0 + 149)).
Proof.
  intros F M0 E0. assert (-149 <= e /\ m < 2 ^ 24 /\ (-149 < e -> 2 ^ 23 <= m)) as (E & M & N) by (destruct F; repeat split; try intros; lia). clear F.
  unfold less_double. cbn [fst snd]. destruct (Z.ltb_spec e e0) as [A|A]; cbn [orb].
  - split; [intros _|reflexivity]. replace (e0 + 149) with (e + 149 + (e0 - e)) by lia. rewrite (Z.pow_add_r 2 (e + 149)) by lia. apply step_up32; [exact M|lia|apply pow_pos; lia|lia].
  - destruct (Z.eqb_spec e e0) as [->|B]; cbn [andb].
    + rewrite Z.ltb_lt. apply Z.mul_lt_mono_pos_r. apply pow_pos. lia.
    + split; [discriminate|]. intros H. exfalso. apply (Z.lt_asymm _ _ H). replace (e + 149) with (e0 + 149 + (e - e0)) by lia. rewrite (Z.pow_add_r 2 (e0 + 149)) by lia.
      apply step_up32; [lia|apply N; lia|apply pow_pos; lia|lia].
Qed.
Lemma small32 : nearest32 1 (10 ^ 6) (fst small_single) (snd small_single) /\ 2 ^ 23 <= fst small_single < 2 ^ 24 /\ -149 <= snd small_single.
Proof. split; [apply single_nearest; [discriminate|reflexivity|vm_compute; reflexivity]|]. vm_compute. repeat split; discriminate. Qed.
Lemma large32 : nearest32 (10 ^ 21) 1 (fst large_single) (snd large_single) /\ 2 ^ 23 <= fst large_single < 2 ^ 24 /\ -149 <= snd large_single.
Proof. split; [apply single_nearest; [discriminate|reflexivity|vm_compute; reflexivity]|]. vm_compute. repeat split; discriminate. Qed.

Lemma single_notation neg m e t : binary32 m e -> single_json (Single32 neg m e) = Some (JNum t) ->
  exists m1 e1 m2 e2, nearest32 1 (10 ^ 6) m1 e1 /\ nearest32 (10 ^ 21) 1 m2 e2
    /\ (In "e"%char t <-> 0 < m /\ (m * 2 ^ (e + 149) < m1 * 2 ^ (e1 + 149) \/ m2 * 2 ^ (e2 + 149) <= m * 2 ^ (e + 149))).
Proof.
  intros F J. destruct small32 as (N1 & S1 & S2). destruct large32 as (N2 & L1 & L2). exists (fst small_single), (snd small_single), (fst large_single), (snd large_single).
  split; [exact N1|]. split; [exact N2|]. clear N1 N2. cbn [single_json] in J. destruct (print_single m e) as [s|] eqn:P; [|discriminate]. injection J as <-.
  assert (In "e"%char (if neg then "-"%char :: s else s) <-> In "e"%char s) as -> by (destruct neg; [split; [intros [H|H]; [discriminate|exact H]|now right]|reflexivity]).
  unfold print_single in P. destruct (Z.eqb_spec m 0) as [->|Q]; [injection P as <-; split; [intros [H|[]]; discriminate|lia]|].
  assert (0 < m) as M by (destruct F; lia). destruct (shortest_single _ _ _ _) as [[c p]|] eqn:S; [|discriminate]. apply shortest_inv32 in S as [C _]; [|lia].
  destruct small_single as [m1 e1], large_single as [m2 e2]. cbn [fst snd] in *. revert P.
  pose proof (less_single m e m1 e1 F S1 S2) as A. pose proof (less_single m e m2 e2 F L1 L2) as B.
  destruct (less_double (m, e) (m1, e1)); cbn [orb].
  - intros [= <-]. split; [intros _; split; [exact M|left; now apply A]|intros _; apply fmt_e_letter].
  - destruct (less_double (m, e) (m2, e2)); cbn [negb]; intros [= <-].
    + split; [intros I; contradiction (fmt_f_plain _ _ (strip_digits c C) I)|]. intros (_ & [H|H]).
      * apply A in H. discriminate.
      * exfalso. apply Z.le_ngt in H. apply H, B. reflexivity.
    + split; [intros _|intros _; apply fmt_e_letter]. split; [exact M|]. right. apply Z.nlt_ge. intros H. apply B in H. discriminate.
Qed.

(* cases *)
Lemma single_case : finite32 (Single32 true 13421773 (-27)) /\ single_json (Single32 true 13421773 (-27)) = Some (JNum (lit "-0.1"))
  /\ json_single (JNum (lit "-1e-1")) = Some (Single32 true 13421773 (-27)) /\ json_single (JNum (lit "1e39")) = None
  /\ single_json (Single32 false 8388608 (-149)) = Some (JNum (lit "1.1754944e-38")) /\ single_json (Single32 false 8388608 47) = Some (JNum (lit "1.1805916e+21"))
  /\ json_int32 (JNum (lit "-2147483648")) = Some (- 2 ^ 31) /\ json_int32 (JNum (lit "2147483648")) = None.
Proof. split; [left; split; split; discriminate || reflexivity|]. repeat split; vm_compute; reflexivity. Qed.
Lemma single_taken : exists j x, sane j /\ says_single j x /\ unmarshal_single j nullable0 = (n_new (Some x), true).
Proof.
  destruct (single_json_text false 13421773 (-27)) as (t & n & d & E & A & L & B); [left; split; split; (discriminate || reflexivity)|].
  exists (JNum t), (Single32 false 13421773 (-27)).
  assert (sane (JNum t)) as S by (intros t' [= <-]; exists false, n, d; exact A).
  assert (says_single (JNum t) (Single32 false 13421773 (-27))) as Y by (exists t, false, n, d, 13421773, (-27); auto).
  split; [exact S|]. split; [exact Y|]. apply single_accepts; [exact S|]. right. eauto.
Qed.
Lemma int32_case : says_whole32 (JNum (lit "-2147483648")) (- 2 ^ 31) /\ sane (JNum (lit "-2147483648")) /\ json_int32 (JNum (lit "2147483648")) = None /\ json_int32 (JNum (lit "-2147483649")) = None.
Proof.
  assert (sane (JNum (lit "-2147483648"))) as S.
  { intros t [= <-]. exists true, (2 ^ 31), 1. exists (lit "2147483648"), [], [], [], 0. split; [reflexivity|]. split; [right; split; [apply digits_numerals; [discriminate|reflexivity]|discriminate]|].
    split; [left; auto|]. split; [left; auto|]. split; [lia|reflexivity]. }
  split; [apply int32_says; [exact S|reflexivity]|]. split; [exact S|]. split; reflexivity.
Qed.
Lemma singles_left : exists j n n32, unmarshal_int32 j (n_new None) = (n, false) /\ n <> n_new None /\ unmarshal_int32 j nullable0 = (n, false) /\ n <> nullable0
  /\ unmarshal_single j (n_new None) = (n32, false) /\ n32 <> n_new None /\ unmarshal_single j nullable0 = (n32, false) /\ n32 <> nullable0.
Proof. exists (JBool true). eexists _, _. split; [reflexivity|]. split; [discriminate|]. split; [reflexivity|]. split; [discriminate|]. split; [reflexivity|]. split; [discriminate|]. split; [reflexivity|discriminate]. Qed.
Lemma singles_unset : exists j, marshal_int32 nullable0 = Some j /\ marshal_int64 nullable0 = Some j /\ marshal_single nullable0 = Some j
  /\ unmarshal_int32 j nullable0 = (n_new None, true) /\ unmarshal_int64 j nullable0 = (n_new None, true) /\ unmarshal_single j nullable0 = (n_new None, true).
Proof. exists JNull. repeat split. Qed.
