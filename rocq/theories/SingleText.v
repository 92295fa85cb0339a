(* Facts for C108: the text of a float32 *)
From Coq Require Import ZArith NArith Bool Ascii String List Lia.
Import ListNotations.
From Verif Require Import GoBase GoBaseFacts GoTime Json JsonTextFacts JsonFile GoFloat Client ClientScalars ClientParams SpecCodec SpecJson FieldFacts SpecNumbers SpecParams NumberFacts NumberRound NumberText NumberShort NumberNotation SingleRound SingleDigits SingleShort ParamNumbers.
Local Open Scope string_scope.
Local Open Scope Z_scope.
Local Open Scope list_scope.
Local Notation length := List.length.

(* the digits of an exponent *)
Definition exponent_digits (x : Z) : bytes := (if x <? 10 then [zero_char] else []) ++ utoa x.

Lemma exponent_two x : 0 <= x < 100 -> length (exponent_digits x) = 2%nat /\ forallb is_digit (exponent_digits x) = true /\ dval (exponent_digits x) = x.
Proof.
  intros X. assert (forallb (fun x => Nat.eqb (length (exponent_digits x)) 2 && forallb is_digit (exponent_digits x) && (dval (exponent_digits x) =? x)) (map Z.of_nat (seq 0 100)) = true) as A by (vm_compute; reflexivity).
  rewrite forallb_forall in A. specialize (A x). rewrite !andb_true_iff in A. destruct A as [[A B] D].
  { apply in_map_iff. exists (Z.to_nat x). split; [lia|]. apply in_seq. lia. }
  split; [now apply Nat.eqb_eq|]. split; [exact B|now apply Z.eqb_eq].
Qed.

Lemma fmt_e2_shape t dp : Z.abs (dp - 1) < 100 -> exists a g ds, fmt_e2 t dp = a ++ "e"%char :: g :: ds /\ (g = "-"%char \/ g = "+"%char) /\ numerals ds /\ length ds = 2%nat.
Proof.
  intros B. destruct (exponent_two (Z.abs (dp - 1)) ltac:(lia)) as (L & D & _). unfold fmt_e2. fold (exponent_digits (Z.abs (dp - 1))).
  exists (firstn 1 t ++ match skipn 1 t with [] => [] | r => "."%char :: r end), (if dp - 1 <? 0 then "-"%char else "+"%char), (exponent_digits (Z.abs (dp - 1))).
  split; [now rewrite <- app_assoc|]. split; [destruct (dp - 1 <? 0); auto|]. split; [apply digits_numerals; [intros E; rewrite E in L; discriminate|exact D]|exact L].
Qed.

Lemma fmt_e2_amounts t dp : leading t -> Z.abs (dp - 1) < 100 -> amounts (fmt_e2 t dp) false (point_n t dp) (point_d t dp).
Proof.
  intros L B. pose proof L as (N & D & F). unfold amounts, point_n, point_d, fmt_e2. assert (0 < length t)%nat as L0 by (destruct t; [congruence|cbn; lia]).
  pose proof (ten_pos (Z.max (Z.of_nat (length t) - dp) 0) ltac:(lia)) as P. assert (length (skipn 1 t) = (length t - 1)%nat) as Ls by apply skipn_length.
  fold (exponent_digits (Z.abs (dp - 1))). destruct (exponent_two (Z.abs (dp - 1)) ltac:(lia)) as (L2 & D2 & V2). remember (exponent_digits (Z.abs (dp - 1))) as ds. clear Heqds.
  exists (firstn 1 t), (match skipn 1 t with [] => [] | r => "."%char :: r end), (skipn 1 t),
    ("e"%char :: (if dp - 1 <? 0 then "-"%char else "+"%char) :: ds), (dp - 1).
  split; [reflexivity|]. split; [right; apply leading_whole; apply (leading_first 1 t []); [exact L|lia]|].
  split; [pose proof (skip_digits 1 t D) as Dk; destruct (skipn 1 t); [now left|right; split; [reflexivity|apply digits_numerals; [discriminate|exact Dk]]]|].
  split.
  { right. exists "e"%char, (if dp - 1 <? 0 then lit "-" else lit "+"), ds.
    split; [destruct (dp - 1 <? 0); reflexivity|]. split; [now left|]. split; [apply digits_numerals; [intros E; rewrite E in L2; discriminate|exact D2]|]. rewrite decimal_dval, V2. split; [lia|].
    destruct (dp - 1 <? 0) eqn:G; [apply Z.ltb_lt in G; right; split; [reflexivity|lia]|apply Z.ltb_ge in G; left; split; [now right|lia]]. }
  split; [exact P|]. rewrite firstn_skipn, decimal_dval, Ls.
  replace (Z.max 0 (Z.of_nat (length t - 1) - (dp - 1))) with (Z.max (Z.of_nat (length t) - dp) 0) by lia.
  replace (Z.max 0 (dp - 1 - Z.of_nat (length t - 1))) with (Z.max (dp - Z.of_nat (length t)) 0) by lia. ring.
Qed.

(* the size of c * 10^p by its digits *)
Lemma small_size c p : 0 < c -> (Z.of_nat (length (utoa c)) + p - 1 < -4 <-> 10 ^ 4 * (c * 10 ^ Z.max p 0) < 10 ^ Z.max (- p) 0).
Proof.
  intros C. pose proof (utoa_size c C) as [A B]. pose proof (utoa_nonempty c) as L. set (l := Z.of_nat (length (utoa c))) in *. assert (1 <= l) as L1 by (subst l; lia). clearbody l. clear L.
  pose proof (ten_pos (Z.max p 0) ltac:(lia)) as T. split; intros H.
  - rewrite (Z.max_r p) by lia. rewrite (Z.max_l (- p)) by lia. rewrite Z.pow_0_r, Z.mul_1_r. apply (Z.lt_le_trans _ (10 ^ 4 * 10 ^ l)); [lia|]. rewrite <- Z.pow_add_r by lia. apply Z.pow_le_mono_r; lia.
  - assert (10 ^ (4 + (l - 1) + Z.max p 0) < 10 ^ Z.max (- p) 0) as K.
    { apply (Z.le_lt_trans _ (10 ^ 4 * (c * 10 ^ Z.max p 0))); [|exact H]. rewrite !(Z.pow_add_r 10) by lia. rewrite <- Z.mul_assoc. apply Z.mul_le_mono_nonneg_l; [discriminate|]. apply Z.mul_le_mono_nonneg_r; lia. }
    apply Z.pow_lt_mono_r_iff in K; lia.
Qed.
Lemma large_size c p : 0 < c -> (6 <= Z.of_nat (length (utoa c)) + p - 1 <-> 10 ^ 6 * 10 ^ Z.max (- p) 0 <= c * 10 ^ Z.max p 0).
Proof.
  intros C. pose proof (utoa_size c C) as [A B]. pose proof (utoa_nonempty c) as L. set (l := Z.of_nat (length (utoa c))) in *. assert (1 <= l) as L1 by (subst l; lia). clearbody l. clear L.
  pose proof (ten_pos (Z.max p 0) ltac:(lia)) as T. split; intros H.
  - apply (Z.le_trans _ (10 ^ (l - 1) * 10 ^ Z.max p 0)); [|apply Z.mul_le_mono_nonneg_r; lia]. rewrite <- !Z.pow_add_r by lia. apply Z.pow_le_mono_r; lia.
  - assert (10 ^ (6 + Z.max (- p) 0) < 10 ^ (l + Z.max p 0)) as K.
    { rewrite !(Z.pow_add_r 10) by lia. apply (Z.le_lt_trans _ _ _ H). apply Z.mul_lt_mono_pos_r; lia. }
    apply Z.pow_lt_mono_r_iff in K; lia.
Qed.

Lemma fmt_e2_letter s dp : In "e"%char (fmt_e2 s dp).
Proof. unfold fmt_e2. apply in_or_app. right. apply in_or_app. right. now left. Qed.

(* the text of the digits that were found *)
Lemma single_print m e : binary32 m e -> 0 < m ->
  exists c p, shortest_single 9 m e (places (m * 2 ^ Z.max e 0) (2 ^ Z.max (- e) 0) - 1) = Some (c, p) /\ 0 < c /\ decimal_single c p = Some (m, e)
    /\ amounts (single_text m e) false (c * 10 ^ Z.max p 0) (10 ^ Z.max (- p) 0)
    /\ exponent_rule (single_text m e) (c * 10 ^ Z.max p 0) (10 ^ Z.max (- p) 0).
Proof.
  intros F M. destruct (try_close32 m e _ F M eq_refl) as [c0 C0]. unfold single_text. assert (m =? 0 = false) as -> by (apply Z.eqb_neq; lia). set (k := places _ _) in *.
  destruct (shortest_some32 m e (k - 9) c0 C0 9 (k - 1)) as [[c p] E]; [lia|lia|]. rewrite E. exists c, p. split; [reflexivity|].
  apply shortest_inv32 in E as [C E]; [|lia].
  destruct (Z.eq_dec c 0) as [->|Cz]; [rewrite decimal_zero32 in E; injection E as E _; lia|]. assert (0 < c) as Cp by lia. split; [exact Cp|]. split; [exact E|].
  pose proof (exponent_bound32 c p m e Cp M E) as B. pose proof (leading_strip c Cp) as Ld. pose proof (small_size c p Cp) as Sm. pose proof (large_size c p Cp) as Lg. destruct (strip_padded (utoa c)) as [j H].
  assert (length (utoa c) = (length (strip_zeros (utoa c)) + j)%nat) as Lu by (rewrite H at 1; now rewrite app_length, repeat_length).
  pose proof (dval_utoa c C) as Vu. rewrite H, dval_app, repeat_length in Vu. rewrite <- (app_nil_r (repeat _ _)), dval_zeros in Vu. change (dval []) with 0 in Vu. rewrite Z.add_0_r in Vu. clear H.
  remember (strip_zeros (utoa c)) as t. set (dp := Z.of_nat (length (utoa c)) + p) in *.
  assert (point_n t dp * 10 ^ Z.max (- p) 0 = c * 10 ^ Z.max p 0 * point_d t dp) as V.
  { unfold point_n, point_d. rewrite <- Vu. rewrite <- !Z.mul_assoc. f_equal. rewrite <- !Z.pow_add_r by lia. f_equal. subst dp. lia. }
  pose proof (ten_pos (Z.max (- p) 0) ltac:(lia)) as T. pose proof (ten_pos (Z.max p 0) ltac:(lia)) as T'. assert (0 < c * 10 ^ Z.max p 0) as Pos by (apply Z.mul_pos_pos; assumption).
  unfold exponent_rule. rewrite <- Sm, <- Lg. clear Sm Lg.
  destruct (Z.ltb_spec (dp - 1) (-4)) as [X|X]; [|destruct (Z.leb_spec 6 (dp - 1)) as [Y|Y]]; cbn [orb].
  - split; [apply (amounts_scale _ false _ _ _ _ (fmt_e2_amounts t dp Ld B)); assumption|]. split; [split; [auto|intros _; apply fmt_e2_letter]|]. intros _. now apply fmt_e2_shape.
  - split; [apply (amounts_scale _ false _ _ _ _ (fmt_e2_amounts t dp Ld B)); assumption|]. split; [split; [auto|intros _; apply fmt_e2_letter]|]. intros _. now apply fmt_e2_shape.
  - split; [apply (amounts_scale _ false _ _ _ _ (fmt_f_amounts t dp Ld)); assumption|]. pose proof (fmt_f_plain t dp (proj1 (proj2 Ld))) as No. split; [split; [intros I; contradiction|lia]|]. intros I. contradiction.
Qed.

Lemma rule_scale s n d n0 d0 : exponent_rule s n d -> 0 < d -> 0 < d0 -> n * d0 = n0 * d -> exponent_rule s n0 d0.
Proof.
  intros [A B] D D0 E. split; [|exact B]. rewrite A. clear A B.
  assert (0 < n <-> 0 < n0) as -> by (clear - D D0 E; split; intros; nia).
  assert (10 ^ 4 * n < d <-> 10 ^ 4 * n0 < d0) as ->.
  { rewrite (Z.mul_lt_mono_pos_r d0 (10 ^ 4 * n) d D0), (Z.mul_lt_mono_pos_r d (10 ^ 4 * n0) d0 D), <- !Z.mul_assoc, E, (Z.mul_comm d d0). reflexivity. }
  assert (10 ^ 6 * d <= n <-> 10 ^ 6 * d0 <= n0) as ->; [|reflexivity].
  rewrite (Z.mul_le_mono_pos_r (10 ^ 6 * d) n d0 D0), (Z.mul_le_mono_pos_r (10 ^ 6 * d0) n0 d D), <- !Z.mul_assoc, E, (Z.mul_comm d d0). reflexivity.
Qed.

Lemma single_short m e : binary32 m e ->
  exists c p, 0 <= c /\ amounts (single_text m e) false (c * 10 ^ Z.max p 0) (10 ^ Z.max (- p) 0)
    /\ to_single (c * 10 ^ Z.max p 0) (10 ^ Z.max (- p) 0) = Some (m, e)
    /\ exponent_rule (single_text m e) (c * 10 ^ Z.max p 0) (10 ^ Z.max (- p) 0)
    /\ forall c' p' j, 0 <= c' -> 0 <= j -> c' < 10 ^ j -> decimal_single c' p' = Some (m, e) -> c < 10 ^ j.
Proof.
  intros F. destruct (Z.eq_dec m 0) as [->|Q].
  { assert (e = -149) as -> by (destruct F; lia). exists 0, 0. split; [lia|]. split; [|split; [reflexivity|]].
    - exists (lit "0"), [], [], [], 0. repeat split; try (left; auto; fail).
    - split; [|intros c' p' j _ J _ _; apply ten_pos, J]. assert (~ In "e"%char (single_text 0 (-149))) as No by (intros [I|[]]; discriminate). split; [split; [contradiction|cbn; lia]|contradiction]. }
  assert (0 < m) as M by (destruct F; lia). destruct (single_print m e F M) as (c & p & S & Cp & T & A & R).
  set (k := places (m * 2 ^ Z.max e 0) (2 ^ Z.max (- e) 0)) in *.
  destruct (shortest_from32 m e _ _ _ _ S) as [Rg Tc]. change (Z.of_nat 9) with 9 in Rg. pose proof (try_size32 m e p c k F M eq_refl ltac:(lia) Tc) as B.
  assert (forall c' p' j, 0 <= c' -> 0 <= j -> c' < 10 ^ j -> decimal_single c' p' = Some (m, e) -> k - p <= j /\ 0 < j) as K.
  { intros c' p' j C' J L D. assert (0 < c') as Cp' by (destruct (Z.eq_dec c' 0) as [->|]; [rewrite decimal_zero32 in D; injection D as D _; lia|lia]).
    assert (0 < j) as Jp by (destruct (Z.eq_dec j 0) as [->|]; [rewrite Z.pow_0_r in L; lia|lia]). split; [|exact Jp].
    destruct (Z_le_gt_dec 9 j) as [G|G]; [lia|]. destruct (try_at32 m e c' p' (k - j) k F M Cp' D eq_refl) as [c0 H]; [replace (k - (k - j)) with j by lia; exact L|lia|].
    pose proof (shortest_at32 m e (k - j) c0 H 9%nat (k - 1) c p ltac:(lia) S). lia. }
  destruct (Z.eq_dec c (10 ^ (k - p))) as [E|E].
  - exists 1, k. split; [lia|]. assert (c * 10 ^ Z.max p 0 * 10 ^ Z.max (- k) 0 = 1 * 10 ^ Z.max k 0 * 10 ^ Z.max (- p) 0) as V by (rewrite E, Z.mul_1_l, !ten_add by lia; f_equal; lia).
    split; [apply (amounts_scale _ false _ _ _ _ A); [apply ten_pos; lia|exact V]|]. split; [|split].
    + rewrite <- T. unfold decimal_single. apply to_single_scale; [apply Z.mul_nonneg_nonneg; [lia|apply Z.pow_nonneg; lia]|apply ten_pos; lia|apply Z.mul_nonneg_nonneg; [lia|apply Z.pow_nonneg; lia]|apply ten_pos; lia|symmetry; exact V].
    + apply (rule_scale _ _ _ _ _ R); [apply ten_pos; lia|apply ten_pos; lia|exact V].
    + intros c' p' j C' J L D. destruct (K c' p' j C' J L D) as [_ Jp]. apply (Z.pow_gt_1 10 j); lia.
  - exists c, p. split; [lia|]. split; [exact A|]. split; [exact T|]. split; [exact R|]. intros c' p' j C' J L D. destruct (K c' p' j C' J L D) as [K1 _].
    apply (Z.lt_le_trans _ (10 ^ (k - p))); [lia|apply Z.pow_le_mono_r; lia].
Qed.

Lemma rule_sign (neg : bool) s n d : exponent_rule s n d -> exponent_rule (if neg then "-"%char :: s else s) n d.
Proof.
  destruct neg; [|auto]. intros [A B]. assert (In "e"%char ("-"%char :: s) <-> In "e"%char s) as I by (split; [intros [H|H]; [discriminate|exact H]|now right]).
  split; [rewrite I; exact A|]. intros H. apply I in H. destruct (B H) as (a & g & ds & -> & G). exists ("-"%char :: a), g, ds. split; [reflexivity|exact G].
Qed.

Lemma float_said x : float_says x (float_text x).
Proof.
  destruct x as [neg m e|neg|]; [|destruct neg; reflexivity|reflexivity]. intros M.
  assert (0 <= m * 2 ^ Z.max e 0) as N by (apply Z.mul_nonneg_nonneg; [exact M|apply Z.pow_nonneg; lia]). pose proof (pow_pos (Z.max (- e) 0) ltac:(lia)) as D.
  split; [|split].
  - intros H. apply to_single_none in H; [|exact N|exact D]. unfold float_text. rewrite H. destruct neg; reflexivity.
  - intros H. unfold float_text. destruct (to_single (m * 2 ^ Z.max e 0) (2 ^ Z.max (- e) 0)) as [[m' e']|] eqn:X; [|apply to_single_none in X; [apply Z.nlt_ge in X; contradiction|exact N|exact D]].
    pose proof (single_nearest _ _ m' e' N D X) as Nr. destruct (single_short m' e' (proj1 Nr)) as (c & p & C & A & T & R & S). exists c, p, m', e'.
    split; [destruct neg; [now apply minus_amounts|exact A]|]. split; [exact Nr|]. pose proof (amounts_nonneg _ _ _ _ A) as [N' D'].
    split; [now apply single_nearest|]. split; [|now apply rule_sign]. intros c' p' j C' J L B H'. apply (S c' p' j C' J B). unfold decimal_single.
    assert (0 <= c' * 10 ^ Z.max p' 0) as N1 by (apply Z.mul_nonneg_nonneg; [exact C'|apply Z.pow_nonneg; lia]). pose proof (ten_pos (Z.max (- p') 0) ltac:(lia)) as D1.
    destruct (to_single (c' * 10 ^ Z.max p' 0) (10 ^ Z.max (- p') 0)) as [[m0 e0]|] eqn:Y; [f_equal; symmetry; exact (nearest_single _ _ _ _ _ _ N1 D1 Y H')|].
    exfalso. apply to_single_none in Y; [|exact N1|exact D1]. apply Z.nlt_ge in Y. exact (Y L).
  - intros z Z V. rewrite (float_text_whole neg m e z M Z V). unfold itoa. destruct (z <? 0) eqn:Q; [apply Z.ltb_lt in Q; lia|]. destruct neg; reflexivity.
Qed.
