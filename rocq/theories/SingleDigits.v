(* 9 digits are enough for a float32, as in NumberText.v for float64 *)
From Coq Require Import ZArith NArith Bool Ascii String List Lia.
Import ListNotations.
From Verif Require Import GoBase GoBaseFacts GoTime Json JsonTextFacts JsonFile GoFloat Client ClientScalars ClientParams SpecCodec SpecJson FieldFacts SpecNumbers SpecParams NumberFacts NumberRound NumberText SingleRound.
Local Open Scope string_scope.
Local Open Scope Z_scope.
Local Open Scope list_scope.
Local Notation length := List.length.

Lemma try_inv32 m e p c : 0 <= m -> try_single m e p = Some c -> 0 <= c /\ decimal_single c p = Some (m, e).
Proof.
  intros M. unfold try_single. set (n := m * 2 ^ Z.max e 0 * 10 ^ Z.max (- p) 0). set (d := 2 ^ Z.max (- e) 0 * 10 ^ Z.max p 0).
  assert (0 < d) as D by (subst d; apply Z.mul_pos_pos; apply Z.pow_pos_nonneg; lia).
  assert (0 <= n) as N by (subst n; repeat apply Z.mul_nonneg_nonneg; try assumption; apply Z.pow_nonneg; lia).
  assert (0 <= n / d) as Q by (apply Z.div_pos; lia).
  destruct (2 * (n mod d) <=? d);
    (destruct (same_double _ m e) eqn:A; [intros [= <-]; apply same_double_some in A; split; [lia|exact A]|]; clear A;
     destruct (same_double _ m e) eqn:A; [intros [= <-]; apply same_double_some in A; split; [lia|exact A]|discriminate]).
Qed.

Lemma shortest_inv32 m e c q : 0 <= m -> forall fuel p, shortest_single fuel m e p = Some (c, q) -> 0 <= c /\ decimal_single c q = Some (m, e).
Proof.
  intros M. induction fuel as [|f IH]; intros p; [discriminate|]. cbn [shortest_single]. destruct (try_single m e p) as [c'|] eqn:E; [|apply IH].
  intros [= <- <-]. now apply try_inv32.
Qed.

Lemma decimal_zero32 p : decimal_single 0 p = Some (0, -149).
Proof. unfold decimal_single. rewrite Z.mul_0_l. reflexivity. Qed.

Lemma places_9 n d p : 0 < n -> 0 < d -> p = places n d - 9 -> 10 ^ 8 * (d * 10 ^ Z.max p 0) <= n * 10 ^ Z.max (- p) 0.
Proof.
  intros N D E. pose proof (places_low n d N D) as H. replace (places n d - 1) with (p + 8) in H by lia. replace (1 - places n d) with (- (p + 8)) in H by lia. clear E.
  destruct (Z_le_gt_dec 0 p) as [A|A].
  - rewrite Z.max_l, Z.max_r, Z.pow_0_r, Z.pow_add_r in H by lia. rewrite Z.max_l, Z.max_r, Z.pow_0_r by lia. replace (10 ^ 8 * (d * 10 ^ p)) with (d * (10 ^ p * 10 ^ 8)) by ring. exact H.
  - rewrite (Z.max_r p), (Z.max_l (- p)) by lia. rewrite Z.pow_0_r, Z.mul_1_r. destruct (Z_le_gt_dec 0 (p + 8)) as [B|B].
    + rewrite Z.max_l, Z.max_r, Z.pow_0_r, Z.mul_1_r in H by lia. replace (10 ^ 8) with (10 ^ (p + 8) * 10 ^ (- p)) by (rewrite <- Z.pow_add_r by lia; f_equal; lia).
      pose proof (ten_pos (- p) ltac:(lia)) as P. replace (10 ^ (p + 8) * 10 ^ (- p) * d) with (d * 10 ^ (p + 8) * 10 ^ (- p)) by ring. apply Z.mul_le_mono_nonneg_r; lia.
    + rewrite Z.max_r, Z.max_l, Z.pow_0_r, Z.mul_1_r in H by lia. replace (10 ^ (- p)) with (10 ^ (- (p + 8)) * 10 ^ 8) by (rewrite <- Z.pow_add_r by lia; f_equal; lia).
      rewrite Z.mul_assoc, (Z.mul_comm (10 ^ 8)). apply Z.mul_le_mono_nonneg_r; [discriminate|exact H].
Qed.

Lemma gap32 m e m' e' : binary32 m e -> binary32 m' e' -> (m', e') <> (m, e) ->
  (if m =? 2 ^ 23 then 1 else 2) * 2 ^ (e + 149) <= 2 * Z.abs (m * 2 ^ (e + 149) - m' * 2 ^ (e' + 149)).
Proof.
  intros F F' Ne. assert (-149 <= e) as E by (destruct F; lia). assert (-149 <= e') as E' by (destruct F'; lia).
  pose proof (pow_pos (e + 149) ltac:(lia)) as U. pose proof (pow_pos (e' + 149) ltac:(lia)) as U'.
  assert (m < 2 ^ 24) as M by (destruct F; lia). assert (m' < 2 ^ 24) as M' by (destruct F'; lia).
  destruct (Z.eq_dec e' e) as [->|D].
  - assert (m <> m') as K by congruence. remember (2 ^ (e + 149)) as u. clear - K U. replace (m * u - m' * u) with ((m - m') * u) by ring. rewrite Z.abs_mul, (Z.abs_eq u) by lia.
    assert (1 <= Z.abs (m - m')) by lia. destruct (m =? 2 ^ 23); nia.
  - destruct (Z_lt_le_dec e e') as [L|L].
    + assert (2 ^ 23 <= m') as K by (destruct F'; lia). assert (2 ^ (e' + 149) = 2 * 2 ^ (e + 149) * 2 ^ (e' - e - 1)) as -> by (change 2 with (2 ^ 1) at 2; rewrite <- !Z.pow_add_r by lia; f_equal; lia).
      pose proof (pow_pos (e' - e - 1) ltac:(lia)) as Y. remember (2 ^ (e + 149)) as u. remember (2 ^ (e' - e - 1)) as y. clear - K M U Y.
      assert (2 ^ 24 * u <= m' * (2 * u * y)) as A by (apply (Z.le_trans _ (2 ^ 23 * (2 * u * 1))); [change (2 ^ 24) with (2 ^ 23 * 2); lia|]; apply Z.mul_le_mono_nonneg; try lia; apply Z.mul_le_mono_nonneg_l; lia).
      assert (m * u <= (2 ^ 24 - 1) * u) as B by (apply Z.mul_le_mono_nonneg_r; lia).
      remember (m' * (2 * u * y)) as b. remember (m * u) as a. clear - A B U. destruct (m =? 2 ^ 23); lia.
    + assert (2 ^ 23 <= m) as K by (destruct F; lia). assert (2 ^ (e + 149) = 2 * 2 ^ (e' + 149) * 2 ^ (e - e' - 1)) as Eu by (change 2 with (2 ^ 1) at 2; rewrite <- !Z.pow_add_r by lia; f_equal; lia).
      pose proof (pow_pos (e - e' - 1) ltac:(lia)) as Y. remember (2 ^ (e + 149)) as u. remember (2 ^ (e' + 149)) as w. remember (2 ^ (e - e' - 1)) as y. clear - K M M' U U' Y Eu.
      assert (2 * w <= u) as W by (rewrite Eu, <- (Z.mul_1_r (2 * w)) at 1; apply Z.mul_le_mono_nonneg_l; lia).
      assert (2 * (m' * w) <= (2 ^ 24 - 1) * u) as A.
      { apply (Z.le_trans _ ((2 ^ 24 - 1) * (2 * w))); [replace (2 * (m' * w)) with (m' * (2 * w)) by ring; apply Z.mul_le_mono_nonneg_r; lia|apply Z.mul_le_mono_nonneg_l; lia]. }
      destruct (m =? 2 ^ 23) eqn:Q.
      * apply Z.eqb_eq in Q. subst m. lia.
      * apply Z.eqb_neq in Q. assert ((2 ^ 23 + 1) * u <= m * u) as B by (apply Z.mul_le_mono_nonneg_r; lia). remember (m * u) as a. remember (m' * w) as b. clear - A B U. lia.
Qed.

Lemma closer32 m u x b : 0 < u -> m < 2 ^ 24 -> 2 * 10 ^ 8 * x <= m * u -> (if m =? 2 ^ 23 then 1 else 2) * u <= 2 * b -> 2 * x < b /\ 2 * x < u.
Proof.
  intros U M A B. destruct (m =? 2 ^ 23) eqn:Q.
  - apply Z.eqb_eq in Q. subst m. lia.
  - assert (m * u <= 2 ^ 24 * u) by (apply Z.mul_le_mono_nonneg_r; lia). lia.
Qed.

Lemma close_single m e n d : binary32 m e -> 0 <= n -> 0 < d ->
  2 * 10 ^ 8 * Z.abs (m * 2 ^ (e + 149) * d - n * 2 ^ 149) <= m * (2 ^ (e + 149) * d) -> to_single n d = Some (m, e).
Proof.
  intros F N D X. assert (-149 <= e <= 104) as E by (destruct F; lia). assert (m < 2 ^ 24) as M by (destruct F; lia).
  pose proof (pow_pos (e + 149) ltac:(lia)) as U. assert (0 < 2 ^ (e + 149) * d) as Ud by (apply Z.mul_pos_pos; assumption).
  assert (nearest32 n d m e) as H.
  { split; [exact F|]. intros m' e' F'. destruct (Z.eq_dec (m * 2 ^ (e + 149)) (m' * 2 ^ (e' + 149))) as [Q|Q].
    - rewrite <- Q. split; [lia|]. intros _. left. now apply binary32_unique.
    - assert ((m', e') <> (m, e)) as Ne by congruence. pose proof (gap32 m e m' e' F F' Ne) as G.
      assert ((if m =? 2 ^ 23 then 1 else 2) * (2 ^ (e + 149) * d) <= 2 * Z.abs ((m * 2 ^ (e + 149) - m' * 2 ^ (e' + 149)) * d)) as G'.
      { rewrite Z.abs_mul, (Z.abs_eq d), !Z.mul_assoc by lia. apply Z.mul_le_mono_nonneg_r; [lia|exact G]. }
      rewrite Z.mul_sub_distr_r in G'. destruct (closer32 _ _ _ _ Ud M X G') as [K _].
      remember (m * 2 ^ (e + 149) * d) as a. remember (m' * 2 ^ (e' + 149) * d) as b. remember (n * 2 ^ 149) as c. clear - K. split; [lia|]. intros K'. lia. }
  destruct (to_single n d) as [[m0 e0]|] eqn:T; [f_equal; symmetry; now apply (nearest_single n d)|]. exfalso. apply to_single_none in T; [|assumption..].
  destruct (closer32 _ _ _ (2 ^ (e + 149) * d) Ud M X) as [_ K]; [destruct (m =? 2 ^ 23); clear - Ud; lia|].
  assert (2 * (n * 2 ^ 149) < (2 ^ 25 - 1) * (2 ^ (e + 149) * d)) as A.
  { assert (m * (2 ^ (e + 149) * d) <= (2 ^ 24 - 1) * (2 ^ (e + 149) * d)) as B by (apply Z.mul_le_mono_nonneg_r; lia).
    rewrite <- Z.mul_assoc in K. remember (2 ^ (e + 149) * d) as x. remember (m * x) as y. remember (n * 2 ^ 149) as z. clear - B K Ud. change (2 ^ 25) with (2 * 2 ^ 24). lia. }
  assert (2 ^ (e + 149) * d <= 2 ^ 253 * d) as B by (apply Z.mul_le_mono_nonneg_r; [lia|apply Z.pow_le_mono_r; lia]).
  assert (2 * (n * 2 ^ 149) < (2 ^ 25 - 1) * (2 ^ 253 * d)) as C by (apply (Z.lt_le_trans _ _ _ A); apply Z.mul_le_mono_nonneg_l; [discriminate|exact B]).
  assert ((2 ^ 25 - 1) * (2 ^ 253 * d) = 2 * ((2 ^ 25 - 1) * 2 ^ 103 * d * 2 ^ 149)) as Q.
  { replace (2 ^ 253) with (2 * 2 ^ 103 * 2 ^ 149) by (vm_compute; reflexivity). remember (2 ^ 103) as x. remember (2 ^ 149) as y. ring. }
  rewrite Q in C. apply (Z.mul_le_mono_nonneg_r _ _ (2 ^ 149)) in T; [|discriminate]. remember ((2 ^ 25 - 1) * 2 ^ 103 * d * 2 ^ 149) as x. remember (n * 2 ^ 149) as y. clear - C T. lia.
Qed.

Lemma try_close32 m e p : binary32 m e -> 0 < m -> p = places (m * 2 ^ Z.max e 0) (2 ^ Z.max (- e) 0) - 9 -> exists c, try_single m e p = Some c.
Proof.
  intros F M P. assert (-149 <= e <= 104) as E by (destruct F; lia).
  pose proof (pow_pos (Z.max e 0) ltac:(lia)) as A0. pose proof (pow_pos (Z.max (- e) 0) ltac:(lia)) as A1.
  assert (0 < m * 2 ^ Z.max e 0) as Np by (apply Z.mul_pos_pos; assumption).
  pose proof (places_9 _ _ p Np A1 P) as B. clear P. pose proof (ten_pos (Z.max p 0) ltac:(lia)) as T0. pose proof (ten_pos (Z.max (- p) 0) ltac:(lia)) as T1.
  unfold try_single. set (n := m * 2 ^ Z.max e 0 * 10 ^ Z.max (- p) 0) in *. set (d := 2 ^ Z.max (- e) 0 * 10 ^ Z.max p 0) in *.
  assert (0 < d) as Dp by (apply Z.mul_pos_pos; assumption). assert (0 < n) as N by (apply Z.mul_pos_pos; assumption).
  destruct (nearer n d ltac:(clear - N; lia) Dp) as [C0 C1].
  assert (forall a, 0 <= a -> 2 * Z.abs (a * d - n) <= d -> same_double (decimal_single a p) m e = true) as K.
  { intros a A2 A3. apply same_double_some. unfold decimal_single. apply close_single; [exact F|apply Z.mul_nonneg_nonneg; [exact A2|apply Z.lt_le_incl; exact T0]|exact T1|].
    assert (m * 2 ^ (e + 149) * 10 ^ Z.max (- p) 0 - a * 10 ^ Z.max p 0 * 2 ^ 149 = (n - a * d) * 2 ^ (149 + Z.min e 0)) as ->.
    { subst n d. assert (2 ^ (e + 149) = 2 ^ Z.max e 0 * 2 ^ (149 + Z.min e 0)) as -> by (rewrite <- Z.pow_add_r by lia; f_equal; lia).
      assert (2 ^ 149 = 2 ^ Z.max (- e) 0 * 2 ^ (149 + Z.min e 0)) as -> by (rewrite <- Z.pow_add_r by lia; f_equal; lia). ring. }
    assert (m * (2 ^ (e + 149) * 10 ^ Z.max (- p) 0) = n * 2 ^ (149 + Z.min e 0)) as ->.
    { subst n. assert (2 ^ (e + 149) = 2 ^ Z.max e 0 * 2 ^ (149 + Z.min e 0)) as -> by (rewrite <- Z.pow_add_r by lia; f_equal; lia). ring. }
    pose proof (pow_pos (149 + Z.min e 0) ltac:(lia)) as W. remember (2 ^ (149 + Z.min e 0)) as w. clearbody n d. clear - A3 B W.
    rewrite Z.abs_mul, (Z.abs_eq w), Z.mul_assoc by lia. apply Z.mul_le_mono_nonneg_r; [lia|]. change (10 ^ 8) with 100000000 in *. lia. }
  destruct (2 * (n mod d) <=? d); rewrite (K _ C0 C1); eauto.
Qed.

Lemma shortest_some32 m e q c : try_single m e q = Some c -> forall fuel p, q <= p -> p - q < Z.of_nat fuel -> exists x, shortest_single fuel m e p = Some x.
Proof.
  intros H. induction fuel as [|f IH]; intros p A B; [lia|]. cbn [shortest_single]. destruct (try_single m e p) as [c'|] eqn:Q; [eauto|].
  apply IH; [|lia]. assert (q <> p) by congruence. lia.
Qed.

Lemma exponent_bound32 c p m e : 0 < c -> 0 < m -> decimal_single c p = Some (m, e) -> Z.abs (Z.of_nat (length (utoa c)) + p - 1) < 100.
Proof.
  intros C M H. unfold decimal_single in H. pose proof (ten_pos (Z.max (- p) 0) ltac:(lia)) as T. pose proof (ten_pos (Z.max p 0) ltac:(lia)) as T'.
  pose proof (utoa_size c C) as [A B]. pose proof (utoa_nonempty c) as L1. set (l := Z.of_nat (length (utoa c))) in *. assert (1 <= l) as L by (subst l; lia). clearbody l. clear L1.
  assert (0 <= c * 10 ^ Z.max p 0) as N by (apply Z.mul_nonneg_nonneg; lia).
  assert (c * 10 ^ Z.max p 0 < (2 ^ 25 - 1) * 2 ^ 103 * 10 ^ Z.max (- p) 0) as R.
  { apply Z.nle_gt. intros K. apply to_single_none in K; [congruence|exact N|exact T]. }
  assert (10 ^ Z.max (- p) 0 < 2 ^ 150 * (c * 10 ^ Z.max p 0)) as R'.
  { apply Z.nle_gt. intros K. apply single_tiny in K as [e' K]; [|exact N|exact T]. rewrite K in H. injection H as H _. rewrite <- H in M. exact (Z.lt_irrefl _ M). }
  assert (10 ^ (l - 1 + Z.max p 0) < 10 ^ (40 + Z.max (- p) 0)) as Q.
  { rewrite !Z.pow_add_r by lia. apply (Z.le_lt_trans _ (c * 10 ^ Z.max p 0)); [apply Z.mul_le_mono_nonneg_r; [apply Z.lt_le_incl; exact T'|exact A]|].
    apply (Z.lt_le_trans _ _ _ R). apply Z.mul_le_mono_nonneg_r; [apply Z.lt_le_incl; exact T|]. apply Z.leb_le. vm_compute. reflexivity. }
  assert (10 ^ (Z.max (- p) 0) < 10 ^ (50 + (l + Z.max p 0))) as Q'.
  { apply (Z.lt_le_trans _ _ _ R'). rewrite !(Z.pow_add_r 10) by lia. apply Z.mul_le_mono_nonneg; [discriminate|apply Z.leb_le; vm_compute; reflexivity|exact N|].
    apply Z.mul_le_mono_nonneg_r; [apply Z.lt_le_incl; exact T'|apply Z.lt_le_incl; exact B]. }
  clear - Q Q' L. apply Z.pow_lt_mono_r_iff in Q; [|lia|lia]. apply Z.pow_lt_mono_r_iff in Q'; [|lia|lia]. lia.
Qed.
