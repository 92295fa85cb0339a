(* Rounding to the nearest float32, as NumberRound.v does it for float64 *)
From Coq Require Import ZArith NArith Bool Ascii String List Lia.
Import ListNotations.
From Verif Require Import GoBase GoBaseFacts GoTime Json JsonTextFacts JsonFile GoFloat Client ClientScalars ClientParams SpecCodec SpecJson FieldFacts SpecNumbers SpecParams NumberFacts NumberRound NumberText.
Local Open Scope string_scope.
Local Open Scope Z_scope.
Local Open Scope list_scope.
Local Notation length := List.length.

Lemma unit_scale32 m e n d : -149 <= e ->
  (m * (d * 2 ^ Z.max e 0) - n * 2 ^ Z.max (- e) 0) * 2 ^ (149 + Z.min e 0) = m * 2 ^ (e + 149) * d - n * 2 ^ 149.
Proof.
  intros E. assert (2 ^ (e + 149) = 2 ^ Z.max e 0 * 2 ^ (149 + Z.min e 0)) as -> by (rewrite <- Z.pow_add_r by lia; f_equal; lia).
  assert (2 ^ 149 = 2 ^ Z.max (- e) 0 * 2 ^ (149 + Z.min e 0)) as -> by (rewrite <- Z.pow_add_r by lia; f_equal; lia). ring.
Qed.

Definition above32 (n d b : Z) : Prop := d * 2 ^ (b + 172) <= n * 2 ^ 172.

Lemma above_scale32 n d b : -172 <= b -> 0 < d -> (d * 2 ^ Z.max b 0 <= n * 2 ^ Z.max (- b) 0 <-> above32 n d b).
Proof.
  intros B D. unfold above32. assert (2 ^ (b + 172) = 2 ^ Z.max b 0 * 2 ^ (172 + Z.min b 0)) as -> by (rewrite <- Z.pow_add_r by lia; f_equal; lia).
  assert (2 ^ 172 = 2 ^ Z.max (- b) 0 * 2 ^ (172 + Z.min b 0)) as -> by (rewrite <- Z.pow_add_r by lia; f_equal; lia).
  pose proof (pow_pos (172 + Z.min b 0) ltac:(lia)) as P. rewrite !Z.mul_assoc. apply Z.mul_le_mono_pos_r. exact P.
Qed.

Lemma above_mono32 n d a b : 0 < d -> -172 <= a -> a <= b -> above32 n d b -> above32 n d a.
Proof.
  intros D A L H. unfold above32 in *. assert (2 ^ (a + 172) <= 2 ^ (b + 172)) by (apply Z.pow_le_mono_r; lia). nia.
Qed.

Definition grid32 (n d : Z) : Z := Z.max (-149) (binade n d - 23).

Definition steps32 (n d : Z) : Z := half_even (n * 2 ^ Z.max (- grid32 n d) 0) (d * 2 ^ Z.max (grid32 n d) 0).

Lemma to_single_steps n d : n <> 0 -> to_single n d =
  let '(m, e) := if steps32 n d =? 2 ^ 24 then (2 ^ 23, grid32 n d + 1) else (steps32 n d, grid32 n d) in if 104 <? e then None else Some (m, e).
Proof. intros N. unfold to_single. assert (n =? 0 = false) as -> by (now apply Z.eqb_neq). reflexivity. Qed.

Lemma steps_range32 n d : 0 < n -> 0 < d -> 0 <= steps32 n d <= 2 ^ 24 /\ (-149 < grid32 n d -> 2 ^ 23 <= steps32 n d).
Proof.
  intros N D. unfold steps32. set (e := grid32 n d). assert (-149 <= e) as E by (subst e; unfold grid32; lia).
  pose proof (pow_pos (Z.max e 0) ltac:(lia)) as P. pose proof (pow_pos (Z.max (- e) 0) ltac:(lia)) as P'.
  assert (0 <= n * 2 ^ Z.max (- e) 0) as N0 by nia. assert (0 < d * 2 ^ Z.max e 0) as D0 by nia.
  pose proof (half_even_near _ _ N0 D0) as [H0 H1]. 
  assert (n * 2 ^ Z.max (- e) 0 < 2 ^ 24 * (d * 2 ^ Z.max e 0)) as Hi.
  { pose proof (binade_high n d N D) as B. set (b := binade n d) in *. assert (b - 23 <= e) as L by (change e with (Z.max (-149) (b - 23)); lia).
    pose proof (pow_pos (Z.max (- (b + 1)) 0) ltac:(lia)) as Q.
    assert (2 ^ Z.max (b + 1) 0 * 2 ^ Z.max (- e) 0 <= 2 ^ 24 * 2 ^ Z.max e 0 * 2 ^ Z.max (- (b + 1)) 0) as C by (rewrite <- !Z.pow_add_r by lia; apply Z.pow_le_mono_r; lia).
    exact (cross_lt d n _ _ _ _ _ D Q P' B C). }
  split; [split; [exact H0|]; exact (multiple_le _ _ _ _ D0 Hi H1)|].
  intros G. pose proof (binade_low n d N D) as B. set (b := binade n d) in *. assert (e = b - 23) as Eb by (assert (e = Z.max (-149) (b - 23)) as Em by reflexivity; lia).
  assert (2 ^ 23 * (d * 2 ^ Z.max e 0) <= n * 2 ^ Z.max (- e) 0) as Lo.
  { pose proof (pow_pos (Z.max (- b) 0) ltac:(lia)) as Q.
    assert (2 ^ Z.max b 0 * 2 ^ Z.max (- e) 0 = 2 ^ 23 * 2 ^ Z.max e 0 * 2 ^ Z.max (- b) 0) as C by (rewrite <- !Z.pow_add_r by lia; f_equal; lia).
    exact (cross_le d n _ _ _ _ _ Q P' B C). }
  destruct (half_even_best _ _ (2 ^ 23) N0 D0) as [H2 _]. exact (multiple_ge _ _ _ _ D0 Lo H2).
Qed.

Lemma steps_best32 n d m' e' : 0 < n -> 0 < d -> binary32 m' e' ->
  Z.abs (steps32 n d * 2 ^ (grid32 n d + 149) * d - n * 2 ^ 149) <= Z.abs (m' * 2 ^ (e' + 149) * d - n * 2 ^ 149)
  /\ (Z.abs (steps32 n d * 2 ^ (grid32 n d + 149) * d - n * 2 ^ 149) = Z.abs (m' * 2 ^ (e' + 149) * d - n * 2 ^ 149) ->
      m' * 2 ^ (e' + 149) = steps32 n d * 2 ^ (grid32 n d + 149) \/ Z.even (steps32 n d) = true /\ Z.even m' = false /\ e' = grid32 n d).
Proof.
  intros N D F. set (e := grid32 n d). assert (-149 <= e) as E by (subst e; unfold grid32; lia). unfold steps32. fold e.
  pose proof (pow_pos (Z.max e 0) ltac:(lia)) as P. pose proof (pow_pos (Z.max (- e) 0) ltac:(lia)) as P'.
  assert (0 <= n * 2 ^ Z.max (- e) 0) as N0 by nia. assert (0 < d * 2 ^ Z.max e 0) as D0 by nia.
  pose proof (pow_pos (149 + Z.min e 0) ltac:(lia)) as S.
  assert (-149 <= e') as E' by (destruct F as [F|F]; lia).
  set (h := half_even (n * 2 ^ Z.max (- e) 0) (d * 2 ^ Z.max e 0)).
  assert (forall k, Z.abs (h * 2 ^ (e + 149) * d - n * 2 ^ 149) <= Z.abs (k * 2 ^ (e + 149) * d - n * 2 ^ 149)
    /\ (Z.abs (h * 2 ^ (e + 149) * d - n * 2 ^ 149) = Z.abs (k * 2 ^ (e + 149) * d - n * 2 ^ 149) -> k = h \/ Z.even h = true /\ Z.even k = false)) as G.
  { intros k. rewrite <- !unit_scale32 by exact E. rewrite !Z.abs_mul, (Z.abs_eq (2 ^ (149 + Z.min e 0))) by lia.
    destruct (half_even_best _ _ k N0 D0) as [A B]. fold h in A, B. split; [apply Z.mul_le_mono_nonneg_r; lia|]. intros Q. apply B. apply Z.mul_reg_r in Q; [exact Q|lia]. }
  destruct (Z_le_gt_dec e e') as [L|L].
  - assert (2 ^ (e' + 149) = 2 ^ (e' - e) * 2 ^ (e + 149)) as Q by (rewrite <- Z.pow_add_r by lia; f_equal; lia).
    destruct (G (m' * 2 ^ (e' - e))) as [A B]. rewrite Q, Z.mul_assoc. split; [exact A|]. intros X. destruct (B X) as [->|[B1 B2]]; [left; reflexivity|]. right.
    split; [exact B1|]. destruct (Z.eq_dec e' e) as [->|Ne].
    + rewrite Z.sub_diag, Z.pow_0_r, Z.mul_1_r in B2. auto.
    + exfalso. replace (e' - e) with (Z.succ (e' - e - 1)) in B2 by lia. rewrite Z.pow_succ_r in B2 by lia.
      rewrite Z.even_mul, Z.even_mul in B2. change (Z.even 2) with true in B2. cbn [orb] in B2. rewrite orb_true_r in B2. discriminate.
  - (* smaller than any multiple that is chosen *)
    assert (-149 < e) as Ge by lia.
    pose proof (binade_low n d N D) as B. set (b := binade n d) in *. assert (e = b - 23) as Eb by (assert (e = Z.max (-149) (b - 23)) as Em by reflexivity; lia).
    assert (2 ^ 23 * 2 ^ (e + 149) * d <= n * 2 ^ 149) as Lo.
    { apply above_scale32 in B; [|lia|exact D]. unfold above32 in B. replace (b + 172) with (23 + (e + 149) + 23) in B by lia.
      assert (0 <= e + 149) as Ex by lia. remember (e + 149) as x. rewrite (Z.pow_add_r 2 (23 + x)), (Z.pow_add_r 2 23 x) in B by lia.
      change (2 ^ 172) with (2 ^ 149 * 2 ^ 23) in B. rewrite !Z.mul_assoc in B. apply Z.mul_le_mono_pos_r in B; [|lia]. replace (2 ^ 23 * 2 ^ x * d) with (d * 2 ^ 23 * 2 ^ x) by ring. exact B. }
    assert (m' * 2 ^ (e' + 149) < 2 ^ 23 * 2 ^ (e + 149)) as Lt.
    { assert (m' < 2 ^ 24) as M' by (destruct F as [F|F]; lia).
      replace (e + 149) with (1 + (e' + 149) + (e - e' - 1)) by lia. rewrite !(Z.pow_add_r 2 (1 + (e' + 149))), (Z.pow_add_r 2 1) by lia. change (2 ^ 1) with 2. change (2 ^ 24) with (2 ^ 23 * 2) in M'.
      apply low_lt; [exact M'|apply pow_pos; lia|apply pow_pos; lia|discriminate]. }
    destruct (G (2 ^ 23)) as [A _]. assert (m' * 2 ^ (e' + 149) * d < 2 ^ 23 * 2 ^ (e + 149) * d) as Ld by (apply Z.mul_lt_mono_pos_r; [exact D|exact Lt]).
    pose proof (far _ _ _ _ A Ld Lo) as Z. split; [apply Z.lt_le_incl; exact Z|]. intros X. rewrite X in Z. destruct (Z.lt_irrefl _ Z).
Qed.

Lemma binary32_unique m e m' e' : binary32 m e -> binary32 m' e' -> m * 2 ^ (e + 149) = m' * 2 ^ (e' + 149) -> (m', e') = (m, e).
Proof.
  assert (forall a b x y, binary32 a b -> binary32 x y -> a * 2 ^ (b + 149) = x * 2 ^ (y + 149) -> b < y -> False) as H.
  { intros a b x y A X E L. assert (-149 <= b) as B by (destruct A as [A|A]; lia).
    replace (y + 149) with (1 + (b + 149) + (y - b - 1)) in E by lia. rewrite !(Z.pow_add_r 2 (1 + (b + 149))), (Z.pow_add_r 2 1) in E by lia. change (2 ^ 1) with 2 in E.
    assert (a < 2 ^ 23 * 2) as Ha by (change (2 ^ 23 * 2) with (2 ^ 24); destruct A as [A|A]; lia). assert (2 ^ 23 <= x) as Hx by (destruct X as [X|X]; lia).
    pose proof (pow_pos (b + 149) ltac:(lia)) as P. pose proof (pow_pos (y - b - 1) ltac:(lia)) as Q. remember (2 ^ 23) as c. assert (0 < c) by (subst c; lia). clear Heqc.
    remember (2 ^ (b + 149)) as u. remember (2 ^ (y - b - 1)) as v.
    assert (x * (2 * u * v) = x * v * (2 * u)) as R by ring. rewrite R in E. assert (c <= x * v) by nia. assert (a < x * v * 2) by lia. nia. }
  intros A B E. destruct (Z.lt_trichotomy e e') as [L|[<-|L]].
  - destruct (H m e m' e'); assumption.
  - assert (-149 <= e) as Le by (destruct A as [A|A]; lia). pose proof (pow_pos (e + 149) ltac:(lia)) as P. f_equal. nia.
  - destruct (H m' e' m e); try assumption. now symmetry.
Qed.

Lemma carried32 n d m e : 0 < n -> 0 < d -> to_single n d = Some (m, e) ->
  binary32 m e /\ m * 2 ^ (e + 149) = steps32 n d * 2 ^ (grid32 n d + 149) /\ (Z.even (steps32 n d) = true -> Z.even m = true).
Proof.
  intros N D. rewrite to_single_steps by lia. destruct (steps_range32 n d N D) as [[S0 S1] S2]. assert (-149 <= grid32 n d) as G by (unfold grid32; lia).
  destruct (steps32 n d =? 2 ^ 24) eqn:Q; [apply Z.eqb_eq in Q|apply Z.eqb_neq in Q].
  - destruct (104 <? grid32 n d + 1) eqn:O; [discriminate|]. apply Z.ltb_ge in O. intros [= <- <-]. split; [left; lia|]. split; [|reflexivity].
    rewrite Q. replace (grid32 n d + 1 + 149) with (1 + (grid32 n d + 149)) by lia. rewrite Z.pow_add_r by lia. change (2 ^ 24) with (2 ^ 23 * 2 ^ 1). ring.
  - destruct (104 <? grid32 n d) eqn:O; [discriminate|]. apply Z.ltb_ge in O. intros [= <- <-]. split; [|auto].
    destruct (Z.eq_dec (grid32 n d) (-149)) as [Eg|Eg]; [destruct (Z_lt_ge_dec (steps32 n d) (2 ^ 23)); [right; auto|left; lia]|left; lia].
Qed.

Lemma binary32_zero : binary32 0 (-149).
Proof. right. lia. Qed.

Lemma single_nearest n d m e : 0 <= n -> 0 < d -> to_single n d = Some (m, e) -> nearest32 n d m e.
Proof.
  intros N D H. destruct (Z.eq_dec n 0) as [->|N0].
  - cbn in H. injection H as <- <-. split; [exact binary32_zero|]. intros m' e' _. rewrite Z.mul_0_l, Z.mul_0_l. cbn [Z.abs Z.sub]. split; [apply Z.abs_nonneg|]. auto.
  - destruct (carried32 n d m e ltac:(lia) D H) as (F & E & V). split; [exact F|]. intros m' e' F'. rewrite E.
    destruct (steps_best32 n d m' e' ltac:(lia) D F') as [A B]. split; [exact A|]. intros X. destruct (B X) as [Y|(Y & _)]; [|right; auto].
    left. apply binary32_unique; try assumption. congruence.
Qed.

Lemma nearest_single n d m e m' e' : 0 <= n -> 0 < d -> to_single n d = Some (m, e) -> nearest32 n d m' e' -> (m', e') = (m, e).
Proof.
  intros N D H [F' K]. pose proof (single_nearest n d m e N D H) as [F G].
  destruct (G m' e' F') as [A B]. destruct (K m e F) as [A' B']. assert (Z.abs (m' * 2 ^ (e' + 149) * d - n * 2 ^ 149) = Z.abs (m * 2 ^ (e + 149) * d - n * 2 ^ 149)) as X by lia.
  destruct (B' X) as [Y|Ev']; [now symmetry|]. destruct (Z.eq_dec n 0) as [->|N0].
  - cbn in H. injection H as <- <-. apply binary32_unique; [exact F|exact F'|]. pose proof (pow_pos (e' + 149) ltac:(destruct F'; lia)) as P.
    rewrite !Z.mul_0_l in *. rewrite !Z.sub_0_r in X. change (Z.abs 0) with 0 in X. clear - X P D. nia.
  - destruct (carried32 n d m e ltac:(lia) D H) as (_ & E & V). destruct (steps_best32 n d m' e' ltac:(lia) D F') as [_ S]. rewrite <- E in S.
    destruct (S (eq_sym X)) as [Y|(_ & Od & _)]; [|congruence]. apply binary32_unique; try assumption. now symmetry.
Qed.

Lemma nearest_scale32 n d n0 d0 m e : 0 < d -> 0 < d0 -> n * d0 = n0 * d -> nearest32 n0 d0 m e -> nearest32 n d m e.
Proof.
  intros D D0 E [F H]. split; [exact F|]. intros m' e' F'. destruct (H m' e' F') as [A B].
  assert (forall x, Z.abs (x * d - n * 2 ^ 149) * d0 = Z.abs (x * d0 - n0 * 2 ^ 149) * d) as S.
  { intros x. rewrite <- (Z.abs_eq d0) at 1 by lia. rewrite <- (Z.abs_eq d) at 2 by lia. rewrite <- !Z.abs_mul. f_equal. rewrite !Z.mul_sub_distr_r.
    replace (n * 2 ^ 149 * d0) with (n * d0 * 2 ^ 149) by ring. rewrite E. ring. }
  pose proof (S (m * 2 ^ (e + 149))) as S1. pose proof (S (m' * 2 ^ (e' + 149))) as S2. clear S.
  remember (Z.abs (m * 2 ^ (e + 149) * d - n * 2 ^ 149)) as a. remember (Z.abs (m' * 2 ^ (e' + 149) * d - n * 2 ^ 149)) as b.
  remember (Z.abs (m * 2 ^ (e + 149) * d0 - n0 * 2 ^ 149)) as a0. remember (Z.abs (m' * 2 ^ (e' + 149) * d0 - n0 * 2 ^ 149)) as b0. clear Heqa Heqb Heqa0 Heqb0. split.
  - apply (Z.mul_le_mono_pos_r _ _ d0 D0). rewrite S1, S2. apply Z.mul_le_mono_nonneg_r; lia.
  - intros ->. apply B. apply (Z.mul_reg_r _ _ d); [lia|]. congruence.
Qed.

Lemma single_tiny n0 d0 : 0 <= n0 -> 0 < d0 -> 2 ^ 150 * n0 <= d0 -> exists e, to_single n0 d0 = Some (0, e).
Proof.
  intros N0 T H0.
  destruct (Z.eq_dec n0 0) as [->|Nz]; [eexists; reflexivity|]. rewrite to_single_steps by exact Nz.
      assert (grid32 n0 d0 = -149) as Gr.
      { unfold grid32. pose proof (binade_low n0 d0 ltac:(lia) T) as B. set (b := binade n0 d0) in *. destruct (Z_le_gt_dec b (-126)) as [L|L]; [lia|]. exfalso.
        assert (2 ^ 150 * n0 * 2 ^ Z.max b 0 <= n0 * 2 ^ Z.max (- b) 0) as Q by (apply (Z.le_trans _ (d0 * 2 ^ Z.max b 0)); [apply Z.mul_le_mono_nonneg_r; [apply Z.pow_nonneg; lia|exact H0]|exact B]).
        assert (2 ^ Z.max (- b) 0 < 2 ^ 150) as Q1 by (apply Z.pow_lt_mono_r; lia). pose proof (pow_pos (Z.max b 0) ltac:(lia)) as Q2.
        pose proof (pow_pos (Z.max (- b) 0) ltac:(lia)) as Q3.
        clear - Q Q1 Q2 Q3 N0 Nz. remember (2 ^ 150) as x. remember (2 ^ Z.max (- b) 0) as y. remember (2 ^ Z.max b 0) as u. clear Heqx Heqy Hequ.
        assert (y < x * u) by nia. nia. }
      assert (steps32 n0 d0 = 0) as ->.
      { unfold steps32. rewrite Gr. change (Z.max (- (-149)) 0) with 149. change (Z.max (-149) 0) with 0. rewrite Z.pow_0_r, Z.mul_1_r. unfold half_even.
        change (2 ^ 150) with (2 * 2 ^ 149) in H0. remember (2 ^ 149) as x. assert (0 < x) by (subst x; reflexivity). clear Heqx.
        rewrite Z.div_small, Z.mod_small by nia. change (Z.even 0) with true. rewrite andb_true_r.
        assert ((2 * (n0 * x) <? d0) || (2 * (n0 * x) =? d0) = true) as ->; [|reflexivity].
        apply orb_true_iff. destruct (Z.eq_dec (2 * (n0 * x)) d0); [right; now apply Z.eqb_eq|left; apply Z.ltb_lt; lia]. }
      rewrite Gr. eexists. reflexivity.
Qed.

Lemma far_range32 d n : 0 < d -> 2 ^ 128 * d <= n -> (2 ^ 25 - 1) * 2 ^ 103 * d <= n.
Proof. intros D H. apply (Z.le_trans _ (2 ^ 128 * d)); [|exact H]. apply Z.mul_le_mono_nonneg_r; [now apply Z.lt_le_incl|]. apply Z.leb_le. reflexivity. Qed.

Lemma near_range32 d n : 0 < d -> n < 2 ^ 127 * d -> n < (2 ^ 25 - 1) * 2 ^ 103 * d.
Proof. intros D H. apply (Z.lt_le_trans _ (2 ^ 127 * d)); [exact H|]. apply Z.mul_le_mono_nonneg_r; [now apply Z.lt_le_incl|]. apply Z.leb_le. reflexivity. Qed.

Lemma edge_range32 d : 2 * ((2 ^ 25 - 1) * 2 ^ 103 * d) = (2 * (2 ^ 24 - 1) + 1) * (2 ^ 104 * d).
Proof. rewrite !Z.mul_assoc. f_equal. Qed.

Lemma edge_low32 x h : 2 * Z.abs (2 ^ 24 * x - h) <= x -> (2 * (2 ^ 24 - 1) + 1) * x <= 2 * h.
Proof. lia. Qed.

Lemma range_pos32 d : 0 < d -> 0 < (2 ^ 25 - 1) * 2 ^ 103 * d.
Proof. intros D. apply Z.mul_pos_pos; [reflexivity|exact D]. Qed.

Lemma to_single_none n d : 0 <= n -> 0 < d -> (to_single n d = None <-> (2 ^ 25 - 1) * 2 ^ 103 * d <= n).
Proof.
  intros N D. pose proof (far_range32 d n D) as Far. pose proof (near_range32 d n D) as Near. pose proof (edge_range32 d) as Edge. pose proof (range_pos32 d D) as Pos.
  remember ((2 ^ 25 - 1) * 2 ^ 103 * d) as top. clear Heqtop. destruct (Z.eq_dec n 0) as [->|N0].
  { split; [discriminate|]. intros H. exfalso. clear - H Pos. lia. }
  assert (0 < n) as Np by (clear - N N0; lia). destruct (steps_range32 n d Np D) as [S _].
  pose proof (binade_above n d 128 Np D ltac:(lia)) as Up. pose proof (binade_below n d 127 Np D ltac:(lia)) as Down.
  assert (0 < 2 ^ 104 * d) as Dp by (apply Z.mul_pos_pos; [reflexivity|exact D]).
  assert (grid32 n d = 104 -> steps32 n d = half_even n (2 ^ 104 * d)) as St.
  { intros G. unfold steps32. rewrite G. change (Z.max (- (104)) 0) with 0. change (Z.max 104 0) with 104. rewrite Z.pow_0_r, Z.mul_1_r, (Z.mul_comm d). reflexivity. }
  pose proof (half_even_near n (2 ^ 104 * d) N Dp) as [_ Half]. pose proof (half_even_odd n (2 ^ 104 * d) (2 ^ 24 - 1) N Dp) as Odd.
  remember (2 ^ 104 * d) as x. clear Heqx. remember (2 ^ 128 * d) as y. remember (2 ^ 127 * d) as z. clear Heqy Heqz.
  assert (105 <= grid32 n d -> top <= n) as Far' by (unfold grid32; clear - Far Up; intros G; apply Far, Up; lia). 
  assert (grid32 n d <= 103 -> n < top) as Near' by (unfold grid32; clear - Near Down; intros G; apply Near, Down; lia). clear Far Near Up Down.
  rewrite to_single_steps by exact N0. split.
  - intros H. destruct (Z_le_gt_dec 105 (grid32 n d)) as [G|G]; [exact (Far' G)|].
    destruct (steps32 n d =? 2 ^ 24) eqn:Q.
    + destruct (104 <? grid32 n d + 1) eqn:L; [|discriminate]. apply Z.ltb_lt in L. apply Z.eqb_eq in Q. assert (grid32 n d = 104) as G1 by (clear - L G; lia).
      rewrite <- (St G1), Q in Half. apply edge_low32 in Half. clear - Half Edge. lia.
    + destruct (104 <? grid32 n d) eqn:L; [|discriminate]. apply Z.ltb_lt in L. clear - L G. lia.
  - intros H. destruct (Z_le_gt_dec 105 (grid32 n d)) as [G|G].
    { destruct (steps32 n d =? 2 ^ 24); (match goal with |- context [104 <? ?x] => assert (104 <? x = true) as -> by (apply Z.ltb_lt; clear - G; lia) end); reflexivity. }
    destruct (Z.eq_dec (grid32 n d) 104) as [G1|G1].
    + rewrite G1. change (104 <? 104 + 1) with true. destruct (steps32 n d =? 2 ^ 24) eqn:Q; [reflexivity|]. exfalso. apply Z.eqb_neq in Q. rewrite (St G1) in *.
      specialize (Odd ltac:(clear - S Q; lia) eq_refl). clear - Odd Edge H. lia.
    + exfalso. assert (n < top) by (apply Near'; clear - G G1; lia). clear - H H0. lia.
Qed.

Lemma to_single_scale n d n0 d0 : 0 <= n -> 0 < d -> 0 <= n0 -> 0 < d0 -> n * d0 = n0 * d -> to_single n d = to_single n0 d0.
Proof.
  intros N D N0 D0 E. destruct (to_single n d) as [[m e]|] eqn:A; destruct (to_single n0 d0) as [[m0 e0]|] eqn:B; [|exfalso|exfalso|reflexivity].
  - f_equal. apply single_nearest in A; [|assumption..]. apply (nearest_single n0 d0); [assumption..|]. apply (nearest_scale32 n0 d0 n d); [assumption..|lia|exact A].
  - apply to_single_none in B; [|assumption..]. enough (to_single n d = None) by congruence. apply to_single_none; [assumption..|].
    apply (Z.mul_le_mono_pos_r _ _ d0 D0). rewrite E, <- Z.mul_assoc, (Z.mul_comm d d0), Z.mul_assoc. apply Z.mul_le_mono_nonneg_r; [lia|exact B].
  - apply to_single_none in A; [|assumption..]. enough (to_single n0 d0 = None) by congruence. apply to_single_none; [assumption..|].
    apply (Z.mul_le_mono_pos_r _ _ d D). rewrite <- E, <- Z.mul_assoc, (Z.mul_comm d0 d), Z.mul_assoc. apply Z.mul_le_mono_nonneg_r; [lia|exact A].
Qed.
