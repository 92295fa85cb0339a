(* Rounding to the nearest float64 *)
From Coq Require Import ZArith NArith Bool Ascii String List Lia.
Import ListNotations.
From Verif Require Import GoBase GoBaseFacts GoTime Json JsonFile GoFloat SpecCodec SpecJson SpecNumbers FieldFacts FieldRead JsonTextFacts NumberFacts.
Local Open Scope string_scope.
Local Open Scope Z_scope.
Local Open Scope list_scope.
Local Notation length := List.length.

Lemma pow_pos k : 0 <= k -> 0 < 2 ^ k.
Proof. intros K. now apply Z.pow_pos_nonneg. Qed.

(* every other multiple is at least as far, and those as far are odd *)
Lemma half_even_best n d k : 0 <= n -> 0 < d ->
  Z.abs (half_even n d * d - n) <= Z.abs (k * d - n)
  /\ (Z.abs (half_even n d * d - n) = Z.abs (k * d - n) -> k = half_even n d \/ Z.even (half_even n d) = true /\ Z.even k = false).
Proof.
  intros N D. unfold half_even. pose proof (Z.div_mod n d ltac:(lia)) as E. pose proof (Z.mod_pos_bound n d D) as M.
  remember (n / d) as q. remember (n mod d) as r. clear Heqq Heqr. subst n.
  assert (k = q \/ k = q + 1 \/ k <= q - 1 \/ q + 2 <= k) as K by lia.
  assert (forall x, Z.even (x + 1) = negb (Z.even x)) as Ev by (intros x; rewrite Z.add_1_r, Z.even_succ, <- Z.negb_even; reflexivity).
  destruct (2 * r <? d) eqn:A; [apply Z.ltb_lt in A|apply Z.ltb_ge in A]; cbn [orb].
  - replace (q * d - (d * q + r)) with (- r) by lia. destruct K as [->|[->|[K|K]]].
    + split; [nia|]. auto.
    + replace ((q + 1) * d - (d * q + r)) with (d - r) by lia. split; [lia|]. intros F. lia.
    + assert (k * d <= (q - 1) * d) by nia. split; [lia|]. intros F. lia.
    + assert ((q + 2) * d <= k * d) by nia. split; [lia|]. intros F. lia.
  - destruct (2 * r =? d) eqn:B; [apply Z.eqb_eq in B|apply Z.eqb_neq in B]; cbn [andb].
    + destruct (Z.even q) eqn:Q.
      * replace (q * d - (d * q + r)) with (- r) by lia. destruct K as [->|[->|[K|K]]].
        -- split; [nia|]. auto.
        -- replace ((q + 1) * d - (d * q + r)) with (d - r) by lia. split; [lia|]. intros _. right. rewrite Ev, Q. auto.
        -- assert (k * d <= (q - 1) * d) by nia. split; [lia|]. intros F. lia.
        -- assert ((q + 2) * d <= k * d) by nia. split; [lia|]. intros F. lia.
      * replace ((q + 1) * d - (d * q + r)) with (d - r) by lia. destruct K as [->|[->|[K|K]]].
        -- replace (q * d - (d * q + r)) with (- r) by lia. split; [lia|]. intros _. right. rewrite Ev, Q. auto.
        -- split; [nia|]. auto.
        -- assert (k * d <= (q - 1) * d) by nia. split; [lia|]. intros F. lia.
        -- assert ((q + 2) * d <= k * d) by nia. split; [lia|]. intros F. lia.
    + replace ((q + 1) * d - (d * q + r)) with (d - r) by lia. destruct K as [->|[->|[K|K]]].
      * replace (q * d - (d * q + r)) with (- r) by lia. split; [lia|]. intros F. lia.
      * split; [nia|]. auto.
      * assert (k * d <= (q - 1) * d) by nia. split; [lia|]. intros F. lia.
      * assert ((q + 2) * d <= k * d) by nia. split; [lia|]. intros F. lia.
Qed.

(* distances in units of 2^-1074 / d *)
Lemma unit_scale m e n d : -1074 <= e ->
  (m * (d * 2 ^ Z.max e 0) - n * 2 ^ Z.max (- e) 0) * 2 ^ (1074 + Z.min e 0) = m * 2 ^ (e + 1074) * d - n * 2 ^ 1074.
Proof.
  intros E. assert (2 ^ (e + 1074) = 2 ^ Z.max e 0 * 2 ^ (1074 + Z.min e 0)) as -> by (rewrite <- Z.pow_add_r by lia; f_equal; lia).
  assert (2 ^ 1074 = 2 ^ Z.max (- e) 0 * 2 ^ (1074 + Z.min e 0)) as -> by (rewrite <- Z.pow_add_r by lia; f_equal; lia). ring.
Qed.

Lemma binade_high n d : 0 < n -> 0 < d -> n * 2 ^ Z.max (- (binade n d + 1)) 0 < d * 2 ^ Z.max (binade n d + 1) 0.
Proof.
  intros N D. unfold binade. destruct (_ <=? _) eqn:E.
  - clear E. pose proof (Z.log2_spec n N) as [_ A]. pose proof (Z.log2_spec d D) as [B _].
    set (a := Z.log2 n - Z.log2 d + 1). pose proof (Z.log2_nonneg n). pose proof (Z.log2_nonneg d).
    assert (0 < 2 ^ Z.max a 0) by (apply pow_pos; lia). assert (0 < 2 ^ Z.max (- a) 0) by (apply pow_pos; lia).
    assert (2 ^ Z.log2 d * 2 ^ Z.max a 0 = 2 ^ Z.succ (Z.log2 n) * 2 ^ Z.max (- a) 0) as E.
    { rewrite <- !Z.pow_add_r by lia. f_equal. subst a. lia. }
    nia.
  - apply Z.leb_gt in E. replace (Z.log2 n - Z.log2 d - 1 + 1) with (Z.log2 n - Z.log2 d) by lia. exact E.
Qed.

(* n / d against powers of two *)
Definition above (n d b : Z) : Prop := d * 2 ^ (b + 1126) <= n * 2 ^ 1126.
Lemma above_scale n d b : -1126 <= b -> 0 < d -> (d * 2 ^ Z.max b 0 <= n * 2 ^ Z.max (- b) 0 <-> above n d b).
Proof.
  intros B D. unfold above. assert (2 ^ (b + 1126) = 2 ^ Z.max b 0 * 2 ^ (1126 + Z.min b 0)) as -> by (rewrite <- Z.pow_add_r by lia; f_equal; lia).
  assert (2 ^ 1126 = 2 ^ Z.max (- b) 0 * 2 ^ (1126 + Z.min b 0)) as -> by (rewrite <- Z.pow_add_r by lia; f_equal; lia).
  pose proof (pow_pos (1126 + Z.min b 0) ltac:(lia)) as P. rewrite !Z.mul_assoc. apply Z.mul_le_mono_pos_r. exact P.
Qed.
Lemma above_mono n d a b : 0 < d -> -1126 <= a -> a <= b -> above n d b -> above n d a.
Proof.
  intros D A L H. unfold above in *. assert (2 ^ (a + 1126) <= 2 ^ (b + 1126)) by (apply Z.pow_le_mono_r; lia). nia.
Qed.

(* what to_double computes, before the carry *)
Definition grid (n d : Z) : Z := Z.max (-1074) (binade n d - 52).
Definition steps (n d : Z) : Z := half_even (n * 2 ^ Z.max (- grid n d) 0) (d * 2 ^ Z.max (grid n d) 0).

Lemma to_double_steps n d : n <> 0 -> to_double n d =
  let '(m, e) := if steps n d =? 2 ^ 53 then (2 ^ 52, grid n d + 1) else (steps n d, grid n d) in if 971 <? e then None else Some (m, e).
Proof. intros N. unfold to_double. assert (n =? 0 = false) as -> by (now apply Z.eqb_neq). reflexivity. Qed.

Lemma cross_le d n x y u v c : 0 < x -> 0 < v -> d * y <= n * x -> y * v = c * u * x -> c * (d * u) <= n * v.
Proof.
  intros X V A B. apply (Z.mul_le_mono_pos_r _ _ x X). replace (c * (d * u) * x) with (d * y * v) by (rewrite <- Z.mul_assoc, B; ring).
  replace (n * v * x) with (n * x * v) by ring. apply Z.mul_le_mono_nonneg_r; lia.
Qed.
Lemma cross_lt d n x y u v c : 0 < d -> 0 < x -> 0 < v -> n * x < d * y -> y * v <= c * u * x -> n * v < c * (d * u).
Proof.
  intros D X V A B. apply (Z.mul_lt_mono_pos_r x); [exact X|]. apply (Z.lt_le_trans _ (d * y * v)).
  - replace (n * v * x) with (n * x * v) by ring. apply Z.mul_lt_mono_pos_r; lia.
  - replace (c * (d * u) * x) with (d * (c * u * x)) by ring. rewrite <- Z.mul_assoc. apply Z.mul_le_mono_nonneg_l; lia.
Qed.
Lemma multiple_le h k D N : 0 < D -> N < k * D -> 2 * Z.abs (h * D - N) <= D -> h <= k.
Proof. intros P A B. assert (h * D <= N + D) as C by lia. destruct (Z_le_gt_dec h k) as [L|L]; [exact L|]. assert ((k + 1) * D <= h * D) by (apply Z.mul_le_mono_nonneg_r; lia). lia. Qed.
Lemma multiple_ge h k D N : 0 < D -> k * D <= N -> Z.abs (h * D - N) <= Z.abs (k * D - N) -> k <= h.
Proof. intros P A B. destruct (Z_le_gt_dec k h) as [L|L]; [exact L|]. assert (h * D <= (k - 1) * D) by (apply Z.mul_le_mono_nonneg_r; lia). lia. Qed.

Lemma low_lt m c x y : m < c * 2 -> 0 < x -> 0 < y -> 0 <= c -> m * x < c * (2 * x * y).
Proof.
  intros M X Y K. apply (Z.lt_le_trans _ (c * 2 * x)); [apply Z.mul_lt_mono_pos_r; assumption|]. replace (c * (2 * x * y)) with (c * 2 * x * y) by ring.
  replace (c * 2 * x) with (c * 2 * x * 1) at 1 by ring. apply Z.mul_le_mono_nonneg_l; [nia|lia].
Qed.
Lemma far h a b x : Z.abs (h - x) <= Z.abs (b - x) -> a < b -> b <= x -> Z.abs (h - x) < Z.abs (a - x).
Proof. lia. Qed.

Lemma steps_range n d : 0 < n -> 0 < d -> 0 <= steps n d <= 2 ^ 53 /\ (-1074 < grid n d -> 2 ^ 52 <= steps n d).
Proof.
  intros N D. unfold steps. set (e := grid n d). assert (-1074 <= e) as E by (subst e; unfold grid; lia).
  pose proof (pow_pos (Z.max e 0) ltac:(lia)) as P. pose proof (pow_pos (Z.max (- e) 0) ltac:(lia)) as P'.
  assert (0 <= n * 2 ^ Z.max (- e) 0) as N0 by nia. assert (0 < d * 2 ^ Z.max e 0) as D0 by nia.
  pose proof (half_even_near _ _ N0 D0) as [H0 H1]. 
  assert (n * 2 ^ Z.max (- e) 0 < 2 ^ 53 * (d * 2 ^ Z.max e 0)) as Hi.
  { pose proof (binade_high n d N D) as B. set (b := binade n d) in *. assert (b - 52 <= e) as L by (change e with (Z.max (-1074) (b - 52)); lia).
    pose proof (pow_pos (Z.max (- (b + 1)) 0) ltac:(lia)) as Q.
    assert (2 ^ Z.max (b + 1) 0 * 2 ^ Z.max (- e) 0 <= 2 ^ 53 * 2 ^ Z.max e 0 * 2 ^ Z.max (- (b + 1)) 0) as C by (rewrite <- !Z.pow_add_r by lia; apply Z.pow_le_mono_r; lia).
    exact (cross_lt d n _ _ _ _ _ D Q P' B C). }
  split; [split; [exact H0|]; exact (multiple_le _ _ _ _ D0 Hi H1)|].
  intros G. pose proof (binade_low n d N D) as B. set (b := binade n d) in *. assert (e = b - 52) as Eb by (assert (e = Z.max (-1074) (b - 52)) as Em by reflexivity; lia).
  assert (2 ^ 52 * (d * 2 ^ Z.max e 0) <= n * 2 ^ Z.max (- e) 0) as Lo.
  { pose proof (pow_pos (Z.max (- b) 0) ltac:(lia)) as Q.
    assert (2 ^ Z.max b 0 * 2 ^ Z.max (- e) 0 = 2 ^ 52 * 2 ^ Z.max e 0 * 2 ^ Z.max (- b) 0) as C by (rewrite <- !Z.pow_add_r by lia; f_equal; lia).
    exact (cross_le d n _ _ _ _ _ Q P' B C). }
  destruct (half_even_best _ _ (2 ^ 52) N0 D0) as [H2 _]. exact (multiple_ge _ _ _ _ D0 Lo H2).
Qed.

(* the multiple that is chosen is as near as any number of the format *)
Lemma steps_best n d m' e' : 0 < n -> 0 < d -> binary64 m' e' ->
  Z.abs (steps n d * 2 ^ (grid n d + 1074) * d - n * 2 ^ 1074) <= Z.abs (m' * 2 ^ (e' + 1074) * d - n * 2 ^ 1074)
  /\ (Z.abs (steps n d * 2 ^ (grid n d + 1074) * d - n * 2 ^ 1074) = Z.abs (m' * 2 ^ (e' + 1074) * d - n * 2 ^ 1074) ->
      m' * 2 ^ (e' + 1074) = steps n d * 2 ^ (grid n d + 1074) \/ Z.even (steps n d) = true /\ Z.even m' = false /\ e' = grid n d).
Proof.
  intros N D F. set (e := grid n d). assert (-1074 <= e) as E by (subst e; unfold grid; lia). unfold steps. fold e.
  pose proof (pow_pos (Z.max e 0) ltac:(lia)) as P. pose proof (pow_pos (Z.max (- e) 0) ltac:(lia)) as P'.
  assert (0 <= n * 2 ^ Z.max (- e) 0) as N0 by nia. assert (0 < d * 2 ^ Z.max e 0) as D0 by nia.
  pose proof (pow_pos (1074 + Z.min e 0) ltac:(lia)) as S.
  assert (-1074 <= e') as E' by (destruct F as [F|F]; lia).
  set (h := half_even (n * 2 ^ Z.max (- e) 0) (d * 2 ^ Z.max e 0)).
  assert (forall k, Z.abs (h * 2 ^ (e + 1074) * d - n * 2 ^ 1074) <= Z.abs (k * 2 ^ (e + 1074) * d - n * 2 ^ 1074)
    /\ (Z.abs (h * 2 ^ (e + 1074) * d - n * 2 ^ 1074) = Z.abs (k * 2 ^ (e + 1074) * d - n * 2 ^ 1074) -> k = h \/ Z.even h = true /\ Z.even k = false)) as G.
  { intros k. rewrite <- !unit_scale by exact E. rewrite !Z.abs_mul, (Z.abs_eq (2 ^ (1074 + Z.min e 0))) by lia.
    destruct (half_even_best _ _ k N0 D0) as [A B]. fold h in A, B. split; [apply Z.mul_le_mono_nonneg_r; lia|]. intros Q. apply B. apply Z.mul_reg_r in Q; [exact Q|lia]. }
  destruct (Z_le_gt_dec e e') as [L|L].
  - assert (2 ^ (e' + 1074) = 2 ^ (e' - e) * 2 ^ (e + 1074)) as Q by (rewrite <- Z.pow_add_r by lia; f_equal; lia).
    destruct (G (m' * 2 ^ (e' - e))) as [A B]. rewrite Q, Z.mul_assoc. split; [exact A|]. intros X. destruct (B X) as [->|[B1 B2]]; [left; reflexivity|]. right.
    split; [exact B1|]. destruct (Z.eq_dec e' e) as [->|Ne].
    + rewrite Z.sub_diag, Z.pow_0_r, Z.mul_1_r in B2. auto.
    + exfalso. replace (e' - e) with (Z.succ (e' - e - 1)) in B2 by lia. rewrite Z.pow_succ_r in B2 by lia.
      rewrite Z.even_mul, Z.even_mul in B2. change (Z.even 2) with true in B2. cbn [orb] in B2. rewrite orb_true_r in B2. discriminate.
  - (* smaller than any multiple that is chosen *)
    assert (-1074 < e) as Ge by lia.
    pose proof (binade_low n d N D) as B. set (b := binade n d) in *. assert (e = b - 52) as Eb by (assert (e = Z.max (-1074) (b - 52)) as Em by reflexivity; lia).
    assert (2 ^ 52 * 2 ^ (e + 1074) * d <= n * 2 ^ 1074) as Lo.
    { apply above_scale in B; [|lia|exact D]. unfold above in B. replace (b + 1126) with (52 + (e + 1074) + 52) in B by lia.
      assert (0 <= e + 1074) as Ex by lia. remember (e + 1074) as x. rewrite (Z.pow_add_r 2 (52 + x)), (Z.pow_add_r 2 52 x) in B by lia.
      change (2 ^ 1126) with (2 ^ 1074 * 2 ^ 52) in B. rewrite !Z.mul_assoc in B. apply Z.mul_le_mono_pos_r in B; [|lia]. replace (2 ^ 52 * 2 ^ x * d) with (d * 2 ^ 52 * 2 ^ x) by ring. exact B. }
    assert (m' * 2 ^ (e' + 1074) < 2 ^ 52 * 2 ^ (e + 1074)) as Lt.
    { assert (m' < 2 ^ 53) as M' by (destruct F as [F|F]; lia).
      replace (e + 1074) with (1 + (e' + 1074) + (e - e' - 1)) by lia. rewrite !(Z.pow_add_r 2 (1 + (e' + 1074))), (Z.pow_add_r 2 1) by lia. change (2 ^ 1) with 2. change (2 ^ 53) with (2 ^ 52 * 2) in M'.
      apply low_lt; [exact M'|apply pow_pos; lia|apply pow_pos; lia|discriminate]. }
    destruct (G (2 ^ 52)) as [A _]. assert (m' * 2 ^ (e' + 1074) * d < 2 ^ 52 * 2 ^ (e + 1074) * d) as Ld by (apply Z.mul_lt_mono_pos_r; [exact D|exact Lt]).
    pose proof (far _ _ _ _ A Ld Lo) as Z. split; [apply Z.lt_le_incl; exact Z|]. intros X. rewrite X in Z. destruct (Z.lt_irrefl _ Z).
Qed.

Lemma binary64_unique m e m' e' : binary64 m e -> binary64 m' e' -> m * 2 ^ (e + 1074) = m' * 2 ^ (e' + 1074) -> (m', e') = (m, e).
Proof.
  assert (forall a b x y, binary64 a b -> binary64 x y -> a * 2 ^ (b + 1074) = x * 2 ^ (y + 1074) -> b < y -> False) as H.
  { intros a b x y A X E L. assert (-1074 <= b) as B by (destruct A as [A|A]; lia).
    replace (y + 1074) with (1 + (b + 1074) + (y - b - 1)) in E by lia. rewrite !(Z.pow_add_r 2 (1 + (b + 1074))), (Z.pow_add_r 2 1) in E by lia. change (2 ^ 1) with 2 in E.
    assert (a < 2 ^ 52 * 2) as Ha by (change (2 ^ 52 * 2) with (2 ^ 53); destruct A as [A|A]; lia). assert (2 ^ 52 <= x) as Hx by (destruct X as [X|X]; lia).
    pose proof (pow_pos (b + 1074) ltac:(lia)) as P. pose proof (pow_pos (y - b - 1) ltac:(lia)) as Q. remember (2 ^ 52) as c. assert (0 < c) by (subst c; lia). clear Heqc.
    remember (2 ^ (b + 1074)) as u. remember (2 ^ (y - b - 1)) as v.
    assert (x * (2 * u * v) = x * v * (2 * u)) as R by ring. rewrite R in E. assert (c <= x * v) by nia. assert (a < x * v * 2) by lia. nia. }
  intros A B E. destruct (Z.lt_trichotomy e e') as [L|[<-|L]].
  - destruct (H m e m' e'); assumption.
  - assert (-1074 <= e) as Le by (destruct A as [A|A]; lia). pose proof (pow_pos (e + 1074) ltac:(lia)) as P. f_equal. nia.
  - destruct (H m' e' m e); try assumption. now symmetry.
Qed.

Lemma carried n d m e : 0 < n -> 0 < d -> to_double n d = Some (m, e) ->
  binary64 m e /\ m * 2 ^ (e + 1074) = steps n d * 2 ^ (grid n d + 1074) /\ (Z.even (steps n d) = true -> Z.even m = true).
Proof.
  intros N D. rewrite to_double_steps by lia. destruct (steps_range n d N D) as [[S0 S1] S2]. assert (-1074 <= grid n d) as G by (unfold grid; lia).
  destruct (steps n d =? 2 ^ 53) eqn:Q; [apply Z.eqb_eq in Q|apply Z.eqb_neq in Q].
  - destruct (971 <? grid n d + 1) eqn:O; [discriminate|]. apply Z.ltb_ge in O. intros [= <- <-]. split; [left; lia|]. split; [|reflexivity].
    rewrite Q. replace (grid n d + 1 + 1074) with (1 + (grid n d + 1074)) by lia. rewrite Z.pow_add_r by lia. change (2 ^ 53) with (2 ^ 52 * 2 ^ 1). ring.
  - destruct (971 <? grid n d) eqn:O; [discriminate|]. apply Z.ltb_ge in O. intros [= <- <-]. split; [|auto].
    destruct (Z.eq_dec (grid n d) (-1074)) as [Eg|Eg]; [destruct (Z_lt_ge_dec (steps n d) (2 ^ 52)); [right; auto|left; lia]|left; lia].
Qed.

Lemma binary64_zero : binary64 0 (-1074).
Proof. right. lia. Qed.

(* the float64 is the nearest one *)
Lemma double_nearest n d m e : 0 <= n -> 0 < d -> to_double n d = Some (m, e) -> nearest n d m e.
Proof.
  intros N D H. destruct (Z.eq_dec n 0) as [->|N0].
  - cbn in H. injection H as <- <-. split; [exact binary64_zero|]. intros m' e' _. rewrite Z.mul_0_l, Z.mul_0_l. cbn [Z.abs Z.sub]. split; [apply Z.abs_nonneg|]. auto.
  - destruct (carried n d m e ltac:(lia) D H) as (F & E & V). split; [exact F|]. intros m' e' F'. rewrite E.
    destruct (steps_best n d m' e' ltac:(lia) D F') as [A B]. split; [exact A|]. intros X. destruct (B X) as [Y|(Y & _)]; [|right; auto].
    left. apply binary64_unique; try assumption. congruence.
Qed.

Lemma nearest_double n d m e m' e' : 0 <= n -> 0 < d -> to_double n d = Some (m, e) -> nearest n d m' e' -> (m', e') = (m, e).
Proof.
  intros N D H [F' K]. pose proof (double_nearest n d m e N D H) as [F G].
  destruct (G m' e' F') as [A B]. destruct (K m e F) as [A' B']. assert (Z.abs (m' * 2 ^ (e' + 1074) * d - n * 2 ^ 1074) = Z.abs (m * 2 ^ (e + 1074) * d - n * 2 ^ 1074)) as X by lia.
  destruct (B' X) as [Y|Ev']; [now symmetry|]. destruct (Z.eq_dec n 0) as [->|N0].
  - cbn in H. injection H as <- <-. apply binary64_unique; [exact F|exact F'|]. pose proof (pow_pos (e' + 1074) ltac:(destruct F'; lia)) as P.
    rewrite !Z.mul_0_l in *. rewrite !Z.sub_0_r in X. change (Z.abs 0) with 0 in X. clear - X P D. nia.
  - destruct (carried n d m e ltac:(lia) D H) as (_ & E & V). destruct (steps_best n d m' e' ltac:(lia) D F') as [_ S]. rewrite <- E in S.
    destruct (S (eq_sym X)) as [Y|(_ & Od & _)]; [|congruence]. apply binary64_unique; try assumption. now symmetry.
Qed.

(* ---- what is read as a whole number, exactly ---- *)

Lemma nearest_scale n d n0 d0 m e : 0 < d -> 0 < d0 -> n * d0 = n0 * d -> nearest n0 d0 m e -> nearest n d m e.
Proof.
  intros D D0 E [F H]. split; [exact F|]. intros m' e' F'. destruct (H m' e' F') as [A B].
  assert (forall x, Z.abs (x * d - n * 2 ^ 1074) * d0 = Z.abs (x * d0 - n0 * 2 ^ 1074) * d) as S.
  { intros x. rewrite <- (Z.abs_eq d0) at 1 by lia. rewrite <- (Z.abs_eq d) at 2 by lia. rewrite <- !Z.abs_mul. f_equal. rewrite !Z.mul_sub_distr_r.
    replace (n * 2 ^ 1074 * d0) with (n * d0 * 2 ^ 1074) by ring. rewrite E. ring. }
  pose proof (S (m * 2 ^ (e + 1074))) as S1. pose proof (S (m' * 2 ^ (e' + 1074))) as S2. clear S.
  remember (Z.abs (m * 2 ^ (e + 1074) * d - n * 2 ^ 1074)) as a. remember (Z.abs (m' * 2 ^ (e' + 1074) * d - n * 2 ^ 1074)) as b.
  remember (Z.abs (m * 2 ^ (e + 1074) * d0 - n0 * 2 ^ 1074)) as a0. remember (Z.abs (m' * 2 ^ (e' + 1074) * d0 - n0 * 2 ^ 1074)) as b0. clear Heqa Heqb Heqa0 Heqb0. split.
  - apply (Z.mul_le_mono_pos_r _ _ d0 D0). rewrite S1, S2. apply Z.mul_le_mono_nonneg_r; lia.
  - intros ->. apply B. apply (Z.mul_reg_r _ _ d); [lia|]. congruence.
Qed.

Lemma whole_binary64 z m e : 0 < z <= 2 ^ 53 -> whole_double z = (m, e) -> binary64 m e /\ m * 2 ^ (e + 1074) = z * 2 ^ 1074.
Proof.
  intros R W. pose proof (whole_value z R) as V. rewrite W in V. destruct V as (M & E & V). split; [left; lia|].
  assert (2 ^ (e + 1074) = 2 ^ Z.max e 0 * 2 ^ (1074 + Z.min e 0)) as -> by (rewrite <- Z.pow_add_r by lia; f_equal; lia).
  assert (2 ^ 1074 = 2 ^ Z.max (- e) 0 * 2 ^ (1074 + Z.min e 0)) as -> by (rewrite <- Z.pow_add_r by lia; f_equal; lia).
  rewrite !Z.mul_assoc, V. reflexivity.
Qed.

Lemma reads_double t neg n d s z : amounts t neg n d -> go_float t = Some s -> parse_int 64 s = (z, None) -> 0 < Z.abs z <= 2 ^ 53 ->
  neg = (z <? 0) /\ exists n0 d0, 0 <= n0 /\ 0 < d0 /\ n * d0 = n0 * d /\ to_double n0 d0 = Some (whole_double (Z.abs z)).
Proof.
  intros A G I B. apply read_amount in A as (D & c & p & E & C & V). unfold go_float in G. rewrite E in G. clear E. unfold decimal_double in G.
  assert (0 < 10 ^ Z.max (- p) 0) as T by (apply Z.pow_pos_nonneg; lia). assert (0 < 10 ^ Z.max p 0) as T' by (apply Z.pow_pos_nonneg; lia).
  assert (0 <= c * 10 ^ Z.max p 0) as N0 by nia. remember (c * 10 ^ Z.max p 0) as n0. remember (10 ^ Z.max (- p) 0) as d0. clear Heqn0 Heqd0 C T' c p.
  destruct (to_double n0 d0) as [[m e]|] eqn:X; [|discriminate].
  destruct (print_double m e) as [u|] eqn:Pu; [|discriminate]. cbn [option_map] in G. injection G as G.
  assert (0 <= m) as M.
  { destruct (to_double_inv n0 d0 m e N0 T X) as [[_ ->]|(_ & m0 & e0 & _ & M0 & _ & [[<- _]|(_ & -> & _)])]; try assumption; lia. }
  destruct (Z.eq_dec m 0) as [->|Mz].
  { exfalso. cbn in Pu. injection Pu as <-. assert (z = 0) as -> by (subst s; destruct neg; vm_compute in I; congruence). cbn in B. lia. }
  destruct (print_inv m e u ltac:(lia) Pu) as [(x & r & Hx & Dx) Q].
  assert (forallb is_digit u = true /\ z = if neg then - dval u else dval u) as [Du Ez].
  { apply parse_int_inv in I as [(Ds & Hs & ->)|(y & ds & Es & Cs & Ds & Hs & ->)].
    - destruct neg; [subst s; discriminate|]. subst s. auto.
    - destruct neg.
      + rewrite Es in G. injection G as <- <-. split; [exact Ds|reflexivity].
      + exfalso. rewrite Es, Hx in G. injection G as -> _. destruct Cs as [-> | ->]; discriminate. }
  destruct (Q Du) as (U & d1 & D1 & X1). assert (Z.abs z = dval u) as Ea by (destruct neg; lia). rewrite Ea in *.
  split; [destruct neg; [symmetry; apply Z.ltb_lt|symmetry; apply Z.ltb_ge]; lia|].
  rewrite double_whole in X1 by lia. exists n0, d0. split; [exact N0|]. split; [exact T|]. split; [exact V|]. congruence.
Qed.

(* the float64 of whole numbers is in range *)
Lemma nearest_some n d z : 0 <= n -> 0 < d -> 0 < z <= 2 ^ 53 -> nearest_whole n d z -> exists x, to_double n d = Some x.
Proof.
  intros N D R (m & e & V & _ & H). destruct (to_double n d) as [x|] eqn:X; [eauto|]. exfalso.
  assert (n <> 0) as N0 by (intros ->; discriminate).
  assert (971 <= grid n d) as G.
  { rewrite to_double_steps in X by exact N0. destruct (steps n d =? 2 ^ 53).
    - destruct (971 <? grid n d + 1) eqn:Q; [apply Z.ltb_lt in Q; lia|discriminate].
    - destruct (971 <? grid n d) eqn:Q; [apply Z.ltb_lt in Q; lia|discriminate]. }
  unfold grid in G. pose proof (binade_low n d ltac:(lia) D) as B. rewrite (Z.max_l (binade n d)), (Z.max_r (- binade n d)), Z.pow_0_r in B by lia.
  assert (2 ^ 1023 <= 2 ^ binade n d) as P by (apply Z.pow_le_mono_r; lia).
  destruct (H (2 ^ 52) 2) as [A _]; [left; lia|]. rewrite V in A. replace (2 ^ 52 * 2 ^ (2 + 1074)) with (2 ^ 54 * 2 ^ 1074) in A by reflexivity.
  replace (z * 2 ^ 1074 * d - n * 2 ^ 1074) with ((z * d - n) * 2 ^ 1074) in A by ring.
  replace (2 ^ 54 * 2 ^ 1074 * d - n * 2 ^ 1074) with ((2 ^ 54 * d - n) * 2 ^ 1074) in A by ring.
  rewrite !Z.abs_mul in A. apply Z.mul_le_mono_pos_r in A; [|reflexivity].
  assert (2 ^ 54 * d <= n) as L.
  { apply (Z.le_trans _ (d * 2 ^ binade n d)); [|lia]. rewrite (Z.mul_comm (2 ^ 54)). apply Z.mul_le_mono_nonneg_l; [lia|]. apply (Z.le_trans _ (2 ^ 1023)); [discriminate|exact P]. }
  assert (z * d <= 2 ^ 53 * d) as L' by (apply Z.mul_le_mono_nonneg_r; lia). assert (0 < 2 ^ 53 * d) as L0 by (apply Z.mul_pos_pos; [reflexivity|exact D]).
  replace (2 ^ 54 * d) with (2 * (2 ^ 53 * d)) in * by (rewrite Z.mul_assoc; reflexivity). clear - A L L' L0. lia.
Qed.

Lemma reads_nearest t neg n d z : amounts t neg n d -> 0 < Z.abs z <= 2 ^ 53 ->
  ((exists s, go_float t = Some s /\ parse_int 64 s = (z, None)) <-> neg = (z <? 0) /\ nearest_whole n d (Z.abs z)).
Proof.
  intros A B. destruct (whole_double (Z.abs z)) as [m e] eqn:W. destruct (whole_binary64 _ _ _ B W) as [F Vw]. split.
  - intros (s & G & I). destruct (reads_double t neg n d s z A G I B) as (S & n0 & d0 & N0 & D0 & E & X). split; [exact S|].
    apply read_amount in A as (D & _). rewrite W in X. exists m, e. split; [exact Vw|].
    apply (nearest_scale n d n0 d0); [exact D|exact D0|exact E|]. now apply double_nearest.
  - intros (S & H). apply read_amount in A as (D & c & p & E & C & V).
    assert (0 < 10 ^ Z.max (- p) 0) as T by (apply Z.pow_pos_nonneg; lia). assert (0 < 10 ^ Z.max p 0) as T' by (apply Z.pow_pos_nonneg; lia).
    assert (0 <= c * 10 ^ Z.max p 0) as N0 by nia. exists (itoa z). split; [|apply parse_itoa; lia].
    unfold go_float. rewrite E. unfold decimal_double. remember (c * 10 ^ Z.max p 0) as n0. remember (10 ^ Z.max (- p) 0) as d0.
    assert (nearest_whole n0 d0 (Z.abs z)) as H0.
    { destruct H as (m1 & e1 & V1 & H). exists m1, e1. split; [exact V1|]. apply (nearest_scale n0 d0 n d); [exact T|exact D|lia|exact H]. }
    destruct (nearest_some n0 d0 (Z.abs z) N0 T B H0) as ([m0 e0] & X). rewrite X. destruct H0 as (m1 & e1 & V1 & H0).
    pose proof (nearest_double n0 d0 m0 e0 m1 e1 N0 T X H0) as Q. destruct H0 as [F1 _].
    assert ((m1, e1) = (m, e)) as Q' by (apply binary64_unique; [exact F|exact F1|congruence]).
    assert (m0 = m /\ e0 = e) as [-> ->] by (split; congruence). rewrite (print_whole _ _ _ B W). cbn [option_map]. f_equal. rewrite S. unfold itoa.
    destruct (z <? 0) eqn:L; [apply Z.ltb_lt in L; rewrite Z.abs_neq by lia|apply Z.ltb_ge in L; rewrite Z.abs_eq by lia]; reflexivity.
Qed.

(* what is that near to 0 is read as 0 *)
Lemma double_tiny n0 d0 : 0 <= n0 -> 0 < d0 -> 2 ^ 1075 * n0 <= d0 -> exists e, to_double n0 d0 = Some (0, e).
Proof.
  intros N0 T H0.
  destruct (Z.eq_dec n0 0) as [->|Nz]; [eexists; reflexivity|]. rewrite to_double_steps by exact Nz.
      assert (grid n0 d0 = -1074) as Gr.
      { unfold grid. pose proof (binade_low n0 d0 ltac:(lia) T) as B. set (b := binade n0 d0) in *. destruct (Z_le_gt_dec b (-1022)) as [L|L]; [lia|]. exfalso.
        assert (2 ^ 1075 * n0 * 2 ^ Z.max b 0 <= n0 * 2 ^ Z.max (- b) 0) as Q by (apply (Z.le_trans _ (d0 * 2 ^ Z.max b 0)); [apply Z.mul_le_mono_nonneg_r; [apply Z.pow_nonneg; lia|exact H0]|exact B]).
        assert (2 ^ Z.max (- b) 0 < 2 ^ 1075) as Q1 by (apply Z.pow_lt_mono_r; lia). pose proof (pow_pos (Z.max b 0) ltac:(lia)) as Q2.
        pose proof (pow_pos (Z.max (- b) 0) ltac:(lia)) as Q3.
        clear - Q Q1 Q2 Q3 N0 Nz. remember (2 ^ 1075) as x. remember (2 ^ Z.max (- b) 0) as y. remember (2 ^ Z.max b 0) as u. clear Heqx Heqy Hequ.
        assert (y < x * u) by nia. nia. }
      assert (steps n0 d0 = 0) as ->.
      { unfold steps. rewrite Gr. change (Z.max (- (-1074)) 0) with 1074. change (Z.max (-1074) 0) with 0. rewrite Z.pow_0_r, Z.mul_1_r. unfold half_even.
        change (2 ^ 1075) with (2 * 2 ^ 1074) in H0. remember (2 ^ 1074) as x. assert (0 < x) by (subst x; reflexivity). clear Heqx.
        rewrite Z.div_small, Z.mod_small by nia. change (Z.even 0) with true. rewrite andb_true_r.
        assert ((2 * (n0 * x) <? d0) || (2 * (n0 * x) =? d0) = true) as ->; [|reflexivity].
        apply orb_true_iff. destruct (Z.eq_dec (2 * (n0 * x)) d0); [right; now apply Z.eqb_eq|left; apply Z.ltb_lt; lia]. }
      rewrite Gr. eexists. reflexivity.
Qed.

Lemma reads_zero t neg n d : amounts t neg n d ->
  ((exists s, go_float t = Some s /\ parse_int 64 s = (0, None)) <-> 2 ^ 1075 * n <= d).
Proof.
  intros A. split.
  - intros (s & G & I). pose proof (float_near t neg n d s 0 A G I ltac:(lia)) as H. exact H.
  - intros H. apply read_amount in A as (D & c & p & E & C & V).
    assert (0 < 10 ^ Z.max (- p) 0) as T by (apply Z.pow_pos_nonneg; lia). assert (0 < 10 ^ Z.max p 0) as T' by (apply Z.pow_pos_nonneg; lia).
    assert (0 <= c * 10 ^ Z.max p 0) as N0 by nia. unfold go_float. rewrite E. unfold decimal_double. remember (c * 10 ^ Z.max p 0) as n0. remember (10 ^ Z.max (- p) 0) as d0.
    assert (2 ^ 1075 * n0 <= d0) as H0.
    { apply (Z.mul_le_mono_pos_r _ _ d D). rewrite <- Z.mul_assoc, <- V, Z.mul_assoc, (Z.mul_comm d0 d). apply Z.mul_le_mono_nonneg_r; [lia|exact H]. }
    destruct (double_tiny n0 d0 N0 T H0) as (e & ->).
    cbn [print_double Z.eqb option_map]. eexists. split; [reflexivity|]. destruct neg; reflexivity.
Qed.

Lemma nearest_only n d m e : 0 <= n -> 0 < d -> to_double n d = Some (m, e) ->
  nearest n d m e /\ forall m' e', nearest n d m' e' -> (m', e') = (m, e).
Proof. intros N D H. split; [now apply double_nearest|]. intros m' e' H'. now apply (nearest_double n d m e m' e'). Qed.
