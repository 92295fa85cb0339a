(* No decimal with fewer digits has the same float32, as in NumberShort.v for float64 *)
From Coq Require Import ZArith NArith Bool Ascii String List Lia.
Import ListNotations.
From Verif Require Import GoBase GoBaseFacts GoTime Json JsonTextFacts JsonFile GoFloat Client ClientScalars ClientParams SpecCodec SpecJson FieldFacts SpecNumbers SpecParams NumberFacts NumberRound NumberText NumberShort SingleRound SingleDigits.
Local Open Scope string_scope.
Local Open Scope Z_scope.
Local Open Scope list_scope.
Local Notation length := List.length.

Lemma decimal_at32 a q r : 0 <= a -> r <= q -> r <= 0 -> decimal_single a q = to_single (a * 10 ^ (q - r)) (10 ^ (- r)).
Proof.
  intros A Q R. unfold decimal_single. apply to_single_scale; [apply Z.mul_nonneg_nonneg; [exact A|apply Z.pow_nonneg; lia]|apply ten_pos; lia|apply Z.mul_nonneg_nonneg; [exact A|apply Z.pow_nonneg; lia]|apply ten_pos; lia|].
  rewrite <- !Z.mul_assoc. f_equal. rewrite <- !Z.pow_add_r by lia. f_equal. lia.
Qed.

Lemma scaled32 m e a q r : -149 <= e -> r <= q -> r <= 0 ->
  exists f, 0 < f /\ a * (2 ^ Z.max (- e) 0 * 10 ^ Z.max q 0) * f = a * 10 ^ (q - r) * 2 ^ 149
    /\ m * 2 ^ Z.max e 0 * 10 ^ Z.max (- q) 0 * f = m * 2 ^ (e + 149) * 10 ^ (- r).
Proof.
  intros E Q R. exists (2 ^ (149 + Z.min e 0) * 10 ^ (q - r - Z.max q 0)). split; [apply Z.mul_pos_pos; [apply pow_pos; lia|apply ten_pos; lia]|].
  split.
  - assert (2 ^ 149 = 2 ^ Z.max (- e) 0 * 2 ^ (149 + Z.min e 0)) as -> by (rewrite <- Z.pow_add_r by lia; f_equal; lia).
    assert (10 ^ (q - r) = 10 ^ Z.max q 0 * 10 ^ (q - r - Z.max q 0)) as -> by (rewrite <- Z.pow_add_r by lia; f_equal; lia). ring.
  - assert (2 ^ (e + 149) = 2 ^ Z.max e 0 * 2 ^ (149 + Z.min e 0)) as -> by (rewrite <- Z.pow_add_r by lia; f_equal; lia).
    assert (10 ^ (- r) = 10 ^ Z.max (- q) 0 * 10 ^ (q - r - Z.max q 0)) as -> by (rewrite <- Z.pow_add_r by lia; f_equal; lia). ring.
Qed.

Lemma scaled_le32 m e a q r : -149 <= e -> r <= q -> r <= 0 ->
  (a * (2 ^ Z.max (- e) 0 * 10 ^ Z.max q 0) <= m * 2 ^ Z.max e 0 * 10 ^ Z.max (- q) 0 <-> a * 10 ^ (q - r) * 2 ^ 149 <= m * 2 ^ (e + 149) * 10 ^ (- r)).
Proof. intros E Q R. destruct (scaled32 m e a q r E Q R) as (f & F & <- & <-). apply Z.mul_le_mono_pos_r, F. Qed.

Lemma between32 n' n d m e : nearest32 n' d m e -> 0 < d ->
  n' <= n /\ n * 2 ^ 149 <= m * 2 ^ (e + 149) * d \/ n <= n' /\ m * 2 ^ (e + 149) * d <= n * 2 ^ 149 -> nearest32 n d m e.
Proof.
  intros [F H] D B. split; [exact F|]. intros m' e' F'. destruct (H m' e' F') as [A K]. clear H.
  assert (m * 2 ^ (e + 149) * d = m' * 2 ^ (e' + 149) * d -> (m', e') = (m, e)) as U by (intros Q; apply binary32_unique; [exact F|exact F'|]; apply (Z.mul_reg_r _ _ d); [lia|exact Q]).
  assert (n' * 2 ^ 149 <= n * 2 ^ 149 /\ n * 2 ^ 149 <= m * 2 ^ (e + 149) * d \/ n * 2 ^ 149 <= n' * 2 ^ 149 /\ m * 2 ^ (e + 149) * d <= n * 2 ^ 149) as B'.
  { destruct B as [[B1 B2]|[B1 B2]]; [left|right]; (split; [apply Z.mul_le_mono_nonneg_r; [discriminate|exact B1]|exact B2]). }
  remember (m * 2 ^ (e + 149) * d) as v. remember (m' * 2 ^ (e' + 149) * d) as w. remember (n * 2 ^ 149) as x. remember (n' * 2 ^ 149) as y. clear - A K U B'. split; [lia|].
  intros Q. destruct (Z.eq_dec v w) as [V|V]; [left; exact (U V)|]. apply K. lia.
Qed.

Lemma between_single n' n d m e : 0 <= n' -> 0 <= n -> 0 < d -> to_single n' d = Some (m, e) ->
  n' <= n /\ n * 2 ^ 149 <= m * 2 ^ (e + 149) * d \/ n <= n' /\ m * 2 ^ (e + 149) * d <= n * 2 ^ 149 -> to_single n d = Some (m, e).
Proof.
  intros N' N D T B. pose proof (single_nearest _ _ _ _ N' D T) as H. pose proof (between32 n' n d m e H D B) as H'.
  destruct (to_single n d) as [[m0 e0]|] eqn:X; [f_equal; symmetry; now apply (nearest_single n d)|]. exfalso. apply to_single_none in X; [|exact N|exact D].
  destruct B as [[B1 B2]|[B1 B2]].
  - destruct H as [F _]. assert (-149 <= e <= 104 /\ m < 2 ^ 24) as [E M] by (destruct F; lia).
    apply (Z.mul_le_mono_nonneg_r _ _ (2 ^ 149)) in X; [|discriminate]. assert (m * 2 ^ (e + 149) * d <= (2 ^ 24 - 1) * 2 ^ 253 * d) as Q.
    { apply Z.mul_le_mono_nonneg_r; [lia|]. pose proof (pow_pos (e + 149) ltac:(lia)). apply (Z.le_trans _ ((2 ^ 24 - 1) * 2 ^ (e + 149))); [apply Z.mul_le_mono_nonneg_r; lia|]. apply Z.mul_le_mono_nonneg_l; [discriminate|apply Z.pow_le_mono_r; lia]. }
    assert ((2 ^ 24 - 1) * 2 ^ 253 * d < (2 ^ 25 - 1) * 2 ^ 103 * d * 2 ^ 149) as L.
    { replace ((2 ^ 25 - 1) * 2 ^ 103 * d * 2 ^ 149) with ((2 ^ 25 - 1) * 2 ^ 103 * 2 ^ 149 * d) by (remember (2 ^ 103) as x; remember (2 ^ 149) as y; ring).
      apply Z.mul_lt_mono_pos_r; [exact D|]. apply Z.ltb_lt. vm_compute. reflexivity. }
    apply (Z.lt_irrefl ((2 ^ 24 - 1) * 2 ^ 253 * d)). apply (Z.lt_le_trans _ _ _ L). apply (Z.le_trans _ _ _ X). exact (Z.le_trans _ _ _ B2 Q).
  - enough (to_single n' d = None) by congruence. apply to_single_none; [exact N'|exact D|exact (Z.le_trans _ _ _ X B1)].
Qed.

Lemma try_either32 m e q : (let n := m * 2 ^ Z.max e 0 * 10 ^ Z.max (- q) 0 in let d := 2 ^ Z.max (- e) 0 * 10 ^ Z.max q 0 in
   decimal_single (n / d) q = Some (m, e) \/ decimal_single (n / d + 1) q = Some (m, e)) -> exists c, try_single m e q = Some c.
Proof.
  cbv zeta. unfold try_single. set (n := m * 2 ^ Z.max e 0 * 10 ^ Z.max (- q) 0). set (d := 2 ^ Z.max (- e) 0 * 10 ^ Z.max q 0). rewrite <- !same_double_some.
  destruct (same_double (decimal_single (n / d) q) m e) eqn:A, (same_double (decimal_single (n / d + 1) q) m e) eqn:B; intros [H|H]; try discriminate;
    destruct (2 * (n mod d) <=? d); rewrite ?A, ?B; eauto.
Qed.

Lemma try_at32 m e c' p' q k : binary32 m e -> 0 < m -> 0 < c' -> decimal_single c' p' = Some (m, e) -> k = places (m * 2 ^ Z.max e 0) (2 ^ Z.max (- e) 0) ->
  c' < 10 ^ (k - q) -> q < k -> exists c, try_single m e q = Some c.
Proof.
  intros F M C T K B Q. assert (-149 <= e) as E by (destruct F; lia). apply try_either32. cbv zeta.
  assert (0 < m * 2 ^ Z.max e 0) as Np by (apply Z.mul_pos_pos; [exact M|apply pow_pos; lia]). pose proof (pow_pos (Z.max (- e) 0) ltac:(lia)) as Dp.
  pose proof (places_low _ _ Np Dp) as P. rewrite <- K in P. clear K. destruct (tens (k - 1) q (m * 2 ^ Z.max e 0) (2 ^ Z.max (- e) 0) ltac:(lia)) as (f & Fp & F1 & F2).
  replace (1 - k) with (- (k - 1)) in P by lia. apply (Z.mul_le_mono_nonneg_r _ _ f) in P; [|apply Z.lt_le_incl, Fp]. rewrite F1, F2 in P. clear f Fp F1 F2.
  pose proof (fun a r => scaled_le32 m e a q r E) as Sc.
  set (n := m * 2 ^ Z.max e 0 * 10 ^ Z.max (- q) 0) in *. set (d := 2 ^ Z.max (- e) 0 * 10 ^ Z.max q 0) in *.
  assert (0 < d) as D by (apply Z.mul_pos_pos; [exact Dp|apply ten_pos; lia]). assert (0 < n) as N by (apply Z.mul_pos_pos; [exact Np|apply ten_pos; lia]). clearbody n d. clear Np Dp.
  assert (exists r, r <= 0 /\ r <= q /\ r <= p') as (r & R0 & Rq & Rp) by (exists (Z.min (Z.min p' q) 0); lia).
  rewrite (decimal_at32 c' p' r) in T by lia. pose proof (ten_pos (- r) ltac:(clear - R0; lia)) as R. assert (0 <= n / d) as L0 by (apply Z.div_pos; [apply Z.lt_le_incl, N|exact D]).
  pose proof (ten_pos (q - r) ltac:(clear - Rq; lia)) as Tq. pose proof (ten_pos (p' - r) ltac:(clear - Rp; lia)) as Tp.
  assert (0 <= c' * 10 ^ (p' - r)) as C0 by (apply Z.mul_nonneg_nonneg; apply Z.lt_le_incl; assumption).
  assert (c' * 10 ^ (p' - r) <= n / d * 10 ^ (q - r) \/ (n / d + 1) * 10 ^ (q - r) <= c' * 10 ^ (p' - r)) as S.
  { clear Sc T F M E. destruct (Z_le_gt_dec q p') as [G|G].
    - assert (10 ^ (p' - r) = 10 ^ (p' - q) * 10 ^ (q - r)) as -> by (rewrite ten_add by lia; f_equal; lia). rewrite Z.mul_assoc.
      destruct (Z_le_gt_dec (c' * 10 ^ (p' - q)) (n / d)) as [S|S]; [left|right]; apply Z.mul_le_mono_nonneg_r; lia.
    - left. apply (Z.le_trans _ (10 ^ (k - 1 - q) * 10 ^ (q - r))).
      + apply (Z.le_trans _ (10 ^ (k - q) * 10 ^ (p' - r))); [apply Z.mul_le_mono_nonneg_r; lia|]. rewrite !ten_add by lia. apply Z.pow_le_mono_r; lia.
      + apply Z.mul_le_mono_nonneg_r; [lia|]. apply Z.div_le_lower_bound; [exact D|]. rewrite Z.mul_comm. exact P. }
  specialize (fun a => Sc a r Rq R0). rewrite !(decimal_at32 _ q r) by (clear - L0 Rq R0; lia).
  assert (n / d * d <= n) as Lo by (rewrite Z.mul_comm; apply Z.mul_div_le, D). apply (proj1 (Sc (n / d))) in Lo.
  assert (m * 2 ^ (e + 149) * 10 ^ (- r) <= (n / d + 1) * 10 ^ (q - r) * 2 ^ 149) as Hi.
  { apply Z.lt_le_incl, Z.nle_gt. intros X. apply (proj2 (Sc (n / d + 1))) in X. apply Z.nlt_ge in X. apply X. rewrite Z.mul_comm. apply Z.mul_succ_div_gt, D. }
  assert (0 <= n / d + 1) as L1 by (clear - L0; lia). destruct S as [S|S].
  - left. apply (between_single (c' * 10 ^ (p' - r))); [exact C0|apply Z.mul_nonneg_nonneg; [exact L0|apply Z.lt_le_incl, Tq]|exact R|exact T|left; split; [exact S|exact Lo]].
  - right. apply (between_single (c' * 10 ^ (p' - r))); [exact C0|apply Z.mul_nonneg_nonneg; [exact L1|apply Z.lt_le_incl, Tq]|exact R|exact T|right; split; [exact S|exact Hi]].
Qed.

Lemma shortest_at32 m e q c0 : try_single m e q = Some c0 -> forall fuel p c x, q <= p -> shortest_single fuel m e p = Some (c, x) -> q <= x.
Proof.
  intros H. induction fuel as [|f IH]; intros p c x P S; [discriminate|]. cbn [shortest_single] in S. destruct (try_single m e p) as [c'|] eqn:Q; [injection S as _ <-; exact P|].
  apply (IH (p - 1) c x); [|exact S]. assert (q <> p) by congruence. lia.
Qed.

Lemma shortest_from32 m e : forall fuel p c x, shortest_single fuel m e p = Some (c, x) -> p - Z.of_nat fuel < x <= p /\ try_single m e x = Some c.
Proof.
  induction fuel as [|f IH]; intros p c x S; [discriminate|]. cbn [shortest_single] in S. destruct (try_single m e p) as [c'|] eqn:Q; [injection S as -> <-; split; [lia|exact Q]|].
  apply IH in S as [A B]. split; [lia|exact B].
Qed.

Lemma try_size32 m e p c k : binary32 m e -> 0 < m -> k = places (m * 2 ^ Z.max e 0) (2 ^ Z.max (- e) 0) -> p < k -> try_single m e p = Some c -> c <= 10 ^ (k - p).
Proof.
  intros F M K P T. assert (-149 <= e) as E by (destruct F; lia).
  assert (0 < m * 2 ^ Z.max e 0) as Np by (apply Z.mul_pos_pos; [exact M|apply pow_pos; lia]). pose proof (pow_pos (Z.max (- e) 0) ltac:(lia)) as Dp.
  pose proof (places_high _ _ Np Dp) as H. rewrite <- K in H. unfold try_single in T. set (n := m * 2 ^ Z.max e 0 * 10 ^ Z.max (- p) 0) in *. set (d := 2 ^ Z.max (- e) 0 * 10 ^ Z.max p 0) in *.
  assert (0 < d) as D by (apply Z.mul_pos_pos; [exact Dp|apply ten_pos; lia]).
  assert (c <= n / d + 1) as C.
  { destruct (2 * (n mod d) <=? d); (destruct (same_double _ m e); [injection T as <-; lia|]); (destruct (same_double _ m e); [injection T as <-; lia|discriminate]). }
  enough (n / d < 10 ^ (k - p)) by (clear - C H0; lia). apply Z.nle_gt. intros X. clear T.
  assert (10 ^ (k - p) * d <= n) as Y by (apply (Z.le_trans _ (n / d * d)); [apply Z.mul_le_mono_nonneg_r; [apply Z.lt_le_incl, D|exact X]|rewrite Z.mul_comm; apply Z.mul_div_le, D]).
  destruct (tens k p (m * 2 ^ Z.max e 0) (2 ^ Z.max (- e) 0) ltac:(clear - P; lia)) as (f & Fp & F1 & F2).
  apply (Z.mul_lt_mono_pos_r f _ _ Fp) in H. rewrite F1, F2 in H. fold n d in H. apply Z.nlt_ge in Y. exact (Y H).
Qed.
