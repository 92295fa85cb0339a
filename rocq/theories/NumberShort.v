(* Facts for C105: no decimal with fewer digits is read as the same float64 *)
From Coq Require Import ZArith NArith Bool Ascii String List Lia.
Import ListNotations.
From Verif Require Import GoBase GoBaseFacts GoTime Json JsonTextFacts JsonFile GoFloat SpecCodec SpecJson FieldFacts SpecNumbers NumberFacts NumberRound NumberText.
Local Open Scope string_scope.
Local Open Scope Z_scope.
Local Open Scope list_scope.
Local Notation length := List.length.

Lemma places_high n d : 0 < n -> 0 < d -> n * 10 ^ Z.max (- places n d) 0 < d * 10 ^ Z.max (places n d) 0.
Proof.
  intros N D. unfold places. destruct (d <=? n) eqn:L.
  - apply Z.leb_le in L. assert (0 < n / d) as Q by (apply Z.div_str_pos; lia). pose proof (utoa_size _ Q) as [_ A]. pose proof (utoa_nonempty (n / d)) as K.
    set (k := Z.of_nat (length (utoa (n / d)))) in *. assert (1 <= k) by lia. rewrite Z.max_r, Z.max_l, Z.pow_0_r, Z.mul_1_r by lia.
    pose proof (Z.mul_succ_div_gt n d D) as M. clearbody k. nia.
  - apply Z.leb_gt in L. assert (0 < (d - 1) / n) as Q by (apply Z.div_str_pos; lia). pose proof (utoa_size _ Q) as [A _]. pose proof (utoa_nonempty ((d - 1) / n)) as K.
    set (k := Z.of_nat (length (utoa ((d - 1) / n)))) in *. assert (1 <= k) by lia. replace (- (1 - k)) with (k - 1) by lia.
    rewrite Z.max_l, Z.max_r, Z.pow_0_r, Z.mul_1_r by lia. pose proof (Z.mul_div_le (d - 1) n N) as M. clearbody k. nia.
Qed.

Lemma ten_add a b : 0 <= a -> 0 <= b -> 10 ^ a * 10 ^ b = 10 ^ (a + b).
Proof. intros A B. symmetry. now apply Z.pow_add_r. Qed.

(* decimals over one denominator *)
Lemma decimal_at a q r : 0 <= a -> r <= q -> r <= 0 -> decimal_double a q = to_double (a * 10 ^ (q - r)) (10 ^ (- r)).
Proof.
  intros A Q R. unfold decimal_double. apply to_double_scale; [apply Z.mul_nonneg_nonneg; [exact A|apply Z.pow_nonneg; lia]|apply ten_pos; lia|apply Z.mul_nonneg_nonneg; [exact A|apply Z.pow_nonneg; lia]|apply ten_pos; lia|].
  rewrite <- !Z.mul_assoc. f_equal. rewrite <- !Z.pow_add_r by lia. f_equal. lia.
Qed.

Lemma scaled m e a q r : -1074 <= e -> r <= q -> r <= 0 ->
  exists f, 0 < f /\ a * (2 ^ Z.max (- e) 0 * 10 ^ Z.max q 0) * f = a * 10 ^ (q - r) * 2 ^ 1074
    /\ m * 2 ^ Z.max e 0 * 10 ^ Z.max (- q) 0 * f = m * 2 ^ (e + 1074) * 10 ^ (- r).
Proof.
  intros E Q R. exists (2 ^ (1074 + Z.min e 0) * 10 ^ (q - r - Z.max q 0)). split; [apply Z.mul_pos_pos; [apply pow_pos; lia|apply ten_pos; lia]|].
  split.
  - assert (2 ^ 1074 = 2 ^ Z.max (- e) 0 * 2 ^ (1074 + Z.min e 0)) as -> by (rewrite <- Z.pow_add_r by lia; f_equal; lia).
    assert (10 ^ (q - r) = 10 ^ Z.max q 0 * 10 ^ (q - r - Z.max q 0)) as -> by (rewrite <- Z.pow_add_r by lia; f_equal; lia). ring.
  - assert (2 ^ (e + 1074) = 2 ^ Z.max e 0 * 2 ^ (1074 + Z.min e 0)) as -> by (rewrite <- Z.pow_add_r by lia; f_equal; lia).
    assert (10 ^ (- r) = 10 ^ Z.max (- q) 0 * 10 ^ (q - r - Z.max q 0)) as -> by (rewrite <- Z.pow_add_r by lia; f_equal; lia). ring.
Qed.

Lemma scaled_le m e a q r : -1074 <= e -> r <= q -> r <= 0 ->
  (a * (2 ^ Z.max (- e) 0 * 10 ^ Z.max q 0) <= m * 2 ^ Z.max e 0 * 10 ^ Z.max (- q) 0 <-> a * 10 ^ (q - r) * 2 ^ 1074 <= m * 2 ^ (e + 1074) * 10 ^ (- r)).
Proof. intros E Q R. destruct (scaled m e a q r E Q R) as (f & F & <- & <-). apply Z.mul_le_mono_pos_r, F. Qed.

(* what lies between is read alike *)
Lemma between n' n d m e : nearest n' d m e -> 0 < d ->
  n' <= n /\ n * 2 ^ 1074 <= m * 2 ^ (e + 1074) * d \/ n <= n' /\ m * 2 ^ (e + 1074) * d <= n * 2 ^ 1074 -> nearest n d m e.
Proof.
  intros [F H] D B. split; [exact F|]. intros m' e' F'. destruct (H m' e' F') as [A K]. clear H.
  assert (m * 2 ^ (e + 1074) * d = m' * 2 ^ (e' + 1074) * d -> (m', e') = (m, e)) as U by (intros Q; apply binary64_unique; [exact F|exact F'|]; apply (Z.mul_reg_r _ _ d); [lia|exact Q]).
  assert (n' * 2 ^ 1074 <= n * 2 ^ 1074 /\ n * 2 ^ 1074 <= m * 2 ^ (e + 1074) * d \/ n * 2 ^ 1074 <= n' * 2 ^ 1074 /\ m * 2 ^ (e + 1074) * d <= n * 2 ^ 1074) as B'.
  { destruct B as [[B1 B2]|[B1 B2]]; [left|right]; (split; [apply Z.mul_le_mono_nonneg_r; [discriminate|exact B1]|exact B2]). }
  remember (m * 2 ^ (e + 1074) * d) as v. remember (m' * 2 ^ (e' + 1074) * d) as w. remember (n * 2 ^ 1074) as x. remember (n' * 2 ^ 1074) as y. clear - A K U B'. split; [lia|].
  intros Q. destruct (Z.eq_dec v w) as [V|V]; [left; exact (U V)|]. apply K. lia.
Qed.

Lemma between_double n' n d m e : 0 <= n' -> 0 <= n -> 0 < d -> to_double n' d = Some (m, e) ->
  n' <= n /\ n * 2 ^ 1074 <= m * 2 ^ (e + 1074) * d \/ n <= n' /\ m * 2 ^ (e + 1074) * d <= n * 2 ^ 1074 -> to_double n d = Some (m, e).
Proof.
  intros N' N D T B. pose proof (double_nearest _ _ _ _ N' D T) as H. pose proof (between n' n d m e H D B) as H'.
  destruct (to_double n d) as [[m0 e0]|] eqn:X; [f_equal; symmetry; now apply (nearest_double n d)|]. exfalso. apply to_double_none in X; [|exact N|exact D].
  destruct B as [[B1 B2]|[B1 B2]].
  - destruct H as [F _]. assert (-1074 <= e <= 971 /\ m < 2 ^ 53) as [E M] by (destruct F; lia).
    apply (Z.mul_le_mono_nonneg_r _ _ (2 ^ 1074)) in X; [|discriminate]. assert (m * 2 ^ (e + 1074) * d <= (2 ^ 53 - 1) * 2 ^ 2045 * d) as Q.
    { apply Z.mul_le_mono_nonneg_r; [lia|]. pose proof (pow_pos (e + 1074) ltac:(lia)). apply (Z.le_trans _ ((2 ^ 53 - 1) * 2 ^ (e + 1074))); [apply Z.mul_le_mono_nonneg_r; lia|]. apply Z.mul_le_mono_nonneg_l; [discriminate|apply Z.pow_le_mono_r; lia]. }
    assert ((2 ^ 53 - 1) * 2 ^ 2045 * d < (2 ^ 54 - 1) * 2 ^ 970 * d * 2 ^ 1074) as L.
    { replace ((2 ^ 54 - 1) * 2 ^ 970 * d * 2 ^ 1074) with ((2 ^ 54 - 1) * 2 ^ 970 * 2 ^ 1074 * d) by (remember (2 ^ 970) as x; remember (2 ^ 1074) as y; ring).
      apply Z.mul_lt_mono_pos_r; [exact D|]. apply Z.ltb_lt. vm_compute. reflexivity. }
    apply (Z.lt_irrefl ((2 ^ 53 - 1) * 2 ^ 2045 * d)). apply (Z.lt_le_trans _ _ _ L). apply (Z.le_trans _ _ _ X). exact (Z.le_trans _ _ _ B2 Q).
  - enough (to_double n' d = None) by congruence. apply to_double_none; [exact N'|exact D|exact (Z.le_trans _ _ _ X B1)].
Qed.

(* the floor at q *)
Lemma try_either m e q : (let n := m * 2 ^ Z.max e 0 * 10 ^ Z.max (- q) 0 in let d := 2 ^ Z.max (- e) 0 * 10 ^ Z.max q 0 in
   decimal_double (n / d) q = Some (m, e) \/ decimal_double (n / d + 1) q = Some (m, e)) -> exists c, try_digits m e q = Some c.
Proof.
  cbv zeta. unfold try_digits. set (n := m * 2 ^ Z.max e 0 * 10 ^ Z.max (- q) 0). set (d := 2 ^ Z.max (- e) 0 * 10 ^ Z.max q 0). rewrite <- !same_double_some.
  destruct (same_double (decimal_double (n / d) q) m e) eqn:A, (same_double (decimal_double (n / d + 1) q) m e) eqn:B; intros [H|H]; try discriminate;
    destruct (2 * (n mod d) <=? d); rewrite ?A, ?B; eauto.
Qed.

(* the same comparison with a smaller power of ten *)
Lemma tens k q n d : q <= k -> exists f, 0 < f /\ d * 10 ^ Z.max k 0 * f = 10 ^ (k - q) * (d * 10 ^ Z.max q 0) /\ n * 10 ^ Z.max (- k) 0 * f = n * 10 ^ Z.max (- q) 0.
Proof.
  intros Q. exists (10 ^ (Z.max (- q) 0 - Z.max (- k) 0)). split; [apply ten_pos; lia|]. split.
  - rewrite <- Z.mul_assoc, ten_add by lia. replace (10 ^ (k - q) * (d * 10 ^ Z.max q 0)) with (d * (10 ^ (k - q) * 10 ^ Z.max q 0)) by ring. rewrite ten_add by lia. f_equal. f_equal. lia.
  - rewrite <- Z.mul_assoc, ten_add by lia. f_equal. f_equal. lia.
Qed.

Lemma try_at m e c' p' q k : binary64 m e -> 0 < m -> 0 < c' -> decimal_double c' p' = Some (m, e) -> k = places (m * 2 ^ Z.max e 0) (2 ^ Z.max (- e) 0) ->
  c' < 10 ^ (k - q) -> q < k -> exists c, try_digits m e q = Some c.
Proof.
  intros F M C T K B Q. assert (-1074 <= e) as E by (destruct F; lia). apply try_either. cbv zeta.
  assert (0 < m * 2 ^ Z.max e 0) as Np by (apply Z.mul_pos_pos; [exact M|apply pow_pos; lia]). pose proof (pow_pos (Z.max (- e) 0) ltac:(lia)) as Dp.
  pose proof (places_low _ _ Np Dp) as P. rewrite <- K in P. clear K. destruct (tens (k - 1) q (m * 2 ^ Z.max e 0) (2 ^ Z.max (- e) 0) ltac:(lia)) as (f & Fp & F1 & F2).
  replace (1 - k) with (- (k - 1)) in P by lia. apply (Z.mul_le_mono_nonneg_r _ _ f) in P; [|apply Z.lt_le_incl, Fp]. rewrite F1, F2 in P. clear f Fp F1 F2.
  pose proof (fun a r => scaled_le m e a q r E) as Sc.
  set (n := m * 2 ^ Z.max e 0 * 10 ^ Z.max (- q) 0) in *. set (d := 2 ^ Z.max (- e) 0 * 10 ^ Z.max q 0) in *.
  assert (0 < d) as D by (apply Z.mul_pos_pos; [exact Dp|apply ten_pos; lia]). assert (0 < n) as N by (apply Z.mul_pos_pos; [exact Np|apply ten_pos; lia]). clearbody n d. clear Np Dp.
  assert (exists r, r <= 0 /\ r <= q /\ r <= p') as (r & R0 & Rq & Rp) by (exists (Z.min (Z.min p' q) 0); lia).
  rewrite (decimal_at c' p' r) in T by lia. pose proof (ten_pos (- r) ltac:(clear - R0; lia)) as R. assert (0 <= n / d) as L0 by (apply Z.div_pos; [apply Z.lt_le_incl, N|exact D]).
  pose proof (ten_pos (q - r) ltac:(clear - Rq; lia)) as Tq. pose proof (ten_pos (p' - r) ltac:(clear - Rp; lia)) as Tp.
  assert (0 <= c' * 10 ^ (p' - r)) as C0 by (apply Z.mul_nonneg_nonneg; apply Z.lt_le_incl; assumption).
  assert (c' * 10 ^ (p' - r) <= n / d * 10 ^ (q - r) \/ (n / d + 1) * 10 ^ (q - r) <= c' * 10 ^ (p' - r)) as S.
  { clear Sc T F M E. destruct (Z_le_gt_dec q p') as [G|G].
    - assert (10 ^ (p' - r) = 10 ^ (p' - q) * 10 ^ (q - r)) as -> by (rewrite ten_add by lia; f_equal; lia). rewrite Z.mul_assoc.
      destruct (Z_le_gt_dec (c' * 10 ^ (p' - q)) (n / d)) as [S|S]; [left|right]; apply Z.mul_le_mono_nonneg_r; lia.
    - left. apply (Z.le_trans _ (10 ^ (k - 1 - q) * 10 ^ (q - r))).
      + apply (Z.le_trans _ (10 ^ (k - q) * 10 ^ (p' - r))); [apply Z.mul_le_mono_nonneg_r; lia|]. rewrite !ten_add by lia. apply Z.pow_le_mono_r; lia.
      + apply Z.mul_le_mono_nonneg_r; [lia|]. apply Z.div_le_lower_bound; [exact D|]. rewrite Z.mul_comm. exact P. }
  specialize (fun a => Sc a r Rq R0). rewrite !(decimal_at _ q r) by (clear - L0 Rq R0; lia).
  assert (n / d * d <= n) as Lo by (rewrite Z.mul_comm; apply Z.mul_div_le, D). apply (proj1 (Sc (n / d))) in Lo.
  assert (m * 2 ^ (e + 1074) * 10 ^ (- r) <= (n / d + 1) * 10 ^ (q - r) * 2 ^ 1074) as Hi.
  { apply Z.lt_le_incl, Z.nle_gt. intros X. apply (proj2 (Sc (n / d + 1))) in X. apply Z.nlt_ge in X. apply X. rewrite Z.mul_comm. apply Z.mul_succ_div_gt, D. }
  assert (0 <= n / d + 1) as L1 by (clear - L0; lia). destruct S as [S|S].
  - left. apply (between_double (c' * 10 ^ (p' - r))); [exact C0|apply Z.mul_nonneg_nonneg; [exact L0|apply Z.lt_le_incl, Tq]|exact R|exact T|left; split; [exact S|exact Lo]].
  - right. apply (between_double (c' * 10 ^ (p' - r))); [exact C0|apply Z.mul_nonneg_nonneg; [exact L1|apply Z.lt_le_incl, Tq]|exact R|exact T|right; split; [exact S|exact Hi]].
Qed.

Lemma shortest_at m e q c0 : try_digits m e q = Some c0 -> forall fuel p c x, q <= p -> shortest fuel m e p = Some (c, x) -> q <= x.
Proof.
  intros H. induction fuel as [|f IH]; intros p c x P S; [discriminate|]. cbn [shortest] in S. destruct (try_digits m e p) as [c'|] eqn:Q; [injection S as _ <-; exact P|].
  apply (IH (p - 1) c x); [|exact S]. assert (q <> p) by congruence. lia.
Qed.
Lemma shortest_from m e : forall fuel p c x, shortest fuel m e p = Some (c, x) -> p - Z.of_nat fuel < x <= p /\ try_digits m e x = Some c.
Proof.
  induction fuel as [|f IH]; intros p c x S; [discriminate|]. cbn [shortest] in S. destruct (try_digits m e p) as [c'|] eqn:Q; [injection S as -> <-; split; [lia|exact Q]|].
  apply IH in S as [A B]. split; [lia|exact B].
Qed.

(* no more digits than the place says *)
Lemma try_size m e p c k : binary64 m e -> 0 < m -> k = places (m * 2 ^ Z.max e 0) (2 ^ Z.max (- e) 0) -> p < k -> try_digits m e p = Some c -> c <= 10 ^ (k - p).
Proof.
  intros F M K P T. assert (-1074 <= e) as E by (destruct F; lia).
  assert (0 < m * 2 ^ Z.max e 0) as Np by (apply Z.mul_pos_pos; [exact M|apply pow_pos; lia]). pose proof (pow_pos (Z.max (- e) 0) ltac:(lia)) as Dp.
  pose proof (places_high _ _ Np Dp) as H. rewrite <- K in H. unfold try_digits in T. set (n := m * 2 ^ Z.max e 0 * 10 ^ Z.max (- p) 0) in *. set (d := 2 ^ Z.max (- e) 0 * 10 ^ Z.max p 0) in *.
  assert (0 < d) as D by (apply Z.mul_pos_pos; [exact Dp|apply ten_pos; lia]).
  assert (c <= n / d + 1) as C.
  { destruct (2 * (n mod d) <=? d); (destruct (same_double _ m e); [injection T as <-; lia|]); (destruct (same_double _ m e); [injection T as <-; lia|discriminate]). }
  enough (n / d < 10 ^ (k - p)) by (clear - C H0; lia). apply Z.nle_gt. intros X. clear T.
  assert (10 ^ (k - p) * d <= n) as Y by (apply (Z.le_trans _ (n / d * d)); [apply Z.mul_le_mono_nonneg_r; [apply Z.lt_le_incl, D|exact X]|rewrite Z.mul_comm; apply Z.mul_div_le, D]).
  destruct (tens k p (m * 2 ^ Z.max e 0) (2 ^ Z.max (- e) 0) ltac:(clear - P; lia)) as (f & Fp & F1 & F2).
  apply (Z.mul_lt_mono_pos_r f _ _ Fp) in H. rewrite F1, F2 in H. fold n d in H. apply Z.nlt_ge in Y. exact (Y H).
Qed.

Lemma print_short m e s : binary64 m e -> print_double m e = Some s ->
  exists c p, 0 <= c /\ amounts s false (c * 10 ^ Z.max p 0) (10 ^ Z.max (- p) 0)
    /\ to_double (c * 10 ^ Z.max p 0) (10 ^ Z.max (- p) 0) = Some (m, e)
    /\ forall c' p' j, 0 <= c' -> 0 <= j -> c' < 10 ^ j -> decimal_double c' p' = Some (m, e) -> c < 10 ^ j.
Proof.
  intros F P. destruct (m =? 0) eqn:Q.
  { destruct (print_amounts m e s F P) as (n & d & N & A & T). pose proof (amounts_nonneg _ _ _ _ A) as [_ D]. unfold print_double in P. rewrite Q in P. injection P as <-. apply Z.eqb_eq in Q. subst m.
    assert (e = -1074) as -> by (destruct F; lia). exists 0, 0. split; [lia|]. split; [|split; [reflexivity|intros c' p' j _ J _ _; apply ten_pos, J]].
    exists (lit "0"), [], [], [], 0. repeat split; try (left; auto; fail). }
  apply Z.eqb_neq in Q. assert (0 < m) as M by (destruct F; lia). pose proof (print_text m e s F M P) as (c & p & S & A).
  set (k := places (m * 2 ^ Z.max e 0) (2 ^ Z.max (- e) 0)) in *. pose proof (shortest_inv m e c p ltac:(lia) _ _ S) as [C T].
  assert (0 < c) as Cp by (destruct (Z.eq_dec c 0) as [->|]; [rewrite decimal_zero in T; injection T as T _; lia|lia]).
  destruct (shortest_from m e _ _ _ _ S) as [R Tc]. change (Z.of_nat 17) with 17 in R. pose proof (try_size m e p c k F M eq_refl ltac:(lia) Tc) as B.
  assert (forall c' p' j, 0 <= c' -> 0 <= j -> c' < 10 ^ j -> decimal_double c' p' = Some (m, e) -> k - p <= j /\ 0 < j) as K.
  { intros c' p' j C' J L D. assert (0 < c') as Cp' by (destruct (Z.eq_dec c' 0) as [->|]; [rewrite decimal_zero in D; injection D as D _; lia|lia]).
    assert (0 < j) as Jp by (destruct (Z.eq_dec j 0) as [->|]; [rewrite Z.pow_0_r in L; lia|lia]). split; [|exact Jp].
    destruct (Z_le_gt_dec 17 j) as [G|G]; [lia|]. destruct (try_at m e c' p' (k - j) k F M Cp' D eq_refl) as [c0 H]; [replace (k - (k - j)) with j by lia; exact L|lia|].
    pose proof (shortest_at m e (k - j) c0 H 17%nat (k - 1) c p ltac:(lia) S). lia. }
  destruct (Z.eq_dec c (10 ^ (k - p))) as [E|E].
  - exists 1, k. split; [lia|]. assert (c * 10 ^ Z.max p 0 * 10 ^ Z.max (- k) 0 = 1 * 10 ^ Z.max k 0 * 10 ^ Z.max (- p) 0) as V by (rewrite E, Z.mul_1_l, !ten_add by lia; f_equal; lia).
    split; [apply (amounts_scale s false _ _ _ _ A); [apply ten_pos; lia|exact V]|]. split.
    + rewrite <- T. unfold decimal_double. apply to_double_scale; [apply Z.mul_nonneg_nonneg; [lia|apply Z.pow_nonneg; lia]|apply ten_pos; lia|apply Z.mul_nonneg_nonneg; [lia|apply Z.pow_nonneg; lia]|apply ten_pos; lia|symmetry; exact V].
    + intros c' p' j C' J L D. destruct (K c' p' j C' J L D) as [_ Jp]. apply (Z.pow_gt_1 10 j); lia.
  - exists c, p. split; [lia|]. split; [exact A|]. split; [exact T|]. intros c' p' j C' J L D. destruct (K c' p' j C' J L D) as [K1 _].
    apply (Z.lt_le_trans _ (10 ^ (k - p))); [lia|apply Z.pow_le_mono_r; lia].
Qed.

(* no number with fewer digits is read as the same float64 *)
Lemma float_short t neg n d s : amounts t neg n d -> go_float t = Some s ->
  exists c p m e, amounts s neg (c * 10 ^ Z.max p 0) (10 ^ Z.max (- p) 0) /\ nearest n d m e /\ nearest (c * 10 ^ Z.max p 0) (10 ^ Z.max (- p) 0) m e
    /\ forall c' p' j, 0 <= c' -> 0 <= j -> c' * 10 ^ Z.max p' 0 < (2 ^ 54 - 1) * 2 ^ 970 * 10 ^ Z.max (- p') 0 ->
         nearest (c' * 10 ^ Z.max p' 0) (10 ^ Z.max (- p') 0) m e -> c' < 10 ^ j -> c < 10 ^ j.
Proof.
  intros A G. pose proof (amounts_nonneg _ _ _ _ A) as [N D]. rewrite (float_amounts t neg n d A) in G. destruct (to_double n d) as [[m e]|] eqn:X; [|discriminate].
  pose proof (double_nearest n d m e N D X) as Nr. destruct (print_double m e) as [u|] eqn:P; [|discriminate]. cbn [option_map] in G. injection G as <-.
  destruct (print_short m e u (proj1 Nr) P) as (c & p & C & Au & T & S). exists c, p, m, e.
  split; [destruct neg; [now apply minus_amounts|exact Au]|]. split; [exact Nr|]. pose proof (amounts_nonneg _ _ _ _ Au) as [N' D'].
  split; [now apply double_nearest|]. intros c' p' j C' J R H L. apply (S c' p' j C' J L). unfold decimal_double.
  assert (0 <= c' * 10 ^ Z.max p' 0) as N1 by (apply Z.mul_nonneg_nonneg; [exact C'|apply Z.pow_nonneg; lia]). pose proof (ten_pos (Z.max (- p') 0) ltac:(lia)) as D1.
  destruct (to_double (c' * 10 ^ Z.max p' 0) (10 ^ Z.max (- p') 0)) as [[m0 e0]|] eqn:Y; [f_equal; symmetry; exact (nearest_double _ _ _ _ _ _ N1 D1 Y H)|].
  exfalso. apply to_double_none in Y; [|exact N1|exact D1]. apply Z.nlt_ge in Y. exact (Y R).
Qed.
