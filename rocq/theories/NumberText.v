(* Facts for C105: the text that is written for a float64 *)
From Coq Require Import ZArith NArith Bool Ascii String List Lia.
Import ListNotations.
From Verif Require Import GoBase GoBaseFacts GoTime Json JsonTextFacts JsonFile GoFloat SpecCodec SpecJson FieldFacts SpecNumbers NumberFacts NumberRound.
Local Open Scope string_scope.
Local Open Scope Z_scope.
Local Open Scope list_scope.
Local Notation length := List.length.

(* ---- the range ---- *)

Lemma half_even_odd n d k : 0 <= n -> 0 < d -> half_even n d <= k -> Z.even k = false -> 2 * n < (2 * k + 1) * d.
Proof.
  intros N D H K. unfold half_even in H. pose proof (Z.div_mod n d ltac:(lia)) as E. pose proof (Z.mod_pos_bound n d D) as M. remember (n / d) as q. remember (n mod d) as r. clear Heqq Heqr.
  destruct (2 * r <? d) eqn:A; [apply Z.ltb_lt in A; cbn [orb] in H; nia|]. cbn [orb] in H.
  destruct (2 * r =? d) eqn:B; cbn [andb] in H; [|nia]. apply Z.eqb_eq in B. destruct (Z.even q) eqn:C; [|nia].
  assert (q <> k) by congruence. nia.
Qed.

Lemma binade_above n d b : 0 < n -> 0 < d -> 0 <= b -> b <= binade n d -> 2 ^ b * d <= n.
Proof.
  intros N D B L. pose proof (binade_low n d N D) as H. rewrite (Z.max_l (binade n d)), (Z.max_r (- binade n d)), Z.pow_0_r in H by lia.
  assert (2 ^ b <= 2 ^ binade n d) as P by (apply Z.pow_le_mono_r; lia). apply (Z.le_trans _ (2 ^ binade n d * d)); [apply Z.mul_le_mono_nonneg_r; lia|lia].
Qed.
Lemma binade_below n d b : 0 < n -> 0 < d -> 0 <= b -> binade n d + 1 <= b -> n < 2 ^ b * d.
Proof.
  intros N D B L. pose proof (binade_high n d N D) as H. set (k := binade n d + 1) in *. pose proof (pow_pos (Z.max (- k) 0) ltac:(lia)) as P.
  assert (2 ^ Z.max k 0 <= 2 ^ b) as Q by (apply Z.pow_le_mono_r; lia). apply (Z.le_lt_trans _ (n * 2 ^ Z.max (- k) 0)); [nia|].
  apply (Z.lt_le_trans _ (d * 2 ^ Z.max k 0)); [exact H|]. rewrite (Z.mul_comm d). apply Z.mul_le_mono_nonneg_r; lia.
Qed.

(* float64 ends half a step above the largest number *)
Lemma far_range d n : 0 < d -> 2 ^ 1024 * d <= n -> (2 ^ 54 - 1) * 2 ^ 970 * d <= n.
Proof. intros D H. apply (Z.le_trans _ (2 ^ 1024 * d)); [|exact H]. apply Z.mul_le_mono_nonneg_r; [now apply Z.lt_le_incl|]. apply Z.leb_le. reflexivity. Qed.
Lemma near_range d n : 0 < d -> n < 2 ^ 1023 * d -> n < (2 ^ 54 - 1) * 2 ^ 970 * d.
Proof. intros D H. apply (Z.lt_le_trans _ (2 ^ 1023 * d)); [exact H|]. apply Z.mul_le_mono_nonneg_r; [now apply Z.lt_le_incl|]. apply Z.leb_le. reflexivity. Qed.
Lemma edge_range d : 2 * ((2 ^ 54 - 1) * 2 ^ 970 * d) = (2 * (2 ^ 53 - 1) + 1) * (2 ^ 971 * d).
Proof. rewrite !Z.mul_assoc. f_equal. Qed.
Lemma edge_low x h : 2 * Z.abs (2 ^ 53 * x - h) <= x -> (2 * (2 ^ 53 - 1) + 1) * x <= 2 * h.
Proof. lia. Qed.
Lemma range_pos d : 0 < d -> 0 < (2 ^ 54 - 1) * 2 ^ 970 * d.
Proof. intros D. apply Z.mul_pos_pos; [reflexivity|exact D]. Qed.

Lemma to_double_none n d : 0 <= n -> 0 < d -> (to_double n d = None <-> (2 ^ 54 - 1) * 2 ^ 970 * d <= n).
Proof.
  intros N D. pose proof (far_range d n D) as Far. pose proof (near_range d n D) as Near. pose proof (edge_range d) as Edge. pose proof (range_pos d D) as Pos.
  remember ((2 ^ 54 - 1) * 2 ^ 970 * d) as top. clear Heqtop. destruct (Z.eq_dec n 0) as [->|N0].
  { split; [discriminate|]. intros H. exfalso. clear - H Pos. lia. }
  assert (0 < n) as Np by (clear - N N0; lia). destruct (steps_range n d Np D) as [S _].
  pose proof (binade_above n d 1024 Np D ltac:(lia)) as Up. pose proof (binade_below n d 1023 Np D ltac:(lia)) as Down.
  assert (0 < 2 ^ 971 * d) as Dp by (apply Z.mul_pos_pos; [reflexivity|exact D]).
  assert (grid n d = 971 -> steps n d = half_even n (2 ^ 971 * d)) as St.
  { intros G. unfold steps. rewrite G. change (Z.max (- (971)) 0) with 0. change (Z.max 971 0) with 971. rewrite Z.pow_0_r, Z.mul_1_r, (Z.mul_comm d). reflexivity. }
  pose proof (half_even_near n (2 ^ 971 * d) N Dp) as [_ Half]. pose proof (half_even_odd n (2 ^ 971 * d) (2 ^ 53 - 1) N Dp) as Odd.
  remember (2 ^ 971 * d) as x. clear Heqx. remember (2 ^ 1024 * d) as y. remember (2 ^ 1023 * d) as z. clear Heqy Heqz.
  assert (972 <= grid n d -> top <= n) as Far' by (unfold grid; clear - Far Up; intros G; apply Far, Up; lia). 
  assert (grid n d <= 970 -> n < top) as Near' by (unfold grid; clear - Near Down; intros G; apply Near, Down; lia). clear Far Near Up Down.
  rewrite to_double_steps by exact N0. split.
  - intros H. destruct (Z_le_gt_dec 972 (grid n d)) as [G|G]; [exact (Far' G)|].
    destruct (steps n d =? 2 ^ 53) eqn:Q.
    + destruct (971 <? grid n d + 1) eqn:L; [|discriminate]. apply Z.ltb_lt in L. apply Z.eqb_eq in Q. assert (grid n d = 971) as G1 by (clear - L G; lia).
      rewrite <- (St G1), Q in Half. apply edge_low in Half. clear - Half Edge. lia.
    + destruct (971 <? grid n d) eqn:L; [|discriminate]. apply Z.ltb_lt in L. clear - L G. lia.
  - intros H. destruct (Z_le_gt_dec 972 (grid n d)) as [G|G].
    { destruct (steps n d =? 2 ^ 53); (match goal with |- context [971 <? ?x] => assert (971 <? x = true) as -> by (apply Z.ltb_lt; clear - G; lia) end); reflexivity. }
    destruct (Z.eq_dec (grid n d) 971) as [G1|G1].
    + rewrite G1. change (971 <? 971 + 1) with true. destruct (steps n d =? 2 ^ 53) eqn:Q; [reflexivity|]. exfalso. apply Z.eqb_neq in Q. rewrite (St G1) in *.
      specialize (Odd ltac:(clear - S Q; lia) eq_refl). clear - Odd Edge H. lia.
    + exfalso. assert (n < top) by (apply Near'; clear - G G1; lia). clear - H H0. lia.
Qed.

Lemma to_double_scale n d n0 d0 : 0 <= n -> 0 < d -> 0 <= n0 -> 0 < d0 -> n * d0 = n0 * d -> to_double n d = to_double n0 d0.
Proof.
  intros N D N0 D0 E. destruct (to_double n d) as [[m e]|] eqn:A; destruct (to_double n0 d0) as [[m0 e0]|] eqn:B; [|exfalso|exfalso|reflexivity].
  - f_equal. apply double_nearest in A; [|assumption..]. apply (nearest_double n0 d0); [assumption..|]. apply (nearest_scale n0 d0 n d); [assumption..|lia|exact A].
  - apply to_double_none in B; [|assumption..]. enough (to_double n d = None) by congruence. apply to_double_none; [assumption..|].
    apply (Z.mul_le_mono_pos_r _ _ d0 D0). rewrite E, <- Z.mul_assoc, (Z.mul_comm d d0), Z.mul_assoc. apply Z.mul_le_mono_nonneg_r; [lia|exact B].
  - apply to_double_none in A; [|assumption..]. enough (to_double n0 d0 = None) by congruence. apply to_double_none; [assumption..|].
    apply (Z.mul_le_mono_pos_r _ _ d D). rewrite <- E, <- Z.mul_assoc, (Z.mul_comm d0 d), Z.mul_assoc. apply Z.mul_le_mono_nonneg_r; [lia|exact A].
Qed.

(* ---- 17 digits are enough ---- *)

Lemma utoa_size z : 0 < z -> 10 ^ (Z.of_nat (length (utoa z)) - 1) <= z < 10 ^ Z.of_nat (length (utoa z)).
Proof.
  intros P. pose proof (utoa_digits z ltac:(lia)) as D. pose proof (dval_utoa z ltac:(lia)) as V. pose proof (dval_range _ D) as R. rewrite V in R. split; [|lia].
  destruct (utoa_first z P) as (c & r & E & F). rewrite E in *. cbn [length forallb] in *. apply andb_prop in D as [Dc Dr].
  rewrite dval_cons in V. pose proof (dval_range r Dr) as Rr. replace (Z.of_nat (S (length r)) - 1) with (Z.of_nat (length r)) by lia.
  assert (1 <= digit_val c) as C; [|nia]. clear - Dc F. revert Dc F. destruct c as [[] [] [] [] [] [] [] []]; vm_compute; congruence.
Qed.

Lemma ten_pos k : 0 <= k -> 0 < 10 ^ k.
Proof. intros K. now apply Z.pow_pos_nonneg. Qed.

Lemma places_low n d : 0 < n -> 0 < d -> d * 10 ^ Z.max (places n d - 1) 0 <= n * 10 ^ Z.max (1 - places n d) 0.
Proof.
  intros N D. unfold places. destruct (d <=? n) eqn:L.
  - apply Z.leb_le in L. assert (0 < n / d) as Q by (apply Z.div_str_pos; lia). pose proof (utoa_size _ Q) as [A _]. pose proof (utoa_nonempty (n / d)) as K.
    set (k := Z.of_nat (length (utoa (n / d)))) in *. assert (1 <= k) by lia. rewrite Z.max_l, Z.max_r, Z.pow_0_r, Z.mul_1_r by lia.
    pose proof (Z.mul_div_le n d D) as M. clearbody k. nia.
  - apply Z.leb_gt in L. assert (0 < (d - 1) / n) as Q by (apply Z.div_str_pos; lia). pose proof (utoa_size _ Q) as [_ A]. pose proof (utoa_nonempty ((d - 1) / n)) as K.
    set (k := Z.of_nat (length (utoa ((d - 1) / n)))) in *. assert (1 <= k) by lia. replace (1 - k - 1) with (- k) by lia. replace (1 - (1 - k)) with k by lia.
    rewrite Z.max_r, Z.max_l, Z.pow_0_r, Z.mul_1_r by lia. pose proof (Z.mul_succ_div_gt (d - 1) n N) as M. clearbody k. nia.
Qed.

(* with 17 digits *)
Lemma places_17 n d p : 0 < n -> 0 < d -> p = places n d - 17 -> 10 ^ 16 * (d * 10 ^ Z.max p 0) <= n * 10 ^ Z.max (- p) 0.
Proof.
  intros N D E. pose proof (places_low n d N D) as H. replace (places n d - 1) with (p + 16) in H by lia. replace (1 - places n d) with (- (p + 16)) in H by lia. clear E.
  destruct (Z_le_gt_dec 0 p) as [A|A].
  - rewrite Z.max_l, Z.max_r, Z.pow_0_r, Z.pow_add_r in H by lia. rewrite Z.max_l, Z.max_r, Z.pow_0_r by lia. replace (10 ^ 16 * (d * 10 ^ p)) with (d * (10 ^ p * 10 ^ 16)) by ring. exact H.
  - rewrite (Z.max_r p), (Z.max_l (- p)) by lia. rewrite Z.pow_0_r, Z.mul_1_r. destruct (Z_le_gt_dec 0 (p + 16)) as [B|B].
    + rewrite Z.max_l, Z.max_r, Z.pow_0_r, Z.mul_1_r in H by lia. replace (10 ^ 16) with (10 ^ (p + 16) * 10 ^ (- p)) by (rewrite <- Z.pow_add_r by lia; f_equal; lia).
      pose proof (ten_pos (- p) ltac:(lia)) as P. replace (10 ^ (p + 16) * 10 ^ (- p) * d) with (d * 10 ^ (p + 16) * 10 ^ (- p)) by ring. apply Z.mul_le_mono_nonneg_r; lia.
    + rewrite Z.max_r, Z.max_l, Z.pow_0_r, Z.mul_1_r in H by lia. replace (10 ^ (- p)) with (10 ^ (- (p + 16)) * 10 ^ 16) by (rewrite <- Z.pow_add_r by lia; f_equal; lia).
      rewrite Z.mul_assoc, (Z.mul_comm (10 ^ 16)). apply Z.mul_le_mono_nonneg_r; [discriminate|exact H].
Qed.

(* how far apart the numbers of binary64 are *)
Lemma gap m e m' e' : binary64 m e -> binary64 m' e' -> (m', e') <> (m, e) ->
  (if m =? 2 ^ 52 then 1 else 2) * 2 ^ (e + 1074) <= 2 * Z.abs (m * 2 ^ (e + 1074) - m' * 2 ^ (e' + 1074)).
Proof.
  intros F F' Ne. assert (-1074 <= e) as E by (destruct F; lia). assert (-1074 <= e') as E' by (destruct F'; lia).
  pose proof (pow_pos (e + 1074) ltac:(lia)) as U. pose proof (pow_pos (e' + 1074) ltac:(lia)) as U'.
  assert (m < 2 ^ 53) as M by (destruct F; lia). assert (m' < 2 ^ 53) as M' by (destruct F'; lia).
  destruct (Z.eq_dec e' e) as [->|D].
  - assert (m <> m') as K by congruence. remember (2 ^ (e + 1074)) as u. clear - K U. replace (m * u - m' * u) with ((m - m') * u) by ring. rewrite Z.abs_mul, (Z.abs_eq u) by lia.
    assert (1 <= Z.abs (m - m')) by lia. destruct (m =? 2 ^ 52); nia.
  - destruct (Z_lt_le_dec e e') as [L|L].
    + assert (2 ^ 52 <= m') as K by (destruct F'; lia). assert (2 ^ (e' + 1074) = 2 * 2 ^ (e + 1074) * 2 ^ (e' - e - 1)) as -> by (change 2 with (2 ^ 1) at 2; rewrite <- !Z.pow_add_r by lia; f_equal; lia).
      pose proof (pow_pos (e' - e - 1) ltac:(lia)) as Y. remember (2 ^ (e + 1074)) as u. remember (2 ^ (e' - e - 1)) as y. clear - K M U Y.
      assert (2 ^ 53 * u <= m' * (2 * u * y)) as A by (apply (Z.le_trans _ (2 ^ 52 * (2 * u * 1))); [change (2 ^ 53) with (2 ^ 52 * 2); lia|]; apply Z.mul_le_mono_nonneg; try lia; apply Z.mul_le_mono_nonneg_l; lia).
      assert (m * u <= (2 ^ 53 - 1) * u) as B by (apply Z.mul_le_mono_nonneg_r; lia).
      remember (m' * (2 * u * y)) as b. remember (m * u) as a. clear - A B U. destruct (m =? 2 ^ 52); lia.
    + assert (2 ^ 52 <= m) as K by (destruct F; lia). assert (2 ^ (e + 1074) = 2 * 2 ^ (e' + 1074) * 2 ^ (e - e' - 1)) as Eu by (change 2 with (2 ^ 1) at 2; rewrite <- !Z.pow_add_r by lia; f_equal; lia).
      pose proof (pow_pos (e - e' - 1) ltac:(lia)) as Y. remember (2 ^ (e + 1074)) as u. remember (2 ^ (e' + 1074)) as w. remember (2 ^ (e - e' - 1)) as y. clear - K M M' U U' Y Eu.
      assert (2 * w <= u) as W by (rewrite Eu, <- (Z.mul_1_r (2 * w)) at 1; apply Z.mul_le_mono_nonneg_l; lia).
      assert (2 * (m' * w) <= (2 ^ 53 - 1) * u) as A.
      { apply (Z.le_trans _ ((2 ^ 53 - 1) * (2 * w))); [replace (2 * (m' * w)) with (m' * (2 * w)) by ring; apply Z.mul_le_mono_nonneg_r; lia|apply Z.mul_le_mono_nonneg_l; lia]. }
      destruct (m =? 2 ^ 52) eqn:Q.
      * apply Z.eqb_eq in Q. subst m. lia.
      * apply Z.eqb_neq in Q. assert ((2 ^ 52 + 1) * u <= m * u) as B by (apply Z.mul_le_mono_nonneg_r; lia). remember (m * u) as a. remember (m' * w) as b. clear - A B U. lia.
Qed.

Lemma closer m u x b : 0 < u -> m < 2 ^ 53 -> 2 * 10 ^ 16 * x <= m * u -> (if m =? 2 ^ 52 then 1 else 2) * u <= 2 * b -> 2 * x < b /\ 2 * x < u.
Proof.
  intros U M A B. destruct (m =? 2 ^ 52) eqn:Q.
  - apply Z.eqb_eq in Q. subst m. lia.
  - assert (m * u <= 2 ^ 53 * u) by (apply Z.mul_le_mono_nonneg_r; lia). lia.
Qed.

(* a decimal that is that near to a number of binary64 is read as it *)
Lemma close_double m e n d : binary64 m e -> 0 <= n -> 0 < d ->
  2 * 10 ^ 16 * Z.abs (m * 2 ^ (e + 1074) * d - n * 2 ^ 1074) <= m * (2 ^ (e + 1074) * d) -> to_double n d = Some (m, e).
Proof.
  intros F N D X. assert (-1074 <= e <= 971) as E by (destruct F; lia). assert (m < 2 ^ 53) as M by (destruct F; lia).
  pose proof (pow_pos (e + 1074) ltac:(lia)) as U. assert (0 < 2 ^ (e + 1074) * d) as Ud by (apply Z.mul_pos_pos; assumption).
  assert (nearest n d m e) as H.
  { split; [exact F|]. intros m' e' F'. destruct (Z.eq_dec (m * 2 ^ (e + 1074)) (m' * 2 ^ (e' + 1074))) as [Q|Q].
    - rewrite <- Q. split; [lia|]. intros _. left. now apply binary64_unique.
    - assert ((m', e') <> (m, e)) as Ne by congruence. pose proof (gap m e m' e' F F' Ne) as G.
      assert ((if m =? 2 ^ 52 then 1 else 2) * (2 ^ (e + 1074) * d) <= 2 * Z.abs ((m * 2 ^ (e + 1074) - m' * 2 ^ (e' + 1074)) * d)) as G'.
      { rewrite Z.abs_mul, (Z.abs_eq d), !Z.mul_assoc by lia. apply Z.mul_le_mono_nonneg_r; [lia|exact G]. }
      rewrite Z.mul_sub_distr_r in G'. destruct (closer _ _ _ _ Ud M X G') as [K _].
      remember (m * 2 ^ (e + 1074) * d) as a. remember (m' * 2 ^ (e' + 1074) * d) as b. remember (n * 2 ^ 1074) as c. clear - K. split; [lia|]. intros K'. lia. }
  destruct (to_double n d) as [[m0 e0]|] eqn:T; [f_equal; symmetry; now apply (nearest_double n d)|]. exfalso. apply to_double_none in T; [|assumption..].
  destruct (closer _ _ _ (2 ^ (e + 1074) * d) Ud M X) as [_ K]; [destruct (m =? 2 ^ 52); clear - Ud; lia|].
  assert (2 * (n * 2 ^ 1074) < (2 ^ 54 - 1) * (2 ^ (e + 1074) * d)) as A.
  { assert (m * (2 ^ (e + 1074) * d) <= (2 ^ 53 - 1) * (2 ^ (e + 1074) * d)) as B by (apply Z.mul_le_mono_nonneg_r; lia).
    rewrite <- Z.mul_assoc in K. remember (2 ^ (e + 1074) * d) as x. remember (m * x) as y. remember (n * 2 ^ 1074) as z. clear - B K Ud. change (2 ^ 54) with (2 * 2 ^ 53). lia. }
  assert (2 ^ (e + 1074) * d <= 2 ^ 2045 * d) as B by (apply Z.mul_le_mono_nonneg_r; [lia|apply Z.pow_le_mono_r; lia]).
  assert (2 * (n * 2 ^ 1074) < (2 ^ 54 - 1) * (2 ^ 2045 * d)) as C by (apply (Z.lt_le_trans _ _ _ A); apply Z.mul_le_mono_nonneg_l; [discriminate|exact B]).
  assert ((2 ^ 54 - 1) * (2 ^ 2045 * d) = 2 * ((2 ^ 54 - 1) * 2 ^ 970 * d * 2 ^ 1074)) as Q.
  { replace (2 ^ 2045) with (2 * 2 ^ 970 * 2 ^ 1074) by (vm_compute; reflexivity). remember (2 ^ 970) as x. remember (2 ^ 1074) as y. ring. }
  rewrite Q in C. apply (Z.mul_le_mono_nonneg_r _ _ (2 ^ 1074)) in T; [|discriminate]. remember ((2 ^ 54 - 1) * 2 ^ 970 * d * 2 ^ 1074) as x. remember (n * 2 ^ 1074) as y. clear - C T. lia.
Qed.

Lemma nearer n d : 0 <= n -> 0 < d -> 0 <= (if 2 * (n mod d) <=? d then n / d else n / d + 1)
  /\ 2 * Z.abs ((if 2 * (n mod d) <=? d then n / d else n / d + 1) * d - n) <= d.
Proof.
  intros N D. pose proof (Z.div_mod n d ltac:(lia)) as E. pose proof (Z.mod_pos_bound n d D) as M. assert (0 <= n / d) as Q by (apply Z.div_pos; lia).
  remember (n / d) as q. remember (n mod d) as r. clear Heqq Heqr. destruct (2 * r <=? d) eqn:L; [apply Z.leb_le in L|apply Z.leb_gt in L]; split; nia.
Qed.

Lemma try_close m e p : binary64 m e -> 0 < m -> p = places (m * 2 ^ Z.max e 0) (2 ^ Z.max (- e) 0) - 17 -> exists c, try_digits m e p = Some c.
Proof.
  intros F M P. assert (-1074 <= e <= 971) as E by (destruct F; lia).
  pose proof (pow_pos (Z.max e 0) ltac:(lia)) as A0. pose proof (pow_pos (Z.max (- e) 0) ltac:(lia)) as A1.
  assert (0 < m * 2 ^ Z.max e 0) as Np by (apply Z.mul_pos_pos; assumption).
  pose proof (places_17 _ _ p Np A1 P) as B. clear P. pose proof (ten_pos (Z.max p 0) ltac:(lia)) as T0. pose proof (ten_pos (Z.max (- p) 0) ltac:(lia)) as T1.
  unfold try_digits. set (n := m * 2 ^ Z.max e 0 * 10 ^ Z.max (- p) 0) in *. set (d := 2 ^ Z.max (- e) 0 * 10 ^ Z.max p 0) in *.
  assert (0 < d) as Dp by (apply Z.mul_pos_pos; assumption). assert (0 < n) as N by (apply Z.mul_pos_pos; assumption).
  destruct (nearer n d ltac:(clear - N; lia) Dp) as [C0 C1].
  assert (forall a, 0 <= a -> 2 * Z.abs (a * d - n) <= d -> same_double (decimal_double a p) m e = true) as K.
  { intros a A2 A3. apply same_double_some. unfold decimal_double. apply close_double; [exact F|apply Z.mul_nonneg_nonneg; [exact A2|apply Z.lt_le_incl; exact T0]|exact T1|].
    assert (m * 2 ^ (e + 1074) * 10 ^ Z.max (- p) 0 - a * 10 ^ Z.max p 0 * 2 ^ 1074 = (n - a * d) * 2 ^ (1074 + Z.min e 0)) as ->.
    { subst n d. assert (2 ^ (e + 1074) = 2 ^ Z.max e 0 * 2 ^ (1074 + Z.min e 0)) as -> by (rewrite <- Z.pow_add_r by lia; f_equal; lia).
      assert (2 ^ 1074 = 2 ^ Z.max (- e) 0 * 2 ^ (1074 + Z.min e 0)) as -> by (rewrite <- Z.pow_add_r by lia; f_equal; lia). ring. }
    assert (m * (2 ^ (e + 1074) * 10 ^ Z.max (- p) 0) = n * 2 ^ (1074 + Z.min e 0)) as ->.
    { subst n. assert (2 ^ (e + 1074) = 2 ^ Z.max e 0 * 2 ^ (1074 + Z.min e 0)) as -> by (rewrite <- Z.pow_add_r by lia; f_equal; lia). ring. }
    pose proof (pow_pos (1074 + Z.min e 0) ltac:(lia)) as W. remember (2 ^ (1074 + Z.min e 0)) as w. clearbody n d. clear - A3 B W.
    rewrite Z.abs_mul, (Z.abs_eq w), Z.mul_assoc by lia. apply Z.mul_le_mono_nonneg_r; [lia|]. change (10 ^ 16) with 10000000000000000 in *. lia. }
  destruct (2 * (n mod d) <=? d); rewrite (K _ C0 C1); eauto.
Qed.

Lemma shortest_some m e q c : try_digits m e q = Some c -> forall fuel p, q <= p -> p - q < Z.of_nat fuel -> exists x, shortest fuel m e p = Some x.
Proof.
  intros H. induction fuel as [|f IH]; intros p A B; [lia|]. cbn [shortest]. destruct (try_digits m e p) as [c'|] eqn:Q; [eauto|].
  apply IH; [|lia]. assert (q <> p) by congruence. lia.
Qed.

(* every float64 is written *)
Lemma print_total m e : binary64 m e -> exists s, print_double m e = Some s.
Proof.
  intros F. unfold print_double. destruct (m =? 0) eqn:Q; [eauto|]. apply Z.eqb_neq in Q. assert (0 < m) as M by (destruct F; lia).
  destruct (try_close m e _ F M eq_refl) as [c C]. set (k := places _ _) in *.
  destruct (shortest_some m e (k - 17) c C 17 (k - 1)) as [[x y] ->]; [lia|lia|]. eauto.
Qed.

Lemma float_range t neg n d : amounts t neg n d -> (go_float t = None <-> (2 ^ 54 - 1) * 2 ^ 970 * d <= n).
Proof.
  intros A. apply read_amount in A as (D & c & p & E & C & V). unfold go_float. rewrite E. unfold decimal_double.
  pose proof (ten_pos (Z.max (- p) 0) ltac:(lia)) as T. pose proof (ten_pos (Z.max p 0) ltac:(lia)) as T'.
  assert (0 <= c * 10 ^ Z.max p 0) as N0 by (apply Z.mul_nonneg_nonneg; lia). remember (c * 10 ^ Z.max p 0) as n0. remember (10 ^ Z.max (- p) 0) as d0. clear Heqn0 Heqd0 T' C.
  assert (0 <= n) as N by (clear - V D T N0; nia). rewrite <- (to_double_none n d N D), (to_double_scale n d n0 d0 N D N0 T V).
  destruct (to_double n0 d0) as [[m e]|] eqn:X; [|tauto]. pose proof (double_nearest n0 d0 m e N0 T X) as [F _].
  destruct (print_total m e F) as [s ->]. split; discriminate.
Qed.

(* ---- the text ---- *)

Lemma digits_numerals s : s <> [] -> forallb is_digit s = true -> numerals s.
Proof.
  intros N D. split; [exact N|]. apply Forall_forall. intros c I. rewrite forallb_forall in D. specialize (D c I). clear - D. revert D.
  destruct c as [[] [] [] [] [] [] [] []]; vm_compute; intuition congruence.
Qed.

Lemma zeros_digits n : forallb is_digit (repeat zero_char n) = true.
Proof. induction n; [reflexivity|exact IHn]. Qed.

(* t is the digits of a number *)
Definition leading (t : bytes) : Prop := t <> [] /\ forallb is_digit t = true /\ forall r, t <> "0"%char :: r.

Lemma leading_first k t s : leading t -> (0 < k)%nat -> leading (firstn k t) /\ (forallb is_digit s = true -> leading (t ++ s)).
Proof.
  intros (N & D & F) K. destruct t as [|c t]; [congruence|]. destruct k as [|k]; [lia|]. cbn [firstn app]. cbn [forallb] in D. apply andb_prop in D as [Dc Dt]. split.
  - split; [discriminate|]. split; [|intros r [= -> _]; eapply F; reflexivity]. cbn [forallb]. rewrite Dc. cbn [andb].
    rewrite <- (firstn_skipn k t), forallb_app in Dt. now apply andb_prop in Dt.
  - intros Ds. split; [discriminate|]. split; [|intros r [= -> _]; eapply F; reflexivity]. cbn [forallb]. rewrite Dc, forallb_app, Dt, Ds. reflexivity.
Qed.

Lemma leading_whole t : leading t -> numerals t /\ forall r, t <> "0"%char :: r.
Proof. intros (N & D & F). split; [now apply digits_numerals|exact F]. Qed.

Lemma skip_digits k t : forallb is_digit t = true -> forallb is_digit (skipn k t) = true.
Proof. intros D. rewrite <- (firstn_skipn k t), forallb_app in D. now apply andb_prop in D. Qed.

(* what the text of digits 0.t * 10^dp amounts to *)
Definition point_n (t : bytes) (dp : Z) : Z := dval t * 10 ^ Z.max (dp - Z.of_nat (length t)) 0.
Definition point_d (t : bytes) (dp : Z) : Z := 10 ^ Z.max (Z.of_nat (length t) - dp) 0.

Lemma fmt_f_amounts t dp : leading t -> amounts (fmt_f t dp) false (point_n t dp) (point_d t dp).
Proof.
  intros L. pose proof L as (N & D & F). unfold amounts, point_n, point_d. assert (0 < length t)%nat as L0 by (destruct t; [congruence|cbn; lia]).
  pose proof (ten_pos (Z.max (Z.of_nat (length t) - dp) 0) ltac:(lia)) as P. destruct (Z_le_gt_dec (Z.of_nat (length t)) dp) as [A|A].
  - set (k := Z.to_nat (dp - Z.of_nat (length t))). exists (t ++ repeat zero_char k), [], [], [], 0. cbn [app length].
    split; [rewrite !app_nil_r; apply fmt_whole; [exact N|subst k; lia]|].
    split; [right; apply leading_whole; apply (leading_first 1 t (repeat zero_char k)); [exact L|lia|apply zeros_digits]|]. split; [now left|]. split; [now left|]. split; [exact P|].
    rewrite app_nil_r, decimal_dval, dval_app, repeat_length. rewrite <- (app_nil_r (repeat _ _)), dval_zeros. change (dval []) with 0.
    change (Z.max 0 (Z.of_nat 0 - 0)) with 0. change (Z.max 0 (0 - Z.of_nat 0)) with 0. rewrite Z.max_l, Z.max_r, Z.pow_0_r by lia. replace (Z.of_nat k) with (dp - Z.of_nat (length t)) by (subst k; lia). ring.
  - unfold fmt_f. assert (Z.of_nat (length t) <=? dp = false) as -> by (apply Z.leb_gt; lia). replace (Z.max (dp - Z.of_nat (length t)) 0) with 0 by lia.
    replace (Z.max (Z.of_nat (length t) - dp) 0) with (Z.of_nat (length t) - dp) in * by lia. rewrite Z.pow_0_r, Z.mul_1_r. destruct (0 <? dp) eqn:G.
    + apply Z.ltb_lt in G. set (k := Z.to_nat dp). assert (length (skipn k t) = (length t - k)%nat) as Ls by apply skipn_length.
      exists (firstn k t), ("."%char :: skipn k t), (skipn k t), [], 0.
      split; [rewrite app_nil_r; replace (k - length t)%nat with 0%nat by (subst k; lia); replace (Z.to_nat (- dp)) with 0%nat by lia; cbn [repeat app]; now rewrite app_nil_r|].
      split; [right; apply leading_whole; apply (leading_first k t []); [exact L|subst k; lia]|].
      split; [right; split; [reflexivity|apply digits_numerals; [intros Z; rewrite Z in Ls; cbn in Ls; subst k; lia|now apply skip_digits]]|]. split; [now left|]. split; [exact P|].
      rewrite firstn_skipn, decimal_dval, Ls. rewrite (Z.max_r 0), (Z.max_l 0), Z.pow_0_r, !Z.mul_1_r by lia. f_equal. f_equal. subst k. lia.
    + apply Z.ltb_ge in G. replace (Z.to_nat dp) with 0%nat by lia. cbn [skipn]. set (k := Z.to_nat (- dp)).
      exists (lit "0"), ("."%char :: repeat zero_char k ++ t), (repeat zero_char k ++ t), [], 0.
      split; [rewrite app_nil_r; reflexivity|]. split; [now left|].
      split; [right; split; [reflexivity|apply digits_numerals; [destruct k; [exact N|discriminate]|rewrite forallb_app, zeros_digits; exact D]]|]. split; [now left|]. split; [exact P|].
      rewrite decimal_dval. change (lit "0") with (repeat zero_char 1). rewrite !dval_zeros, app_length, repeat_length. rewrite (Z.max_r 0), (Z.max_l 0), Z.pow_0_r, !Z.mul_1_r by lia. f_equal. f_equal. subst k. lia.
Qed.

Lemma fmt_e_amounts t dp : leading t -> Z.abs (dp - 1) < 100000 -> amounts (fmt_e t dp) false (point_n t dp) (point_d t dp).
Proof.
  intros L B. pose proof L as (N & D & F). unfold amounts, point_n, point_d, fmt_e. assert (0 < length t)%nat as L0 by (destruct t; [congruence|cbn; lia]).
  pose proof (ten_pos (Z.max (Z.of_nat (length t) - dp) 0) ltac:(lia)) as P. assert (length (skipn 1 t) = (length t - 1)%nat) as Ls by apply skipn_length.
  exists (firstn 1 t), (match skipn 1 t with [] => [] | r => "."%char :: r end), (skipn 1 t),
    ("e"%char :: (if dp - 1 <? 0 then "-"%char else "+"%char) :: utoa (Z.abs (dp - 1))), (dp - 1).
  split; [reflexivity|]. split; [right; apply leading_whole; apply (leading_first 1 t []); [exact L|lia]|].
  split; [pose proof (skip_digits 1 t D) as Dk; destruct (skipn 1 t); [now left|right; split; [reflexivity|apply digits_numerals; [discriminate|exact Dk]]]|].
  split.
  { right. exists "e"%char, (if dp - 1 <? 0 then lit "-" else lit "+"), (utoa (Z.abs (dp - 1))).
    split; [destruct (dp - 1 <? 0); reflexivity|]. split; [now left|]. split; [apply utoa_numerals; lia|]. rewrite decimal_dval, dval_utoa by lia. split; [exact B|].
    destruct (dp - 1 <? 0) eqn:G; [apply Z.ltb_lt in G; right; split; [reflexivity|lia]|apply Z.ltb_ge in G; left; split; [now right|lia]]. }
  split; [exact P|]. rewrite firstn_skipn, decimal_dval, Ls.
  replace (Z.max 0 (Z.of_nat (length t - 1) - (dp - 1))) with (Z.max (Z.of_nat (length t) - dp) 0) by lia.
  replace (Z.max 0 (dp - 1 - Z.of_nat (length t - 1))) with (Z.max (dp - Z.of_nat (length t)) 0) by lia. ring.
Qed.

Lemma leading_strip c : 0 < c -> leading (strip_zeros (utoa c)).
Proof.
  intros C. split; [now apply strip_some|]. split; [apply strip_digits; lia|]. intros r E. destruct (strip_padded (utoa c)) as [n H]. rewrite E in H.
  destruct (utoa_first c C) as (x & y & U & X). rewrite U in H. injection H as -> _. discriminate.
Qed.

Lemma exponent_bound c p m e : 0 < c -> 0 < m -> decimal_double c p = Some (m, e) -> Z.abs (Z.of_nat (length (utoa c)) + p - 1) < 100000.
Proof.
  intros C M H. unfold decimal_double in H. pose proof (ten_pos (Z.max (- p) 0) ltac:(lia)) as T. pose proof (ten_pos (Z.max p 0) ltac:(lia)) as T'.
  pose proof (utoa_size c C) as [A B]. pose proof (utoa_nonempty c) as L1. set (l := Z.of_nat (length (utoa c))) in *. assert (1 <= l) as L by (subst l; lia). clearbody l. clear L1.
  assert (0 <= c * 10 ^ Z.max p 0) as N by (apply Z.mul_nonneg_nonneg; lia).
  assert (c * 10 ^ Z.max p 0 < (2 ^ 54 - 1) * 2 ^ 970 * 10 ^ Z.max (- p) 0) as R.
  { apply Z.nle_gt. intros K. apply to_double_none in K; [congruence|exact N|exact T]. }
  assert (10 ^ Z.max (- p) 0 < 2 ^ 1075 * (c * 10 ^ Z.max p 0)) as R'.
  { apply Z.nle_gt. intros K. apply double_tiny in K as [e' K]; [|exact N|exact T]. rewrite K in H. injection H as H _. rewrite <- H in M. exact (Z.lt_irrefl _ M). }
  assert (10 ^ (l - 1 + Z.max p 0) < 10 ^ (310 + Z.max (- p) 0)) as Q.
  { rewrite !Z.pow_add_r by lia. apply (Z.le_lt_trans _ (c * 10 ^ Z.max p 0)); [apply Z.mul_le_mono_nonneg_r; [apply Z.lt_le_incl; exact T'|exact A]|].
    apply (Z.lt_le_trans _ _ _ R). apply Z.mul_le_mono_nonneg_r; [apply Z.lt_le_incl; exact T|]. apply Z.leb_le. vm_compute. reflexivity. }
  assert (10 ^ (Z.max (- p) 0) < 10 ^ (330 + (l + Z.max p 0))) as Q'.
  { apply (Z.lt_le_trans _ _ _ R'). rewrite !(Z.pow_add_r 10) by lia. apply Z.mul_le_mono_nonneg; [discriminate|apply Z.leb_le; vm_compute; reflexivity|exact N|].
    apply Z.mul_le_mono_nonneg_r; [apply Z.lt_le_incl; exact T'|apply Z.lt_le_incl; exact B]. }
  clear - Q Q' L. apply Z.pow_lt_mono_r_iff in Q; [|lia|lia]. apply Z.pow_lt_mono_r_iff in Q'; [|lia|lia]. lia.
Qed.

Lemma amounts_scale t neg n d n0 d0 : amounts t neg n d -> 0 < d0 -> n * d0 = n0 * d -> amounts t neg n0 d0.
Proof.
  intros (w & f & p & x & e & S & W & F & X & D & V) D0 E. exists w, f, p, x, e. repeat (split; [assumption|]). apply (Z.mul_reg_r _ _ d); [lia|].
  rewrite <- Z.mul_assoc, (Z.mul_comm _ d), Z.mul_assoc, <- E, <- !Z.mul_assoc, (Z.mul_comm d0), Z.mul_assoc, V. ring.
Qed.

(* the text of the digits that were found *)
Lemma print_text m e s : binary64 m e -> 0 < m -> print_double m e = Some s ->
  exists c p, shortest 17 m e (places (m * 2 ^ Z.max e 0) (2 ^ Z.max (- e) 0) - 1) = Some (c, p) /\ amounts s false (c * 10 ^ Z.max p 0) (10 ^ Z.max (- p) 0).
Proof.
  intros F M. unfold print_double. assert (m =? 0 = false) as -> by (apply Z.eqb_neq; lia).
  destruct (shortest _ _ _ _) as [[c p]|] eqn:E; [|discriminate]. intros S. exists c, p. split; [reflexivity|]. apply shortest_inv in E as [C E]; [|lia].
  destruct (Z.eq_dec c 0) as [->|C0]; [rewrite decimal_zero in E; injection E as E _; lia|]. assert (0 < c) as Cp by lia.
  pose proof (exponent_bound c p m e Cp M E) as B. pose proof (leading_strip c Cp) as Ld. destruct (strip_padded (utoa c)) as [k H].
  assert (length (utoa c) = (length (strip_zeros (utoa c)) + k)%nat) as Lu by (rewrite H at 1; now rewrite app_length, repeat_length).
  pose proof (dval_utoa c C) as Vu. rewrite H, dval_app, repeat_length in Vu. rewrite <- (app_nil_r (repeat _ _)), dval_zeros in Vu. change (dval []) with 0 in Vu. rewrite Z.add_0_r in Vu. clear H.
  remember (strip_zeros (utoa c)) as t. set (dp := Z.of_nat (length (utoa c)) + p) in *.
  assert (amounts s false (point_n t dp) (point_d t dp)) as A by (destruct (_ || _); injection S as <-; [now apply fmt_e_amounts|now apply fmt_f_amounts]).
  apply (amounts_scale s false _ _ _ _ A); [apply ten_pos; lia|].
  unfold point_n, point_d. rewrite <- Vu. rewrite <- !Z.mul_assoc. f_equal. rewrite <- !Z.pow_add_r by lia. f_equal. subst dp. lia.
Qed.

(* the text amounts to a number that is read as the same float64 *)
Lemma print_amounts m e s : binary64 m e -> print_double m e = Some s -> exists n d, 0 <= n /\ amounts s false n d /\ to_double n d = Some (m, e).
Proof.
  intros F P. destruct (m =? 0) eqn:Q.
  { unfold print_double in P. rewrite Q in P. apply Z.eqb_eq in Q. subst m. injection P as <-. exists 0, 1. split; [lia|]. split.
    - exists (lit "0"), [], [], [], 0. repeat split; try (left; auto; fail).
    - assert (e = -1074) as -> by (destruct F; lia). reflexivity. }
  apply Z.eqb_neq in Q. assert (0 < m) as M by (destruct F; lia). destruct (print_text m e s F M P) as (c & p & S & A).
  apply shortest_inv in S as [C S]; [|lia]. exists (c * 10 ^ Z.max p 0), (10 ^ Z.max (- p) 0). split; [|split; [exact A|exact S]].
  apply Z.mul_nonneg_nonneg; [exact C|apply Z.pow_nonneg; lia].
Qed.

Lemma minus_amounts s n d : amounts s false n d -> amounts ("-"%char :: s) true n d.
Proof. intros (w & f & p & x & e & E & R). exists w, f, p, x, e. split; [rewrite E; reflexivity|exact R]. Qed.

Lemma amounts_nonneg t neg n d : amounts t neg n d -> 0 <= n /\ 0 < d.
Proof.
  intros A. apply read_amount in A as (D & c & p & _ & C & V). split; [|exact D]. pose proof (ten_pos (Z.max (- p) 0) ltac:(lia)). pose proof (ten_pos (Z.max p 0) ltac:(lia)).
  assert (0 <= c * 10 ^ Z.max p 0) by (apply Z.mul_nonneg_nonneg; lia). nia.
Qed.

Lemma float_amounts t neg n d : amounts t neg n d ->
  go_float t = match to_double n d with Some (m, e) => option_map (fun s => if neg then "-"%char :: s else s) (print_double m e) | None => None end.
Proof.
  intros A. pose proof (amounts_nonneg _ _ _ _ A) as [N _]. apply read_amount in A as (D & c & p & E & C & V). unfold go_float. rewrite E. unfold decimal_double.
  rewrite (to_double_scale n d (c * 10 ^ Z.max p 0) (10 ^ Z.max (- p) 0)); [reflexivity|exact N|exact D| |apply ten_pos; lia|exact V]. apply Z.mul_nonneg_nonneg; [exact C|apply Z.pow_nonneg; lia].
Qed.

Lemma float_written t neg n d s : amounts t neg n d -> go_float t = Some s ->
  go_float s = Some s /\ exists n' d' m e, amounts s neg n' d' /\ nearest n d m e /\ nearest n' d' m e.
Proof.
  intros A G. pose proof (amounts_nonneg _ _ _ _ A) as [N D]. rewrite (float_amounts t neg n d A) in G. destruct (to_double n d) as [[m e]|] eqn:X; [|discriminate].
  pose proof (double_nearest n d m e N D X) as Nr. destruct (print_double m e) as [u|] eqn:P; [|discriminate]. cbn [option_map] in G. injection G as <-.
  destruct (print_amounts m e u (proj1 Nr) P) as (n' & d' & N' & Au & T). assert (amounts (if neg then "-"%char :: u else u) neg n' d') as As by (destruct neg; [now apply minus_amounts|exact Au]).
  split; [rewrite (float_amounts _ _ _ _ As), T, P; reflexivity|]. exists n', d', m, e. split; [exact As|]. split; [exact Nr|].
  apply double_nearest; [exact N'|exact (proj2 (amounts_nonneg _ _ _ _ Au))|exact T].
Qed.
