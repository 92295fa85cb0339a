(* Facts for C108: whole numbers that are written as float32 *)
From Coq Require Import ZArith NArith Bool Ascii String List Lia.
Import ListNotations.
From Verif Require Import GoBase GoBaseFacts GoTime GoFloat Client ClientScalars ClientParams NumberFacts.
Local Open Scope string_scope.
Local Open Scope Z_scope.
Local Open Scope list_scope.
Local Notation length := List.length.

Definition whole_single (z : Z) : Z * Z := (z * 2 ^ (23 - Z.log2 z), Z.log2 z - 23).

Lemma log2_single z : 0 < z < 2 ^ 24 -> 0 <= Z.log2 z <= 23.
Proof. intros R. split; [apply Z.log2_nonneg|]. assert (Z.log2 z < 24); [|lia]. apply Z.log2_lt_pow2; lia. Qed.

Lemma single_whole z d : 0 < z < 2 ^ 24 -> 0 < d -> to_single (z * d) d = Some (whole_single z).
Proof.
  intros R D. unfold to_single, whole_single. assert (z * d =? 0 = false) as -> by (apply Z.eqb_neq; nia).
  rewrite binade_whole by lia. pose proof (log2_single z R) as L. rewrite (Z.max_r (-149)) by lia.
  replace (Z.max (- (Z.log2 z - 23)) 0) with (23 - Z.log2 z) by lia. rewrite (Z.max_r _ 0) by lia. rewrite Z.pow_0_r, Z.mul_1_r.
  replace (z * d * 2 ^ (23 - Z.log2 z)) with (z * 2 ^ (23 - Z.log2 z) * d) by ring. rewrite half_even_exact by lia.
  assert (z * 2 ^ (23 - Z.log2 z) < 2 ^ 24) as B.
  { pose proof (Z.log2_spec z ltac:(lia)) as [_ S].
    replace 24 with (Z.succ (Z.log2 z) + (23 - Z.log2 z)) by lia. rewrite Z.pow_add_r by lia.
    apply Z.mul_lt_mono_pos_r; [apply Z.pow_pos_nonneg; lia|exact S]. }
  assert (z * 2 ^ (23 - Z.log2 z) =? 2 ^ 24 = false) as -> by (apply Z.eqb_neq; lia).
  assert (104 <? Z.log2 z - 23 = false) as -> by (apply Z.ltb_ge; lia). reflexivity.
Qed.

Lemma single_value z : 0 < z < 2 ^ 24 -> let '(m, e) := whole_single z in 0 < m /\ m * 2 ^ Z.max e 0 = z * 2 ^ Z.max (- e) 0.
Proof.
  intros R. unfold whole_single. pose proof (log2_single z R) as L. assert (0 < 2 ^ (23 - Z.log2 z)) as T by (apply Z.pow_pos_nonneg; lia).
  split; [nia|]. replace (Z.max (- (Z.log2 z - 23)) 0) with (23 - Z.log2 z) by lia. rewrite (Z.max_r _ 0) by lia. lia.
Qed.

Lemma single_back z x : 0 < z < 2 ^ 24 -> 0 <= x < 2 ^ 24 -> to_single x 1 = Some (whole_single z) -> x = z.
Proof.
  intros R X H. pose proof (single_value z R) as Vz. destruct (Z.eq_dec x 0) as [->|X0].
  { change (to_single 0 1) with (Some (0, -149)) in H. injection H as H1 H2. unfold whole_single in Vz. rewrite <- H1 in Vz. lia. }
  rewrite <- (Z.mul_1_r x) in H. rewrite single_whole in H by lia. pose proof (single_value x ltac:(lia)) as Vx.
  assert (whole_single x = whole_single z) as Q by congruence. rewrite Q in Vx. destruct (whole_single z) as [m e]. destruct Vz as [_ Vz], Vx as [_ Vx].
  assert (0 < 2 ^ Z.max (- e) 0) by (apply Z.pow_pos_nonneg; lia). nia.
Qed.

Lemma try_single_whole z m e p : 0 < z < 10 ^ 6 -> whole_single z = (m, e) -> 0 <= p <= 6 ->
  try_single m e p = if z mod 10 ^ p =? 0 then Some (z / 10 ^ p) else None.
Proof.
  intros R W P. assert (0 < z < 2 ^ 24) as R' by lia. pose proof (single_value z R') as V. rewrite W in V. destruct V as (_ & V). unfold try_single.
  rewrite (Z.max_r (- p)) by lia. rewrite (Z.max_l p) by lia. rewrite Z.pow_0_r, Z.mul_1_r, V, (Z.mul_comm z).
  assert (0 < 2 ^ Z.max (- e) 0) as T by (apply Z.pow_pos_nonneg; lia). assert (0 < 10 ^ p) as T10 by (apply Z.pow_pos_nonneg; lia).
  assert (10 ^ p <= 10 ^ 6) as U10 by (apply Z.pow_le_mono_r; lia).
  rewrite Z.div_mul_cancel_l by lia. rewrite Z.mul_mod_distr_l by lia.
  pose proof (Z.div_mod z (10 ^ p) ltac:(lia)) as D. pose proof (Z.mod_pos_bound z (10 ^ p) ltac:(lia)) as M.
  assert (0 <= z / 10 ^ p) as Q by (apply Z.div_pos; lia).
  remember (2 ^ Z.max (- e) 0) as k. clear Heqk.
  assert (forall a, decimal_single a p = to_single (a * 10 ^ p) 1) as PL by (intros a; unfold decimal_single; rewrite Z.max_l, Z.max_r by lia; reflexivity).
  destruct (z mod 10 ^ p =? 0) eqn:E.
  - apply Z.eqb_eq in E. rewrite E, Z.mul_0_r, Z.mul_0_r.
    assert (0 <=? k * 10 ^ p = true) as -> by (apply Z.leb_le; nia).
    assert (same_double (decimal_single (z / 10 ^ p) p) m e = true) as ->; [|reflexivity].
    apply same_double_some. rewrite PL. replace (z / 10 ^ p * 10 ^ p) with (z * 1) by lia.
    rewrite single_whole by lia. now rewrite W.
  - apply Z.eqb_neq in E.
    assert (forall a, a = z / 10 ^ p \/ a = z / 10 ^ p + 1 -> same_double (decimal_single a p) m e = false) as F.
    { intros a A. destruct (same_double (decimal_single a p) m e) eqn:S; [exfalso|reflexivity].
      apply same_double_some in S. rewrite PL, <- W in S. change (2 ^ 24) with 16777216 in *. change (10 ^ 6) with 1000000 in *.
      apply single_back in S; [nia|change (2 ^ 24) with 16777216; lia|]. change (2 ^ 24) with 16777216. nia. }
    destruct (2 * (k * (z mod 10 ^ p)) <=? k * 10 ^ p); rewrite !F by tauto; reflexivity.
Qed.

Lemma shortest_single_whole z m e : 0 < z < 10 ^ 6 -> whole_single z = (m, e) -> forall fuel p, 0 <= p <= 6 -> p < Z.of_nat fuel ->
  exists c q, shortest_single fuel m e p = Some (c, q) /\ 0 <= q /\ 0 < c /\ c * 10 ^ q = z.
Proof.
  intros R W. induction fuel as [|f IH]; intros p P L; [lia|]. cbn [shortest_single]. rewrite (try_single_whole z) by assumption.
  assert (0 < 10 ^ p) as T10 by (apply Z.pow_pos_nonneg; lia).
  destruct (z mod 10 ^ p =? 0) eqn:E.
  - apply Z.eqb_eq in E. exists (z / 10 ^ p), p. pose proof (Z.div_mod z (10 ^ p) ltac:(lia)) as D. repeat split; [lia| |lia]. nia.
  - apply IH; [|lia]. destruct (Z.eq_dec p 0) as [->|]; [|lia]. change (10 ^ 0) with 1 in E. now rewrite Z.mod_1_r in E.
Qed.

Lemma single_text_whole z m e : 0 < z < 10 ^ 6 -> whole_single z = (m, e) -> single_text m e = utoa z.
Proof.
  intros R W. pose proof (single_value z ltac:(lia)) as V. rewrite W in V. destruct V as (Mr & V). unfold single_text.
  assert (m =? 0 = false) as -> by (apply Z.eqb_neq; lia).
  assert (0 < 2 ^ Z.max (- e) 0) as T by (apply Z.pow_pos_nonneg; lia).
  assert (places (m * 2 ^ Z.max e 0) (2 ^ Z.max (- e) 0) = Z.of_nat (length (utoa z))) as ->.
  { unfold places. rewrite V. assert (2 ^ Z.max (- e) 0 <=? z * 2 ^ Z.max (- e) 0 = true) as -> by (apply Z.leb_le; nia).
    rewrite Z.div_mul by lia. reflexivity. }
  pose proof (utoa_nonempty z) as L1. pose proof (utoa_length_le z 6 ltac:(lia)) as L2.
  change (10 ^ Z.of_nat 6) with (10 ^ 6) in L2. specialize (L2 (proj2 R) ltac:(lia)).
  destruct (shortest_single_whole z m e R W 9 (Z.of_nat (length (utoa z)) - 1)) as (c & q & -> & Q & C & E); [lia|lia|].
  assert (Z.of_nat (length (utoa c)) + q = Z.of_nat (length (utoa z))) as LL.
  { rewrite <- E, <- (Z2Nat.id q) by lia. rewrite <- utoa_zeros by exact C. rewrite app_length, repeat_length. lia. }
  assert (Z.of_nat (length (utoa c)) + q - 1 <? -4 = false) as -> by (apply Z.ltb_ge; lia).
  assert (6 <=? Z.of_nat (length (utoa c)) + q - 1 = false) as -> by (apply Z.leb_gt; lia). cbn [orb]. rewrite print_digits, E by assumption. reflexivity.
Qed.

(* a float64 that is a whole number of six digits at most *)
Lemma float_text_whole neg m e z : 0 <= m -> 0 <= z < 10 ^ 6 -> m * 2 ^ Z.max e 0 = z * 2 ^ Z.max (- e) 0 ->
  float_text (Finite neg m e) = if neg then "-"%char :: utoa z else utoa z.
Proof.
  intros M R V. cbn [float_text]. rewrite V. assert (0 < 2 ^ Z.max (- e) 0) as T by (apply Z.pow_pos_nonneg; lia).
  destruct (Z.eq_dec z 0) as [->|N]; [rewrite Z.mul_0_l; reflexivity|]. rewrite single_whole by lia.
  destruct (whole_single z) as [m' e'] eqn:W. rewrite (single_text_whole z m' e') by (lia || exact W). reflexivity.
Qed.
