(* Numbers of JSON through float64 *)
From Coq Require Import ZArith NArith Bool Ascii String List Lia.
Import ListNotations.
From Verif Require Import GoBase GoBaseFacts GoTime Json JsonFile GoFloat SpecCodec SpecJson SpecNumbers FieldFacts FieldRead JsonTextFacts.
Local Open Scope string_scope.
Local Open Scope Z_scope.
Local Open Scope list_scope.
Local Notation length := List.length.

(* ---- reading a number ---- *)

Lemma exp_acc_value ds : forallb is_digit ds = true -> forall e, 0 <= e -> e * 10 ^ Z.of_nat (length ds) + dval ds < 100000 ->
  exp_acc e ds = e * 10 ^ Z.of_nat (length ds) + dval ds.
Proof.
  induction ds as [|d ds IH]; intros D e E B.
  - cbn. change (dval []) with 0. lia.
  - cbn [forallb] in D. apply andb_prop in D as [Dd D]. cbn [exp_acc].
    rewrite dval_cons in *. cbn [List.length] in *. rewrite Nat2Z.inj_succ, Z.pow_succ_r in * by lia.
    pose proof (dval_range ds D) as R.
    assert (0 <= digit_val d <= 9) as Rd by (pose proof (dval_range [d]) as Q; cbn [forallb] in Q; rewrite Dd in Q; specialize (Q eq_refl); unfold dval in Q; cbn [dval_acc] in Q; cbn in Q; lia).
    assert (1 <= 10 ^ Z.of_nat (length ds)) as P by (pose proof (Z.pow_pos_nonneg 10 (Z.of_nat (length ds))); lia).
    assert (e <? 10000 = true) as -> by (apply Z.ltb_lt; nia).
    rewrite IH by (try assumption; nia). nia.
Qed.

Lemma exp_read t e : exponent_of t e -> read_exp t = e.
Proof.
  intros [[-> ->]|(c & g & ds & -> & C & N & B & G)]; [reflexivity|].
  pose proof (numerals_digits ds N) as D. rewrite decimal_dval in *.
  pose proof (exp_acc_value ds D 0 ltac:(lia) ltac:(lia)) as A. rewrite Z.mul_0_l, Z.add_0_l in A.
  unfold read_exp. assert (byte_eqb c "e" || byte_eqb c "E" = true) as -> by (destruct C as [-> | ->]; reflexivity).
  destruct G as [[[-> | ->] ->]|[-> ->]]; cbn [app lit list_ascii_of_string].
  - destruct N as [N F]. destruct ds as [|d ds]; [congruence|]. cbn [forallb] in D. apply andb_prop in D as [D _].
    assert (byte_eqb d "-" = false) as -> by (destruct (byte_eqb d "-") eqn:Q; [apply byte_eqb_eq in Q; subst; discriminate|reflexivity]).
    assert (byte_eqb d "+" = false) as -> by (destruct (byte_eqb d "+") eqn:Q; [apply byte_eqb_eq in Q; subst; discriminate|reflexivity]).
    exact A.
  - cbn. exact A.
  - cbn. now rewrite A.
Qed.

Lemma take_run ds rest : forallb is_digit ds = true -> match rest with c :: _ => is_digit c = false | [] => True end -> take_digits (ds ++ rest) = (ds, rest).
Proof.
  induction ds as [|d ds IH]; cbn [app forallb].
  - intros _ H. destruct rest as [|c r]; [reflexivity|]. cbn [take_digits]. now rewrite H.
  - intros D H. apply andb_prop in D as [Dd D]. cbn [take_digits]. rewrite Dd, IH by assumption. reflexivity.
Qed.

Lemma read_amount t neg n d : amounts t neg n d -> 0 < d /\ exists c p, read_decimal t = (neg, c, p) /\ 0 <= c
  /\ n * 10 ^ Z.max (- p) 0 = c * 10 ^ Z.max p 0 * d.
Proof.
  intros (whole & fraction & part & exponent & e & -> & W & F & X & D & V). split; [exact D|].
  assert (forallb is_digit whole = true /\ whole <> []) as [Dw Nw].
  { destruct W as [->|[W _]]; [split; [reflexivity|discriminate]|]. split; [now apply numerals_digits|apply W]. }
  assert (forallb is_digit part = true) as Dp by (destruct F as [[_ ->]|[_ F]]; [reflexivity|now apply numerals_digits]).
  exists (decimal (whole ++ part)), (e - Z.of_nat (length part)). split.
  2:{ split.
    - rewrite decimal_dval. apply dval_range. now rewrite forallb_app, Dw, Dp.
    - replace (Z.max (- (e - Z.of_nat (length part))) 0) with (Z.max 0 (Z.of_nat (length part) - e)) by lia.
      rewrite V, (Z.max_comm 0). reflexivity. }
  unfold read_decimal.
  assert (match (if neg then lit "-" else []) ++ whole ++ fraction ++ exponent with
    | c :: r => if byte_eqb c "-" then (true, r) else (false, (if neg then lit "-" else []) ++ whole ++ fraction ++ exponent)
    | [] => (false, (if neg then lit "-" else []) ++ whole ++ fraction ++ exponent) end = (neg, whole ++ fraction ++ exponent)) as ->.
  { destruct neg; [reflexivity|]. cbn [app]. destruct whole as [|w whole]; [congruence|]. cbn [app].
    cbn [forallb] in Dw. apply andb_prop in Dw as [Dw _].
    destruct (byte_eqb w "-") eqn:Q; [apply byte_eqb_eq in Q; subst; discriminate|reflexivity]. }
  assert (match exponent with c :: _ => is_digit c = false /\ byte_eqb c "." = false | [] => True end) as Xd.
  { destruct X as [[-> _]|(c & g & ds & -> & [-> | ->] & _)]; [exact Logic.I| |]; cbn [app]; split; reflexivity. }
  rewrite (take_run whole).
  2:{ exact Dw. }
  2:{ destruct F as [[-> ->]|[-> Np]]; cbn [app]; [destruct exponent; [exact Logic.I|apply Xd]|reflexivity]. }
  destruct F as [[-> ->]|[-> Np]]; cbn [app].
  - assert (match exponent with c :: r' => if byte_eqb c "." then take_digits r' else ([], exponent) | [] => ([], exponent) end = ([], exponent)) as ->
      by (destruct exponent; [reflexivity|]; destruct Xd as [_ ->]; reflexivity).
    rewrite (exp_read _ _ X), decimal_dval. reflexivity.
  - change (byte_eqb "." ".") with true. cbn iota. rewrite (take_run part).
    2:{ exact Dp. }
    2:{ destruct exponent; [exact Logic.I|apply Xd]. }
    rewrite (exp_read _ _ X), decimal_dval. reflexivity.
Qed.

(* ---- the float64 of a whole number ---- *)

(* a whole number from 1 to 2^53 *)
Definition whole_double (z : Z) : Z * Z := if z =? 2 ^ 53 then (2 ^ 52, 1) else (z * 2 ^ (52 - Z.log2 z), Z.log2 z - 52).

Lemma half_even_exact q d : 0 < d -> half_even (q * d) d = q.
Proof.
  intros D. unfold half_even. rewrite Z.div_mul, Z.mod_mul by lia. rewrite Z.mul_0_r.
  assert (0 <? d = true) as -> by (apply Z.ltb_lt; lia). reflexivity.
Qed.

Lemma binade_whole z d : 0 < z -> 0 < d -> binade (z * d) d = Z.log2 z.
Proof.
  intros Z0 D. unfold binade.
  pose proof (Z.log2_mul_below z d Z0 D) as B. pose proof (Z.log2_mul_above z d ltac:(lia) ltac:(lia)) as A.
  pose proof (Z.log2_nonneg z) as L. pose proof (Z.log2_spec z Z0) as S.
  assert (Z.log2 (z * d) - Z.log2 d = Z.log2 z \/ Z.log2 (z * d) - Z.log2 d = Z.succ (Z.log2 z)) as [-> | ->] by lia.
  - rewrite Z.max_l, Z.max_r by lia. rewrite Z.pow_0_r, Z.mul_1_r.
    assert (d * 2 ^ Z.log2 z <=? z * d = true) as -> by (apply Z.leb_le; nia). reflexivity.
  - rewrite Z.max_l, Z.max_r by lia. rewrite Z.pow_0_r, Z.mul_1_r.
    assert (d * 2 ^ Z.succ (Z.log2 z) <=? z * d = false) as -> by (apply Z.leb_gt; nia). lia.
Qed.

Lemma log2_top z : 0 < z <= 2 ^ 53 -> z <> 2 ^ 53 -> 0 <= Z.log2 z <= 52.
Proof.
  intros R N. split; [apply Z.log2_nonneg|]. assert (Z.log2 z < 53); [|lia]. apply Z.log2_lt_pow2; lia.
Qed.

Lemma double_whole z d : 0 < z <= 2 ^ 53 -> 0 < d -> to_double (z * d) d = Some (whole_double z).
Proof.
  intros R D. unfold to_double, whole_double. assert (z * d =? 0 = false) as -> by (apply Z.eqb_neq; nia).
  rewrite binade_whole by lia. destruct (z =? 2 ^ 53) eqn:E.
  - apply Z.eqb_eq in E. subst z. change (Z.log2 (2 ^ 53)) with 53. change (Z.max (-1074) (53 - 52)) with 1.
    change (Z.max (- (1)) 0) with 0. change (Z.max 1 0) with 1. rewrite Z.pow_0_r, Z.mul_1_r.
    replace (2 ^ 53 * d) with (2 ^ 52 * (d * 2 ^ 1)) by (change (2 ^ 53) with (2 ^ 52 * 2 ^ 1); ring). rewrite half_even_exact by lia. reflexivity.
  - apply Z.eqb_neq in E. pose proof (log2_top z R E) as L. rewrite (Z.max_r (-1074)) by lia.
    replace (Z.max (- (Z.log2 z - 52)) 0) with (52 - Z.log2 z) by lia. rewrite (Z.max_r _ 0) by lia. rewrite Z.pow_0_r, Z.mul_1_r.
    replace (z * d * 2 ^ (52 - Z.log2 z)) with (z * 2 ^ (52 - Z.log2 z) * d) by ring. rewrite half_even_exact by lia.
    assert (z * 2 ^ (52 - Z.log2 z) < 2 ^ 53) as B.
    { pose proof (Z.log2_spec z ltac:(lia)) as [_ S].
      replace 53 with (Z.succ (Z.log2 z) + (52 - Z.log2 z)) by lia. rewrite Z.pow_add_r by lia.
      apply Z.mul_lt_mono_pos_r; [apply Z.pow_pos_nonneg; lia|exact S]. }
    assert (z * 2 ^ (52 - Z.log2 z) =? 2 ^ 53 = false) as -> by (apply Z.eqb_neq; lia).
    assert (971 <? Z.log2 z - 52 = false) as -> by (apply Z.ltb_ge; lia). reflexivity.
Qed.

(* m * 2^e is z *)
Lemma whole_value z : 0 < z <= 2 ^ 53 -> let '(m, e) := whole_double z in
  2 ^ 52 <= m < 2 ^ 53 /\ -52 <= e <= 1 /\ m * 2 ^ Z.max e 0 = z * 2 ^ Z.max (- e) 0.
Proof.
  intros R. unfold whole_double. destruct (z =? 2 ^ 53) eqn:E.
  - apply Z.eqb_eq in E. subst z. cbv iota. change (Z.max 1 0) with 1. change (Z.max (- (1)) 0) with 0. lia.
  - apply Z.eqb_neq in E. pose proof (log2_top z R E) as L. pose proof (Z.log2_spec z ltac:(lia)) as [S1 S2].
    assert (2 ^ 52 = 2 ^ Z.log2 z * 2 ^ (52 - Z.log2 z)) as P by (rewrite <- Z.pow_add_r by lia; f_equal; lia).
    assert (2 ^ 53 = 2 ^ Z.succ (Z.log2 z) * 2 ^ (52 - Z.log2 z)) as Q by (rewrite <- Z.pow_add_r by lia; f_equal; lia).
    assert (0 < 2 ^ (52 - Z.log2 z)) as T by (apply Z.pow_pos_nonneg; lia).
    split; [rewrite P, Q; split; [apply Z.mul_le_mono_nonneg_r|apply Z.mul_lt_mono_pos_r]; lia|]. split; [lia|].
    replace (Z.max (- (Z.log2 z - 52)) 0) with (52 - Z.log2 z) by lia. rewrite (Z.max_r _ 0) by lia. lia.
Qed.

Lemma whole_same z y : 0 < z <= 2 ^ 53 -> 0 < y <= 2 ^ 53 -> whole_double z = whole_double y -> z = y.
Proof.
  intros Rz Ry E. pose proof (whole_value z Rz) as Vz. pose proof (whole_value y Ry) as Vy. rewrite E in Vz.
  destruct (whole_double y) as [m e]. destruct Vz as (_ & _ & Vz), Vy as (_ & _ & Vy).
  assert (0 < 2 ^ Z.max (- e) 0) by (apply Z.pow_pos_nonneg; lia). nia.
Qed.

Lemma whole_top z m : 0 < z <= 2 ^ 53 -> whole_double z = (m, 1) -> m = 2 ^ 52.
Proof.
  intros R. unfold whole_double. destruct (z =? 2 ^ 53) eqn:E; [congruence|].
  apply Z.eqb_neq in E. pose proof (log2_top z R E). intros [= _ H']. lia.
Qed.

Lemma double_back z x : 0 < z <= 2 ^ 53 -> 0 <= x -> x <> 2 ^ 53 + 1 -> to_double x 1 = Some (whole_double z) -> x = z.
Proof.
  intros R X N H. pose proof (whole_value z R) as V. destruct (Z.eq_dec x 0) as [->|X0].
  { cbn in H. injection H as H. rewrite <- H in V. lia. }
  destruct (Z_le_gt_dec x (2 ^ 53)) as [L|L].
  { replace x with (x * 1) in H by lia. rewrite double_whole in H by lia. injection H as H. apply whole_same; [lia|lia|exact H]. }
  exfalso. unfold to_double in H. assert (x =? 0 = false) as Q by (apply Z.eqb_neq; lia). rewrite Q in H. clear Q.
  pose proof (binade_whole x 1 ltac:(lia) ltac:(lia)) as B. rewrite Z.mul_1_r in B. rewrite B in H. clear B.
  assert (53 <= Z.log2 x) as L2 by (change 53 with (Z.log2 (2 ^ 53)); apply Z.log2_le_mono; lia).
  rewrite (Z.max_r (-1074)) in H by lia.
  destruct (whole_double z) as [mz ez] eqn:W.
  destruct (half_even _ _ =? 2 ^ 53).
  { destruct (971 <? Z.log2 x - 52 + 1); [discriminate|]. injection H as _ H. lia. }
  destruct (971 <? Z.log2 x - 52); [discriminate|]. injection H as M E.
  assert (Z.log2 x = 53) as L3 by lia. rewrite L3 in *. change (53 - 52) with 1 in *. subst ez.
  apply whole_top in W; [|exact R]. subst mz. change (Z.max (- (1)) 0) with 0 in M. change (Z.max 1 0) with 1 in M.
  rewrite Z.pow_0_r, Z.mul_1_r, Z.mul_1_l in M. change (2 ^ 1) with 2 in M. unfold half_even in M.
  pose proof (Z.div_mod x 2 ltac:(lia)) as D. pose proof (Z.mod_pos_bound x 2 ltac:(lia)) as Dm.
  destruct ((2 * (x mod 2) <? 2) || ((2 * (x mod 2) =? 2) && Z.even (x / 2))); lia.
Qed.

(* ---- the digits of a whole number ---- *)

Lemma double_places a p : 0 <= p -> decimal_double a p = to_double (a * 10 ^ p) 1.
Proof. intros P. unfold decimal_double. rewrite Z.max_l, Z.max_r by lia. reflexivity. Qed.

Lemma same_double_some x m e : same_double x m e = true <-> x = Some (m, e).
Proof.
  unfold same_double. destruct x as [[m' e']|]; [|split; discriminate]. rewrite andb_true_iff, !Z.eqb_eq.
  split; [intros [-> ->]; reflexivity|intros [= -> ->]; auto].
Qed.

Lemma ten_odd a p : 0 < p -> a * 10 ^ p <> 2 ^ 53 + 1.
Proof. intros P. replace p with (Z.succ (p - 1)) by lia. rewrite Z.pow_succ_r by lia. remember (a * 10 ^ (p - 1)) as k. change (2 ^ 53) with 9007199254740992. lia. Qed.

Lemma try_whole z m e p : 0 < z <= 2 ^ 53 -> whole_double z = (m, e) -> 0 <= p ->
  try_digits m e p = if z mod 10 ^ p =? 0 then Some (z / 10 ^ p) else None.
Proof.
  intros R W P. pose proof (whole_value z R) as V. rewrite W in V. destruct V as (_ & _ & V). unfold try_digits.
  rewrite (Z.max_r (- p)) by lia. rewrite (Z.max_l p) by lia. rewrite Z.pow_0_r, Z.mul_1_r, V, (Z.mul_comm z).
  assert (0 < 2 ^ Z.max (- e) 0) as T by (apply Z.pow_pos_nonneg; lia). assert (0 < 10 ^ p) as T10 by (apply Z.pow_pos_nonneg; lia).
  rewrite Z.div_mul_cancel_l by lia. rewrite Z.mul_mod_distr_l by lia.
  pose proof (Z.div_mod z (10 ^ p) ltac:(lia)) as D. pose proof (Z.mod_pos_bound z (10 ^ p) ltac:(lia)) as M.
  assert (0 <= z / 10 ^ p) as Q by (apply Z.div_pos; lia).
  remember (2 ^ Z.max (- e) 0) as k. clear Heqk.
  destruct (z mod 10 ^ p =? 0) eqn:E.
  - apply Z.eqb_eq in E. rewrite E, Z.mul_0_r, Z.mul_0_r.
    assert (0 <=? k * 10 ^ p = true) as -> by (apply Z.leb_le; nia).
    assert (same_double (decimal_double (z / 10 ^ p) p) m e = true) as ->; [|reflexivity].
    apply same_double_some. rewrite double_places by lia. replace (z / 10 ^ p * 10 ^ p) with (z * 1) by lia.
    rewrite double_whole by lia. now rewrite W.
  - apply Z.eqb_neq in E.
    assert (forall a, a = z / 10 ^ p \/ a = z / 10 ^ p + 1 -> same_double (decimal_double a p) m e = false) as F.
    { intros a A. destruct (same_double (decimal_double a p) m e) eqn:S; [exfalso|reflexivity].
      apply same_double_some in S. rewrite double_places, <- W in S by lia. apply double_back in S; [nia|lia|nia|].
      apply ten_odd. destruct (Z.eq_dec p 0) as [->|]; [|lia]. change (10 ^ 0) with 1 in E. rewrite Z.mod_1_r in E. lia. }
    destruct (2 * (k * (z mod 10 ^ p)) <=? k * 10 ^ p); rewrite !F by tauto; reflexivity.
Qed.

Lemma shortest_whole z m e : 0 < z <= 2 ^ 53 -> whole_double z = (m, e) -> forall fuel p, 0 <= p -> p < Z.of_nat fuel ->
  exists c q, shortest fuel m e p = Some (c, q) /\ 0 <= q /\ 0 < c /\ c * 10 ^ q = z.
Proof.
  intros R W. induction fuel as [|f IH]; intros p P L; [lia|]. cbn [shortest]. rewrite (try_whole z) by assumption.
  assert (0 < 10 ^ p) as T10 by (apply Z.pow_pos_nonneg; lia).
  destruct (z mod 10 ^ p =? 0) eqn:E.
  - apply Z.eqb_eq in E. exists (z / 10 ^ p), p. pose proof (Z.div_mod z (10 ^ p) ltac:(lia)) as D. repeat split; [lia| |lia]. nia.
  - apply IH; [|lia]. destruct (Z.eq_dec p 0) as [->|]; [|lia]. change (10 ^ 0) with 1 in E. now rewrite Z.mod_1_r in E.
Qed.

(* ---- printing ---- *)

Lemma strip_padded s : exists n, s = strip_zeros s ++ repeat zero_char n.
Proof.
  induction s as [|c s [n IH]]; [exists 0%nat; reflexivity|]. cbn [strip_zeros].
  destruct (strip_zeros s) as [|x r] eqn:E.
  - destruct (byte_eqb c zero_char) eqn:Z.
    + apply byte_eqb_eq in Z. subst c. exists (S n). cbn [app] in *. cbn [repeat]. now rewrite IH at 1.
    + exists n. cbn [app] in *. now rewrite IH at 1.
  - exists n. cbn [app] in *. now rewrite IH at 1.
Qed.

Lemma repeat_more n k : repeat zero_char n ++ repeat zero_char k = repeat zero_char (n + k).
Proof. symmetry. apply repeat_app. Qed.

Lemma utoa_unique s z : 0 < z -> forallb is_digit s = true -> dval s = z -> match s with c :: _ => byte_eqb c zero_char = false | [] => True end -> s = utoa z.
Proof.
  intros Z0 D V F. assert (0 <= z) as Z1 by lia. pose proof (utoa_digits z Z1) as Du. pose proof (dval_utoa z Z1) as Vu.
  destruct (utoa_first z Z0) as (c & r & Eu & Fu). destruct s as [|x s]; [cbn in V; lia|].
  assert (forall a t, forallb is_digit (a :: t) = true -> byte_eqb a zero_char = false -> 10 ^ Z.of_nat (length t) <= dval (a :: t)) as G.
  { intros a t Da Na. cbn [forallb] in Da. apply andb_prop in Da as [Da Dt]. rewrite dval_cons. pose proof (dval_range t Dt).
    assert (1 <= digit_val a); [|nia].
    assert (0 <= digit_val a) by (pose proof (dval_range [a]) as Q; cbn [forallb] in Q; rewrite Da in Q; specialize (Q eq_refl); unfold dval in Q; cbn [dval_acc] in Q; cbn in Q; lia).
    destruct (Z.eq_dec (digit_val a) 0) as [A|]; [|lia]. exfalso.
    destruct a as [[] [] [] [] [] [] [] []]; vm_compute in Da; try discriminate; vm_compute in Na; try discriminate; vm_compute in A; discriminate. }
  assert (length (x :: s) = length (c :: r)) as L.
  { rewrite Eu in *. pose proof (G x s D F). pose proof (G c r Du Fu). pose proof (dval_range _ D). pose proof (dval_range _ Du).
    cbn [List.length] in *. rewrite !Nat2Z.inj_succ in *.
    assert (Z.of_nat (length s) < Z.succ (Z.of_nat (length r))) by (apply (Z.pow_lt_mono_r_iff 10); lia).
    assert (Z.of_nat (length r) < Z.succ (Z.of_nat (length s))) by (apply (Z.pow_lt_mono_r_iff 10); lia). lia. }
  rewrite Eu in *. apply dval_inj; try assumption. congruence.
Qed.

Lemma utoa_zeros c q : 0 < c -> utoa c ++ repeat zero_char q = utoa (c * 10 ^ Z.of_nat q).
Proof.
  intros C. assert (0 < 10 ^ Z.of_nat q) as T by (apply Z.pow_pos_nonneg; lia). apply utoa_unique; [nia| | |].
  - rewrite forallb_app, utoa_digits by lia. cbn [andb]. clear. induction q; [reflexivity|exact IHq].
  - rewrite dval_app, dval_utoa, repeat_length by lia. rewrite <- (app_nil_r (repeat zero_char q)), dval_zeros. change (dval []) with 0. lia.
  - destruct (utoa_first c C) as (x & r & -> & F). exact F.
Qed.

Lemma fmt_whole s n dp : s <> [] -> dp = Z.of_nat (length s + n) -> fmt_f s dp = s ++ repeat zero_char n.
Proof.
  intros N ->. unfold fmt_f. destruct s as [|c s]; [congruence|]. remember (c :: s) as t.
  assert (0 < length t)%nat by (subst; cbn; lia).
  assert (0 <? Z.of_nat (length t + n) = true) as -> by (apply Z.ltb_lt; lia).
  assert (Z.of_nat (length t) <=? Z.of_nat (length t + n) = true) as -> by (apply Z.leb_le; lia).
  rewrite app_nil_r, Nat2Z.id, firstn_all2 by lia. f_equal. f_equal. lia.
Qed.

Lemma strip_some c : 0 < c -> strip_zeros (utoa c) <> [].
Proof.
  intros C E. destruct (strip_padded (utoa c)) as [n H]. rewrite E in H. cbn [app] in H.
  pose proof (dval_utoa c ltac:(lia)) as V. rewrite H, <- (app_nil_r (repeat _ _)), dval_zeros in V. cbn in V. lia.
Qed.

Lemma print_digits c q : 0 < c -> 0 <= q -> fmt_f (strip_zeros (utoa c)) (Z.of_nat (length (utoa c)) + q) = utoa (c * 10 ^ q).
Proof.
  intros C Q. destruct (strip_padded (utoa c)) as [n H].
  rewrite (fmt_whole _ (n + Z.to_nat q)).
  - rewrite <- repeat_more, app_assoc, <- H. rewrite utoa_zeros by exact C. now rewrite Z2Nat.id by lia.
  - now apply strip_some.
  - rewrite H at 1. rewrite app_length, repeat_length. lia.
Qed.

Lemma print_whole z m e : 0 < z <= 2 ^ 53 -> whole_double z = (m, e) -> print_double m e = Some (utoa z).
Proof.
  intros R W. pose proof (whole_value z R) as V. rewrite W in V. destruct V as (Mr & Er & V). unfold print_double.
  assert (m =? 0 = false) as -> by (apply Z.eqb_neq; lia).
  assert (0 < 2 ^ Z.max (- e) 0) as T by (apply Z.pow_pos_nonneg; lia).
  assert (places (m * 2 ^ Z.max e 0) (2 ^ Z.max (- e) 0) = Z.of_nat (length (utoa z))) as ->.
  { unfold places. rewrite V. assert (2 ^ Z.max (- e) 0 <=? z * 2 ^ Z.max (- e) 0 = true) as -> by (apply Z.leb_le; nia).
    rewrite Z.div_mul by lia. reflexivity. }
  pose proof (utoa_nonempty z) as L1. pose proof (utoa_length_le z 16 ltac:(lia)) as L2.
  assert (z < 10 ^ Z.of_nat 16) as B by (change (10 ^ Z.of_nat 16) with 10000000000000000; lia). specialize (L2 B ltac:(lia)).
  destruct (shortest_whole z m e R W 17 (Z.of_nat (length (utoa z)) - 1)) as (c & q & -> & Q & C & E); [lia|lia|].
  change small_double with (4722366482869645, -72). change large_double with (7629394531250000, 17).
  unfold less_double. cbn [fst snd]. assert (e <? -72 = false) as -> by (apply Z.ltb_ge; lia). assert (e =? -72 = false) as -> by (apply Z.eqb_neq; lia).
  assert (e <? 17 = true) as -> by (apply Z.ltb_lt; lia). cbn [orb andb negb]. rewrite print_digits, E by assumption. reflexivity.
Qed.

(* whole numbers are written in the shortest form *)
Lemma float_whole t z : whole_number t z -> Z.abs z <= 2 ^ 53 -> go_float t = Some (itoa z).
Proof.
  intros A B. apply read_amount in A as (_ & c & p & E & C & V). unfold go_float. rewrite E. unfold decimal_double.
  rewrite Z.mul_1_r in V. rewrite <- V. clear E V C. assert (0 < 10 ^ Z.max (- p) 0) as T by (apply Z.pow_pos_nonneg; lia).
  destruct (Z.eq_dec z 0) as [->|N].
  - cbn [Z.abs]. rewrite Z.mul_0_l. reflexivity.
  - rewrite double_whole by lia. destruct (whole_double (Z.abs z)) as [m e] eqn:W. rewrite (print_whole (Z.abs z) m e) by (lia || exact W).
    cbn [option_map]. unfold itoa. destruct (z <? 0) eqn:L; [apply Z.ltb_lt in L; rewrite Z.abs_neq by lia|apply Z.ltb_ge in L; rewrite Z.abs_eq by lia]; reflexivity.
Qed.

(* ---- what is read as a whole number was near to it ---- *)

Lemma half_even_near n d : 0 <= n -> 0 < d -> 0 <= half_even n d /\ 2 * Z.abs (half_even n d * d - n) <= d.
Proof.
  intros N D. unfold half_even. pose proof (Z.div_mod n d ltac:(lia)) as E. pose proof (Z.mod_pos_bound n d D) as M.
  assert (0 <= n / d) by (apply Z.div_pos; lia).
  destruct (2 * (n mod d) <? d) eqn:A; [apply Z.ltb_lt in A; cbn [orb]; split; [assumption|nia]|]. apply Z.ltb_ge in A. cbn [orb].
  destruct (2 * (n mod d) =? d) eqn:B; [apply Z.eqb_eq in B|apply Z.eqb_neq in B]; cbn [andb]; [destruct (Z.even (n / d))|]; (split; [lia|nia]).
Qed.

Lemma binade_low n d : 0 < n -> 0 < d -> d * 2 ^ Z.max (binade n d) 0 <= n * 2 ^ Z.max (- binade n d) 0.
Proof.
  intros N D. unfold binade. destruct (_ <=? _) eqn:E; [now apply Z.leb_le in E|]. clear E.
  pose proof (Z.log2_spec n N) as [A _]. pose proof (Z.log2_spec d D) as [_ B].
  set (a := Z.log2 n - Z.log2 d - 1). pose proof (Z.log2_nonneg n). pose proof (Z.log2_nonneg d).
  assert (0 < 2 ^ Z.max a 0) by (apply Z.pow_pos_nonneg; lia). assert (0 < 2 ^ Z.max (- a) 0) by (apply Z.pow_pos_nonneg; lia).
  assert (2 ^ Z.succ (Z.log2 d) * 2 ^ Z.max a 0 = 2 ^ Z.log2 n * 2 ^ Z.max (- a) 0) as E.
  { rewrite <- !Z.pow_add_r by lia. f_equal. subst a. lia. }
  nia.
Qed.

Lemma to_double_inv n d m e : 0 <= n -> 0 < d -> to_double n d = Some (m, e) ->
  (n = 0 /\ m = 0) \/ 0 < n /\ exists m0 e0, e0 = Z.max (-1074) (binade n d - 52)
    /\ 0 <= m0 /\ 2 * Z.abs (m0 * (d * 2 ^ Z.max e0 0) - n * 2 ^ Z.max (- e0) 0) <= d * 2 ^ Z.max e0 0
    /\ (m0 = m /\ e0 = e \/ m0 = 2 ^ 53 /\ m = 2 ^ 52 /\ e = e0 + 1).
Proof.
  intros N D. unfold to_double. destruct (n =? 0) eqn:Z; [apply Z.eqb_eq in Z; intros [= <- _]; auto|]. apply Z.eqb_neq in Z.
  intros H. right. split; [lia|]. remember (Z.max (-1074) (binade n d - 52)) as e0.
  assert (0 < 2 ^ Z.max e0 0) as T by (apply Z.pow_pos_nonneg; lia). assert (0 < 2 ^ Z.max (- e0) 0) as T' by (apply Z.pow_pos_nonneg; lia).
  destruct (half_even_near (n * 2 ^ Z.max (- e0) 0) (d * 2 ^ Z.max e0 0)) as [A B]; [nia|nia|].
  remember (half_even (n * 2 ^ Z.max (- e0) 0) (d * 2 ^ Z.max e0 0)) as m0. exists m0, e0. split; [reflexivity|]. split; [exact A|]. split; [exact B|].
  destruct (m0 =? 2 ^ 53) eqn:Q.
  - apply Z.eqb_eq in Q. destruct (971 <? e0 + 1); [discriminate|]. injection H as <- <-. auto.
  - destruct (971 <? e0); [discriminate|]. injection H as <- <-. auto.
Qed.

Lemma double_near n d z : 0 <= n -> 0 < d -> 0 < z <= 2 ^ 53 -> to_double n d = Some (whole_double z) -> 2 ^ 53 * Z.abs (z * d - n) <= z * d.
Proof.
  intros N D R H. pose proof (whole_value z R) as V. destruct (whole_double z) as [m e]. destruct V as (Mr & Er & V).
  destruct (to_double_inv n d m e N D H) as [[_ H']|(Np & m0 & e0 & _ & M0 & B & K)]; [lia|].
  assert (2 ^ 52 <= m0 /\ m0 * 2 ^ Z.max e0 0 = z * 2 ^ Z.max (- e0) 0) as [M V0].
  { destruct K as [[-> ->]|(-> & -> & ->)]; [split; [lia|exact V]|]. split; [lia|].
    destruct (Z_le_gt_dec 0 e0) as [L|L].
    - rewrite (Z.max_l e0) by lia. rewrite (Z.max_r (- e0)) by lia. rewrite (Z.max_l (e0 + 1)), (Z.max_r (- (e0 + 1))), Z.pow_add_r in V by lia. change (2 ^ 53) with (2 ^ 52 * 2). change (2 ^ 1) with 2 in V. lia.
    - rewrite (Z.max_r e0) by lia. rewrite (Z.max_l (- e0)) by lia. rewrite (Z.max_r (e0 + 1)), (Z.max_l (- (e0 + 1))) in V by lia.
      replace (- e0) with (- (e0 + 1) + 1) by lia. rewrite Z.pow_add_r by lia. change (2 ^ 53) with (2 ^ 52 * 2). change (2 ^ 1) with 2. lia. }
  clear V K Mr Er. assert (0 < 2 ^ Z.max e0 0) as T by (apply Z.pow_pos_nonneg; lia). assert (0 < 2 ^ Z.max (- e0) 0) as T' by (apply Z.pow_pos_nonneg; lia).
  remember (2 ^ Z.max e0 0) as u. remember (2 ^ Z.max (- e0) 0) as v. clear Hequ Heqv.
  replace (m0 * (d * u) - n * v) with ((z * d - n) * v) in B by nia. rewrite Z.abs_mul, (Z.abs_eq v) in B by lia.
  assert (2 ^ 52 * (d * u) <= z * d * v) as Q by nia.
  assert (2 ^ 53 * Z.abs (z * d - n) * v <= z * d * v) as G by (change (2 ^ 53) with (2 ^ 52 * 2); nia). nia.
Qed.

Lemma double_zero n d e : 0 <= n -> 0 < d -> to_double n d = Some (0, e) -> 2 ^ 1075 * n <= d.
Proof.
  intros N D H. destruct (to_double_inv n d 0 e N D H) as [[-> _]|(Np & m0 & e0 & E0 & M0 & B & K)]; [lia|]. clear H.
  destruct K as [[-> _]|(_ & K & _)]; [|discriminate K].
  rewrite Z.mul_0_l, Z.sub_0_l, Z.abs_opp in B.
  assert (0 < 2 ^ Z.max e0 0) as T by (apply Z.pow_pos_nonneg; lia). assert (0 < 2 ^ Z.max (- e0) 0) as T' by (apply Z.pow_pos_nonneg; lia).
  rewrite Z.abs_eq in B by nia.
  destruct (Z_le_gt_dec e0 (-1074)) as [L|L].
  - assert (e0 = -1074) as -> by lia. change (Z.max (-1074) 0) with 0 in B. change (Z.max (- (-1074)) 0) with 1074 in B.
    change (2 ^ 1075) with (2 * 2 ^ 1074). rewrite Z.pow_0_r, Z.mul_1_r in B. lia.
  - exfalso. pose proof (binade_low n d Np D) as Lo. assert (binade n d = e0 + 52) as Eb by lia. rewrite Eb in Lo.
    assert (2 ^ Z.max (e0 + 52) 0 * 2 ^ Z.max (- e0) 0 = 2 ^ 52 * (2 ^ Z.max e0 0 * 2 ^ Z.max (- (e0 + 52)) 0)) as P by (rewrite <- !Z.pow_add_r by lia; f_equal; lia).
    assert (0 < 2 ^ Z.max (e0 + 52) 0) by (apply Z.pow_pos_nonneg; lia). assert (0 < 2 ^ Z.max (- (e0 + 52)) 0) by (apply Z.pow_pos_nonneg; lia).
    change (2 ^ 52) with 4503599627370496 in P.
    remember (2 ^ Z.max (e0 + 52) 0) as a. remember (2 ^ Z.max (- e0) 0) as v. remember (2 ^ Z.max e0 0) as u. remember (2 ^ Z.max (- (e0 + 52)) 0) as b. clear - D N Np B Lo P T T' H H0.
    (* d * a <= n * b;  2 * n * v <= d * u;  a * v = 2^52 * u * b *)
    assert (d * a * v <= n * b * v) by nia. assert (2 * (n * v) * b <= d * u * b) by nia. assert (0 < d * (u * b)) by nia. nia.
Qed.

Lemma try_inv m e p c : 0 <= m -> try_digits m e p = Some c -> 0 <= c /\ decimal_double c p = Some (m, e).
Proof.
  intros M. unfold try_digits. set (n := m * 2 ^ Z.max e 0 * 10 ^ Z.max (- p) 0). set (d := 2 ^ Z.max (- e) 0 * 10 ^ Z.max p 0).
  assert (0 < d) as D by (subst d; apply Z.mul_pos_pos; apply Z.pow_pos_nonneg; lia).
  assert (0 <= n) as N by (subst n; repeat apply Z.mul_nonneg_nonneg; try assumption; apply Z.pow_nonneg; lia).
  assert (0 <= n / d) as Q by (apply Z.div_pos; lia).
  destruct (2 * (n mod d) <=? d);
    (destruct (same_double _ m e) eqn:A; [intros [= <-]; apply same_double_some in A; split; [lia|exact A]|]; clear A;
     destruct (same_double _ m e) eqn:A; [intros [= <-]; apply same_double_some in A; split; [lia|exact A]|discriminate]).
Qed.

Lemma shortest_inv m e c q : 0 <= m -> forall fuel p, shortest fuel m e p = Some (c, q) -> 0 <= c /\ decimal_double c q = Some (m, e).
Proof.
  intros M. induction fuel as [|f IH]; intros p; [discriminate|]. cbn [shortest]. destruct (try_digits m e p) as [c'|] eqn:E; [|apply IH].
  intros [= <- <-]. now apply try_inv.
Qed.

Lemma decimal_zero p : decimal_double 0 p = Some (0, -1074).
Proof. unfold decimal_double. rewrite Z.mul_0_l. reflexivity. Qed.

Lemma strip_digits c : 0 <= c -> forallb is_digit (strip_zeros (utoa c)) = true.
Proof.
  intros C. pose proof (utoa_digits c C) as D. destruct (strip_padded (utoa c)) as [n H]. rewrite H, forallb_app in D. now apply andb_prop in D as [D _].
Qed.

Lemma print_inv m e s : 0 < m -> print_double m e = Some s ->
  (exists x r, s = x :: r /\ is_digit x = true) /\
  (forallb is_digit s = true -> 0 < dval s /\ exists d, 0 < d /\ to_double (dval s * d) d = Some (m, e)).
Proof.
  intros M. unfold print_double. assert (m =? 0 = false) as -> by (apply Z.eqb_neq; lia).
  destruct (shortest _ _ _ _) as [[c p]|] eqn:E; [|discriminate]. apply shortest_inv in E as [C E]; [|lia].
  destruct (Z.eq_dec c 0) as [->|C0]; [rewrite decimal_zero in E; injection E as E _; lia|].
  pose proof (strip_some c ltac:(lia)) as Ns. pose proof (strip_digits c C) as Ds. destruct (strip_padded (utoa c)) as [k H].
  assert (length (utoa c) = (length (strip_zeros (utoa c)) + k)%nat) as Lu by (rewrite H at 1; now rewrite app_length, repeat_length).
  pose proof (dval_utoa c C) as Vu. rewrite H, dval_app, repeat_length in Vu. rewrite <- (app_nil_r (repeat _ _)), dval_zeros in Vu. change (dval []) with 0 in Vu. rewrite Z.add_0_r in Vu.
  rewrite Lu. clear Lu H. remember (strip_zeros (utoa c)) as t. clear Heqt.
  destruct (_ || _); intros [= <-].
  - split.
    + unfold fmt_e. destruct t as [|x t]; [congruence|]. cbn [firstn app]. cbn [forallb] in Ds. apply andb_prop in Ds as [Ds _]. eauto.
    + unfold fmt_e. rewrite !forallb_app. cbn [forallb]. change (is_digit "e") with false. cbn [andb]. rewrite !andb_false_r. discriminate.
  - destruct (Z_le_gt_dec (Z.of_nat (length t)) (Z.of_nat (length t + k) + p)) as [L|L].
    + set (n := Z.to_nat (Z.of_nat k + p)). rewrite (fmt_whole t n) by (assumption || subst n; lia). split.
      { destruct t as [|x t]; [congruence|]. cbn [forallb] in Ds. apply andb_prop in Ds as [Ds _]. cbn [app]. eauto. }
      intros _. rewrite dval_app, repeat_length. rewrite <- (app_nil_r (repeat _ _)), dval_zeros. change (dval []) with 0. rewrite Z.add_0_r.
      assert (Z.of_nat n = Z.of_nat k + p) as En by (subst n; lia). clearbody n. rewrite En.
      assert (0 < 10 ^ Z.of_nat k) by (apply Z.pow_pos_nonneg; lia). assert (0 < 10 ^ (Z.of_nat k + p)) by (apply Z.pow_pos_nonneg; lia).
      assert (0 < 10 ^ Z.max (- p) 0) by (apply Z.pow_pos_nonneg; lia).
      split; [nia|]. exists (10 ^ Z.max (- p) 0). split; [lia|]. rewrite <- E. unfold decimal_double. f_equal. rewrite <- Vu.
      rewrite <- !Z.mul_assoc. f_equal. rewrite <- !Z.pow_add_r by lia. f_equal. lia.
    + assert (forallb is_digit (fmt_f t (Z.of_nat (length t + k) + p)) = false) as F.
      { unfold fmt_f. rewrite forallb_app. assert (Z.of_nat (length t) <=? Z.of_nat (length t + k) + p = false) as -> by (apply Z.leb_gt; lia).
        cbn [forallb]. change (is_digit ".") with false. cbn [andb]. apply andb_false_r. }
      split; [|rewrite F; discriminate]. unfold fmt_f. destruct (0 <? _) eqn:G; [|cbn [app]; eexists; eexists; split; [reflexivity|reflexivity]].
      apply Z.ltb_lt in G. destruct t as [|x t]; [congruence|]. destruct (Z.to_nat _) as [|g] eqn:J; [lia|]. cbn [firstn app]. cbn [forallb] in Ds. apply andb_prop in Ds as [Ds _]. eauto.
Qed.

Lemma float_near t neg n d s z : amounts t neg n d -> go_float t = Some s -> parse_int 64 s = (z, None) -> Z.abs z <= 2 ^ 53 ->
  if z =? 0 then 2 ^ 1075 * n <= d else neg = (z <? 0) /\ 2 ^ 53 * Z.abs (Z.abs z * d - n) <= Z.abs z * d.
Proof.
  intros A G I B. apply read_amount in A as (D & c & p & E & C & V). unfold go_float in G. rewrite E in G. clear E. unfold decimal_double in G.
  assert (0 < 10 ^ Z.max (- p) 0) as T by (apply Z.pow_pos_nonneg; lia). assert (0 < 10 ^ Z.max p 0) as T' by (apply Z.pow_pos_nonneg; lia).
  assert (0 <= c * 10 ^ Z.max p 0) as N0 by nia. remember (c * 10 ^ Z.max p 0) as n0. remember (10 ^ Z.max (- p) 0) as d0. clear Heqn0 Heqd0 C T' c p.
  destruct (to_double n0 d0) as [[m e]|] eqn:X; [|discriminate].
  destruct (print_double m e) as [u|] eqn:Pu; [|discriminate]. cbn [option_map] in G. injection G as G.
  assert (0 <= m) as M.
  { destruct (to_double_inv n0 d0 m e N0 T X) as [[_ ->]|(_ & m0 & e0 & _ & M0 & _ & [[<- _]|(_ & -> & _)])]; try assumption; lia. }
  destruct (Z.eq_dec m 0) as [->|Mz].
  { cbn in Pu. injection Pu as <-. apply double_zero in X; [|exact N0|exact T].
    assert (z = 0) as -> by (subst s; destruct neg; vm_compute in I; congruence). rewrite Z.eqb_refl.
    assert (2 ^ 1075 * n * d0 <= d * d0); [|nia]. rewrite <- Z.mul_assoc, V. nia. }
  destruct (print_inv m e u ltac:(lia) Pu) as [(x & r & Hx & Dx) Q].
  assert (forallb is_digit u = true /\ z = if neg then - dval u else dval u) as [Du Ez].
  { apply parse_int_inv in I as [(Ds & Hs & ->)|(y & ds & Es & Cs & Ds & Hs & ->)].
    - destruct neg; [subst s; discriminate|]. subst s. auto.
    - destruct neg.
      + rewrite Es in G. injection G as <- <-. split; [exact Ds|reflexivity].
      + exfalso. rewrite Es, Hx in G. injection G as -> _. destruct Cs as [-> | ->]; discriminate. }
  destruct (Q Du) as (U & d1 & D1 & X1). assert (Z.abs z = dval u) as Ea by (destruct neg; lia). rewrite Ea in *.
  assert (z =? 0 = false) as -> by (apply Z.eqb_neq; destruct neg; lia).
  split; [destruct neg; [symmetry; apply Z.ltb_lt|symmetry; apply Z.ltb_ge]; lia|].
  rewrite double_whole in X1 by lia. assert (to_double n0 d0 = Some (whole_double (dval u))) as Y by congruence.
  apply double_near in Y; [|exact N0|exact T|lia].
  assert (2 ^ 53 * Z.abs (dval u * d - n) * d0 <= dval u * d * d0); [|nia].
  replace (2 ^ 53 * Z.abs (dval u * d - n) * d0) with (2 ^ 53 * Z.abs ((dval u * d - n) * d0)) by (rewrite Z.abs_mul, (Z.abs_eq d0) by lia; ring).
  replace ((dval u * d - n) * d0) with ((dval u * d0 - n0) * d) by nia. rewrite Z.abs_mul, (Z.abs_eq d) by lia. nia.
Qed.
