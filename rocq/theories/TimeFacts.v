(* Facts about GoTime.v and the calendar of SpecCodec.v *)
From Coq Require Import ZArith NArith Bool Ascii String List Lia.
Import ListNotations.
From Verif Require Import GoBase GoBaseFacts GoTime Tables Codec SpecCodec.
Local Open Scope Z_scope.
Local Notation length := List.length.

(* ---- fixed width decimal texts ---- *)

Definition d2 (z : Z) : bytes := [digit_char (z / 10); digit_char (z mod 10)].
Definition d4 (z : Z) : bytes := d2 (z / 100) ++ d2 (z mod 100).

Ltac euclid := Z.to_euclidean_division_equations; lia.

Lemma d2_digits z : 0 <= z < 100 -> forallb is_digit (d2 z) = true.
Proof.
  intros H. unfold d2. cbn [forallb]. rewrite !is_digit_digit_char; [reflexivity| |]; euclid.
Qed.

Lemma dval_d2 z : 0 <= z < 100 -> dval (d2 z) = z.
Proof.
  intros H. unfold d2, dval. cbn [dval_acc]. rewrite !digit_val_char; euclid.
Qed.

Lemma d4_digits z : 0 <= z < 10000 -> forallb is_digit (d4 z) = true.
Proof.
  intros H. unfold d4. rewrite forallb_app, !d2_digits; [reflexivity| |]; euclid.
Qed.

Lemma dval_d4 z : 0 <= z < 10000 -> dval (d4 z) = z.
Proof.
  intros H. unfold d4. rewrite dval_app, !dval_d2 by euclid.
  change (10 ^ Z.of_nat (length (d2 (z mod 100)))) with 100. euclid.
Qed.

Lemma append_int_2 z : 0 <= z < 100 -> append_int 2 z = d2 z.
Proof.
  intros H. unfold append_int. destruct (Z.ltb_spec z 0); [lia|].
  apply utoa_pad_unique; auto using d2_digits, dval_d2; lia.
Qed.

Lemma append_int_4 z : 0 <= z < 10000 -> append_int 4 z = d4 z.
Proof.
  intros H. unfold append_int. destruct (Z.ltb_spec z 0); [lia|].
  apply utoa_pad_unique; auto using d4_digits, dval_d4; lia.
Qed.

Lemma getnum_d2 z r b : 0 <= z < 100 -> getnum (d2 z ++ r) b = Some (z, r).
Proof.
  intros H. unfold d2, getnum. cbn [app].
  rewrite !is_digit_digit_char, !digit_val_char by euclid. do 2 f_equal. euclid.
Qed.

Lemma getyear_d4 z r : 0 <= z < 10000 -> getyear (d4 z ++ r) = Some (z, r).
Proof.
  intros H. unfold getyear, d4, d2. cbn [app].
  change [digit_char (z / 100 / 10); digit_char ((z / 100) mod 10);
          digit_char ((z mod 100) / 10); digit_char ((z mod 100) mod 10)] with (d4 z).
  rewrite d4_digits, dval_d4 by assumption. reflexivity.
Qed.

Lemma getnum_true_inv s z r : getnum s true = Some (z, r) -> 0 <= z < 100 /\ s = d2 z ++ r.
Proof.
  unfold getnum. destruct s as [|a [|b s]]; try discriminate.
  - destruct (is_digit a); discriminate.
  - destruct (is_digit a) eqn:A; [|discriminate]. destruct (is_digit b) eqn:B; [|discriminate].
    intros [= <- <-]. pose proof (digit_val_range a A). pose proof (digit_val_range b B).
    split; [lia|]. unfold d2. cbn [app].
    replace ((10 * digit_val a + digit_val b) / 10) with (digit_val a) by euclid.
    replace ((10 * digit_val a + digit_val b) mod 10) with (digit_val b) by euclid.
    rewrite !digit_char_val by assumption. reflexivity.
Qed.

Lemma getyear_inv s z r : getyear s = Some (z, r) -> 0 <= z < 10000 /\ s = d4 z ++ r.
Proof.
  unfold getyear. destruct s as [|a [|b [|c [|d s]]]]; try discriminate.
  destruct (forallb is_digit [a; b; c; d]) eqn:D; [|discriminate].
  intros [= <- <-]. pose proof (dval_range _ D) as R.
  change (10 ^ Z.of_nat (length [a; b; c; d])) with 10000 in R. split; [exact R|].
  transitivity ([a; b; c; d] ++ s); [reflexivity|]. f_equal.
  apply dval_inj; auto using d4_digits. rewrite dval_d4; auto.
Qed.

(* ---- calendar ---- *)

Lemma is_leap_spec y : is_leap y = true <-> leap y.
Proof.
  unfold is_leap, leap. rewrite andb_true_iff, orb_true_iff, negb_true_iff, !Z.eqb_eq, Z.eqb_neq.
  split; [|intros [[]|]].
  - intros [H1 [H2|H2]]; auto.
  - auto.
  - split; [|auto]. euclid.
Qed.

Lemma days_in_month_days y m n : 1 <= m <= 12 -> (month_days y m n <-> n = days_in m y).
Proof.
  intros H. unfold month_days, days_in.
  assert (is_leap y = true <-> leap y) as L by apply is_leap_spec.
  assert (m = 1 \/ m = 2 \/ m = 3 \/ m = 4 \/ m = 5 \/ m = 6 \/ m = 7 \/ m = 8 \/ m = 9 \/ m = 10
          \/ m = 11 \/ m = 12) as C by lia.
  assert (forall k, In m k <-> In m k) as _ by reflexivity.
  destruct C as [->|[->|[->|[->|[->|[->|[->|[->|[->|[->|[->| ->]]]]]]]]]]]; cbn;
    try (intuition lia).
  destruct (is_leap y).
  - assert (leap y) by tauto. intuition lia.
  - assert (~ leap y) by (intro; intuition discriminate). intuition lia.
Qed.

Lemma month_days_range y m n : month_days y m n -> 1 <= m <= 12.
Proof. unfold month_days. cbn. intuition lia. Qed.

Lemma days_in_le m y : days_in m y <= 31.
Proof.
  unfold days_in. destruct (m =? 2); [destruct (is_leap y); lia|].
  destruct (_ || _); lia.
Qed.

Lemma days_in_ge m y : 28 <= days_in m y.
Proof.
  unfold days_in. destruct (m =? 2); [destruct (is_leap y); lia|].
  destruct (_ || _); lia.
Qed.

Lemma calendar_date_spec y m d :
  calendar_date y m d <-> 0 <= y <= 9999 /\ 1 <= m <= 12 /\ valid_day y m d = true.
Proof.
  unfold calendar_date, valid_day. rewrite andb_true_iff, !Z.leb_le. split.
  - intros [Hy [n [Hn Hd]]]. pose proof (month_days_range _ _ _ Hn) as R.
    rewrite days_in_month_days in Hn by assumption. subst. tauto.
  - intros (Hy & Hm & Hd). split; [assumption|]. exists (days_in m y).
    rewrite days_in_month_days by assumption. tauto.
Qed.

Lemma calendar_date_ranges y m d : calendar_date y m d ->
  0 <= y <= 9999 /\ 1 <= m <= 12 /\ 1 <= d <= 31.
Proof.
  rewrite calendar_date_spec. unfold valid_day. rewrite andb_true_iff, !Z.leb_le.
  pose proof (days_in_le m y). lia.
Qed.

(* ---- the zero test ---- *)

Lemma days_before_nonneg m y : 0 <= days_before m y.
Proof.
  unfold days_before.
  assert (forall l, 0 <= sum_days y l) as H.
  { induction l as [|k l IH]; simpl; [lia|]. pose proof (days_in_ge k y). lia. }
  apply H.
Qed.

Lemma days_before_ge m y : 2 <= m -> 31 <= days_before m y.
Proof.
  intros H. unfold days_before. cbn [filter].
  assert (forall l, 0 <= sum_days y l) as N.
  { induction l as [|k l IH]; simpl; [lia|]. pose proof (days_in_ge k y). lia. }
  destruct (Z.ltb_spec 1 m); [|lia]. cbn [sum_days].
  change (days_in 1 y) with 31.
  match goal with |- _ <= 31 + sum_days y ?l => specialize (N l) end. lia.
Qed.

Lemma days_before_le m y : 1 <= m <= 12 -> days_before m y <= 335.
Proof.
  intros H. unfold days_before.
  assert (m = 1 \/ m = 2 \/ m = 3 \/ m = 4 \/ m = 5 \/ m = 6 \/ m = 7 \/ m = 8 \/ m = 9 \/ m = 10
          \/ m = 11 \/ m = 12) as C by lia.
  destruct C as [->|[->|[->|[->|[->|[->|[->|[->|[->|[->|[->| ->]]]]]]]]]]];
    cbn -[is_leap]; destruct (is_leap y); cbn; lia.
Qed.

Lemma is_zero_no_date : is_zero no_date = true.
Proof. reflexivity. Qed.

Lemma day_number_zero y m d : calendar_date y m d -> day_number y m d = 0 -> y = 1 /\ m = 1 /\ d = 1.
Proof.
  intros H E. pose proof (calendar_date_ranges _ _ _ H) as (Hy & Hm & Hd).
  unfold day_number in E.
  pose proof (days_before_nonneg m y) as N. pose proof (days_before_ge m y) as G.
  pose proof (days_before_le m y Hm) as L.
  assert (y = 1) as ->.
  { destruct (Z.eq_dec y 0) as [->|]; [|euclid].
    exfalso. change (365 * (0 - 1) + (0 - 1) / 4 - (0 - 1) / 100 + (0 - 1) / 400) with (-366) in E.
    rewrite calendar_date_spec in H. destruct H as (_ & _ & V). unfold valid_day in V.
    rewrite andb_true_iff, !Z.leb_le in V.
    assert (m = 1 \/ m = 2 \/ m = 3 \/ m = 4 \/ m = 5 \/ m = 6 \/ m = 7 \/ m = 8 \/ m = 9 \/ m = 10
          \/ m = 11 \/ m = 12) as C by lia.
    destruct C as [->|[->|[->|[->|[->|[->|[->|[->|[->|[->|[->| ->]]]]]]]]]]];
      match type of E with context [days_before ?k ?y] =>
        let v := eval vm_compute in (days_before k y) in change (days_before k y) with v in E;
        let w := eval vm_compute in (days_in k y) in change (days_in k y) with w in V
      end; lia. }
  change (365 * (1 - 1) + (1 - 1) / 4 - (1 - 1) / 100 + (1 - 1) / 400) with 0 in E.
  assert (m = 1) as -> by (destruct (Z.le_gt_cases 2 m) as [C|C]; [specialize (G C)|]; lia).
  change (days_before 1 1) with 0 in E. lia.
Qed.

Lemma plain_stamp_is_zero t : plain_stamp t -> is_zero t = true -> t = no_date.
Proof.
  destruct t as [y m d h mi s n o]. intros (C & Hh & Hm & Hs & Hn & Ho). cbn in *. subst.
  unfold is_zero, abs_sec. cbn. rewrite andb_true_iff, !Z.eqb_eq. intros [E _].
  assert (day_number y m d = 0 /\ h = 0 /\ mi = 0 /\ s = 0) as (E1 & -> & -> & ->) by lia.
  destruct (day_number_zero _ _ _ C E1) as (-> & -> & ->). reflexivity.
Qed.

Lemma plain_date_stamp t : plain_date t -> plain_stamp t.
Proof. unfold plain_date, plain_stamp. intros (C & -> & -> & -> & -> & ->). intuition lia. Qed.

Lemma plain_date_is_zero t : plain_date t -> is_zero t = true -> t = no_date.
Proof. intros H. apply plain_stamp_is_zero, plain_date_stamp, H. Qed.

Lemma no_date_plain : plain_date no_date.
Proof.
  unfold plain_date, calendar_date. cbn. repeat split; try lia.
  exists 31. split; [|lia]. left. cbn. tauto.
Qed.

(* ---- Format and Parse ---- *)

Lemma format_date_digits t : calendar_date (tYear t) (tMonth t) (tDay t) ->
  format_date t = d2 (tMonth t) ++ d2 (tDay t) ++ d4 (tYear t).
Proof.
  intros H. apply calendar_date_ranges in H. unfold format_date.
  rewrite !append_int_2, append_int_4 by lia. reflexivity.
Qed.

Lemma format_timestamp_digits t : plain_stamp t ->
  format_timestamp t = d2 (tMonth t) ++ d2 (tDay t) ++ d4 (tYear t)
    ++ d2 (tHour t) ++ d2 (tMin t) ++ d2 (tSec t).
Proof.
  intros (C & Hh & Hm & Hs & _). unfold format_timestamp.
  rewrite format_date_digits, !append_int_2 by (assumption || lia).
  rewrite <- !app_assoc. reflexivity.
Qed.

Lemma parse_mdy_digits y m d r : calendar_date y m d ->
  parse_mdy (d2 m ++ d2 d ++ d4 y ++ r) = Some (m, d, y, r).
Proof.
  intros H. apply calendar_date_ranges in H. unfold parse_mdy.
  rewrite getnum_d2 by lia.
  destruct (Z.leb_spec m 0); [lia|]. destruct (Z.ltb_spec 12 m); [lia|]. cbn [orb].
  rewrite getnum_d2, getyear_d4 by lia. reflexivity.
Qed.

Lemma parse_date_format t : plain_date t -> parse_date (format_date t) = Some t.
Proof.
  destruct t as [y m d h mi s n o]. intros (C & E1 & E2 & E3 & E4 & E5). cbn in *. subst.
  rewrite format_date_digits by assumption. cbn [tYear tMonth tDay].
  unfold parse_date. rewrite <- (app_nil_r (d4 y)), parse_mdy_digits by assumption.
  apply calendar_date_spec in C as (_ & _ & ->). reflexivity.
Qed.

Lemma parse_timestamp_format t : plain_stamp t -> parse_timestamp (format_timestamp t) = Some t.
Proof.
  intros P. rewrite format_timestamp_digits by assumption.
  destruct t as [y m d h mi s n o]. destruct P as (C & Hh & Hm & Hs & E4 & E5). cbn [tYear tMonth tDay tHour tMin tSec tNsec tOff] in *. subst.
  unfold parse_timestamp. rewrite parse_mdy_digits by assumption.
  rewrite getnum_d2 by lia. destruct (Z.leb_spec 24 h); [lia|].
  rewrite getnum_d2 by lia. destruct (Z.leb_spec 60 mi); [lia|].
  rewrite <- (app_nil_r (d2 s)), getnum_d2 by lia. destruct (Z.leb_spec 60 s); [lia|].
  cbn [opt_fraction]. apply calendar_date_spec in C as (_ & _ & ->). reflexivity.
Qed.

Lemma parse_mdy_inv s m d y r : parse_mdy s = Some (m, d, y, r) ->
  s = d2 m ++ d2 d ++ d4 y ++ r /\ 1 <= m <= 12 /\ 0 <= d < 100 /\ 0 <= y < 10000.
Proof.
  unfold parse_mdy. destruct (getnum s true) as [[m' s1]|] eqn:E1; [|discriminate].
  destruct (Z.leb_spec m' 0); [discriminate|]. destruct (Z.ltb_spec 12 m'); [discriminate|].
  cbn [orb]. destruct (getnum s1 true) as [[d' s2]|] eqn:E2; [|discriminate].
  destruct (getyear s2) as [[y' s3]|] eqn:E3; [|discriminate].
  intros [= <- <- <- <-].
  apply getnum_true_inv in E1 as [? ->]. apply getnum_true_inv in E2 as [? ->].
  apply getyear_inv in E3 as [? ->]. repeat split; lia.
Qed.

Lemma parse_date_inv s t : parse_date s = Some t -> plain_date t /\ s = format_date t.
Proof.
  unfold parse_date. destruct (parse_mdy s) as [[[[m d] y] r]|] eqn:E; [|discriminate].
  destruct r; [|discriminate]. destruct (valid_day y m d) eqn:V; [|discriminate].
  intros [= <-]. apply parse_mdy_inv in E as (-> & Hm & Hd & Hy).
  assert (calendar_date y m d) as C by (apply calendar_date_spec; auto with zarith).
  split.
  - unfold plain_date. cbn. tauto.
  - rewrite format_date_digits by assumption. cbn [tYear tMonth tDay]. rewrite app_nil_r. reflexivity.
Qed.

Lemma parse_timestamp_inv s t : length s = 14%nat -> parse_timestamp s = Some t ->
  plain_stamp t /\ s = format_timestamp t.
Proof.
  intros L. unfold parse_timestamp. destruct (parse_mdy s) as [[[[m d] y] s3]|] eqn:E; [|discriminate].
  apply parse_mdy_inv in E as (-> & Hm & Hd & Hy).
  assert (length s3 = 6%nat) as L3 by (rewrite !app_length in L; cbn in L; lia).
  destruct (getnum s3 false) as [[h s4]|] eqn:E4; [|discriminate].
  destruct (Z.leb_spec 24 h); [discriminate|].
  destruct (getnum s4 true) as [[mi s5]|] eqn:E5; [|discriminate].
  destruct (Z.leb_spec 60 mi); [discriminate|].
  destruct (getnum s5 true) as [[sec s6]|] eqn:E6; [|discriminate].
  destruct (Z.leb_spec 60 sec); [discriminate|].
  apply getnum_true_inv in E6 as [R6 ->]. 
  assert (0 <= h /\ s3 = d2 h ++ s4) as [Hh E3].
  { unfold getnum in E4. destruct s3 as [|a [|b s3]]; try discriminate L3.
    destruct (is_digit a) eqn:A; [|discriminate]. destruct (is_digit b) eqn:B.
    - assert (getnum (a :: b :: s3) true = Some (h, s4)) as G.
      { unfold getnum. rewrite A, B. exact E4. }
      apply getnum_true_inv in G. intuition lia.
    - injection E4 as <- <-. unfold getnum in E5. rewrite B in E5. discriminate. }
  apply getnum_true_inv in E5 as [R5 ->]. subst s3.
  assert (s6 = []) as ->.
  { rewrite !app_length in L3. cbn in L3. destruct s6; [reflexivity|cbn in L3; lia]. }
  cbn [opt_fraction]. destruct (valid_day y m d) eqn:V; [|discriminate]. intros [= <-].
  assert (calendar_date y m d) as C by (apply calendar_date_spec; auto with zarith).
  assert (plain_stamp (mkTime y m d h mi sec 0 None)) as P.
  { unfold plain_stamp. cbn. intuition lia. }
  split; [exact P|]. rewrite format_timestamp_digits by assumption. cbn [tYear tMonth tDay tHour tMin tSec].
  rewrite app_nil_r. reflexivity.
Qed.

(* numbers read off the formatted texts *)
Definition mdy_number (t : time) : Z := tMonth t * 10^6 + tDay t * 10^4 + tYear t.
Definition stamp_number (t : time) : Z :=
  tMonth t * 10^12 + tDay t * 10^10 + tYear t * 10^6 + tHour t * 10^4 + tMin t * 100 + tSec t.

Lemma dval_format_date t : plain_date t ->
  forallb is_digit (format_date t) = true /\ length (format_date t) = 8%nat
  /\ dval (format_date t) = mdy_number t.
Proof.
  intros (C & _). rewrite format_date_digits by assumption. apply calendar_date_ranges in C.
  rewrite !forallb_app, !d2_digits, d4_digits by lia. split; [reflexivity|]. split; [reflexivity|].
  rewrite !dval_app, !dval_d2, dval_d4 by lia. unfold mdy_number.
  change (10 ^ Z.of_nat (length (d2 (tDay t) ++ d4 (tYear t)))) with (10^6).
  change (10 ^ Z.of_nat (length (d4 (tYear t)))) with (10^4). lia.
Qed.

Lemma dval_format_timestamp t : plain_stamp t ->
  forallb is_digit (format_timestamp t) = true /\ length (format_timestamp t) = 14%nat
  /\ dval (format_timestamp t) = stamp_number t.
Proof.
  intros P. rewrite format_timestamp_digits by assumption. destruct P as (C & Hh & Hm & Hs & _).
  apply calendar_date_ranges in C.
  rewrite !forallb_app, !d2_digits, d4_digits by lia. split; [reflexivity|]. split; [reflexivity|].
  rewrite !dval_app, !dval_d2, dval_d4 by lia. unfold stamp_number.
  repeat match goal with |- context [10 ^ Z.of_nat (length ?l)] =>
    let n := eval cbv in (Z.of_nat (length l)) in change (Z.of_nat (length l)) with n end.
  lia.
Qed.

Lemma mdy_number_range t : plain_date t -> 0 < mdy_number t < 256 ^ 3.
Proof.
  intros (C & _). apply calendar_date_ranges in C. unfold mdy_number.
  change (256 ^ 3) with 16777216. lia.
Qed.

Lemma stamp_number_range t : plain_stamp t -> 0 < stamp_number t < 256 ^ 6.
Proof.
  intros (C & Hh & Hm & Hs & _). apply calendar_date_ranges in C. unfold stamp_number.
  change (256 ^ 6) with 281474976710656. lia.
Qed.
