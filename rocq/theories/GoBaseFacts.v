(* Facts about GoBase.v *)
From Coq Require Import ZArith NArith Bool Ascii String List Lia.
Import ListNotations.
From Verif Require Import GoBase.
Local Open Scope Z_scope.
Local Notation length := List.length.

#[global] Arguments Z.mul : simpl never.
#[global] Arguments Z.add : simpl never.
#[global] Arguments Z.sub : simpl never.
#[global] Arguments Z.pow : simpl never.
#[global] Arguments Z.div : simpl never.
#[global] Arguments Z.modulo : simpl never.
#[global] Arguments Z.of_nat : simpl never.

(* ---- bytes ---- *)

Lemma bval_range c : 0 <= bval c < 256.
Proof.
  unfold bval. pose proof (N_ascii_bounded c) as H. lia.
Qed.

Lemma bval_zbyte z : bval (zbyte z) = z mod 256.
Proof.
  unfold bval, zbyte. pose proof (Z.mod_pos_bound z 256 ltac:(lia)).
  rewrite N_ascii_embedding; lia.
Qed.

Lemma zbyte_bval c : zbyte (bval c) = c.
Proof.
  unfold zbyte. pose proof (bval_range c). rewrite Z.mod_small by lia.
  unfold bval. rewrite N2Z.id. apply ascii_N_embedding.
Qed.

Lemma bval_inj a b : bval a = bval b -> a = b.
Proof. intros H. rewrite <- (zbyte_bval a), <- (zbyte_bval b), H. reflexivity. Qed.

Lemma byte_eqb_eq a b : byte_eqb a b = true <-> a = b.
Proof. unfold byte_eqb. apply Ascii.eqb_eq. Qed.

Lemma byte_eqb_refl a : byte_eqb a a = true.
Proof. apply byte_eqb_eq. reflexivity. Qed.

Lemma byte_eqb_neq a b : byte_eqb a b = false <-> a <> b.
Proof. unfold byte_eqb. apply Ascii.eqb_neq. Qed.

Lemma bytes_eqb_eq a b : bytes_eqb a b = true <-> a = b.
Proof.
  revert b. induction a as [|x a IH]; intros [|y b]; simpl; split; intro H;
    try reflexivity; try discriminate.
  - apply andb_prop in H as [H1 H2]. apply byte_eqb_eq in H1. apply IH in H2. congruence.
  - injection H as -> ->. rewrite byte_eqb_refl. apply IH. reflexivity.
Qed.

Lemma bytes_eqb_refl a : bytes_eqb a a = true.
Proof. apply bytes_eqb_eq. reflexivity. Qed.

Lemma bytes_eqb_neq a b : bytes_eqb a b = false <-> a <> b.
Proof.
  split; intro H.
  - intro E. apply bytes_eqb_eq in E. congruence.
  - destruct (bytes_eqb a b) eqn:E; [|reflexivity]. apply bytes_eqb_eq in E. contradiction.
Qed.

Lemma one_of_spec s l : one_of s l = true <-> exists c, In c l /\ s = lit c.
Proof.
  unfold one_of. rewrite existsb_exists. split; intros [c [H1 H2]]; exists c; split; auto;
    apply bytes_eqb_eq; assumption.
Qed.

(* ---- lists ---- *)

Lemma slice_ok s a b : (a <= b)%nat -> (b <= length s)%nat ->
  slice s a b = Some (firstn (b - a) (skipn a s)).
Proof.
  intros H1 H2. unfold slice.
  rewrite (proj2 (Nat.leb_le _ _) H1), (proj2 (Nat.leb_le _ _) H2). reflexivity.
Qed.

Lemma firstn_app_exact {A} (a b : list A) n : n = length a -> firstn n (a ++ b) = a.
Proof. intros ->. rewrite firstn_app, firstn_all, Nat.sub_diag. simpl. apply app_nil_r. Qed.

Lemma skipn_app_exact {A} (a b : list A) n : n = length a -> skipn n (a ++ b) = b.
Proof. intros ->. rewrite skipn_app, skipn_all, Nat.sub_diag. reflexivity. Qed.

Lemma slice_mid a b c n m : n = length a -> m = (n + length b)%nat ->
  slice (a ++ b ++ c) n m = Some b.
Proof.
  intros -> ->. rewrite slice_ok; [|lia|rewrite !app_length; lia].
  rewrite skipn_app_exact by reflexivity.
  rewrite firstn_app_exact; [reflexivity|lia].
Qed.

Lemma slice_length s a b d : slice s a b = Some d -> length d = (b - a)%nat.
Proof.
  unfold slice. destruct (Nat.leb_spec a b), (Nat.leb_spec b (length s)); simpl; try discriminate.
  intros [= <-]. rewrite firstn_length, skipn_length. lia.
Qed.

Lemma forallb_app {A} (p : A -> bool) a b : forallb p (a ++ b) = forallb p a && forallb p b.
Proof. induction a; simpl; [reflexivity|]. rewrite IHa. apply andb_assoc. Qed.

Lemma forallb_repeat {A} (p : A -> bool) x n : p x = true -> forallb p (repeat x n) = true.
Proof. intros H. induction n; simpl; [reflexivity|]. rewrite H, IHn. reflexivity. Qed.

Lemma forallb_firstn {A} (p : A -> bool) n l : forallb p l = true -> forallb p (firstn n l) = true.
Proof.
  revert l. induction n; intros [|x l]; simpl; auto. intros H.
  apply andb_prop in H as [-> H]. rewrite IHn by assumption. reflexivity.
Qed.

Lemma forallb_skipn {A} (p : A -> bool) n l : forallb p l = true -> forallb p (skipn n l) = true.
Proof.
  revert l. induction n; intros [|x l]; simpl; auto. intros H.
  apply andb_prop in H as [_ H]. auto.
Qed.

Lemma forallb_impl {A} (p q : A -> bool) l :
  (forall x, p x = true -> q x = true) -> forallb p l = true -> forallb q l = true.
Proof.
  intros H. induction l; simpl; auto. intros E. apply andb_prop in E as [E1 E2].
  rewrite H, IHl by assumption. reflexivity.
Qed.

Lemma forallb_Forall {A} (p : A -> bool) l : forallb p l = true <-> Forall (fun x => p x = true) l.
Proof. rewrite forallb_forall, Forall_forall. reflexivity. Qed.

(* ---- digits ---- *)

Lemma is_digit_spec c : is_digit c = true <-> 48 <= bval c <= 57.
Proof. unfold is_digit. rewrite andb_true_iff, !Z.leb_le. reflexivity. Qed.

Lemma digit_val_range c : is_digit c = true -> 0 <= digit_val c < 10.
Proof. rewrite is_digit_spec. unfold digit_val. lia. Qed.

Lemma is_digit_digit_char d : 0 <= d < 10 -> is_digit (digit_char d) = true.
Proof.
  intros H. apply is_digit_spec. unfold digit_char. rewrite bval_zbyte, Z.mod_small; lia.
Qed.

Lemma digit_val_char d : 0 <= d < 10 -> digit_val (digit_char d) = d.
Proof.
  intros H. unfold digit_val, digit_char. rewrite bval_zbyte, Z.mod_small; lia.
Qed.

Lemma digit_char_val c : is_digit c = true -> digit_char (digit_val c) = c.
Proof.
  intros H. unfold digit_char, digit_val. replace (48 + (bval c - 48)) with (bval c) by lia.
  apply zbyte_bval.
Qed.

Lemma is_digit_zero : is_digit zero_char = true.
Proof. reflexivity. Qed.

Lemma dval_acc_spec a s : dval_acc a s = a * 10 ^ Z.of_nat (length s) + dval s.
Proof.
  unfold dval. revert a. induction s as [|c s IH]; intros a.
  - simpl. lia.
  - cbn [dval_acc length]. rewrite (IH (10 * a + digit_val c)), (IH (10 * 0 + digit_val c)).
    rewrite Nat2Z.inj_succ, Z.pow_succ_r by lia. lia.
Qed.

Lemma dval_cons c s : dval (c :: s) = digit_val c * 10 ^ Z.of_nat (length s) + dval s.
Proof. unfold dval at 1. cbn [dval_acc]. rewrite dval_acc_spec. f_equal. Qed.

Lemma dval_app a b : dval (a ++ b) = dval a * 10 ^ Z.of_nat (length b) + dval b.
Proof.
  induction a as [|c a IH]; [reflexivity|].
  rewrite <- app_comm_cons, !dval_cons, IH, app_length, Nat2Z.inj_add, Z.pow_add_r by lia. ring.
Qed.

Lemma dval_range s : forallb is_digit s = true -> 0 <= dval s < 10 ^ Z.of_nat (length s).
Proof.
  induction s as [|c s IH]; intros H.
  - cbn. lia.
  - apply andb_prop in H as [H1 H2]. specialize (IH H2).
    rewrite dval_cons. apply digit_val_range in H1. cbn [length].
    rewrite Nat2Z.inj_succ, Z.pow_succ_r by lia.
    nia.
Qed.

Lemma dval_zeros n s : dval (repeat zero_char n ++ s) = dval s.
Proof.
  induction n; [reflexivity|]. cbn [repeat]. rewrite <- app_comm_cons, dval_cons, IHn.
  replace (digit_val zero_char) with 0 by reflexivity. lia.
Qed.

Lemma dval_inj a b : forallb is_digit a = true -> forallb is_digit b = true ->
  length a = length b -> dval a = dval b -> a = b.
Proof.
  revert b. induction a as [|x a IH]; intros [|y b] Ha Hb Hl Hv; try discriminate; [reflexivity|].
  apply andb_prop in Ha as [Hx Ha]. apply andb_prop in Hb as [Hy Hb].
  injection Hl as Hl. rewrite !dval_cons, Hl in Hv.
  pose proof (dval_range a Ha) as Ra. pose proof (dval_range b Hb) as Rb. rewrite Hl in Ra.
  pose proof (digit_val_range x Hx). pose proof (digit_val_range y Hy).
  set (P := 10 ^ Z.of_nat (length b)) in *.
  assert (digit_val x = digit_val y) as E.
  { destruct (Z.lt_trichotomy (digit_val x) (digit_val y)) as [L|[L|L]]; [|exact L|].
    - assert ((digit_val x + 1) * P <= digit_val y * P) by (apply Z.mul_le_mono_nonneg_r; lia). lia.
    - assert ((digit_val y + 1) * P <= digit_val x * P) by (apply Z.mul_le_mono_nonneg_r; lia). lia. }
  rewrite <- (digit_char_val x Hx), <- (digit_char_val y Hy), E. f_equal.
  apply IH; auto. rewrite E in Hv. lia.
Qed.

(* ---- utoa ---- *)

Lemma udigits_spec fuel : forall z acc, 0 <= z -> z < 2 ^ Z.of_nat fuel ->
  forallb is_digit acc = true ->
  forallb is_digit (udigits fuel z acc) = true /\
  dval (udigits fuel z acc) = z * 10 ^ Z.of_nat (length acc) + dval acc.
Proof.
  induction fuel; intros z acc Hz Hlt Hacc.
  - cbn in Hlt. assert (z = 0) by lia. subst. cbn [udigits]. split; [assumption|lia].
  - cbn [udigits]. assert (0 <= z mod 10 < 10) as Hm by (apply Z.mod_pos_bound; lia).
    assert (forallb is_digit (digit_char (z mod 10) :: acc) = true) as Hacc'.
    { cbn [forallb]. rewrite is_digit_digit_char by assumption. exact Hacc. }
    assert (dval (digit_char (z mod 10) :: acc)
            = z mod 10 * 10 ^ Z.of_nat (length acc) + dval acc) as Hd.
    { rewrite dval_cons, digit_val_char by assumption. reflexivity. }
    destruct (Z.ltb_spec z 10).
    + rewrite Z.mod_small in * by lia. auto.
    + destruct (IHfuel (z / 10) (digit_char (z mod 10) :: acc)) as [I1 I2]; auto.
      * apply Z.div_pos; lia.
      * apply Z.div_lt_upper_bound; [lia|].
        rewrite Nat2Z.inj_succ, Z.pow_succ_r in Hlt by lia.
        assert (0 < 2 ^ Z.of_nat fuel) by (apply Z.pow_pos_nonneg; lia). lia.
      * split; [assumption|]. rewrite I2, Hd. cbn [length].
        rewrite Nat2Z.inj_succ, Z.pow_succ_r by lia.
        pose proof (Z.div_mod z 10 ltac:(lia)) as E.
        set (P := 10 ^ Z.of_nat (length acc)). rewrite E at 3. ring.
Qed.

Lemma utoa_fuel z : 0 <= z -> z < 2 ^ Z.of_nat (S (Z.to_nat (Z.log2 z))).
Proof.
  intros H. rewrite Nat2Z.inj_succ, Z2Nat.id by apply Z.log2_nonneg.
  destruct (Z.eq_dec z 0) as [->|]; [reflexivity|].
  apply Z.log2_spec. lia.
Qed.

Lemma utoa_digits z : 0 <= z -> forallb is_digit (utoa z) = true.
Proof. intros H. apply udigits_spec; auto using utoa_fuel. Qed.

Lemma dval_utoa z : 0 <= z -> dval (utoa z) = z.
Proof.
  intros H. unfold utoa. destruct (udigits_spec _ z [] H (utoa_fuel z H) eq_refl) as [_ E].
  rewrite E. cbn. lia.
Qed.

Lemma udigits_length fuel : forall z acc n, 0 <= z -> z < 10 ^ Z.of_nat n -> (1 <= n)%nat ->
  (length (udigits fuel z acc) <= n + length acc)%nat.
Proof.
  induction fuel; intros z acc n Hz Hlt Hn; cbn [udigits]; [lia|].
  destruct (Z.ltb_spec z 10); [cbn [length]; lia|].
  destruct n as [|[|n]]; [lia| |].
  - cbn in Hlt. lia.
  - specialize (IHfuel (z / 10) (digit_char (z mod 10) :: acc) (S n)).
    cbn [length] in IHfuel. etransitivity; [apply IHfuel|lia]; try lia.
    + apply Z.div_pos; lia.
    + apply Z.div_lt_upper_bound; [lia|]. rewrite (Nat2Z.inj_succ (S n)), Z.pow_succ_r in Hlt by lia.
      exact Hlt.
Qed.

Lemma utoa_length_le z n : 0 <= z -> z < 10 ^ Z.of_nat n -> (1 <= n)%nat ->
  (length (utoa z) <= n)%nat.
Proof.
  intros. unfold utoa. etransitivity; [apply udigits_length with (n := n)|]; auto. cbn. lia.
Qed.

Lemma udigits_length_ge fuel : forall z acc, (length acc < length (udigits fuel z acc))%nat \/ fuel = O.
Proof.
  induction fuel; intros z acc; [right; reflexivity|left]. cbn [udigits].
  destruct (z <? 10); [cbn; lia|].
  destruct (IHfuel (z / 10) (digit_char (z mod 10) :: acc)) as [H| ->]; cbn in *; lia.
Qed.

Lemma utoa_nonempty z : (1 <= length (utoa z))%nat.
Proof.
  unfold utoa. destruct (udigits_length_ge (S (Z.to_nat (Z.log2 z))) z []) as [H|H];
    [cbn [length] in H; lia|discriminate].
Qed.

(* the decimal text of a number, zero-padded to a width in which it fits *)
Lemma utoa_pad_unique z n s : 0 <= z -> forallb is_digit s = true -> length s = n ->
  dval s = z -> (1 <= n)%nat ->
  repeat zero_char (n - length (utoa z)) ++ utoa z = s.
Proof.
  intros Hz Hs Hl Hv Hn.
  assert (length (utoa z) <= n)%nat as L.
  { apply utoa_length_le; auto. pose proof (dval_range s Hs). subst. lia. }
  apply dval_inj; auto.
  - rewrite forallb_app, forallb_repeat, utoa_digits by (auto; reflexivity). reflexivity.
  - rewrite app_length, repeat_length. lia.
  - rewrite dval_zeros, dval_utoa; auto.
Qed.

(* ---- ParseInt ---- *)

Lemma digit_not_sign c : is_digit c = true ->
  byte_eqb c "+"%char = false /\ byte_eqb c "-"%char = false.
Proof.
  intros H. apply is_digit_spec in H.
  split; apply byte_eqb_neq; intros ->; cbn in H; lia.
Qed.

Lemma parse_int_digits bits s : s <> [] -> forallb is_digit s = true ->
  dval s < 2 ^ (bits - 1) -> parse_int bits s = (dval s, None).
Proof.
  intros Hne Hd Hlt. unfold parse_int. destruct s as [|c r]; [contradiction|].
  assert (is_digit c = true) as Hc by (cbn in Hd; apply andb_prop in Hd; tauto).
  destruct (digit_not_sign c Hc) as [-> ->]. rewrite Hd. cbn [negb andb].
  destruct (Z.leb_spec (2 ^ (bits - 1)) (dval (c :: r))); [lia|]. reflexivity.
Qed.

(* ---- ASCII and fmt ---- *)

Definition is_ascii (c : byte) : bool := bval c <? 128.

Lemma rune_width_ascii c s : is_ascii c = true -> rune_width (c :: s) = 1%nat.
Proof.
  intros H. unfold rune_width, in_range. apply Z.ltb_lt in H. pose proof (bval_range c).
  rewrite (proj2 (Z.leb_le 0 (bval c))), (proj2 (Z.leb_le (bval c) 127)) by lia. reflexivity.
Qed.

Lemma runes_ascii s : forallb is_ascii s = true -> runes s = map (fun c => [c]) s.
Proof.
  unfold runes. induction s as [|c s IH]; intros H; [reflexivity|].
  apply andb_prop in H as [H1 H2]. cbn [length runes_fuel]. rewrite rune_width_ascii by assumption.
  cbn [firstn skipn map]. f_equal. auto.
Qed.

Lemma concat_singletons {A} (s : list A) : List.concat (map (fun c => [c]) s) = s.
Proof. induction s; simpl; [reflexivity|]. congruence. Qed.

Lemma fmt_trunc_ascii n s : forallb is_ascii s = true -> fmt_trunc n s = firstn n s.
Proof.
  intros H. unfold fmt_trunc. rewrite runes_ascii, firstn_map by assumption. apply concat_singletons.
Qed.

Lemma pad_width_ascii n s : forallb is_ascii s = true -> pad_width n s = (n - length s)%nat.
Proof. intros H. unfold pad_width. rewrite runes_ascii, map_length by assumption. reflexivity. Qed.

Lemma fmt_zero_pad_ascii n s : forallb is_ascii s = true ->
  fmt_zero_pad n s = repeat zero_char (n - length s) ++ firstn n s.
Proof.
  intros H. unfold fmt_zero_pad. rewrite fmt_trunc_ascii by assumption.
  rewrite pad_width_ascii by (apply forallb_firstn; assumption).
  rewrite firstn_length. do 2 f_equal. lia.
Qed.

Lemma fmt_left_ascii n s : forallb is_ascii s = true ->
  fmt_left n s = firstn n s ++ repeat blank_char (n - length s).
Proof.
  intros H. unfold fmt_left. rewrite fmt_trunc_ascii by assumption.
  rewrite pad_width_ascii by (apply forallb_firstn; assumption).
  rewrite firstn_length. do 2 f_equal. lia.
Qed.

Lemma fmt_zero_pad_length n s : forallb is_ascii s = true -> length (fmt_zero_pad n s) = n.
Proof.
  intros H. rewrite fmt_zero_pad_ascii, app_length, repeat_length, firstn_length by assumption. lia.
Qed.

Lemma fmt_left_length n s : forallb is_ascii s = true -> length (fmt_left n s) = n.
Proof.
  intros H. rewrite fmt_left_ascii, app_length, repeat_length, firstn_length by assumption. lia.
Qed.

Lemma is_digit_ascii c : is_digit c = true -> is_ascii c = true.
Proof. rewrite is_digit_spec. unfold is_ascii. rewrite Z.ltb_lt. lia. Qed.

Lemma itoa_ascii z : forallb is_ascii (itoa z) = true.
Proof.
  unfold itoa. destruct (Z.ltb_spec z 0).
  - cbn [forallb]. apply (forallb_impl is_digit); [exact is_digit_ascii|]. apply utoa_digits. lia.
  - apply (forallb_impl is_digit); [exact is_digit_ascii|]. apply utoa_digits. lia.
Qed.

(* ---- TrimRight ---- *)

Definition no_trailing_blank (s : bytes) : Prop := forall t, s <> t ++ [blank_char].

Lemma trim_right_blanks n : trim_right (repeat blank_char n) = [].
Proof. induction n; simpl; [reflexivity|]. rewrite IHn. reflexivity. Qed.

Lemma trim_right_app_blanks s n : trim_right (s ++ repeat blank_char n) = trim_right s.
Proof.
  induction s as [|c s IH]; simpl; [apply trim_right_blanks|]. rewrite IH. reflexivity.
Qed.

Lemma trim_right_no_blank s : no_trailing_blank (trim_right s).
Proof.
  induction s as [|c s IH]; intros t; simpl.
  - destruct t; discriminate.
  - destruct (trim_right s) as [|d r] eqn:E.
    + destruct (byte_eqb c blank_char) eqn:B; [destruct t; discriminate|].
      apply byte_eqb_neq in B. destruct t as [|x t]; simpl; [congruence|].
      destruct t; discriminate.
    + destruct t as [|x t]; simpl; [discriminate|].
      intros [= -> Ht]. exact (IH t Ht).
Qed.

Lemma trim_right_id s : no_trailing_blank s -> trim_right s = s.
Proof.
  induction s as [|c s IH]; intros H; [reflexivity|]. simpl.
  destruct s as [|d s].
  - simpl. destruct (byte_eqb c blank_char) eqn:B; [|reflexivity].
    apply byte_eqb_eq in B. subst. exfalso. apply (H []). reflexivity.
  - rewrite IH; [reflexivity|]. intros t Ht. apply (H (c :: t)). rewrite Ht. reflexivity.
Qed.

Lemma trim_right_pad s : s = trim_right s ++ repeat blank_char (length s - length (trim_right s)).
Proof.
  induction s as [|c s IH]; [reflexivity|]. simpl trim_right.
  destruct (trim_right s) as [|d r] eqn:E.
  - destruct (byte_eqb c blank_char) eqn:B.
    + apply byte_eqb_eq in B. subst. simpl. simpl in IH. rewrite Nat.sub_0_r in IH. f_equal.
      exact IH.
    + simpl in IH |- *. rewrite Nat.sub_0_r in *. f_equal. exact IH.
  - simpl app. f_equal. simpl length in *. exact IH.
Qed.

Lemma trim_right_length s : (length (trim_right s) <= length s)%nat.
Proof.
  induction s as [|c s IH]; simpl; [lia|].
  destruct (trim_right s); simpl in *; [|lia]. destruct (byte_eqb c blank_char); simpl; lia.
Qed.

Lemma trim_right_forallb p s : forallb p s = true -> forallb p (trim_right s) = true.
Proof.
  intros H. rewrite (trim_right_pad s), forallb_app in H. apply andb_prop in H. tauto.
Qed.

(* ---- big endian ---- *)

Lemma be_val_acc_spec a s : be_val_acc a s = a * 256 ^ Z.of_nat (length s) + be_val s.
Proof.
  unfold be_val. revert a. induction s as [|c s IH]; intros a.
  - simpl. lia.
  - cbn [be_val_acc length]. rewrite (IH (256 * a + bval c)), (IH (256 * 0 + bval c)).
    rewrite Nat2Z.inj_succ, Z.pow_succ_r by lia. lia.
Qed.

Lemma be_val_cons c s : be_val (c :: s) = bval c * 256 ^ Z.of_nat (length s) + be_val s.
Proof. unfold be_val at 1. cbn [be_val_acc]. rewrite be_val_acc_spec. f_equal. Qed.

Lemma be_val_app a b : be_val (a ++ b) = be_val a * 256 ^ Z.of_nat (length b) + be_val b.
Proof.
  induction a as [|c a IH]; [reflexivity|].
  rewrite <- app_comm_cons, !be_val_cons, IH, app_length, Nat2Z.inj_add, Z.pow_add_r by lia. ring.
Qed.

Lemma be_val_range s : 0 <= be_val s < 256 ^ Z.of_nat (length s).
Proof.
  induction s as [|c s IH]; [cbn; lia|]. rewrite be_val_cons. pose proof (bval_range c).
  cbn [length]. rewrite Nat2Z.inj_succ, Z.pow_succ_r by lia. nia.
Qed.

Lemma be_val_zeros n s : be_val (repeat (zbyte 0) n ++ s) = be_val s.
Proof.
  induction n; [reflexivity|]. cbn [repeat]. rewrite <- app_comm_cons, be_val_cons, IHn.
  replace (bval (zbyte 0)) with 0 by reflexivity. lia.
Qed.

Lemma be_val_zeros_only n : be_val (repeat (zbyte 0) n) = 0.
Proof. rewrite <- (app_nil_r (repeat _ _)), be_val_zeros. reflexivity. Qed.

Lemma be_bytes_length n z : length (be_bytes n z) = n.
Proof. revert z. induction n; intros z; cbn [be_bytes]; [reflexivity|].
  rewrite app_length, IHn. cbn. lia. Qed.

Lemma be_val_be_bytes n z : be_val (be_bytes n z) = z mod 256 ^ Z.of_nat n.
Proof.
  revert z. induction n; intros z; cbn [be_bytes].
  - cbn. rewrite Z.mod_1_r. reflexivity.
  - rewrite be_val_app, IHn. cbn [length]. change (Z.of_nat 1) with 1. rewrite Z.pow_1_r.
    unfold be_val at 1. cbn [be_val_acc]. rewrite bval_zbyte.
    rewrite Nat2Z.inj_succ, Z.pow_succ_r by lia.
    assert (0 < 256 ^ Z.of_nat n) by (apply Z.pow_pos_nonneg; lia).
    rewrite Z.rem_mul_r by lia. lia.
Qed.

Lemma be_bytes_be_val s : be_bytes (length s) (be_val s) = s.
Proof.
  induction s as [|c s IH] using rev_ind; [reflexivity|].
  rewrite app_length. cbn [length]. rewrite Nat.add_1_r. cbn [be_bytes].
  rewrite be_val_app. cbn [length]. change (256 ^ Z.of_nat 1) with 256.
  unfold be_val at 2 4. cbn [be_val_acc]. pose proof (bval_range c).
  replace (256 * 0 + bval c) with (bval c) by lia.
  rewrite Z.add_comm, Z.div_add, Z.div_small, Z.add_0_l by lia. rewrite IH. f_equal. f_equal.
  apply bval_inj. rewrite bval_zbyte, Z.mod_add, Z.mod_small; lia.
Qed.

Lemma be_val_inj a b : length a = length b -> be_val a = be_val b -> a = b.
Proof.
  intros L E. rewrite <- (be_bytes_be_val a), <- (be_bytes_be_val b), L, E. reflexivity.
Qed.

Lemma all_char_spec c s : all_char c s = true <-> s = repeat c (length s).
Proof.
  unfold all_char. induction s as [|x s IH]; simpl; [tauto|].
  rewrite andb_true_iff, byte_eqb_eq, IH. split.
  - intros [<- H]. congruence.
  - intros [= -> H]. split; [reflexivity|assumption].
Qed.
