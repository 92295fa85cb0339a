(* One field: what toString writes for a fitting value, and that isValidType and
   parseValue read it back. *)
From Coq Require Import ZArith NArith Bool Ascii String List Lia.
Import ListNotations.
From Verif Require Import GoBase GoBaseFacts GoTime Regex Tables Codec SpecCodec TimeFacts.
Local Open Scope Z_scope.
Local Notation length := List.length.

(* ---- the specification's notions and the model's ---- *)

Lemma existsb_In c l : existsb (byte_eqb c) l = true <-> In c l.
Proof.
  rewrite existsb_exists. split.
  - intros [x [H E]]. apply byte_eqb_eq in E. subst. exact H.
  - intros H. exists c. rewrite byte_eqb_refl. auto.
Qed.

Lemma digits_spec c : In c digits <-> is_digit c = true.
Proof.
  rewrite <- existsb_In.
  assert (existsb (byte_eqb c) digits = is_digit c) as ->; [|tauto].
  destruct c as [[] [] [] [] [] [] [] []]; vm_compute; reflexivity.
Qed.

Lemma text_chars_spec c : In c text_chars <-> alnum_char c = true.
Proof.
  rewrite <- existsb_In.
  assert (existsb (byte_eqb c) text_chars = alnum_char c) as ->; [|tauto].
  destruct c as [[] [] [] [] [] [] [] []]; vm_compute; reflexivity.
Qed.

Lemma alnum_ascii c : alnum_char c = true -> is_ascii c = true.
Proof.
  destruct c as [[] [] [] [] [] [] [] []]; vm_compute; auto.
Qed.

Lemma alnum_not_crlf c : alnum_char c = true -> c <> cr_char /\ c <> lf_char.
Proof.
  intros H. split; intros ->; discriminate.
Qed.

Lemma decimal_dval s : decimal s = dval s.
Proof. induction s as [|c s IH]; [reflexivity|]. cbn [decimal]. rewrite dval_cons, IH. reflexivity. Qed.

Lemma binary_be_val s : binary s = be_val s.
Proof. induction s as [|c s IH]; [reflexivity|]. cbn [binary]. rewrite be_val_cons, IH. reflexivity. Qed.

Lemma forall_digits s : Forall (fun c => In c digits) s <-> forallb is_digit s = true.
Proof. rewrite forallb_Forall, !Forall_forall. setoid_rewrite digits_spec. reflexivity. Qed.

Lemma forall_text s : Forall (fun c => In c text_chars) s <-> forallb alnum_char s = true.
Proof. rewrite forallb_Forall, !Forall_forall. setoid_rewrite text_chars_spec. reflexivity. Qed.

Lemma decimal_text_spec w z s :
  decimal_text w z s <-> length s = w /\ forallb is_digit s = true /\ dval s = z.
Proof. unfold decimal_text. rewrite forall_digits, decimal_dval. reflexivity. Qed.

Lemma alphanumeric_regex_spec s : alphanumeric_regex s = false <-> forallb alnum_char s = true.
Proof.
  unfold alphanumeric_regex. induction s as [|c s IH]; simpl; [tauto|].
  rewrite orb_false_iff, andb_true_iff, IH, negb_false_iff. reflexivity.
Qed.

Lemma d2_decimal z : 0 <= z < 100 -> decimal_text 2 z (d2 z).
Proof. intros. apply decimal_text_spec. auto using d2_digits, dval_d2. Qed.

Lemma d4_decimal z : 0 <= z < 10000 -> decimal_text 4 z (d4 z).
Proof. intros. apply decimal_text_spec. auto using d4_digits, dval_d4. Qed.

(* ---- layout entries ---- *)

Definition type_ok (k : fkind) (t : N) : bool :=
  let is n := N.eqb t n || N.eqb t (N.lor n zeroFill) in
  match k with
  | FNumber => is numeric
  | FText => N.eqb t alphanumeric
  | FDate => is date
  | FStamp => is timestamp
  | FWord => is descriptor
  | FBinary => is packedNumber
  | FBinDate => is packedDate
  | FBinStamp => is packedTimestamp
  | FReserved => N.eqb t alphanumeric || N.eqb t numeric
  end.

Definition width_ok (k : fkind) (w : nat) : bool :=
  match k with
  | FNumber => (Nat.leb 1 w && Nat.leb w 18)%nat
  | FText => Nat.leb 1 w
  | FDate => Nat.eqb w 8
  | FStamp => Nat.eqb w 14
  | FWord => Nat.eqb w 4
  | FBinary => (Nat.leb 1 w && Nat.leb w 7)%nat
  | FBinDate => Nat.eqb w 5
  | FBinStamp => Nat.eqb w 8
  | FReserved => true
  end.

Definition is_required (r : requirement) : bool :=
  match r with required => true | _ => false end.

(* the layout entry f implements the documented field d *)
Definition entry_ok (d : doc_field) (f : field) : bool :=
  Nat.eqb (fLength f) (dWidth d) && type_ok (dKind d) (fType f) && width_ok (dKind d) (dWidth d)
  && Bool.eqb (dMust d) (is_required (fRequired f)).

Definition fk_kind (k : fkind) : kind :=
  match k with
  | FNumber | FWord | FBinary => KInt
  | FText | FReserved => KStr
  | FDate | FStamp | FBinDate | FBinStamp => KTime
  end.

Lemma fits_kind d v : fits d v -> kind_of v = fk_kind (dKind d).
Proof. unfold fits. destruct (dKind d), v; simpl; tauto. Qed.

(* ---- numbers ---- *)

Lemma number_text w z : (1 <= w)%nat -> 0 <= z < 10 ^ Z.of_nat w ->
  let s := fmt_zero_pad w (itoa z) in
  length s = w /\ forallb is_digit s = true /\ dval s = z.
Proof.
  intros Hw Hz s. assert (length (utoa z) <= w)%nat as L by (apply utoa_length_le; lia).
  assert (s = repeat zero_char (w - length (utoa z)) ++ utoa z) as E.
  { unfold s, itoa. destruct (Z.ltb_spec z 0); [lia|].
    rewrite fmt_zero_pad_ascii.
    - rewrite firstn_all2 by assumption. reflexivity.
    - apply (forallb_impl is_digit); [exact is_digit_ascii|]. apply utoa_digits. lia. }
  rewrite E. split; [|split].
  - rewrite app_length, repeat_length. lia.
  - rewrite forallb_app, forallb_repeat, utoa_digits by (auto; lia). reflexivity.
  - rewrite dval_zeros, dval_utoa; lia.
Qed.

Lemma pow10_18 w : (w <= 18)%nat -> 10 ^ Z.of_nat w <= 10 ^ 18.
Proof. intros. apply Z.pow_le_mono_r; lia. Qed.

Lemma parse_int_width w s : (1 <= w <= 18)%nat -> length s = w -> forallb is_digit s = true ->
  parse_int 64 s = (dval s, None).
Proof.
  intros Hw L D. apply parse_int_digits; auto.
  - intros ->. cbn in L. lia.
  - pose proof (dval_range s D). pose proof (pow10_18 w ltac:(lia)). subst w.
    change (2 ^ (64 - 1)) with 9223372036854775808. change (10 ^ 18) with 1000000000000000000 in *. lia.
Qed.

Lemma numeric_regex_digits s : s <> [] -> forallb is_digit s = true -> numeric_regex s = true.
Proof.
  destruct s as [|c s]; [contradiction|]. intros _ H. cbn in H. apply andb_prop in H as [H _].
  unfold numeric_regex. cbn [existsb]. unfold is_digit in H. unfold in_range at 1. rewrite H. reflexivity.
Qed.

(* ---- texts ---- *)

Lemma text_written w s : (length s <= w)%nat -> forallb alnum_char s = true ->
  fmt_left w s = s ++ repeat blank_char (w - length s).
Proof.
  intros L A. rewrite fmt_left_ascii.
  - rewrite firstn_all2 by assumption. reflexivity.
  - apply (forallb_impl alnum_char); auto using alnum_ascii.
Qed.

(* ---- packed times ---- *)

Lemma packed_date_string t : plain_date t ->
  packed_time_string (VTime t) format_date 5 = zbyte 0 :: be_bytes 3 (mdy_number t) ++ [zbyte 115].
Proof.
  intros P. unfold packed_time_string. destruct (dval_format_date t P) as (D & L & V).
  rewrite (parse_int_width 8) by (auto; lia). rewrite V. cbn [fst].
  pose proof (mdy_number_range t P). destruct (Z.ltb_spec 0 (mdy_number t)); [|lia]. reflexivity.
Qed.

Lemma packed_stamp_string t : plain_stamp t ->
  packed_time_string (VTime t) format_timestamp 8
  = zbyte 0 :: be_bytes 6 (stamp_number t) ++ [zbyte 115].
Proof.
  intros P. unfold packed_time_string. destruct (dval_format_timestamp t P) as (D & L & V).
  rewrite (parse_int_width 14) by (auto; lia). rewrite V. cbn [fst].
  pose proof (stamp_number_range t P). destruct (Z.ltb_spec 0 (stamp_number t)); [|lia]. reflexivity.
Qed.

Lemma be_bytes_3 z : exists a b c, be_bytes 3 z = [a; b; c].
Proof. cbn. eauto. Qed.

Lemma packed_time_value_3 z : 0 <= z < 256 ^ 3 ->
  packed_time_value 5 (zbyte 0 :: be_bytes 3 z ++ [zbyte 115]) = Ok z.
Proof.
  intros H. unfold packed_time_value. cbn [be_bytes app nth_error Nat.sub skipn firstn].
  rewrite !bval_zbyte. change (0 mod 256 =? 0) with true. change (115 mod 256 =? 115) with true.
  cbn [andb].
  change [zbyte (z / 256 / 256); zbyte (z / 256); zbyte z] with (be_bytes 3 z).
  rewrite be_val_be_bytes. change (Z.of_nat 3) with 3. rewrite Z.mod_small by lia.
  unfold safecast_i64. change (256 ^ 3) with 16777216 in H.
  change (2 ^ 63) with 9223372036854775808. destruct (Z.ltb_spec z 9223372036854775808); [reflexivity|lia].
Qed.

Lemma packed_time_value_6 z : 0 <= z < 256 ^ 6 ->
  packed_time_value 8 (zbyte 0 :: be_bytes 6 z ++ [zbyte 115]) = Ok z.
Proof.
  intros H. unfold packed_time_value. cbn [be_bytes app nth_error Nat.sub skipn firstn].
  rewrite !bval_zbyte. change (0 mod 256 =? 0) with true. change (115 mod 256 =? 115) with true.
  cbn [andb].
  match goal with |- safecast_i64 (be_val ?l) = _ => change l with (be_bytes 6 z) end.
  rewrite be_val_be_bytes. change (Z.of_nat 6) with 6. rewrite Z.mod_small by lia.
  unfold safecast_i64. change (256 ^ 6) with 281474976710656 in H.
  change (2 ^ 63) with 9223372036854775808. destruct (Z.ltb_spec z 9223372036854775808); [reflexivity|lia].
Qed.

Lemma fmt_0d_unique w z s : 0 <= z -> forallb is_digit s = true -> length s = w -> dval s = z ->
  (1 <= w)%nat -> fmt_0d w z = s.
Proof.
  intros. unfold fmt_0d. destruct (Z.ltb_spec z 0); [lia|]. apply utoa_pad_unique; auto.
Qed.

Lemma not_all_zero s : forallb is_digit s = true -> 0 < dval s -> all_char zero_char s = false.
Proof.
  intros D V. destruct (all_char zero_char s) eqn:E; [|reflexivity].
  apply all_char_spec in E. rewrite E in V. rewrite <- (app_nil_r (repeat _ _)), dval_zeros in V.
  cbv in V. discriminate.
Qed.

Lemma time_from_date_string_format t : plain_date t -> time_from_date_string (format_date t) = Ok t.
Proof.
  intros P. unfold time_from_date_string. destruct (dval_format_date t P) as (D & L & V).
  rewrite not_all_zero by (auto; rewrite V; apply mdy_number_range; assumption).
  rewrite parse_date_format by assumption. reflexivity.
Qed.

Lemma time_from_timestamp_string_format t : plain_stamp t ->
  time_from_timestamp_string (format_timestamp t) = Ok t.
Proof.
  intros P. unfold time_from_timestamp_string. destruct (dval_format_timestamp t P) as (D & L & V).
  rewrite not_all_zero by (auto; rewrite V; apply stamp_number_range; assumption).
  rewrite parse_timestamp_format by assumption. reflexivity.
Qed.

Lemma packed_date_round t : plain_date t ->
  time_from_packed_date_string (zbyte 0 :: be_bytes 3 (mdy_number t) ++ [zbyte 115]) = Ok t.
Proof.
  intros P. unfold time_from_packed_date_string. pose proof (mdy_number_range t P).
  rewrite packed_time_value_3 by lia. destruct (dval_format_date t P) as (D & L & V).
  rewrite (fmt_0d_unique 8 _ (format_date t)) by (auto; lia).
  apply time_from_date_string_format. assumption.
Qed.

Lemma packed_stamp_round t : plain_stamp t ->
  time_from_packed_timestamp_string (zbyte 0 :: be_bytes 6 (stamp_number t) ++ [zbyte 115]) = Ok t.
Proof.
  intros P. unfold time_from_packed_timestamp_string. pose proof (stamp_number_range t P).
  rewrite packed_time_value_6 by lia. destruct (dval_format_timestamp t P) as (D & L & V).
  rewrite (fmt_0d_unique 14 _ (format_timestamp t)) by (auto; lia).
  apply time_from_timestamp_string_format. assumption.
Qed.

(* ---- packed numbers ---- *)

Lemma be_bytes_0 w : be_bytes w 0 = repeat (zbyte 0) w.
Proof.
  induction w; [reflexivity|]. cbn [be_bytes]. change (0 / 256) with 0. rewrite IHw.
  change [zbyte 0] with (repeat (zbyte 0) 1). rewrite <- repeat_app. f_equal. lia.
Qed.

Lemma packed_number_string_be w z : 0 <= z -> packed_number_string z w = be_bytes w z.
Proof.
  intros H. unfold packed_number_string. destruct (Z.ltb_spec 0 z); [reflexivity|].
  replace z with 0 by lia. symmetry. apply be_bytes_0.
Qed.

Lemma pow256_7 w : (w <= 7)%nat -> 256 ^ Z.of_nat w <= 256 ^ 7.
Proof. intros. apply Z.pow_le_mono_r; lia. Qed.

Lemma packed_number_from_be s : (length s <= 7)%nat -> packed_number_from_string s = Ok (be_val s).
Proof.
  intros L. unfold packed_number_from_string.
  rewrite firstn_all2 by (rewrite app_length, repeat_length; lia).
  rewrite be_val_zeros. unfold safecast_i64. pose proof (be_val_range s). pose proof (pow256_7 _ L).
  change (256 ^ 7) with 72057594037927936 in *. change (2 ^ 63) with 9223372036854775808.
  destruct (Z.ltb_spec (be_val s) 9223372036854775808); [reflexivity|lia].
Qed.

(* ---- the field lemma ---- *)

Definition reads_back (f : field) (s : bytes) (v : value) : Prop :=
  forall n r, is_valid_type f s n r = None /\ parse_value f s n r = Ok v.

Lemma format_date_not_filled t : plain_date t -> valid_filled_string (format_date t) = false.
Proof.
  intros P. destruct (dval_format_date t P) as (D & L & V). unfold valid_filled_string.
  rewrite not_all_zero by (auto; rewrite V; apply mdy_number_range; assumption). cbn [orb].
  destruct P as (C & _). rewrite format_date_digits by assumption.
  apply calendar_date_ranges in C. unfold d2 at 1 3. cbn [app all_char forallb].
  assert (forall c x s, 0 <= x < 9 -> (byte_eqb c (digit_char x) && s)%bool = true -> c = digit_char x) as Q.
  { intros c x s _ E. apply andb_prop in E as [E _]. apply byte_eqb_eq in E. exact E. }
  apply orb_false_iff. split; match goal with |- ?b = false => destruct b eqn:E; [|reflexivity] end;
    apply andb_prop in E as [E _]; apply byte_eqb_eq in E; exfalso.
  - assert (digit_val nine_char = digit_val (digit_char (tMonth t / 10))) as F by congruence.
    rewrite digit_val_char in F by euclid. change (digit_val nine_char) with 9 in F. euclid.
  - assert (digit_val blank_char = digit_val (digit_char (tMonth t / 10))) as F by congruence.
    rewrite digit_val_char in F by euclid. change (digit_val blank_char) with (-16) in F. euclid.
Qed.

Lemma format_timestamp_not_filled t : plain_stamp t -> valid_filled_string (format_timestamp t) = false.
Proof.
  intros P. destruct (dval_format_timestamp t P) as (D & L & V). unfold valid_filled_string.
  rewrite not_all_zero by (auto; rewrite V; apply stamp_number_range; assumption). cbn [orb].
  rewrite format_timestamp_digits by assumption. destruct P as (C & _).
  apply calendar_date_ranges in C. unfold d2 at 1. unfold d2 at 5. cbn [app all_char forallb].
  apply orb_false_iff. split; match goal with |- ?b = false => destruct b eqn:E; [|reflexivity] end;
    apply andb_prop in E as [E _]; apply byte_eqb_eq in E; exfalso.
  - assert (digit_val nine_char = digit_val (digit_char (tMonth t / 10))) as F by congruence.
    rewrite digit_val_char in F by euclid. change (digit_val nine_char) with 9 in F. euclid.
  - assert (digit_val blank_char = digit_val (digit_char (tMonth t / 10))) as F by congruence.
    rewrite digit_val_char in F by euclid. change (digit_val blank_char) with (-16) in F. euclid.
Qed.

Ltac split_type H :=
  unfold type_ok in H; try (apply orb_prop in H as [H|H]); apply N.eqb_eq in H; cbn in H;
  match type of H with ?t = _ => subst t end.

Lemma time_eq_dec (a b : time) : {a = b} + {a <> b}.
Proof. decide equality; try apply Z.eq_dec. decide equality. apply Z.eq_dec. Qed.

Lemma field_written d f v : entry_ok d f = true -> dKind d <> FReserved -> fits d v ->
  let s := to_string f (Some v) in
  length s = dWidth d /\ written d v s /\ reads_back f s v.
Proof.
  intros E K Ft. destruct d as [n w k must]. destruct f as [start len ty req].
  unfold entry_ok in E. cbn [fLength dWidth dKind fType dMust fRequired] in E.
  apply andb_prop in E as [E Er]. apply andb_prop in E as [E Ew]. apply andb_prop in E as [El Et].
  apply Nat.eqb_eq in El. subst len. apply Bool.eqb_prop in Er. subst must.
  cbn [dKind] in K. unfold fits in Ft. cbn [dKind dWidth dMust] in Ft. unfold written. cbn [dKind dWidth].
  destruct k; try contradiction; destruct v as [z|s|t]; try contradiction;
    cbn [width_ok] in Ew.
  - (* number *)
    apply andb_prop in Ew as [W1 W2]. apply Nat.leb_le in W1, W2.
    destruct Ft as [Fz Fr]. destruct (number_text w z W1 Fz) as (L & D & V).
    assert (to_string (mkField start w ty req) (Some (VInt z)) = fmt_zero_pad w (itoa z)) as ->.
    { split_type Et; reflexivity. }
    set (s := fmt_zero_pad w (itoa z)) in *. cbv zeta.
    split; [exact L|]. split; [apply decimal_text_spec; auto|].
    assert (s <> []) as Ne by (intros ->; cbn in L; lia).
    pose proof (parse_int_width w s ltac:(lia) L D) as Pi.
    intros fn rn. unfold is_valid_type, parse_value, atoi.
    rewrite Pi, numeric_regex_digits by assumption. rewrite V.
    split_type Et; cbn [fType fRequired has N.land N.eqb negb orb andb fst snd];
      (destruct req; cbn in Fr |- *; [auto| |auto]);
      (destruct (Z.eqb_spec z 0); [exfalso; apply Fr; auto|auto]).
  - (* text *)
    apply Nat.leb_le in Ew. destruct Ft as (L & A & B). apply forall_text in A.
    assert (to_string (mkField start w ty req) (Some (VStr s)) = fmt_left w s) as ->.
    { split_type Et; reflexivity. }
    rewrite text_written by assumption. cbv zeta.
    set (u := s ++ repeat blank_char (w - length s)).
    assert (length u = w) as Lu by (unfold u; rewrite app_length, repeat_length; lia).
    split; [exact Lu|]. split; [reflexivity|].
    assert (alphanumeric_regex u = false) as Au.
    { apply alphanumeric_regex_spec. unfold u. rewrite forallb_app, A, forallb_repeat; reflexivity. }
    intros fn rn. unfold is_valid_type, parse_value. rewrite Au, Lu.
    unfold u. rewrite trim_right_app_blanks, trim_right_id by exact B.
    split_type Et. cbn. destruct req; cbn; auto. destruct w; [lia|]. auto.
  - (* date *)
    apply Nat.eqb_eq in Ew. subst w. destruct Ft as [P Fr].
    destruct (time_eq_dec t no_date) as [->|Nz].
    + assert (to_string (mkField start 8 ty req) (Some (VTime no_date)) = repeat zero_char 8) as ->.
      { split_type Et; reflexivity. }
      cbv zeta. split; [reflexivity|]. split; [left; auto|].
      intros fn rn. split_type Et; destruct req; cbn in Fr |- *; auto;
        exfalso; apply Fr; reflexivity.
    + assert (is_zero t = false) as Iz.
      { destruct (is_zero t) eqn:Z; [|reflexivity]. exfalso. apply Nz, plain_date_is_zero; assumption. }
      assert (to_string (mkField start 8 ty req) (Some (VTime t)) = format_date t) as ->.
      { split_type Et; cbn; rewrite Iz; reflexivity. }
      cbv zeta. destruct (dval_format_date t P) as (D & L & V). split; [exact L|]. split.
      * right. split; [exact Nz|]. rewrite format_date_digits by apply P.
        destruct P as (C & _). apply calendar_date_ranges in C.
        exists (d2 (tMonth t)), (d2 (tDay t)), (d4 (tYear t)).
        repeat (split; [first [reflexivity | apply d2_decimal; lia]|]). apply d4_decimal. lia.
      * intros fn rn. unfold is_valid_type, parse_value.
        rewrite format_date_not_filled, time_from_date_string_format by assumption.
        split_type Et; destruct req; cbn; auto.
  - (* timestamp *)
    apply Nat.eqb_eq in Ew. subst w. destruct Ft as [P Fr].
    destruct (time_eq_dec t no_date) as [->|Nz].
    + assert (to_string (mkField start 14 ty req) (Some (VTime no_date)) = repeat zero_char 14) as ->.
      { split_type Et; reflexivity. }
      cbv zeta. split; [reflexivity|]. split; [left; auto|].
      intros fn rn. split_type Et; destruct req; cbn in Fr |- *; auto;
        exfalso; apply Fr; reflexivity.
    + assert (is_zero t = false) as Iz.
      { destruct (is_zero t) eqn:Z; [|reflexivity]. exfalso. apply Nz, plain_stamp_is_zero; assumption. }
      assert (to_string (mkField start 14 ty req) (Some (VTime t)) = format_timestamp t) as ->.
      { split_type Et; cbn; rewrite Iz; reflexivity. }
      cbv zeta. destruct (dval_format_timestamp t P) as (D & L & V). split; [exact L|]. split.
      * right. split; [exact Nz|]. rewrite format_timestamp_digits by apply P.
        destruct P as (C & Hh & Hm & Hs & _). apply calendar_date_ranges in C.
        exists (d2 (tMonth t)), (d2 (tDay t)), (d4 (tYear t)), (d2 (tHour t)), (d2 (tMin t)), (d2 (tSec t)).
        repeat (split; [first [reflexivity | apply d2_decimal; lia | apply d4_decimal; lia]|]).
        apply d2_decimal. lia.
      * intros fn rn. unfold is_valid_type, parse_value.
        rewrite format_timestamp_not_filled, time_from_timestamp_string_format by assumption.
        split_type Et; destruct req; cbn; auto.
  - (* descriptor word *)
    apply Nat.eqb_eq in Ew. subst w.
    assert (to_string (mkField start 4 ty req) (Some (VInt z)) = descriptor_string z) as ->.
    { split_type Et; reflexivity. }
    cbv zeta. unfold descriptor_string, safecast_u16.
    destruct (Z.leb_spec 0 z); [|lia]. destruct (Z.leb_spec z 65535); [|lia]. cbn [andb].
    split; [reflexivity|]. split.
    + exists (be_bytes 2 z). split; [reflexivity|]. split; [reflexivity|].
      rewrite binary_be_val, be_val_be_bytes. change (256 ^ Z.of_nat 2) with 65536. apply Z.mod_small. lia.
    + intros fn rn. split_type Et; destruct req; cbn; (split; [reflexivity|]);
        do 2 f_equal; rewrite !bval_zbyte; euclid.
  - (* packed number *)
    apply andb_prop in Ew as [W1 W2]. apply Nat.leb_le in W1, W2.
    assert (to_string (mkField start w ty req) (Some (VInt z)) = be_bytes w z) as ->.
    { rewrite <- packed_number_string_be by lia. split_type Et; reflexivity. }
    cbv zeta. split; [apply be_bytes_length|]. split.
    + split; [apply be_bytes_length|]. rewrite binary_be_val, be_val_be_bytes. apply Z.mod_small. lia.
    + intros fn rn. unfold is_valid_type, parse_value.
      rewrite packed_number_from_be by (rewrite be_bytes_length; lia).
      rewrite be_val_be_bytes, Z.mod_small by lia.
      split_type Et; destruct req; cbn; auto.
  - (* packed date *)
    apply Nat.eqb_eq in Ew. subst w.
    assert (to_string (mkField start 5 ty req) (Some (VTime t))
            = zbyte 0 :: be_bytes 3 (mdy_number t) ++ [zbyte 115]) as ->.
    { rewrite <- packed_date_string by assumption. split_type Et; reflexivity. }
    cbv zeta. split; [reflexivity|]. pose proof (mdy_number_range t Ft). split.
    + exists (be_bytes 3 (mdy_number t)). split; [reflexivity|]. split; [reflexivity|].
      rewrite binary_be_val, be_val_be_bytes. change (Z.of_nat 3) with 3.
      transitivity (mdy_number t); [apply Z.mod_small; lia|reflexivity].
    + intros fn rn. unfold is_valid_type, parse_value. rewrite packed_date_round by assumption.
      split_type Et; destruct req; cbn; auto.
  - (* packed timestamp *)
    apply Nat.eqb_eq in Ew. subst w.
    assert (to_string (mkField start 8 ty req) (Some (VTime t))
            = zbyte 0 :: be_bytes 6 (stamp_number t) ++ [zbyte 115]) as ->.
    { rewrite <- packed_stamp_string by assumption. split_type Et; reflexivity. }
    cbv zeta. split; [reflexivity|]. pose proof (stamp_number_range t Ft). split.
    + exists (be_bytes 6 (stamp_number t)). split; [reflexivity|]. split; [reflexivity|].
      rewrite binary_be_val, be_val_be_bytes. change (Z.of_nat 6) with 6.
      transitivity (stamp_number t); [apply Z.mod_small; lia|reflexivity].
    + intros fn rn. unfold is_valid_type, parse_value. rewrite packed_stamp_round by assumption.
      split_type Et; destruct req; cbn; auto.
Qed.

Lemma reserved_written d f : entry_ok d f = true -> dKind d = FReserved ->
  to_string f None = repeat blank_char (dWidth d).
Proof.
  intros E K. destruct d as [n w k must]. destruct f as [start len ty req].
  unfold entry_ok in E. cbn [fLength dWidth dKind fType dMust fRequired] in E, K |- *. subst k.
  apply andb_prop in E as [E Er]. apply andb_prop in E as [E Ew]. apply andb_prop in E as [El Et].
  apply Nat.eqb_eq in El. subst len. split_type Et; reflexivity.
Qed.
