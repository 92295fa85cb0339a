(* What reading a field can produce *)
From Coq Require Import ZArith NArith Bool Ascii String List Lia.
Import ListNotations.
From Verif Require Import GoBase GoBaseFacts GoTime Regex Tables Codec SpecCodec TimeFacts FieldFacts.
Local Open Scope Z_scope.
Local Notation length := List.length.

Lemma parse_int_inv s z : parse_int 64 s = (z, None) ->
  (forallb is_digit s = true /\ s <> [] /\ z = dval s) \/
  (exists c ds, s = c :: ds /\ (c = "+" \/ c = "-")%char /\ forallb is_digit ds = true /\ ds <> [] /\
     z = (if byte_eqb c "-"%char then - dval ds else dval ds)).
Proof.
  unfold parse_int. destruct s as [|c s]; [discriminate|].
  destruct (byte_eqb c "+"%char) eqn:P.
  - apply byte_eqb_eq in P. subst c. destruct s as [|d s]; [discriminate|].
    destruct (forallb is_digit (d :: s)) eqn:D; [|discriminate].
    destruct (negb false && (2 ^ (64 - 1) <=? dval (d :: s))); [discriminate|]. cbn [andb].
    intros [= <-]. right. exists "+"%char, (d :: s). intuition. discriminate.
  - destruct (byte_eqb c "-"%char) eqn:M.
    + pose proof M as M'. apply byte_eqb_eq in M. subst c. destruct s as [|d s]; [discriminate|].
      destruct (forallb is_digit (d :: s)) eqn:D; [|discriminate]. cbn [negb andb].
      destruct (2 ^ (64 - 1) <? dval (d :: s)); [discriminate|].
      intros [= <-]. right. exists "-"%char, (d :: s). intuition. discriminate.
    + destruct (forallb is_digit (c :: s)) eqn:D; [|discriminate].
      destruct (negb false && (2 ^ (64 - 1) <=? dval (c :: s))); [discriminate|]. cbn [andb].
      intros [= <-]. left. intuition. discriminate.
Qed.

Lemma parse_int_bounds w s z : length s = w -> parse_int 64 s = (z, None) ->
  z < 10 ^ Z.of_nat w /\ (0 <= z \/ - 10 ^ (Z.of_nat w - 1) < z < 0).
Proof.
  intros L H. destruct (parse_int_inv s z H) as [(D & N & ->)|(c & ds & -> & C & D & N & ->)].
  - pose proof (dval_range s D) as R. rewrite L in R. lia.
  - pose proof (dval_range ds D) as R. cbn in L. subst w.
    assert (10 ^ Z.of_nat (length ds) <= 10 ^ Z.of_nat (S (length ds))) as Q by (apply Z.pow_le_mono_r; lia).
    replace (Z.of_nat (S (length ds)) - 1) with (Z.of_nat (length ds)) by lia.
    pose proof (Z.pow_pos_nonneg 10 (Z.of_nat (length ds))).
    destruct (byte_eqb c "-"%char); lia.
Qed.

(* ---- dates ---- *)

Lemma all_zero_text s : all_char zero_char s = true -> s = repeat zero_char (length s).
Proof. apply all_char_spec. Qed.

Lemma date_read s t : time_from_date_string s = Ok t ->
  plain_date t /\ (s = repeat zero_char (length s) /\ t = no_date \/ s = format_date t).
Proof.
  unfold time_from_date_string. destruct (all_char zero_char s) eqn:E.
  - intros [= <-]. split; [apply no_date_plain|]. left. split; [apply all_zero_text; exact E|reflexivity].
  - destruct (parse_date s) as [u|] eqn:P; [|discriminate]. intros [= <-].
    apply parse_date_inv in P as [P ->]. auto.
Qed.

Lemma stamp_read s t : length s = 14%nat -> time_from_timestamp_string s = Ok t ->
  plain_stamp t /\ (s = repeat zero_char (length s) /\ t = no_date \/ s = format_timestamp t).
Proof.
  intros L. unfold time_from_timestamp_string. destruct (all_char zero_char s) eqn:E.
  - intros [= <-]. split; [apply plain_date_stamp, no_date_plain|]. left.
    split; [apply all_zero_text; exact E|reflexivity].
  - destruct (parse_timestamp s) as [u|] eqn:P; [|discriminate]. intros [= <-].
    apply parse_timestamp_inv in P as [P ->]; auto.
Qed.

(* a digit string accepted by the timestamp layout has exactly 14 digits *)
Lemma parse_timestamp_digits s t : forallb is_digit s = true -> parse_timestamp s = Some t -> length s = 14%nat.
Proof.
  intros D. unfold parse_timestamp. destruct (parse_mdy s) as [[[[m d] y] s3]|] eqn:E; [|discriminate].
  apply parse_mdy_inv in E as (-> & Hm & Hd & Hy).
  rewrite !forallb_app in D. repeat (apply andb_prop in D as [? D]).
  destruct (getnum s3 false) as [[h s4]|] eqn:E4; [|discriminate].
  destruct (24 <=? h); [discriminate|].
  destruct (getnum s4 true) as [[mi s5]|] eqn:E5; [|discriminate].
  destruct (60 <=? mi); [discriminate|].
  destruct (getnum s5 true) as [[sec s6]|] eqn:E6; [|discriminate].
  destruct (60 <=? sec); [discriminate|].
  assert (exists x y, s3 = x :: y :: s4) as (x & y' & ->).
  { unfold getnum in E4. destruct s3 as [|a [|b s3]]; try discriminate.
    - cbn in D. destruct (is_digit a); [|discriminate]. injection E4 as <- <-. discriminate.
    - cbn in D. apply andb_prop in D as [Da D]. apply andb_prop in D as [Db D]. rewrite Da, Db in E4.
      injection E4 as <- <-. eauto. }
  cbn in D. apply andb_prop in D as [_ D]. apply andb_prop in D as [_ D].
  apply getnum_true_inv in E5 as [R5 ->]. apply getnum_true_inv in E6 as [R6 ->].
  rewrite !forallb_app in D. apply andb_prop in D as [_ D]. apply andb_prop in D as [_ D].
  assert (opt_fraction s6 = Some (0, s6)) as ->.
  { unfold opt_fraction. destruct s6 as [|a [|b s6]]; try reflexivity. cbn in D. apply andb_prop in D as [Da _].
    assert (byte_eqb a "."%char || byte_eqb a ","%char = false) as ->; [|reflexivity].
    apply is_digit_spec in Da. apply orb_false_iff. split; apply byte_eqb_neq; intros ->; cbn in Da; lia. }
  destruct s6; [|discriminate]. intros _. rewrite !app_length. cbn. reflexivity.
Qed.

Lemma fmt_0d_digits w z : 0 <= z -> forallb is_digit (fmt_0d w z) = true /\ dval (fmt_0d w z) = z.
Proof.
  intros H. unfold fmt_0d. destruct (Z.ltb_spec z 0); [lia|].
  rewrite forallb_app, forallb_repeat, utoa_digits, dval_zeros, dval_utoa by auto. auto.
Qed.

Lemma packed_time_value_inv size s v : packed_time_value size s = Ok v -> (3 <= size)%nat ->
  length s = size ->
  (v = 0 /\ ~ exists b, s = zbyte 0 :: b ++ [zbyte 115]) \/
  (exists b, s = zbyte 0 :: b ++ [zbyte 115] /\ length b = (size - 2)%nat /\ v = be_val b).
Proof.
  intros H S3 L. unfold packed_time_value in H. destruct s as [|c0 s]; [discriminate|].
  destruct (nth_error (c0 :: s) (size - 1)) as [cl|] eqn:E; [|discriminate].
  assert (exists b, s = b ++ [cl] /\ length b = (size - 2)%nat) as (b & -> & Lb).
  { cbn in L. destruct (size - 1)%nat as [|k] eqn:Ek; [lia|]. cbn in E.
    exists (firstn k s). split.
    - assert (length s = S k) as Ls by lia. clear - E Ls. revert s Ls E. induction k; intros [|x s] Ls E; try discriminate.
      + destruct s; [|discriminate]. cbn in E. injection E as ->. reflexivity.
      + cbn in *. f_equal. apply IHk; [lia|exact E].
    - rewrite firstn_length. lia. }
  destruct ((bval c0 =? 0) && (bval cl =? 115)) eqn:T.
  - apply andb_prop in T as [T1 T2]. apply Z.eqb_eq in T1, T2.
    assert (c0 = zbyte 0) as -> by (apply bval_inj; rewrite T1; reflexivity).
    assert (cl = zbyte 115) as -> by (apply bval_inj; rewrite T2; reflexivity).
    right. exists b. split; [reflexivity|]. split; [exact Lb|].
    cbn [skipn] in H. rewrite firstn_app_exact in H by lia. unfold safecast_i64 in H.
    destruct (be_val b <? 2 ^ 63); [injection H as <-; reflexivity|discriminate].
  - left. injection H as <-. split; [reflexivity|]. intros [b' Eb]. injection Eb as -> Eb.
    apply app_inj_tail in Eb as [_ ->]. discriminate.
Qed.

Lemma packed_date_read s t : length s = 5%nat -> time_from_packed_date_string s = Ok t ->
  plain_date t /\ ((exists b, s = zbyte 0 :: b ++ [zbyte 115]) ->
    packed_time_string (VTime t) format_date 5 = s \/ s = zbyte 0 :: repeat (zbyte 0) 3 ++ [zbyte 115]).
Proof.
  intros L. unfold time_from_packed_date_string. destruct (packed_time_value 5 s) as [v| |] eqn:E; try discriminate.
  intros H. assert (0 <= v) as Hv.
  { apply packed_time_value_inv in E as [[-> _]|(b & _ & _ & ->)]; auto; try lia. apply be_val_range. }
  pose proof (fmt_0d_digits 8 v Hv) as [D V].
  apply date_read in H as [P C]. split; [exact P|]. intros [b ->].
  apply packed_time_value_inv in E as [[_ E]|(b' & E & Lb & ->)]; [exfalso; apply E; eauto| |lia|assumption].
  injection E as E. apply app_inj_tail in E as [<- _].
  destruct C as [[C ->]|C].
  - right. rewrite C in V. rewrite <- (app_nil_r (repeat _ _)), dval_zeros in V.
    f_equal. f_equal. cbn in Lb. apply be_val_inj; [rewrite repeat_length; exact Lb|].
    rewrite be_val_zeros_only. rewrite <- V. reflexivity.
  - left. rewrite packed_date_string by exact P. destruct (dval_format_date t P) as (_ & _ & Vt).
    rewrite <- C, V in Vt. rewrite <- Vt. cbn in Lb. rewrite <- Lb at 1. rewrite be_bytes_be_val. reflexivity.
Qed.

Lemma packed_stamp_read s t : length s = 8%nat -> time_from_packed_timestamp_string s = Ok t ->
  plain_stamp t /\ ((exists b, s = zbyte 0 :: b ++ [zbyte 115]) ->
    packed_time_string (VTime t) format_timestamp 8 = s \/ s = zbyte 0 :: repeat (zbyte 0) 6 ++ [zbyte 115]).
Proof.
  intros L. unfold time_from_packed_timestamp_string.
  destruct (packed_time_value 8 s) as [v| |] eqn:E; try discriminate.
  intros H. assert (0 <= v) as Hv.
  { apply packed_time_value_inv in E as [[-> _]|(b & _ & _ & ->)]; auto; try lia. apply be_val_range. }
  pose proof (fmt_0d_digits 14 v Hv) as [D V].
  assert (length (fmt_0d 14 v) = 14%nat \/ all_char zero_char (fmt_0d 14 v) = true) as [L14|AZ].
  { unfold time_from_timestamp_string in H. destruct (all_char zero_char (fmt_0d 14 v)) eqn:A; [auto|left].
    destruct (parse_timestamp (fmt_0d 14 v)) eqn:Q; [|discriminate].
    eapply parse_timestamp_digits; eauto. }
  - apply stamp_read in H as [P C]; [|exact L14]. split; [exact P|]. intros [b ->].
    apply packed_time_value_inv in E as [[_ E]|(b' & E & Lb & ->)]; [exfalso; apply E; eauto| |lia|assumption].
    injection E as E. apply app_inj_tail in E as [<- _].
    destruct C as [[C ->]|C].
    + right. rewrite C in V. rewrite <- (app_nil_r (repeat _ _)), dval_zeros in V.
      f_equal. f_equal. cbn in Lb. apply be_val_inj; [rewrite repeat_length; exact Lb|].
      rewrite be_val_zeros_only. rewrite <- V. reflexivity.
    + left. rewrite packed_stamp_string by exact P. destruct (dval_format_timestamp t P) as (_ & _ & Vt).
      rewrite <- C, V in Vt. rewrite <- Vt. cbn in Lb. rewrite <- Lb at 1. rewrite be_bytes_be_val. reflexivity.
  - unfold time_from_timestamp_string in H. rewrite AZ in H. injection H as <-.
    split; [apply plain_date_stamp, no_date_plain|]. intros [b ->].
    apply packed_time_value_inv in E as [[_ E]|(b' & E & Lb & ->)]; [exfalso; apply E; eauto| |lia|assumption].
    injection E as E. apply app_inj_tail in E as [<- _]. right.
    apply all_char_spec in AZ. rewrite AZ in V. rewrite <- (app_nil_r (repeat _ _)), dval_zeros in V.
    f_equal. f_equal. cbn in Lb. apply be_val_inj; [rewrite repeat_length; exact Lb|].
    rewrite be_val_zeros_only. rewrite <- V. reflexivity.
Qed.

Ltac split_types H := split_type H; cbn in *.

Lemma field_read d f data n r v : entry_ok d f = true -> dKind d <> FReserved -> length data = dWidth d ->
  is_valid_type f data n r = None -> parse_value f data n r = Ok v ->
  read_fits d v /\ (canonical d data -> fits d v /\ to_string f (Some v) = data).
Proof.
  destruct d as [dn w k mu], f as [start len ty req].
  intros E NR L V P. unfold entry_ok in E. cbn [fLength dWidth dKind fType dMust fRequired] in *.
  apply andb_prop in E as [E Em]. apply andb_prop in E as [E Ew]. apply andb_prop in E as [El Et].
  apply Nat.eqb_eq in El. subst len. apply Bool.eqb_prop in Em.
  destruct k; try contradiction; unfold width_ok in Ew; cbn [canonical dKind dWidth].
  - (* number *)
    apply andb_prop in Ew as [W1 W2]. apply Nat.leb_le in W1, W2.
    assert (exists z, v = VInt z /\ parse_int 64 data = (z, None)
      /\ (mu = true -> z <> 0) /\ to_string (mkField start w ty req) (Some v) = fmt_zero_pad w (itoa z)) as (z & -> & Pi & M & Ts).
    { unfold parse_value, is_valid_type, atoi in P, V.
      split_type Et; cbn in P, V;
        (destruct (parse_int 64 data) as [z [e|]] eqn:Pi; [discriminate|]); injection P as <-;
        exists z; (split; [reflexivity|]); (split; [reflexivity|]); (split; [|reflexivity]);
        intros ->; destruct req; try discriminate; cbn in V;
        destruct (Z.eqb_spec z 0); try discriminate; assumption. }
    destruct (parse_int_bounds w data z L Pi) as [B1 B2]. split.
    + unfold read_fits, fits. cbn [dKind dWidth dMust]. destruct B2 as [B2|B2]; [left|right]; auto.
    + intros C. apply forall_digits in C.
      assert (data <> []) as Nd by (intros ->; cbn in L; lia).
      rewrite (parse_int_width w) in Pi by auto. injection Pi as <-.
      pose proof (dval_range data C) as R. rewrite L in R. split.
      * unfold fits. cbn [dKind dWidth dMust]. auto.
      * rewrite Ts. destruct (number_text w (dval data) W1 R) as (L1 & D1 & V1).
        apply dval_inj; auto. congruence.
  - (* text *)
    assert (ty = alphanumeric) as -> by (apply N.eqb_eq in Et; exact Et).
    assert (v = VStr (trim_right data)) as ->.
    { cbn in P. injection P as <-. reflexivity. }
    assert (forallb alnum_char data = true) as A.
    { apply alphanumeric_regex_spec. unfold is_valid_type in V. cbn in V.
      destruct (alphanumeric_regex data); [|reflexivity].
      destruct req; try discriminate. destruct (Nat.eqb (length data) 0); discriminate. }
    assert (fits (Doc dn w FText mu) (VStr (trim_right data))) as F.
    { unfold fits. cbn [dKind dWidth]. split; [rewrite <- L; apply trim_right_length|].
      split; [apply forall_text, trim_right_forallb, A|]. apply trim_right_no_blank. }
    split; [exact F|]. intros _. split; [exact F|].
    change (fmt_left w (trim_right data) = data). rewrite text_written.
    + symmetry. rewrite <- L. apply trim_right_pad.
    + rewrite <- L. apply trim_right_length.
    + apply trim_right_forallb, A.
  - (* date *)
    apply Nat.eqb_eq in Ew. subst w.
    assert (exists t, v = VTime t /\ time_from_date_string data = Ok t
      /\ (mu = true -> valid_filled_string data = false)
      /\ to_string (mkField start 8 ty req) (Some v) = if is_zero t then repeat zero_char 8 else format_date t)
      as (t & -> & Pt & M & Ts).
    { unfold parse_value, is_valid_type in P, V.
      split_type Et; cbn in P, V; (destruct (time_from_date_string data) as [t| |] eqn:Pt; try discriminate);
        injection P as <-; exists t; (split; [reflexivity|]); (split; [reflexivity|]); (split; [|reflexivity]);
        intros ->; destruct req; try discriminate; rewrite L in V; cbn in V;
        destruct (valid_filled_string data); try discriminate; reflexivity. }
    destruct (date_read data t Pt) as [Pd C]. split.
    + unfold read_fits, fits. cbn. split; [exact Pd|]. discriminate.
    + intros Cn. assert (t = no_date -> data = repeat zero_char 8) as Z.
      { intros ->. destruct C as [[C _]|C]; [rewrite L in C; exact C|]. exfalso. apply Cn. rewrite C. reflexivity. }
      split.
      * unfold fits. cbn. split; [exact Pd|]. intros Mu Ht. specialize (M Mu). rewrite (Z Ht) in M. discriminate.
      * rewrite Ts. destruct (is_zero t) eqn:Iz.
        -- symmetry. apply Z, plain_date_is_zero; assumption.
        -- destruct C as [[_ ->]|C]; [discriminate|auto].
  - (* timestamp *)
    apply Nat.eqb_eq in Ew. subst w.
    assert (exists t, v = VTime t /\ time_from_timestamp_string data = Ok t
      /\ (mu = true -> valid_filled_string data = false)
      /\ to_string (mkField start 14 ty req) (Some v) = if is_zero t then repeat zero_char 14 else format_timestamp t)
      as (t & -> & Pt & M & Ts).
    { unfold parse_value, is_valid_type in P, V.
      split_type Et; cbn in P, V; (destruct (time_from_timestamp_string data) as [t| |] eqn:Pt; try discriminate);
        injection P as <-; exists t; (split; [reflexivity|]); (split; [reflexivity|]); (split; [|reflexivity]);
        intros ->; destruct req; try discriminate; rewrite L in V; cbn in V;
        destruct (valid_filled_string data); try discriminate; reflexivity. }
    destruct (stamp_read data t L Pt) as [Pd C]. split.
    + unfold read_fits, fits. cbn. split; [exact Pd|]. discriminate.
    + intros Cn. assert (t = no_date -> data = repeat zero_char 14) as Z.
      { intros ->. destruct C as [[C _]|C]; [rewrite L in C; exact C|]. exfalso. apply Cn. rewrite C. reflexivity. }
      split.
      * unfold fits. cbn. split; [exact Pd|]. intros Mu Ht. specialize (M Mu). rewrite (Z Ht) in M. discriminate.
      * rewrite Ts. destruct (is_zero t) eqn:Iz.
        -- symmetry. apply Z, plain_stamp_is_zero; assumption.
        -- destruct C as [[_ ->]|C]; [discriminate|auto].
  - (* descriptor word *)
    apply Nat.eqb_eq in Ew. subst w. destruct data as [|a [|b [|c [|e [|]]]]]; try discriminate.
    assert (v = VInt (256 * bval a + bval b)) as -> by (split_type Et; cbn in P; injection P as <-; reflexivity).
    assert (fits (Doc dn 4 FWord mu) (VInt (256 * bval a + bval b))) as F.
    { unfold fits. cbn [dKind]. pose proof (bval_range a). pose proof (bval_range b). lia. }
    split; [left; exact F|]. intros [x Ex]. split; [exact F|].
    assert (to_string (mkField start 4 ty req) (Some (VInt (256 * bval a + bval b)))
            = descriptor_string (256 * bval a + bval b)) as ->.
    { split_type Et; reflexivity. }
    destruct x as [|x1 [|x2 [|x3 x]]]; try discriminate.
    2:{ exfalso. apply (f_equal (@length ascii)) in Ex. cbn in Ex. rewrite app_length in Ex. cbn in Ex. lia. }
    injection Ex as -> -> -> ->. unfold descriptor_string, safecast_u16. pose proof (bval_range x1). pose proof (bval_range x2).
    destruct (Z.leb_spec 0 (256 * bval x1 + bval x2)); [|lia].
    destruct (Z.leb_spec (256 * bval x1 + bval x2) 65535); [|lia]. cbn [andb].
    pose proof (be_bytes_be_val [x1; x2]) as Q. cbn [length] in Q.
    replace (be_val [x1; x2]) with (256 * bval x1 + bval x2) in Q by (unfold be_val; cbn [be_val_acc]; lia).
    rewrite Q. reflexivity.
  - (* packed number *)
    apply andb_prop in Ew as [W1 W2]. apply Nat.leb_le in W1, W2.
    assert (v = VInt (be_val data)) as ->.
    { unfold parse_value in P. rewrite packed_number_from_be in P by lia.
      split_type Et; cbn in P; injection P as <-; reflexivity. }
    pose proof (be_val_range data) as R.
    assert (fits (Doc dn w FBinary mu) (VInt (be_val data))) as F.
    { unfold fits. cbn [dKind dWidth]. rewrite <- L. exact R. }
    split; [left; exact F|]. intros _. split; [exact F|].
    assert (to_string (mkField start w ty req) (Some (VInt (be_val data))) = be_bytes w (be_val data)) as ->.
    { rewrite <- packed_number_string_be by lia. split_type Et; reflexivity. }
    rewrite <- L. apply be_bytes_be_val.
  - (* packed date *)
    apply Nat.eqb_eq in Ew. subst w.
    assert (exists t, v = VTime t /\ time_from_packed_date_string data = Ok t) as (t & -> & Pt).
    { unfold parse_value in P. destruct (time_from_packed_date_string data) as [t| |] eqn:Pt;
        split_type Et; cbn in P; try rewrite Pt in P; try discriminate; cbn in P; injection P as <-; eauto. }
    destruct (packed_date_read data t L Pt) as [Pd C].
    split; [exact Pd|]. intros (x & Ex & Nx). split; [exact Pd|].
    assert (to_string (mkField start 5 ty req) (Some (VTime t)) = packed_time_string (VTime t) format_date 5) as ->.
    { split_type Et; reflexivity. }
    destruct C as [C|C]; [exists x; exact Ex|exact C|]. exfalso. rewrite Ex in C.
    injection C as C. apply (app_inj_tail x (repeat (zbyte 0) 3)) in C as [-> _]. apply Nx. reflexivity.
  - (* packed timestamp *)
    apply Nat.eqb_eq in Ew. subst w.
    assert (exists t, v = VTime t /\ time_from_packed_timestamp_string data = Ok t) as (t & -> & Pt).
    { unfold parse_value in P. destruct (time_from_packed_timestamp_string data) as [t| |] eqn:Pt;
        split_type Et; cbn in P; try rewrite Pt in P; try discriminate; cbn in P; injection P as <-; eauto. }
    destruct (packed_stamp_read data t L Pt) as [Pd C].
    split; [exact Pd|]. intros (x & Ex & Nx). split; [exact Pd|].
    assert (to_string (mkField start 8 ty req) (Some (VTime t)) = packed_time_string (VTime t) format_timestamp 8) as ->.
    { split_type Et; reflexivity. }
    destruct C as [C|C]; [exists x; exact Ex|exact C|]. exfalso. rewrite Ex in C.
    injection C as C. apply (app_inj_tail x (repeat (zbyte 0) 6)) in C as [-> _]. apply Nx. reflexivity.
Qed.

Lemma read_fits_kind d v : read_fits d v -> kind_of v = fk_kind (dKind d).
Proof.
  destruct v; cbn [read_fits].
  - intros [H|[H _]]; [apply fits_kind in H; exact H|rewrite H; reflexivity].
  - intros H. apply fits_kind in H. exact H.
  - intros H. apply fits_kind in H. exact H.
Qed.

Lemma field_no_panic d f data n r : entry_ok d f = true -> length data = dWidth d ->
  parse_value f data n r <> Panic.
Proof.
  destruct d as [dn w k mu], f as [start len ty req].
  intros E L P. unfold entry_ok in E. cbn [fLength dWidth dKind fType dMust fRequired] in *.
  apply andb_prop in E as [E Em]. apply andb_prop in E as [E Ew]. apply andb_prop in E as [El Et].
  assert (forall s, time_from_date_string s <> Panic) as T1.
  { intros s. unfold time_from_date_string. destruct (all_char zero_char s), (parse_date s); discriminate. }
  assert (forall s, time_from_timestamp_string s <> Panic) as T2.
  { intros s. unfold time_from_timestamp_string. destruct (all_char zero_char s), (parse_timestamp s); discriminate. }
  unfold width_ok in Ew. unfold parse_value in P.
  destruct k; split_type Et; cbn in P; try discriminate;
    try (destruct (parse_int 64 data) as [? [|]]; discriminate);
    try (destruct (time_from_date_string data) eqn:Q; try discriminate; eapply T1; eassumption);
    try (destruct (time_from_timestamp_string data) eqn:Q; try discriminate; eapply T2; eassumption).
  all: try (apply Nat.eqb_eq in Ew; subst w).
  all: try (destruct data as [|? [|? ?]]; discriminate).
  all: try (unfold packed_number_from_string, safecast_i64 in P; destruct (_ <? _) in P; discriminate).
  all: try (unfold time_from_packed_date_string, time_from_packed_timestamp_string in P;
    match type of P with context [packed_time_value ?k ?x] => destruct (packed_time_value k x) eqn:Q end;
    [match type of P with context [res_map _ ?x] => destruct x eqn:Q' end; try discriminate;
       first [eapply T1; eassumption | eapply T2; eassumption]
    |discriminate|]).
  all: unfold packed_time_value in Q; match type of Q with context [match ?x with _ => _ end] => destruct x as [|? ?]; [discriminate|] end;
    match type of Q with context [nth_error ?l ?k] => destruct (nth_error l k) eqn:Nx end;
    [match type of Q with (if ?c then _ else _) = _ => destruct c end; [unfold safecast_i64 in Q; destruct (_ <? _) in Q|]; discriminate
    |apply nth_error_None in Nx; rewrite L in Nx; cbn in Nx; lia].
Qed.
