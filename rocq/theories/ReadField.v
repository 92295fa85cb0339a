(* What the text of a field stands for is what is read *)
From Coq Require Import ZArith NArith Bool Ascii String List Lia.
Import ListNotations.
From Verif Require Import GoBase GoBaseFacts GoTime Regex Tables Codec Records
  SpecCodec SpecLayouts SpecRecords SpecReport SpecRead TimeFacts FieldFacts FieldRead.
Local Open Scope string_scope.
Local Open Scope Z_scope.
Local Open Scope list_scope.
Local Notation length := List.length.

(* ---- numbers ---- *)

Lemma signed_text_parse w z : (1 <= length w <= 18)%nat -> signed_text w z -> parse_int 64 w = (z, None).
Proof.
  intros L (ds & Ne & D & C). apply forall_digits in D. rewrite decimal_dval in C.
  assert (dval ds < 10 ^ 18) as B.
  { pose proof (dval_range ds D). assert (length ds <= 18)%nat as Ld.
    { destruct C as [[[->| ->] _]|[-> _]]; cbn [length] in L; lia. }
    pose proof (pow10_18 _ Ld). lia. }
  change (10 ^ 18) with 1000000000000000000 in B.
  assert (0 <= dval ds) by (apply dval_range; exact D).
  destruct C as [[[->| ->] ->]|[-> ->]].
  - apply (parse_int_width (length ds)); auto.
  - destruct ds as [|c ds]; [contradiction|]. unfold parse_int. cbn [byte_eqb]. change (byte_eqb "+" "+") with true. cbv iota.
    rewrite D. cbn [negb andb]. change (2 ^ (64 - 1)) with 9223372036854775808.
    destruct (Z.leb_spec 9223372036854775808 (dval (c :: ds))); [lia|]. reflexivity.
  - destruct ds as [|c ds]; [contradiction|]. unfold parse_int. change (byte_eqb "-" "+") with false.
    change (byte_eqb "-" "-") with true. cbv iota.
    rewrite D. cbn [negb andb]. change (2 ^ (64 - 1)) with 9223372036854775808.
    destruct (Z.ltb_spec 9223372036854775808 (dval (c :: ds))); [lia|]. reflexivity.
Qed.

Lemma parse_int_signed w z : parse_int 64 w = (z, None) -> signed_text w z.
Proof.
  intros H. destruct (parse_int_inv w z H) as [(D & N & ->)|(c & ds & -> & C & D & N & ->)].
  - exists w. split; [exact N|]. split; [apply forall_digits; exact D|]. rewrite decimal_dval. auto.
  - exists ds. split; [exact N|]. split; [apply forall_digits; exact D|]. rewrite decimal_dval.
    destruct C as [-> | ->]; cbn; auto.
Qed.


Lemma parse_int_error w z e : parse_int 64 w = (z, Some e) -> (length w <= 18)%nat -> z = 0 /\ e = ErrSyntax.
Proof.
  intros H L.
  assert (forall t, (length t <= 18)%nat -> forallb is_digit t = true -> dval t < 9223372036854775808) as B.
  { intros t Lt D. pose proof (dval_range _ D) as R. pose proof (pow10_18 _ Lt) as P.
    change (10 ^ 18) with 1000000000000000000 in P. lia. }
  unfold parse_int in H. change (2 ^ (64 - 1)) with 9223372036854775808 in H.
  destruct w as [|c s]; [inversion H; auto|]. cbn [length] in L.
  destruct (byte_eqb c "+"%char); [|destruct (byte_eqb c "-"%char)];
    (match type of H with (match ?t with [] => _ | _ :: _ => _ end) = _ =>
       destruct t as [|d t'] eqn:Et; [inversion H; auto|] | _ => idtac end);
    (match type of H with context [forallb is_digit ?t] => destruct (forallb is_digit t) eqn:D; [|inversion H; auto];
       assert (dval t < 9223372036854775808) as Bd by (apply B; [cbn [length] in *; lia|exact D]) end);
    cbn [negb andb] in H;
    repeat match type of H with
      | context [?a <=? ?b] => destruct (Z.leb_spec a b); [lia|]
      | context [?a <? ?b] => destruct (Z.ltb_spec a b); [lia|] end;
    cbn [negb andb] in H; discriminate H.
Qed.

Lemma hex_digits_spec c : In c hex_digits <-> (in_range 48 57 c || in_range 97 102 c || in_range 65 70 c) = true.
Proof.
  rewrite <- existsb_In.
  assert (existsb (byte_eqb c) hex_digits = in_range 48 57 c || in_range 97 102 c || in_range 65 70 c) as ->; [|tauto].
  destruct c as [[] [] [] [] [] [] [] []]; vm_compute; reflexivity.
Qed.

Lemma numeric_regex_spec w : numeric_regex w = true <-> Exists (fun c => In c hex_digits) w.
Proof.
  unfold numeric_regex. rewrite existsb_exists, Exists_exists. split; intros (c & I & H); exists c; (split; [exact I|]); apply hex_digits_spec; exact H.
Qed.

Lemma numeric_regex_none w : numeric_regex w = false <-> Forall (fun c => ~ In c hex_digits) w.
Proof.
  rewrite <- not_true_iff_false, numeric_regex_spec. split.
  - intros H. apply Forall_Exists_neg. exact H.
  - intros H E. apply Forall_Exists_neg in H. contradiction.
Qed.

Lemma signed_text_regex w z : signed_text w z -> numeric_regex w = true.
Proof.
  intros (ds & Ne & D & C). apply numeric_regex_spec.
  destruct ds as [|c ds]; [contradiction|]. inversion D as [|? ? Hc _]; subst.
  assert (In c hex_digits) as Hx.
  { unfold digits in Hc. cbn in Hc. unfold hex_digits. cbn. tauto. }
  destruct C as [[[->| ->] _]|[-> _]]; [left; exact Hx|right; left; exact Hx|right; left; exact Hx].
Qed.

(* ---- dates ---- *)

Lemma decimal_text_unique w z s s' : decimal_text w z s -> decimal_text w z s' -> s = s'.
Proof.
  intros A B. apply decimal_text_spec in A as (A1 & A2 & A3). apply decimal_text_spec in B as (B1 & B2 & B3).
  apply dval_inj; auto; congruence.
Qed.

Lemma date_text_format w t : date_text w t <-> plain_date t /\ w = format_date t.
Proof.
  unfold date_text. split; (intros [P H]; split; [exact P|]).
  - destruct H as (m & d & y & -> & Hm & Hd & Hy). destruct P as (C & _).
    rewrite format_date_digits by exact C. apply calendar_date_ranges in C.
    rewrite (decimal_text_unique _ _ _ _ Hm (d2_decimal (tMonth t) ltac:(lia))).
    rewrite (decimal_text_unique _ _ _ _ Hd (d2_decimal (tDay t) ltac:(lia))).
    rewrite (decimal_text_unique _ _ _ _ Hy (d4_decimal (tYear t) ltac:(lia))). reflexivity.
  - destruct P as (C & _). rewrite H, format_date_digits by exact C. apply calendar_date_ranges in C.
    exists (d2 (tMonth t)), (d2 (tDay t)), (d4 (tYear t)). split; [reflexivity|].
    repeat split; try apply d2_decimal; try apply d4_decimal; lia.
Qed.

Lemma stamp_text_format w t : stamp_text w t <-> plain_stamp t /\ w = format_timestamp t.
Proof.
  unfold stamp_text. split; (intros [P H]; split; [exact P|]).
  - destruct H as (m & d & y & h & mi & s & -> & Hm & Hd & Hy & Hh & Hi & Hs).
    rewrite format_timestamp_digits by exact P. destruct P as (C & R1 & R2 & R3 & _). apply calendar_date_ranges in C.
    rewrite (decimal_text_unique _ _ _ _ Hm (d2_decimal (tMonth t) ltac:(lia))).
    rewrite (decimal_text_unique _ _ _ _ Hd (d2_decimal (tDay t) ltac:(lia))).
    rewrite (decimal_text_unique _ _ _ _ Hy (d4_decimal (tYear t) ltac:(lia))).
    rewrite (decimal_text_unique _ _ _ _ Hh (d2_decimal (tHour t) ltac:(lia))).
    rewrite (decimal_text_unique _ _ _ _ Hi (d2_decimal (tMin t) ltac:(lia))).
    rewrite (decimal_text_unique _ _ _ _ Hs (d2_decimal (tSec t) ltac:(lia))). reflexivity.
  - rewrite H, format_timestamp_digits by exact P. destruct P as (C & R1 & R2 & R3 & _). apply calendar_date_ranges in C.
    exists (d2 (tMonth t)), (d2 (tDay t)), (d4 (tYear t)), (d2 (tHour t)), (d2 (tMin t)), (d2 (tSec t)).
    split; [reflexivity|].
    repeat match goal with |- _ /\ _ => split end; first [apply d2_decimal|apply d4_decimal]; lia.
Qed.

Lemma all_zero_repeat n : all_char zero_char (repeat zero_char n) = true.
Proof. apply forallb_repeat. reflexivity. Qed.

Lemma date_error w e : time_from_date_string w = Err e -> e = ErrTimeParse.
Proof. unfold time_from_date_string. destruct (all_char _ w); [discriminate|]. destruct (parse_date w); [discriminate|]. intros [= <-]. reflexivity. Qed.
Lemma stamp_error w e : time_from_timestamp_string w = Err e -> e = ErrTimeParse.
Proof. unfold time_from_timestamp_string. destruct (all_char _ w); [discriminate|]. destruct (parse_timestamp w); [discriminate|]. intros [= <-]. reflexivity. Qed.

Lemma packed_value_ok n w e : (3 <= n <= 8)%nat -> length w = n -> packed_time_value n w <> Err e.
Proof.
  intros N L H. unfold packed_time_value in H. destruct w as [|c0 s]; [discriminate|].
  destruct (nth_error _ _); [|discriminate]. destruct (_ && _); [|discriminate].
  unfold safecast_i64 in H.
  match type of H with context [be_val ?b] => pose proof (be_val_range b) as R;
    assert (length b <= 7)%nat as Lb by (rewrite firstn_length; lia); pose proof (pow256_7 _ Lb) as Q end.
  change (256 ^ 7) with 72057594037927936 in Q. change (2 ^ 63) with 9223372036854775808 in H.
  match type of H with context [?a <? ?b] => destruct (Z.ltb_spec a b) end; [discriminate|lia].
Qed.

Lemma packed_date_error w e : length w = 5%nat -> time_from_packed_date_string w = Err e -> e = ErrTimeParse.
Proof.
  intros L. unfold time_from_packed_date_string. destruct (packed_time_value 5 w) eqn:E; [apply date_error| |discriminate].
  exfalso. eapply (packed_value_ok 5); eauto. lia.
Qed.
Lemma packed_stamp_error w e : length w = 8%nat -> time_from_packed_timestamp_string w = Err e -> e = ErrTimeParse.
Proof.
  intros L. unfold time_from_packed_timestamp_string. destruct (packed_time_value 8 w) eqn:E; [apply stamp_error| |discriminate].
  exfalso. eapply (packed_value_ok 8); eauto. lia.
Qed.

Lemma marked_eq b : marked b = zbyte 0 :: b ++ [zbyte 115].
Proof. reflexivity. Qed.

Lemma marked_inj a b : marked a = marked b -> a = b.
Proof. unfold marked. intros [= H]. apply app_inj_tail in H as [-> _]. reflexivity. Qed.

Lemma marked_length b : length (marked b) = (length b + 2)%nat.
Proof. unfold marked. cbn [length]. rewrite app_length. cbn. lia. Qed.

Lemma packed_time_value_unmarked n w : (3 <= n)%nat -> length w = n -> (~ exists b, w = marked b) -> packed_time_value n w = Ok 0.
Proof.
  intros N L U. destruct w as [|c0 s]; [cbn in L; lia|].
  destruct (exists_last (l := s)) as (m & cl & ->); [intros ->; cbn in L; lia|].
  unfold packed_time_value. cbn in L. rewrite app_length in L. cbn in L.
  replace (n - 1)%nat with (S (length m)) by lia. cbn [nth_error]. rewrite nth_error_app2, Nat.sub_diag by lia. cbn [nth_error].
  destruct ((bval c0 =? 0) && (bval cl =? 115)) eqn:T; [|reflexivity]. exfalso. apply U. exists m.
  apply andb_prop in T as [T1 T2]. apply Z.eqb_eq in T1, T2.
  assert (c0 = zbyte 0) as -> by (apply bval_inj; rewrite T1; reflexivity).
  assert (cl = zbyte 115) as -> by (apply bval_inj; rewrite T2; reflexivity). reflexivity.
Qed.

Lemma packed_time_value_marked n b : (3 <= n <= 8)%nat -> length b = (n - 2)%nat -> packed_time_value n (marked b) = Ok (be_val b).
Proof.
  intros N L. unfold packed_time_value, marked.
  replace (n - 1)%nat with (S (length b)) by lia. cbn [nth_error]. rewrite nth_error_app2, Nat.sub_diag by lia. cbn [nth_error skipn].
  change (bval (ascii_of_N 0) =? 0) with true. change (bval (ascii_of_N 115) =? 115) with true. cbn [andb].
  rewrite firstn_app_exact by lia. unfold safecast_i64. pose proof (be_val_range b) as R.
  assert (length b <= 7)%nat as Lb by lia. pose proof (pow256_7 _ Lb) as Q.
  change (256 ^ 7) with 72057594037927936 in Q. change (2 ^ 63) with 9223372036854775808.
  destruct (Z.ltb_spec (be_val b) 9223372036854775808); [reflexivity|lia].
Qed.

Lemma binary_date_reads n w t number (P : Prop) (read : bytes -> res time) (parse : Z -> res time) :
  (3 <= n <= 8)%nat -> length w = n ->
  (forall v, packed_time_value n w = Ok v -> read w = parse v) ->
  parse 0 = Ok no_date ->
  (P -> parse number = Ok t) ->
  binary_date w t number P -> read w = Ok t.
Proof.
  intros N L R Z G [(-> & [U|(b & -> & B)])|(Pl & b & -> & B)].
  - rewrite (R 0); [exact Z|]. apply packed_time_value_unmarked; auto. lia.
  - rewrite marked_length in L. rewrite binary_be_val in B.
    rewrite (R (be_val b)) by (apply packed_time_value_marked; lia). rewrite B. exact Z.
  - rewrite marked_length in L. rewrite binary_be_val in B.
    rewrite (R (be_val b)) by (apply packed_time_value_marked; lia). rewrite B. auto.
Qed.

Lemma fmt_0d_zero w : (1 <= w)%nat -> fmt_0d w 0 = repeat zero_char w.
Proof.
  intros H. apply fmt_0d_unique; try lia.
  - apply forallb_repeat. reflexivity.
  - apply repeat_length.
  - rewrite <- (app_nil_r (repeat _ _)), dval_zeros. reflexivity.
Qed.

Lemma binary_date_5 w t : length w = 5%nat ->
  binary_date w t (tMonth t * 10^6 + tDay t * 10^4 + tYear t) (plain_date t) <-> time_from_packed_date_string w = Ok t.
Proof.
  intros L. split.
  - intros B. apply (binary_date_reads 5 w t _ _ time_from_packed_date_string (fun v => time_from_date_string (fmt_0d 8 v))) in B; auto; try lia.
    + intros v E. unfold time_from_packed_date_string. rewrite E. reflexivity.
    + cbv beta. intros P. destruct (dval_format_date t P) as (D & Lf & V). unfold mdy_number in V.
      rewrite (fmt_0d_unique 8 _ (format_date t)); auto; try lia.
      * apply time_from_date_string_format. exact P.
      * pose proof (mdy_number_range t P). unfold mdy_number in *. lia.
  - intros H. pose proof H as H'. unfold time_from_packed_date_string in H.
    destruct (packed_time_value 5 w) as [v| |] eqn:E; try discriminate.
    apply packed_time_value_inv in E as [[-> U]|(b & Eb & Lb & ->)]; try lia.
    + rewrite fmt_0d_zero in H by lia. change (time_from_date_string _) with (Ok no_date) in H. injection H as <-.
      left. split; [reflexivity|]. left. exact U.
    + pose proof (be_val_range b) as Rb. pose proof (fmt_0d_digits 8 (be_val b) ltac:(lia)) as [D V].
      apply date_read in H as [P [[Z ->]|F]].
      * left. split; [reflexivity|]. right. exists b. split; [exact Eb|]. rewrite binary_be_val, <- V, Z, <- (app_nil_r (repeat _ _)), dval_zeros. reflexivity.
      * right. split; [exact P|]. exists b. split; [exact Eb|]. rewrite binary_be_val, <- V, F. apply dval_format_date. exact P.
Qed.

Lemma binary_date_8 w t : length w = 8%nat ->
  binary_date w t (tMonth t * 10^12 + tDay t * 10^10 + tYear t * 10^6 + tHour t * 10^4 + tMin t * 100 + tSec t) (plain_stamp t)
  <-> time_from_packed_timestamp_string w = Ok t.
Proof.
  intros L. split.
  - intros B. apply (binary_date_reads 8 w t _ _ time_from_packed_timestamp_string (fun v => time_from_timestamp_string (fmt_0d 14 v))) in B; auto; try lia.
    + intros v E. unfold time_from_packed_timestamp_string. rewrite E. reflexivity.
    + cbv beta. intros P. destruct (dval_format_timestamp t P) as (D & Lf & V). unfold stamp_number in V.
      rewrite (fmt_0d_unique 14 _ (format_timestamp t)); auto; try lia.
      * apply time_from_timestamp_string_format. exact P.
      * pose proof (stamp_number_range t P). unfold stamp_number in *. lia.
  - intros H. unfold time_from_packed_timestamp_string in H.
    destruct (packed_time_value 8 w) as [v| |] eqn:E; try discriminate.
    apply packed_time_value_inv in E as [[-> U]|(b & Eb & Lb & ->)]; try lia.
    + rewrite fmt_0d_zero in H by lia. change (time_from_timestamp_string _) with (Ok no_date) in H. injection H as <-.
      left. split; [reflexivity|]. left. exact U.
    + pose proof (be_val_range b) as Rb. pose proof (fmt_0d_digits 14 (be_val b) ltac:(lia)) as [D V].
      unfold time_from_timestamp_string in H. destruct (all_char zero_char _) eqn:Az.
      * injection H as <-. apply all_zero_text in Az. left. split; [reflexivity|]. right. exists b. split; [exact Eb|].
        rewrite binary_be_val, <- V, Az, <- (app_nil_r (repeat _ _)), dval_zeros. reflexivity.
      * destruct (parse_timestamp _) as [u|] eqn:Pt; [|discriminate]. injection H as <-.
        pose proof (parse_timestamp_digits _ _ D Pt) as L14. apply parse_timestamp_inv in Pt as [P F]; [|exact L14].
        right. split; [exact P|]. exists b. split; [exact Eb|]. rewrite binary_be_val, <- V, F. apply dval_format_timestamp. exact P.
Qed.

Lemma blanked_spec w : blanked w <-> valid_filled_string w = true.
Proof.
  unfold blanked, valid_filled_string. rewrite !orb_true_iff. unfold all_char.
  assert (forall c, w = repeat c (length w) <-> forallb (byte_eqb c) w = true) as S.
  { intros c. split.
    - intros E. rewrite E. apply forallb_repeat, byte_eqb_refl.
    - intros H. clear - H. induction w as [|a w IH]; [reflexivity|]. cbn in H. apply andb_prop in H as [H1 H2].
      apply byte_eqb_eq in H1. subst a. cbn. f_equal. auto. }
  split.
  - intros (c & I & E). cbn in I. apply S in E. destruct I as [<-|[<-|[<-|[]]]]; auto.
  - intros [[H|H]|H]; [exists "0"%char|exists "9"%char|exists " "%char]; (split; [cbn; tauto|]); apply S; exact H.
Qed.

(* ---- fields ---- *)

Lemma entry_inv d f : entry_ok d f = true ->
  fLength f = dWidth d /\ type_ok (dKind d) (fType f) = true /\ width_ok (dKind d) (dWidth d) = true
  /\ dMust d = is_required (fRequired f).
Proof.
  unfold entry_ok. intros E. apply andb_prop in E as [E Em]. apply andb_prop in E as [E Ew]. apply andb_prop in E as [El Et].
  apply Nat.eqb_eq in El. apply Bool.eqb_prop in Em. auto.
Qed.

Definition required_b (mu : bool) (c : bool) : bool := if mu then c else false.

(* what the two functions do for each kind *)
Lemma number_read d f w n r : entry_ok d f = true -> dKind d = FNumber ->
  is_valid_type f w n r =
    (if dMust d && (fst (parse_int 64 w) =? 0) then Some (ErrFieldRequired n r)
     else if numeric_regex w then None else Some (ErrNumeric n r))
  /\ parse_value f w n r = match parse_int 64 w with (v, None) => Ok (VInt v) | (_, Some e) => Err e end.
Proof.
  intros E K. apply entry_inv in E as (_ & Et & _ & Em). rewrite K in Et. rewrite Em.
  destruct f as [start len ty req]. cbn [fType fRequired] in *. unfold is_valid_type, parse_value, atoi.
  split_type Et; destruct req; cbn; destruct (parse_int 64 w) as [z [e|]]; cbn; auto.
Qed.

Lemma text_read d f w n r : entry_ok d f = true -> dKind d = FText -> length w = dWidth d ->
  is_valid_type f w n r = (if alphanumeric_regex w then Some (ErrNonAlphanumeric n r) else None)
  /\ parse_value f w n r = Ok (VStr (trim_right w)).
Proof.
  intros E K L. apply entry_inv in E as (_ & Et & Ew & Em). rewrite K in Et, Ew.
  unfold width_ok in Ew. apply Nat.leb_le in Ew.
  assert (Nat.eqb (length w) 0 = false) as N by (apply Nat.eqb_neq; lia).
  destruct f as [start len ty req]. cbn [fType fRequired] in *. unfold is_valid_type, parse_value.
  split_type Et; destruct req; cbn; rewrite ?N; auto.
Qed.

Lemma date_field_read d f w n r : entry_ok d f = true -> dKind d = FDate -> length w = dWidth d ->
  length w = 8%nat
  /\ is_valid_type f w n r = (if dMust d && valid_filled_string w then Some (ErrFieldRequired n r) else None)
  /\ parse_value f w n r = res_map VTime (time_from_date_string w).
Proof.
  intros E K L. apply entry_inv in E as (El & Et & Ew & Em). rewrite K in Et, Ew. rewrite Em.
  cbn in Ew. apply Nat.eqb_eq in Ew. split; [congruence|].
  assert (Nat.eqb (length w) (fLength f) = true) as N by (apply Nat.eqb_eq; congruence).
  destruct f as [start len ty req]. cbn [fType fRequired fLength] in *. unfold is_valid_type, parse_value. cbn [fType fRequired fLength].
  split_type Et; destruct req; cbn; rewrite ?N, ?andb_true_r; split; try reflexivity; destruct (valid_filled_string w); reflexivity.
Qed.

Lemma stamp_field_read d f w n r : entry_ok d f = true -> dKind d = FStamp -> length w = dWidth d ->
  length w = 14%nat
  /\ is_valid_type f w n r = (if dMust d && valid_filled_string w then Some (ErrFieldRequired n r) else None)
  /\ parse_value f w n r = res_map VTime (time_from_timestamp_string w).
Proof.
  intros E K L. apply entry_inv in E as (El & Et & Ew & Em). rewrite K in Et, Ew. rewrite Em.
  cbn in Ew. apply Nat.eqb_eq in Ew. split; [congruence|].
  assert (Nat.eqb (length w) (fLength f) = true) as N by (apply Nat.eqb_eq; congruence).
  destruct f as [start len ty req]. cbn [fType fRequired fLength] in *. unfold is_valid_type, parse_value. cbn [fType fRequired fLength].
  split_type Et; destruct req; cbn; rewrite ?N, ?andb_true_r; split; try reflexivity; destruct (valid_filled_string w); reflexivity.
Qed.

Lemma binary_field_read d f w n r : entry_ok d f = true -> length w = dWidth d ->
  match dKind d with
  | FWord => length w = 4%nat /\ is_valid_type f w n r = None /\ parse_value f w n r = Ok (VInt (be_val (firstn 2 w)))
  | FBinary => is_valid_type f w n r = None /\ parse_value f w n r = Ok (VInt (be_val w))
  | FBinDate => length w = 5%nat /\ is_valid_type f w n r = None
      /\ parse_value f w n r = res_map VTime (time_from_packed_date_string w)
  | FBinStamp => length w = 8%nat /\ is_valid_type f w n r = None
      /\ parse_value f w n r = res_map VTime (time_from_packed_timestamp_string w)
  | _ => True
  end.
Proof.
  intros E L. apply entry_inv in E as (El & Et & Ew & Em).
  destruct f as [start len ty req]. cbn [fType fRequired fLength] in *. unfold is_valid_type, parse_value. cbn [fType fRequired fLength].
  destruct (dKind d); try exact I; unfold width_ok in Ew.
  - apply Nat.eqb_eq in Ew. split; [congruence|]. rewrite Ew in L.
    destruct w as [|a [|b [|c [|e [|]]]]]; try discriminate.
    assert (256 * bval a + bval b = be_val [a; b]) as Q by (unfold be_val; cbn [be_val_acc]; lia).
    split_type Et; destruct req; (split; [reflexivity|]); cbn [firstn]; rewrite <- Q; reflexivity.
  - apply andb_prop in Ew as [W1 W2]. apply Nat.leb_le in W1, W2. rewrite packed_number_from_be by lia.
    split_type Et; destruct req; split; reflexivity.
  - apply Nat.eqb_eq in Ew. split; [congruence|]. split_type Et; destruct req; split; reflexivity.
  - apply Nat.eqb_eq in Ew. split; [congruence|]. split_type Et; destruct req; split; reflexivity.
Qed.

(* what is read is what the text stands for *)
Lemma field_reads d f w n r v : entry_ok d f = true -> length w = dWidth d -> stands_for d w v ->
  is_valid_type f w n r = None /\ parse_value f w n r = Ok v.
Proof.
  intros E L S. unfold stands_for in S. pose proof (binary_field_read d f w n r E L) as B.
  destruct (dKind d) eqn:K; destruct v as [z|s|t]; try contradiction.
  - destruct (number_read d f w n r E K) as [-> ->]. destruct S as [S M].
    assert (1 <= length w <= 18)%nat as Lw.
    { apply entry_inv in E as (_ & _ & Ew & _). rewrite K in Ew. unfold width_ok in Ew.
      apply andb_prop in Ew as [W1 W2]. apply Nat.leb_le in W1, W2. lia. }
    rewrite (signed_text_parse _ _ Lw S), (signed_text_regex _ _ S). cbn [fst].
    destruct (dMust d); cbn [andb]; [|auto]. destruct (Z.eqb_spec z 0); [exfalso; apply M; auto|auto].
  - destruct (text_read d f w n r E K L) as [-> ->]. destruct S as (A & (k & ->) & N).
    assert (alphanumeric_regex (s ++ repeat " "%char k) = false) as -> by (apply alphanumeric_regex_spec, forall_text; exact A).
    split; [reflexivity|]. change " "%char with blank_char. rewrite (trim_right_app_blanks s k), trim_right_id by exact N. reflexivity.
  - destruct (date_field_read d f w n r E K L) as (L8 & -> & ->). destruct S as [(-> & M & ->)|S].
    + rewrite M. auto.
    + apply date_text_format in S as [P ->]. rewrite format_date_not_filled, andb_false_r by exact P.
      rewrite time_from_date_string_format by exact P. auto.
  - destruct (stamp_field_read d f w n r E K L) as (L14 & -> & ->). destruct S as [(-> & M & ->)|S].
    + rewrite M. auto.
    + apply stamp_text_format in S as [P ->]. rewrite format_timestamp_not_filled, andb_false_r by exact P.
      rewrite time_from_timestamp_string_format by exact P. auto.
  - destruct B as (L4 & -> & ->). split; [reflexivity|]. destruct S as (a & q & -> & La & ->).
    rewrite firstn_app_exact by lia. rewrite binary_be_val. reflexivity.
  - destruct B as (-> & ->). split; [reflexivity|]. rewrite S, binary_be_val. reflexivity.
  - destruct B as (L5 & -> & ->). split; [reflexivity|]. apply binary_date_5 in S; [|exact L5]. rewrite S. reflexivity.
  - destruct B as (L8 & -> & ->). split; [reflexivity|]. apply binary_date_8 in S; [|exact L8]. rewrite S. reflexivity.
Qed.

Lemma field_stands d f w n r v : entry_ok d f = true -> dKind d <> FReserved -> length w = dWidth d ->
  is_valid_type f w n r = None -> parse_value f w n r = Ok v -> stands_for d w v.
Proof.
  intros E NR L. pose proof (binary_field_read d f w n r E L) as B. unfold stands_for.
  destruct (dKind d) eqn:K; try contradiction.
  - destruct (number_read d f w n r E K) as [-> ->].
    destruct (parse_int 64 w) as [z [e|]] eqn:Pi; [discriminate|]. intros V [= <-].
    split; [apply parse_int_signed; exact Pi|]. intros M. rewrite M in V. cbn in V.
    destruct (Z.eqb_spec z 0); [discriminate|assumption].
  - destruct (text_read d f w n r E K L) as [-> ->]. intros V [= <-].
    destruct (alphanumeric_regex w) eqn:A; [discriminate|]. apply alphanumeric_regex_spec in A.
    split; [apply forall_text; exact A|]. split; [|apply trim_right_no_blank].
    exists (length w - length (trim_right w))%nat. apply trim_right_pad.
  - destruct (date_field_read d f w n r E K L) as (L8 & -> & ->). intros V P.
    destruct (time_from_date_string w) as [t| |] eqn:T; try discriminate. injection P as <-.
    destruct (date_read w t T) as [P [[C ->]|C]].
    + left. rewrite L8 in C. split; [reflexivity|]. split; [|exact C].
      destruct (dMust d); [|reflexivity]. exfalso. rewrite C in V. discriminate V.
    + right. apply date_text_format. auto.
  - destruct (stamp_field_read d f w n r E K L) as (L14 & -> & ->). intros V P.
    destruct (time_from_timestamp_string w) as [t| |] eqn:T; try discriminate. injection P as <-.
    destruct (stamp_read w t L14 T) as [P [[C ->]|C]].
    + left. rewrite L14 in C. split; [reflexivity|]. split; [|exact C].
      destruct (dMust d); [|reflexivity]. exfalso. rewrite C in V. discriminate V.
    + right. apply stamp_text_format. auto.
  - destruct B as (L4 & -> & ->). intros _ [= <-]. exists (firstn 2 w), (skipn 2 w).
    split; [symmetry; apply firstn_skipn|]. split; [rewrite firstn_length; lia|]. rewrite binary_be_val. reflexivity.
  - destruct B as (-> & ->). intros _ [= <-]. rewrite binary_be_val. reflexivity.
  - destruct B as (L5 & -> & ->). intros _ P. destruct (time_from_packed_date_string w) as [t| |] eqn:T; try discriminate.
    injection P as <-. apply binary_date_5; assumption.
  - destruct B as (L8 & -> & ->). intros _ P. destruct (time_from_packed_timestamp_string w) as [t| |] eqn:T; try discriminate.
    injection P as <-. apply binary_date_8; assumption.
Qed.

Lemma field_complains d f w r e : entry_ok d f = true -> dKind d <> FReserved -> length w = dWidth d ->
  is_valid_type f w (dName d) r = Some e \/ is_valid_type f w (dName d) r = None /\ parse_value f w (dName d) r = Err e ->
  ~ readable d w /\ complaint r d w e.
Proof.
  intros E NR L H. split.
  - intros [R|[v S]]; [contradiction|]. destruct (field_reads d f w (dName d) r v E L S) as [V P].
    rewrite V, P in H. destruct H as [H|[_ H]]; discriminate.
  - pose proof (binary_field_read d f w (dName d) r E L) as B. unfold complaint.
    destruct (dKind d) eqn:K; try contradiction.
    + destruct (number_read d f w (dName d) r E K) as [V P]. rewrite V, P in H. clear V P.
      assert (length w <= 18)%nat as Lw.
      { apply entry_inv in E as (_ & _ & Ew & _). rewrite K in Ew. unfold width_ok in Ew.
        apply andb_prop in Ew as [W1 W2]. apply Nat.leb_le in W1, W2. lia. }
      destruct (parse_int 64 w) as [z [x|]] eqn:Pi; cbn [fst] in H.
      * destruct (parse_int_error w z x Pi Lw) as [-> ->]. rewrite Z.eqb_refl, andb_true_r in H.
        destruct (dMust d).
        -- destruct H as [H|[H _]]; [injection H as <-; reflexivity|discriminate].
        -- destruct (numeric_regex w) eqn:N.
           ++ right. split; [apply numeric_regex_spec; exact N|]. destruct H as [H|[_ H]]; [discriminate|injection H as <-; reflexivity].
           ++ left. split; [apply numeric_regex_none; exact N|]. destruct H as [H|[H _]]; [injection H as <-; reflexivity|discriminate].
      * pose proof (signed_text_regex w z (parse_int_signed _ _ Pi)) as N. rewrite N in H.
        destruct H as [H|[_ H]]; [|discriminate].
        destruct (dMust d); cbn [andb] in H; [|discriminate].
        destruct (z =? 0); [injection H as <-; reflexivity|discriminate].
    + destruct (text_read d f w (dName d) r E K L) as [V P]. rewrite V, P in H.
      destruct H as [H|[_ H]]; [|discriminate]. destruct (alphanumeric_regex w); [injection H as <-; reflexivity|discriminate].
    + destruct (date_field_read d f w (dName d) r E K L) as (_ & V & P). rewrite V, P in H.
      destruct (dMust d && valid_filled_string w) eqn:M.
      * apply andb_prop in M as [M F]. left. split; [exact M|]. split; [apply blanked_spec; exact F|].
        destruct H as [H|[H _]]; [injection H as <-; reflexivity|discriminate].
      * right. split.
        -- intros [M' F]. apply blanked_spec in F. rewrite M', F in M. discriminate.
        -- destruct H as [H|[_ H]]; [discriminate|].
           destruct (time_from_date_string w) eqn:T; try discriminate. injection H as <-. eapply date_error; exact T.
    + destruct (stamp_field_read d f w (dName d) r E K L) as (_ & V & P). rewrite V, P in H.
      destruct (dMust d && valid_filled_string w) eqn:M.
      * apply andb_prop in M as [M F]. left. split; [exact M|]. split; [apply blanked_spec; exact F|].
        destruct H as [H|[H _]]; [injection H as <-; reflexivity|discriminate].
      * right. split.
        -- intros [M' F]. apply blanked_spec in F. rewrite M', F in M. discriminate.
        -- destruct H as [H|[_ H]]; [discriminate|].
           destruct (time_from_timestamp_string w) eqn:T; try discriminate. injection H as <-. eapply stamp_error; exact T.
    + destruct B as (_ & V & P). rewrite V, P in H. destruct H as [H|[_ H]]; discriminate.
    + destruct B as (V & P). rewrite V, P in H. destruct H as [H|[_ H]]; discriminate.
    + destruct B as (L5 & V & P). rewrite V, P in H. destruct H as [H|[_ H]]; [discriminate|].
      destruct (time_from_packed_date_string w) eqn:T; try discriminate. injection H as <-. eapply packed_date_error; eassumption.
    + destruct B as (L8 & V & P). rewrite V, P in H. destruct H as [H|[_ H]]; [discriminate|].
      destruct (time_from_packed_timestamp_string w) eqn:T; try discriminate. injection H as <-. eapply packed_stamp_error; eassumption.
Qed.

Lemma stands_unique d f w v v' : entry_ok d f = true -> length w = dWidth d -> stands_for d w v -> stands_for d w v' -> v = v'.
Proof.
  intros E L A B. destruct (field_reads d f w "" "" v E L A) as [_ P]. destruct (field_reads d f w "" "" v' E L B) as [_ Q]. congruence.
Qed.

Lemma stands_kind d w v : stands_for d w v -> kind_of v = fk_kind (dKind d).
Proof. unfold stands_for. destruct (dKind d), v; cbn; tauto. Qed.
