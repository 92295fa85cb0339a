(* Single fields, any width *)
From Coq Require Import ZArith NArith Bool Ascii String List Lia.
Import ListNotations.
From Verif Require Import GoBase GoTime Regex Tables Codec GoBaseFacts SpecCodec SpecFields TimeFacts FieldFacts FieldRead.
Local Open Scope string_scope.
Local Open Scope Z_scope.
Local Open Scope list_scope.
Local Notation length := List.length.

Ltac cases_type H := destruct H as [H|H]; cbn [fType] in H; subst; cbn in *.

(* ---- numbers ---- *)

Lemma number_write f z : of_type numeric f -> (1 <= fLength f)%nat -> 0 <= z < 10 ^ Z.of_nat (fLength f) ->
  decimal_text (fLength f) z (to_string f (Some (VInt z))).
Proof.
  destruct f as [start w ty req]. cbn [fLength]. intros T Hw Hz.
  destruct (number_text w z Hw Hz) as (L & D & V).
  assert (to_string (mkField start w ty req) (Some (VInt z)) = fmt_zero_pad w (itoa z)) as ->
    by (cases_type T; reflexivity).
  apply decimal_text_spec. auto.
Qed.

Lemma number_read f s : of_type numeric f -> s <> [] -> Forall (fun c => In c digits) s ->
  decimal s < 2 ^ 63 -> (fRequired f = required -> decimal s <> 0) ->
  reads f s (VInt (decimal s)).
Proof.
  destruct f as [start w ty req]. intros T N D B R n r.
  apply forall_digits in D. rewrite decimal_dval in *.
  pose proof (parse_int_digits 64 s N D B) as Pi. unfold is_valid_type, parse_value, atoi.
  rewrite Pi, numeric_regex_digits by assumption.
  cases_type T; (destruct req; cbn in R |- *; [auto| |auto]);
      (destruct (Z.eqb_spec (dval s) 0); [exfalso; apply R; auto|auto]).
Qed.

Lemma number_zero_refused f s : of_type numeric f -> fRequired f = required ->
  Forall (fun c => In c digits) s -> decimal s = 0 -> refuses f s.
Proof.
  destruct f as [start w ty req]. cbn [fRequired]. intros T -> D V n r. left.
  apply forall_digits in D. rewrite decimal_dval in *.
  unfold is_valid_type, atoi. destruct s as [|c s]; [cases_type T; eauto|].
  rewrite (parse_int_digits 64); [|discriminate|assumption|rewrite V; reflexivity].
  rewrite V. cases_type T; eauto.
Qed.

(* ---- text ---- *)

Lemma text_write f s : fType f = alphanumeric -> Forall (fun c => code c < 128) s ->
  to_string f (Some (VStr s)) = firstn (fLength f) (s ++ repeat " "%char (fLength f)).
Proof.
  destruct f as [start w ty req]. cbn [fType fLength]. intros -> A.
  change (fmt_left w s = firstn w (s ++ repeat blank_char w)).
  rewrite fmt_left_ascii.
  - rewrite firstn_app. f_equal.
    assert (forall c m n, (m <= n)%nat -> firstn m (repeat c n) = repeat (c : ascii) m) as F.
    { clear. intros c m. induction m as [|m IH]; intros [|n] H; cbn; try reflexivity; [lia|]. f_equal. apply IH. lia. }
    rewrite F by lia. reflexivity.
  - apply forallb_Forall. revert A. apply Forall_impl. intros c. unfold is_ascii, code.
    intros H. apply Z.ltb_lt. exact H.
Qed.

Lemma text_read f s : fType f = alphanumeric -> s <> [] -> Forall (fun c => In c text_chars) s ->
  exists v n, reads f s (VStr v) /\ s = v ++ repeat " "%char n /\ (forall r, v <> r ++ [" "%char]).
Proof.
  destruct f as [start w ty req]. cbn [fType]. intros -> N A.
  exists (trim_right s), (length s - length (trim_right s))%nat. split; [|split].
  - intros n r. apply forall_text, alphanumeric_regex_spec in A. unfold is_valid_type, parse_value. rewrite A.
    destruct s as [|c s]; [contradiction|]. destruct req; cbn; auto.
  - apply trim_right_pad.
  - intros r. apply trim_right_no_blank.
Qed.

Lemma text_refused f s : fType f = alphanumeric -> ~ Forall (fun c => In c text_chars) s -> refuses f s.
Proof.
  destruct f as [start w ty req]. cbn [fType]. intros -> A n r. left.
  unfold is_valid_type. rewrite forall_text, <- alphanumeric_regex_spec in A.
  destruct (alphanumeric_regex s); [|exfalso; apply A; reflexivity].
  destruct req; cbn; destruct s; cbn; eauto.
Qed.

(* ---- dates ---- *)

Lemma date_text_format t : calendar_date (tYear t) (tMonth t) (tDay t) ->
  date_text (tYear t) (tMonth t) (tDay t) (format_date t).
Proof.
  intros C. rewrite format_date_digits by assumption. apply calendar_date_ranges in C.
  exists (d2 (tMonth t)), (d2 (tDay t)), (d4 (tYear t)).
  repeat (split; [first [reflexivity | apply d2_decimal; lia]|]). apply d4_decimal. lia.
Qed.

Lemma stamp_text_format t : calendar_time t -> stamp_text t (format_timestamp t).
Proof.
  intros (C & Hh & Hm & Hs). unfold format_timestamp.
  rewrite !append_int_2 by lia.
  exists (format_date t), (d2 (tHour t)), (d2 (tMin t)), (d2 (tSec t)).
  split; [reflexivity|]. split; [apply date_text_format; exact C|].
  auto using d2_decimal with zarith.
Qed.

Lemma decimal_text_unique w z s s' : decimal_text w z s -> decimal_text w z s' -> s = s'.
Proof.
  rewrite !decimal_text_spec. intros (L & D & V) (L' & D' & V').
  destruct w as [|w]; [destruct s, s'; try discriminate; reflexivity|].
  pose proof (dval_range s D).
  rewrite <- (fmt_0d_unique (S w) z s), <- (fmt_0d_unique (S w) z s'); auto; lia.
Qed.

Lemma date_text_unique y m d s s' : date_text y m d s -> date_text y m d s' -> s = s'.
Proof.
  intros (a & b & c & -> & A & B & C) (a' & b' & c' & -> & A' & B' & C').
  rewrite (decimal_text_unique _ _ _ _ A A'), (decimal_text_unique _ _ _ _ B B'), (decimal_text_unique _ _ _ _ C C').
  reflexivity.
Qed.

Lemma stamp_text_unique t s s' : stamp_text t s -> stamp_text t s' -> s = s'.
Proof.
  intros (a & b & c & d & -> & A & B & C & D) (a' & b' & c' & d' & -> & A' & B' & C' & D').
  rewrite (date_text_unique _ _ _ _ _ A A'), (decimal_text_unique _ _ _ _ B B'),
    (decimal_text_unique _ _ _ _ C C'), (decimal_text_unique _ _ _ _ D D').
  reflexivity.
Qed.

(* zones are at most a day off *)
Lemma not_zero_later t : calendar_time t -> 2 <= tYear t ->
  (forall o, tOff t = Some o -> - 86400 <= o <= 86400) -> is_zero t = false.
Proof.
  intros (C & Hh & Hm & Hs) Hy Ho. apply calendar_date_ranges in C as (Cy & Cm & Cd).
  unfold is_zero. destruct (Z.eqb_spec (abs_sec t) 0) as [E|]; [|reflexivity]. exfalso.
  unfold abs_sec, day_number in E.
  pose proof (days_before_nonneg (tMonth t) (tYear t)) as N.
  assert (match tOff t with None => 0 | Some o => o end <= 86400) as O.
  { destruct (tOff t) as [o|]; [|lia]. apply (Ho o). reflexivity. }
  revert E N O. generalize (days_before (tMonth t) (tYear t)).
  generalize (match tOff t with None => 0 | Some o => o end). intros o db E N O.
  assert (0 <= (tYear t - 1) / 4 - (tYear t - 1) / 100 + (tYear t - 1) / 400) as Q.
  { assert ((tYear t - 1) / 100 <= (tYear t - 1) / 4) by (apply Z.div_le_compat_l; lia).
    pose proof (Z.div_pos (tYear t - 1) 400 ltac:(lia) ltac:(lia)). lia. }
  lia.
Qed.

Lemma date_write f t : of_type date f -> calendar_time t ->
  (forall o, tOff t = Some o -> - 86400 <= o <= 86400) ->
  (t = no_date -> to_string f (Some (VTime t)) = repeat "0"%char (fLength f)) /\
  (2 <= tYear t \/ (plain_date t /\ t <> no_date) ->
    date_text (tYear t) (tMonth t) (tDay t) (to_string f (Some (VTime t)))).
Proof.
  destruct f as [start w ty req]. intros T C O. split.
  - intros ->. cases_type T; reflexivity.
  - intros H. assert (is_zero t = false) as Iz.
    { destruct H as [H|[P N]]; [apply not_zero_later; assumption|].
      destruct (is_zero t) eqn:Z; [|reflexivity]. exfalso. apply N, plain_date_is_zero; assumption. }
    assert (to_string (mkField start w ty req) (Some (VTime t)) = format_date t) as ->
      by (cases_type T; rewrite Iz; reflexivity).
    apply date_text_format, C.
Qed.

Lemma stamp_write f t : of_type timestamp f -> calendar_time t ->
  (forall o, tOff t = Some o -> - 86400 <= o <= 86400) ->
  (t = no_date -> to_string f (Some (VTime t)) = repeat "0"%char (fLength f)) /\
  (2 <= tYear t \/ (plain_stamp t /\ t <> no_date) -> stamp_text t (to_string f (Some (VTime t)))).
Proof.
  destruct f as [start w ty req]. intros T C O. split.
  - intros ->. cases_type T; reflexivity.
  - intros H. assert (is_zero t = false) as Iz.
    { destruct H as [H|[P N]]; [apply not_zero_later; assumption|].
      destruct (is_zero t) eqn:Z; [|reflexivity]. exfalso. apply N, plain_stamp_is_zero; assumption. }
    assert (to_string (mkField start w ty req) (Some (VTime t)) = format_timestamp t) as ->
      by (cases_type T; rewrite Iz; reflexivity).
    apply stamp_text_format, C.
Qed.

Lemma date_parse_value f s n r : of_type date f -> parse_value f s n r = res_map VTime (time_from_date_string s).
Proof. destruct f. intros T. unfold parse_value. cases_type T; reflexivity. Qed.

Lemma stamp_parse_value f s n r : of_type timestamp f ->
  parse_value f s n r = res_map VTime (time_from_timestamp_string s).
Proof. destruct f. intros T. unfold parse_value. cases_type T; reflexivity. Qed.

Lemma date_valid f s n r : of_type date f ->
  is_valid_type f s n r = None <->
  ~ (fRequired f = required /\ length s = fLength f /\ valid_filled_string s = true).
Proof.
  destruct f as [start w ty req]. intros T. unfold is_valid_type. cbn [fRequired fLength].
  destruct req; cases_type T; try (split; [intros _ (X & _); discriminate|reflexivity]).
  all: destruct (valid_filled_string s), (Nat.eqb_spec (length s) w); cbn; split; intros H; auto; try discriminate;
    try (exfalso; apply H; auto; fail); intros (_ & X & Y); congruence.
Qed.

Lemma stamp_valid f s n r : of_type timestamp f ->
  is_valid_type f s n r = None <->
  ~ (fRequired f = required /\ length s = fLength f /\ valid_filled_string s = true).
Proof.
  destruct f as [start w ty req]. intros T. unfold is_valid_type. cbn [fRequired fLength].
  destruct req; cases_type T; try (split; [intros _ (X & _); discriminate|reflexivity]).
  all: destruct (valid_filled_string s), (Nat.eqb_spec (length s) w); cbn; split; intros H; auto; try discriminate;
    try (exfalso; apply H; auto; fail); intros (_ & X & Y); congruence.
Qed.

Lemma zeros_all s : zeros s <-> all_char zero_char s = true.
Proof. unfold zeros. rewrite all_char_spec. reflexivity. Qed.

Lemma date_from s t : time_from_date_string s = Ok t <->
  (zeros s /\ t = no_date) \/
  (exists y m d, calendar_date y m d /\ date_text y m d s /\ t = at_midnight y m d).
Proof.
  split.
  - intros H. apply date_read in H as [P [[H ->]| ->]]; [left; auto|right].
    exists (tYear t), (tMonth t), (tDay t). destruct P as (C & H1 & H2 & H3 & H4 & H5).
    split; [exact C|]. split; [apply date_text_format; exact C|].
    destruct t; cbn in *; subst; reflexivity.
  - intros [[H ->]|(y & m & d & C & T & ->)].
    + unfold time_from_date_string. apply zeros_all in H. rewrite H. reflexivity.
    + assert (plain_date (at_midnight y m d)) as P by (repeat split; cbn; auto; apply C).
      rewrite (date_text_unique y m d s (format_date (at_midnight y m d))); auto.
      * apply time_from_date_string_format, P.
      * apply (date_text_format (at_midnight y m d)). exact C.
Qed.

Lemma stamp_from s t : length s = 14%nat -> time_from_timestamp_string s = Ok t <->
  (zeros s /\ t = no_date) \/ (plain_stamp t /\ stamp_text t s).
Proof.
  intros L. split.
  - intros H. apply stamp_read in H as [P [[H ->]| ->]]; auto; right.
    split; [exact P|]. apply stamp_text_format. unfold calendar_time. unfold plain_stamp in P. tauto.
  - intros [[H ->]|(P & T)].
    + unfold time_from_timestamp_string. apply zeros_all in H. rewrite H. reflexivity.
    + rewrite (stamp_text_unique t s (format_timestamp t)); auto.
      * apply time_from_timestamp_string_format, P.
      * apply stamp_text_format. unfold calendar_time. unfold plain_stamp in P. tauto.
Qed.

Lemma zeros_filled s : zeros s -> valid_filled_string s = true.
Proof. intros H. unfold valid_filled_string. apply zeros_all in H. rewrite H. reflexivity. Qed.

Lemma date_text_not_filled y m d s : calendar_date y m d -> date_text y m d s -> valid_filled_string s = false.
Proof.
  intros C T. assert (plain_date (at_midnight y m d)) as P by (repeat split; cbn; auto; apply C).
  rewrite (date_text_unique y m d s (format_date (at_midnight y m d))); auto.
  - apply format_date_not_filled, P.
  - apply (date_text_format (at_midnight y m d)). exact C.
Qed.

Lemma stamp_text_not_filled t s : plain_stamp t -> stamp_text t s -> valid_filled_string s = false.
Proof.
  intros P T. rewrite (stamp_text_unique t s (format_timestamp t)); auto.
  - apply format_timestamp_not_filled, P.
  - apply stamp_text_format. unfold calendar_time. unfold plain_stamp in P. tauto.
Qed.

Lemma date_reads f s t : of_type date f -> length s = fLength f ->
  reads f s (VTime t) <->
  (zeros s /\ t = no_date /\ fRequired f <> required) \/
  (exists y m d, calendar_date y m d /\ date_text y m d s /\ t = at_midnight y m d).
Proof.
  intros T L. split.
  - intros H. destruct (H "" "") as [V P]. rewrite date_valid in V by assumption.
    rewrite date_parse_value in P by assumption.
    destruct (time_from_date_string s) as [u| |] eqn:E; try discriminate. injection P as ->.
    apply date_from in E as [[Z ->]|E]; [left|right; exact E].
    repeat split; auto. intros R. apply V. auto using zeros_filled.
  - intros H n r. rewrite date_valid, date_parse_value by assumption.
    assert (time_from_date_string s = Ok t) as ->.
    { apply date_from. destruct H as [(Z & E & _)|H]; auto. }
    split; [|reflexivity]. intros (R & _ & F). destruct H as [(_ & _ & N)|(y & m & d & C & X & _)]; [contradiction|].
    rewrite (date_text_not_filled y m d) in F; auto. discriminate.
Qed.

Lemma stamp_reads f s t : of_type timestamp f -> length s = fLength f -> fLength f = 14%nat ->
  reads f s (VTime t) <->
  (zeros s /\ t = no_date /\ fRequired f <> required) \/ (plain_stamp t /\ stamp_text t s).
Proof.
  intros T L L'. split.
  - intros H. destruct (H "" "") as [V P]. rewrite stamp_valid in V by assumption.
    rewrite stamp_parse_value in P by assumption.
    destruct (time_from_timestamp_string s) as [u| |] eqn:E; try discriminate. injection P as ->.
    apply stamp_from in E as [[Z ->]|E]; [left|right; exact E|congruence].
    repeat split; auto. intros R. apply V. auto using zeros_filled.
  - intros H n r. rewrite stamp_valid, stamp_parse_value by assumption.
    assert (time_from_timestamp_string s = Ok t) as ->.
    { apply stamp_from; [congruence|]. destruct H as [(Z & E & _)|H]; auto. }
    split; [|reflexivity]. intros (R & _ & F). destruct H as [(_ & _ & N)|(P & X)]; [contradiction|].
    rewrite (stamp_text_not_filled t) in F; auto. discriminate.
Qed.

Lemma reads_or_refuses_date f s : of_type date f -> refuses f s \/ exists t, reads f s (VTime t).
Proof.
  intros T. destruct (time_from_date_string s) as [t| |] eqn:E.
  - destruct (is_valid_type f s "" "") eqn:V.
    + left. intros n r. left. destruct (is_valid_type f s n r) as [e'|] eqn:V'; [eauto|]. exfalso.
      rewrite date_valid in V' by assumption. apply (date_valid f s "" "" T) in V'. congruence.
    + right. exists t. intros n r. rewrite date_parse_value, E by assumption. split; [|reflexivity].
      rewrite date_valid in V |- * by assumption. exact V.
  - left. intros n r. destruct (is_valid_type f s n r); [left; eauto|right]. split; [reflexivity|].
    rewrite date_parse_value, E by assumption. cbn. eauto.
  - exfalso. unfold time_from_date_string in E. destruct (all_char _ _); [discriminate|]. destruct (parse_date s); discriminate.
Qed.

Lemma reads_or_refuses_stamp f s : of_type timestamp f -> refuses f s \/ exists t, reads f s (VTime t).
Proof.
  intros T. destruct (time_from_timestamp_string s) as [t| |] eqn:E.
  - destruct (is_valid_type f s "" "") eqn:V.
    + left. intros n r. left. destruct (is_valid_type f s n r) as [e'|] eqn:V'; [eauto|]. exfalso.
      rewrite stamp_valid in V' by assumption. apply (stamp_valid f s "" "" T) in V'. congruence.
    + right. exists t. intros n r. rewrite stamp_parse_value, E by assumption. split; [|reflexivity].
      rewrite stamp_valid in V |- * by assumption. exact V.
  - left. intros n r. destruct (is_valid_type f s n r); [left; eauto|right]. split; [reflexivity|].
    rewrite stamp_parse_value, E by assumption. cbn. eauto.
  - exfalso. unfold time_from_timestamp_string in E. destruct (all_char _ _); [discriminate|]. destruct (parse_timestamp s); discriminate.
Qed.

(* ---- packed ---- *)

Lemma packed_type_valid f s n r : of_type packedNumber f -> is_valid_type f s n r = None.
Proof. destruct f as [start w ty req]. intros T. unfold is_valid_type. cases_type T; destruct req; reflexivity. Qed.

Lemma packed_number_value f s n r : of_type packedNumber f -> parse_value f s n r = res_map VInt (packed_number_from_string s).
Proof. destruct f. intros T. unfold parse_value. cases_type T; reflexivity. Qed.

Lemma packed_number_text f z : of_type packedNumber f ->
  to_string f (Some (VInt z)) = packed_number_string z (fLength f).
Proof. destruct f. intros T. unfold to_string. cases_type T; reflexivity. Qed.

Lemma packed_from_be8 s : (length s <= 8)%nat -> be_val s < 2 ^ 63 -> packed_number_from_string s = Ok (be_val s).
Proof.
  intros L B. unfold packed_number_from_string.
  rewrite firstn_all2 by (rewrite app_length, repeat_length; lia).
  rewrite be_val_zeros. unfold safecast_i64. destruct (Z.ltb_spec (be_val s) (2 ^ 63)); [reflexivity|lia].
Qed.

Lemma packed_number_round f z : of_type packedNumber f -> (fLength f <= 8)%nat ->
  0 <= z < 256 ^ Z.of_nat (fLength f) -> z < 2 ^ 63 ->
  let s := to_string f (Some (VInt z)) in
  length s = fLength f /\ binary s = z /\ reads f s (VInt z).
Proof.
  intros T L Hz B s. unfold s. rewrite packed_number_text, packed_number_string_be by (assumption || lia).
  rewrite be_bytes_length, binary_be_val, be_val_be_bytes, Z.mod_small by lia.
  split; [reflexivity|]. split; [reflexivity|]. intros n r.
  rewrite packed_type_valid, packed_number_value by assumption. split; [reflexivity|].
  rewrite packed_from_be8.
  - rewrite be_val_be_bytes, Z.mod_small by lia. reflexivity.
  - rewrite be_bytes_length. assumption.
  - rewrite be_val_be_bytes, Z.mod_small by lia. assumption.
Qed.

Lemma packed_bytes_round f s : of_type packedNumber f -> length s = fLength f -> (fLength f <= 7)%nat ->
  reads f s (VInt (binary s)) /\ to_string f (Some (VInt (binary s))) = s.
Proof.
  intros T L W. rewrite binary_be_val. pose proof (be_val_range s). split.
  - intros n r. rewrite packed_type_valid, packed_number_value, packed_number_from_be by (assumption || lia). auto.
  - rewrite packed_number_text, packed_number_string_be by (assumption || lia). rewrite <- L. apply be_bytes_be_val.
Qed.

Lemma packed_date_write f t : of_type packedDate f -> plain_date t ->
  written (Doc "" 5 FBinDate false) (VTime t) (to_string f (Some (VTime t))) /\
  reads f (to_string f (Some (VTime t))) (VTime t).
Proof.
  destruct f as [start w ty req]. intros T P.
  pose proof (field_written (Doc "" 5 FBinDate (is_required req)) (mkField start 5 ty req) (VTime t)) as F.
  assert (to_string (mkField start w ty req) (Some (VTime t)) = to_string (mkField start 5 ty req) (Some (VTime t))) as ->
    by (cases_type T; reflexivity).
  destruct F as (L & W & R); [|discriminate|exact P|].
  - destruct T as [T|T]; cbn [fType] in T; subst ty; destruct req; reflexivity.
  - split; [exact W|]. intros n r. specialize (R n r). cases_type T; destruct req; exact R.
Qed.

Lemma packed_stamp_write f t : of_type packedTimestamp f -> plain_stamp t ->
  written (Doc "" 8 FBinStamp false) (VTime t) (to_string f (Some (VTime t))) /\
  reads f (to_string f (Some (VTime t))) (VTime t).
Proof.
  destruct f as [start w ty req]. intros T P.
  pose proof (field_written (Doc "" 8 FBinStamp (is_required req)) (mkField start 8 ty req) (VTime t)) as F.
  assert (to_string (mkField start w ty req) (Some (VTime t)) = to_string (mkField start 8 ty req) (Some (VTime t))) as ->
    by (cases_type T; reflexivity).
  destruct F as (L & W & R); [|discriminate|exact P|].
  - destruct T as [T|T]; cbn [fType] in T; subst ty; destruct req; reflexivity.
  - split; [exact W|]. intros n r. specialize (R n r). cases_type T; destruct req; exact R.
Qed.

Lemma packed_zero_date_text f : of_type packedDate f ->
  to_string f (Some (VTime no_date)) = map (fun n => zbyte n) [0; 15; 105; 81; 115].
Proof. destruct f. intros T. cases_type T; reflexivity. Qed.

Lemma packed_zero_read f : of_type packedDate f -> reads f (repeat (ascii_of_N 0) 5) (VTime no_date).
Proof. destruct f as [start w ty req]. intros T n r. cases_type T; destruct req; split; reflexivity. Qed.

Lemma packed_zero_stamp_read f : of_type packedTimestamp f -> reads f (repeat (ascii_of_N 0) 8) (VTime no_date).
Proof. destruct f as [start w ty req]. intros T n r. cases_type T; destruct req; split; reflexivity. Qed.

Lemma word_round f z : of_type descriptor f -> 0 <= z < 65536 ->
  let s := to_string f (Some (VInt z)) in
  written (Doc "" 4 FWord false) (VInt z) s /\ reads f s (VInt z).
Proof.
  destruct f as [start w ty req]. intros T Z s. unfold s.
  pose proof (field_written (Doc "" 4 FWord (is_required req)) (mkField start 4 ty req) (VInt z)) as F.
  assert (to_string (mkField start w ty req) (Some (VInt z)) = to_string (mkField start 4 ty req) (Some (VInt z))) as ->
    by (cases_type T; reflexivity).
  destruct F as (L & W & R); [|discriminate|exact Z|].
  - destruct T as [T|T]; cbn [fType] in T; subst ty; destruct req; reflexivity.
  - split; [exact W|]. intros n r. specialize (R n r). cases_type T; destruct req; exact R.
Qed.
