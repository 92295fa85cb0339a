(* Facts about dates in JSON *)
From Coq Require Import ZArith NArith Bool Ascii String List Permutation Lia.
Import ListNotations.
From Verif Require Import GoBase GoBaseFacts GoTime TimeFacts GoLayout Json Tables JsonTables Codec Records File Reader JsonFile
  SpecCodec SpecLayouts SpecRecords FieldFacts FieldProps RecordFacts SpecJson LayoutFacts JsonTextFacts JsonMapFacts JsonFacts JsonProps SpecSparse SpecDates.
Local Open Scope string_scope.
Local Open Scope Z_scope.
Local Open Scope list_scope.
Local Notation length := List.length.

(* ---- notations ---- *)

Lemma two_text z s : 0 <= z < 100 -> decimal_text 2 z s -> s = d2 z.
Proof. intros H D. apply (decimal_text_unique 2 z); [assumption|now apply d2_decimal]. Qed.
Lemma four_text z s : 0 <= z < 10000 -> decimal_text 4 z s -> s = d4 z.
Proof. intros H D. apply (decimal_text_unique 4 z); [assumption|now apply d4_decimal]. Qed.

(* the texts of zones *)
Definition zone_sign (neg : bool) : byte := if neg then "-"%char else "+"%char.
Definition offset_text (neg : bool) (m : Z) : bytes := zone_sign neg :: d2 (m / 60) ++ lit ":" ++ d2 (m mod 60).
Inductive zone_form : option Z -> bytes -> Prop :=
| FormUtc : zone_form None (lit "Z")
| FormOffset neg m : 0 <= m < 1440 -> zone_form (Some (60 * (if neg : bool then - m else m))) (offset_text neg m)
| FormLocal : zone_form None [].
Lemma zone_forms o z : zone_text o z \/ (o = None /\ z = []) -> zone_form o z.
Proof.
  intros [[|m h mi M H Mi|m h mi M H Mi]|[-> ->]]; [constructor| | |constructor].
  - apply two_text in H; [|euclid]. apply two_text in Mi; [|euclid]. subst. exact (FormOffset false m M).
  - apply two_text in H; [|euclid]. apply two_text in Mi; [|euclid]. subst.
    replace (- (60 * m)) with (60 * - m) by ring. exact (FormOffset true m M).
Qed.

(* parts of a second *)
Definition fraction_shape (k : nat) : list shape := match k with O => [] | _ => C "."%char :: repeat D k end.
Lemma digits_of_shape s : forallb is_digit s = true -> of_shape (repeat D (length s)) s.
Proof.
  induction s as [|c s IH]; intros H; [constructor|]. cbn in H. apply andb_true_iff in H as [Hc H]. constructor; [exact Hc|now apply IH].
Qed.
Lemma take_digits_app s r : forallb is_digit s = true -> match r with c :: _ => is_digit c = false | [] => True end -> take_digits (s ++ r) = (s, r).
Proof.
  intros H St. induction s as [|c s IH]; cbn [app].
  - destruct r as [|c r]; [reflexivity|]. cbn [take_digits]. now rewrite St.
  - cbn in H. apply andb_true_iff in H as [Hc H]. cbn [take_digits]. now rewrite Hc, (IH H).
Qed.
(* what may follow the seconds *)
Definition after_seconds (r : bytes) : Prop :=
  match r with c :: _ => is_digit c = false /\ byte_eqb c "." = false /\ byte_eqb c "," = false | [] => True end.
Lemma fraction_read ns f : fraction_text ns f -> exists k, (k <= 9)%nat /\ of_shape (fraction_shape k) f /\ forallb simple f = true
  /\ (f = [] -> ns = 0)
  /\ forall r, after_seconds r -> opt_fraction (f ++ r) = Some (ns, r).
Proof.
  intros [|k z ds K Dt].
  - exists 0%nat. split; [lia|]. split; [constructor|]. split; [reflexivity|]. split; [reflexivity|]. intros [|c r] St; [reflexivity|].
    destruct St as (_ & H1 & H2). now apply opt_fraction_at.
  - apply decimal_text_spec in Dt as (L & Dg & V). exists k. split; [lia|]. destruct k as [|k]; [lia|].
    split; [constructor; [split; reflexivity|rewrite <- L; now apply digits_of_shape]|].
    split; [cbn [lit list_ascii_of_string app forallb]; rewrite digits_simple by assumption; reflexivity|]. split; [discriminate|].
    intros r St. destruct ds as [|c ds]; [discriminate L|].
    unfold opt_fraction. cbn [lit list_ascii_of_string app].
    assert (is_digit c = true) as -> by (cbn in Dg; now apply andb_true_iff in Dg).
    change (byte_eqb "." "." || byte_eqb "." ",") with true. cbn [andb].
    change (c :: ds ++ r) with ((c :: ds) ++ r). rewrite take_digits_app; [|assumption|destruct r; [exact I|now destruct St]].
    rewrite firstn_all2 by lia. rewrite L, V. reflexivity.
Qed.

(* dates with a time *)
Lemma moment_stamp_shape t : calendar_time t -> of_shape stamp_shape (stamp_text t).
Proof. intros (H & H1 & H2 & H3). exact (stamp_text_shape (mkTime (tYear t) (tMonth t) (tDay t) (tHour t) (tMin t) (tSec t) 0 (tOff t)) (conj H (conj H1 (conj H2 (conj H3 eq_refl))))). Qed.

Lemma parse_stamp_fraction t f r l rest : calendar_time t -> fraction_text (tNsec t) f -> is_frac l = false -> after_seconds r ->
  parse_chunks (stamp_chunks ++ l) rest parsed0 (stamp_text t ++ f ++ r)
  = parse_chunks l rest (mkParsed (tYear t) (tMonth t) (tDay t) (tHour t) (tMin t) (tSec t) (tNsec t)
                           false false false (-1) []) r.
Proof.
  intros (H & H1 & H2 & H3) Ft Fr St. destruct (calendar_date_ranges _ _ _ H) as (Hy & Hm & Hd).
  destruct (fraction_read _ _ Ft) as (_ & _ & _ & _ & Z0 & Fo).
  unfold stamp_text. rewrite <- !app_assoc. unfold stamp_chunks. cbn [app parse_chunks skip_prefix is_frac parse_std].
  rewrite getyear_d4 by lia. cbn [lit list_ascii_of_string app].
  rewrite skip_one by reflexivity. rewrite num_in_d2 by lia. cbn [app].
  rewrite skip_one by reflexivity. rewrite getnum_d2 by lia. cbn [app].
  rewrite skip_one by reflexivity. rewrite num_in_d2 by lia. cbn [app].
  rewrite skip_one by reflexivity. rewrite num_in_d2 by lia. cbn [app].
  rewrite skip_one by reflexivity. rewrite num_in_d2 by lia. rewrite Fr.
  rewrite Fo by assumption. rewrite app_length. destruct f as [|c f].
  - cbn [length Nat.add]. rewrite Nat.eqb_refl, (Z0 eq_refl). reflexivity.
  - rewrite (proj2 (Nat.eqb_neq _ _)) by (cbn [length]; lia). reflexivity.
Qed.

Lemma valid_moment t : calendar_time t -> valid_day (tYear t) (tMonth t) (tDay t) = true.
Proof. intros (H & _). apply calendar_date_spec in H. tauto. Qed.

Lemma parsed_moment zone t (o : option Z) : calendar_time t -> tOff t = o -> (forall x, o = Some x -> x <> -1) ->
  parsed_time zone (mkParsed (tYear t) (tMonth t) (tDay t) (tHour t) (tMin t) (tSec t) (tNsec t) false false false
    (match o with Some x => x | None => -1 end) []) = Some t.
Proof.
  intros C O N. pose proof (valid_moment t C) as V. destruct C as (H & H1 & H2 & H3). destruct (calendar_date_ranges _ _ _ H) as (Hy & Hm & Hd).
  unfold parsed_time. cbn [pPm pAm pHour pMonth pDay pYear pMin pSec pNsec pUTC pOffset pZone andb].
  rewrite (proj2 (Z.ltb_ge _ _)), (proj2 (Z.ltb_ge _ _)) by lia. rewrite V. rewrite andb_false_r. cbn [andb negb].
  destruct o as [x|].
  - rewrite (proj2 (Z.eqb_neq _ _)) by now apply N. cbn [negb]. destruct t; cbn in *; subst; reflexivity.
  - change (negb (-1 =? -1)) with false. cbv iota. destruct t; cbn in *; subst; reflexivity.
Qed.

Lemma parse_moment_utc zone t f : calendar_time t -> fraction_text (tNsec t) f -> tOff t = None ->
  parse_layout zone "2006-01-02T15:04:05Z" (stamp_text t ++ f ++ lit "Z") = Some t.
Proof.
  intros C Ft O. unfold parse_layout. change (chList (chunks "2006-01-02T15:04:05Z")) with (stamp_chunks ++ []).
  change (chRest (chunks "2006-01-02T15:04:05Z")) with (lit "Z"). cbn [lit list_ascii_of_string].
  rewrite parse_stamp_fraction by (auto; repeat split; reflexivity). cbn [parse_chunks]. rewrite skip_one by reflexivity.
  apply (parsed_moment zone t None C O). discriminate.
Qed.
Lemma parse_moment_local zone t f : calendar_time t -> fraction_text (tNsec t) f -> tOff t = None ->
  parse_layout zone "2006-01-02T15:04:05" (stamp_text t ++ f ++ []) = Some t.
Proof.
  intros C Ft O. unfold parse_layout. change (chList (chunks "2006-01-02T15:04:05")) with (stamp_chunks ++ []).
  change (chRest (chunks "2006-01-02T15:04:05")) with (@nil ascii).
  rewrite parse_stamp_fraction by (auto; exact I). cbn [parse_chunks skip_prefix].
  apply (parsed_moment zone t None C O). discriminate.
Qed.
Lemma parse_moment_offset zone t f neg m : calendar_time t -> fraction_text (tNsec t) f -> 0 <= m < 1440 -> tOff t = Some (60 * (if neg : bool then - m else m)) ->
  parse_layout zone "2006-01-02T15:04:05-07:00" (stamp_text t ++ f ++ offset_text neg m) = Some t.
Proof.
  intros C Ft M O. unfold parse_layout.
  change (chList (chunks "2006-01-02T15:04:05-07:00")) with (stamp_chunks ++ [([], StdNumTZ ZColon)]).
  change (chRest (chunks "2006-01-02T15:04:05-07:00")) with (@nil ascii). unfold offset_text.
  rewrite parse_stamp_fraction by (auto; destruct neg; repeat split; reflexivity).
  cbn [parse_chunks skip_prefix parse_std]. unfold num_zone.
  assert (0 <= m / 60 < 24 /\ 0 <= m mod 60 < 60) as [A B] by euclid.
  assert (forall s x z r, zone_parts ZColon (s :: d2 x ++ lit ":" ++ d2 z ++ r) = Some (s, d2 x, d2 z, lit "00", r)) as Z
    by reflexivity.
  rewrite <- (app_nil_r (d2 (m mod 60))), Z.
  assert (forall lo hi z, 0 <= z < 100 -> lo <= z <= hi -> num_in lo hi true (d2 z) = Some (z, [])) as N.
  { intros. rewrite <- (app_nil_r (d2 z)). apply num_in_d2; assumption. }
  rewrite !N by lia.
  change (num_in 0 60 true (lit "00")) with (Some (0, @nil ascii)). cbv iota beta.
  assert ((m / 60 * 60 + m mod 60) * 60 + 0 = 60 * m) as -> by euclid.
  set (p := mkParsed _ _ _ _ _ _ _ _ _ _ _ _).
  assert ((if byte_eqb (zone_sign neg) "+" then Some (set_offset (60 * m) p, @nil ascii)
    else if byte_eqb (zone_sign neg) "-" then Some (set_offset (- (60 * m)) p, []) else None)
    = Some (set_offset (60 * (if neg then - m else m)) p, [])) as ->.
  { destruct neg; cbn [zone_sign byte_eqb Ascii.eqb Bool.eqb andb]; do 2 f_equal; f_equal; lia. }
  cbv iota beta. subst p. unfold set_offset. cbn [pPm pAm pHour pMonth pDay pYear pMin pSec pNsec pUTC pOffset pZone].
  apply (parsed_moment zone t (Some (60 * (if neg then - m else m))) C O). intros x [= <-]. destruct neg; lia.
Qed.

(* no earlier layout reads them *)
Definition moment_shape (k : nat) (z : list shape) : list shape := stamp_shape ++ fraction_shape k ++ z.
Lemma moment_rejected : forallb (fun k => forallb (shape_rejects (moment_shape k [C "Z"%char])) (firstn 45 dateFormats)
  && forallb (shape_rejects (moment_shape k [])) (firstn 38 dateFormats)
  && forallb (shape_rejects (moment_shape k (C "+"%char :: [D; D; C ":"%char; D; D]))) (firstn 41 dateFormats)
  && forallb (shape_rejects (moment_shape k (C "-"%char :: [D; D; C ":"%char; D; D]))) (firstn 41 dateFormats)) (seq 0 10) = true.
Proof. vm_compute. reflexivity. Qed.

Lemma zone_form_last o z : zone_form o z -> z = [] \/ exists r c, z = r ++ [c] /\ is_space_char c = false /\ c <> quote_char.
Proof.
  intros [|neg m M|]; [right; exists [], "Z"%char; repeat split; discriminate| |now left]. right.
  exists (zone_sign neg :: d2 (m / 60) ++ lit ":" ++ [digit_char (m mod 60 / 10)]), (digit_char (m mod 60 mod 10)).
  split; [unfold offset_text; cbn [app]; rewrite <- !app_assoc; reflexivity|].
  assert (0 <= m mod 60 mod 10 < 10) as Hd by euclid. apply is_digit_digit_char in Hd. apply is_digit_spec in Hd. split.
  - unfold is_space_char. rewrite (proj2 (Z.eqb_neq _ _)), (proj2 (Z.leb_gt (bval _) 13)) by lia. now rewrite andb_false_r.
  - intros E. rewrite E in Hd. cbn in Hd. lia.
Qed.

Definition day_shape : list shape := [D; D; D; D; C "-"%char; D; D; C "-"%char; D; D].
Definition us_shape (c : byte) : list shape := [D; D; C c; D; D; C c; D; D; D; D].

Lemma day_rejected : forallb (shape_rejects day_shape) (firstn 28 dateFormats) = true.
Proof. vm_compute. reflexivity. Qed.
Lemma slash_rejected : forallb (shape_rejects (us_shape "/")) (firstn 1 dateFormats) = true.
Proof. vm_compute. reflexivity. Qed.

Lemma midnight_clock t : midnight t -> clock t.
Proof. intros (H & H1 & H2 & H3 & H4 & _). split; [exact H|]. lia. Qed.


Lemma midnight_parsed zone t : midnight t ->
  parsed_time zone (mkParsed (tYear t) (tMonth t) (tDay t) 0 0 0 0 false false false (-1) []) = Some t.
Proof.
  intros M. pose proof (valid_clock t (midnight_clock t M)) as V. destruct M as (H & H1 & H2 & H3 & H4 & H5).
  destruct (calendar_date_ranges _ _ _ H) as (Hy & Hm & Hd).
  unfold parsed_time. cbn [pPm pAm pHour pMonth pDay pYear pMin pSec pNsec pUTC pOffset pZone andb].
  rewrite (proj2 (Z.ltb_ge _ _)), (proj2 (Z.ltb_ge _ _)) by lia. rewrite V.
  rewrite andb_false_r. cbn [andb negb Z.eqb]. change (negb (-1 =? -1)) with false. cbv iota.
  destruct t; cbn in *; subst; reflexivity.
Qed.

Lemma parse_day zone t : midnight t ->
  parse_layout zone "2006-01-02" (d4 (tYear t) ++ lit "-" ++ d2 (tMonth t) ++ lit "-" ++ d2 (tDay t)) = Some t.
Proof.
  intros M. pose proof (proj1 M) as H. destruct (calendar_date_ranges _ _ _ H) as (Hy & Hm & Hd). unfold parse_layout.
  change (chList (chunks "2006-01-02")) with [(@nil ascii, StdLongYear); (lit "-", StdZeroMonth); (lit "-", StdZeroDay)].
  change (chRest (chunks "2006-01-02")) with (@nil ascii).
  cbn [app parse_chunks skip_prefix is_frac parse_std].
  rewrite getyear_d4 by lia. cbn [lit list_ascii_of_string app].
  rewrite skip_one by reflexivity. rewrite num_in_d2 by lia. cbn [app].
  rewrite skip_one by reflexivity. rewrite <- (app_nil_r (d2 (tDay t))). rewrite getnum_d2 by lia. cbn [app].
  apply midnight_parsed. exact M.
Qed.

Lemma parse_us zone t c : (c = "/"%char \/ c = "-"%char) -> midnight t ->
  parse_layout zone (if byte_eqb c "/" then "01/02/2006" else "01-02-2006") (d2 (tMonth t) ++ [c] ++ d2 (tDay t) ++ [c] ++ d4 (tYear t)) = Some t.
Proof.
  intros Hc M. pose proof (proj1 M) as H. destruct (calendar_date_ranges _ _ _ H) as (Hy & Hm & Hd). unfold parse_layout.
  assert (chList (chunks (if byte_eqb c "/" then "01/02/2006" else "01-02-2006")) = [(@nil ascii, StdZeroMonth); ([c], StdZeroDay); ([c], StdLongYear)]
    /\ chRest (chunks (if byte_eqb c "/" then "01/02/2006" else "01-02-2006")) = []) as [-> ->] by (destruct Hc as [-> | ->]; split; reflexivity).
  assert (byte_eqb c " " = false) as Nc by (destruct Hc as [-> | ->]; reflexivity).
  pose proof (fun r => skip_one c r Nc) as Sk. remember [c] as pre eqn:Ep.
  cbn [app parse_chunks skip_prefix is_frac parse_std].
  rewrite num_in_d2 by lia. rewrite Ep at 2. cbn [app]. rewrite Sk.
  rewrite getnum_d2 by lia. rewrite Ep at 2. cbn [app]. rewrite Sk. rewrite <- (app_nil_r (d4 (tYear t))). rewrite getyear_d4 by lia. cbn [app].
  apply midnight_parsed. exact M.
Qed.

(* a text of digits and separators that begins and ends with a digit *)
Lemma unmarshal_layout zone s t : forallb simple s = true -> (exists c r, s = c :: r /\ is_digit c = true) ->
  (exists r c, s = r ++ [c] /\ is_digit c = true) -> first_layout zone dateFormats s = Some t ->
  time_unmarshal zone (print (JStr s)) = Some t.
Proof.
  intros S (c & r & E & Dc) (r' & c' & E' & Dc') F. cbn [print]. rewrite quote_simple by assumption. unfold time_unmarshal.
  assert (forall c, is_digit c = true -> is_space_char c = false /\ c <> quote_char) as Dg.
  { clear. intros c Dg. apply is_digit_spec in Dg. split.
    - unfold is_space_char. rewrite (proj2 (Z.eqb_neq _ _)), (proj2 (Z.leb_gt (bval _) 13)) by lia. now rewrite andb_false_r.
    - intros ->. cbn in Dg. lia. }
  rewrite trim_quotes.
  - assert (parse_date_string zone s = Some t) as P; [|destruct s; [discriminate E|exact P]].
    unfold parse_date_string. rewrite trim_none; [destruct s; [discriminate E|exact F]| |].
    + intros c1 r1 E1. rewrite E in E1. injection E1 as <- _. now apply Dg.
    + intros c1 r1 E1. rewrite E' in E1. apply app_inj_tail in E1 as [_ <-]. now apply Dg.
  - intros c1 r1 E1. rewrite E in E1. injection E1 as <- _. now apply Dg.
  - intros c1 r1 E1. rewrite E' in E1. apply app_inj_tail in E1 as [_ <-]. now apply Dg.
Qed.

Lemma first_digit z r : 0 <= z < 100 -> exists c s, d2 z ++ r = c :: s /\ is_digit c = true.
Proof.
  intros H. pose proof (d2_digits z H) as E. unfold d2 in *. cbn [forallb] in E. apply andb_prop in E as [E1 E].
  eexists _, _. split; [reflexivity|exact E1].
Qed.
Lemma last_digit z r : 0 <= z < 100 -> exists s c, r ++ d2 z = s ++ [c] /\ is_digit c = true.
Proof.
  intros H. pose proof (d2_digits z H) as E. unfold d2 in *. cbn [forallb] in E. apply andb_prop in E as [E1 E]. apply andb_prop in E as [E2 _].
  eexists (r ++ [_]), _. rewrite <- app_assoc. split; [reflexivity|exact E2].
Qed.

Lemma midnight_ranges t : midnight t -> 0 <= tYear t < 10000 /\ 0 <= tMonth t < 100 /\ 0 <= tDay t < 100.
Proof. intros (H & _). destruct (calendar_date_ranges _ _ _ H) as (Hy & Hm & Hd). lia. Qed.

Lemma d2_simple z : 0 <= z < 100 -> forallb simple (d2 z) = true.
Proof. intros H. apply digits_simple, d2_digits, H. Qed.
Lemma d4_simple z : 0 <= z < 10000 -> forallb simple (d4 z) = true.
Proof. intros H. unfold d4. rewrite forallb_app, !d2_simple by euclid. reflexivity. Qed.

Lemma zone_form_simple o z : zone_form o z -> forallb simple z = true.
Proof.
  intros [|neg m M|]; [reflexivity| |reflexivity]. unfold offset_text.
  change (zone_sign neg :: d2 (m / 60) ++ lit ":" ++ d2 (m mod 60)) with ([zone_sign neg] ++ d2 (m / 60) ++ lit ":" ++ d2 (m mod 60)).
  rewrite !forallb_app, !d2_simple by euclid. destruct neg; reflexivity.
Qed.
Lemma date_simple t s : date_text_of t s -> forallb simple s = true.
Proof.
  intros [y m d h mi sec f z Ck Y M Dd H Mi Sc Ft Zt|y m d Md Y M Dd|y m d Md Y M Dd|y m d Md Y M Dd].
  - pose proof Ck as (H0 & H1 & H2 & H3). destruct (calendar_date_ranges _ _ _ H0) as (Hy & Hm & Hd).
    apply four_text in Y; [|lia]. apply two_text in M; [|lia]. apply two_text in Dd; [|lia]. apply two_text in H; [|lia].
    apply two_text in Mi; [|lia]. apply two_text in Sc; [|lia]. apply zone_forms in Zt. destruct (fraction_read _ _ Ft) as (_ & _ & _ & Sf & _). subst.
    rewrite !forallb_app, d4_simple, !d2_simple, Sf, (zone_form_simple _ _ Zt) by lia. reflexivity.
  - destruct (midnight_ranges t Md) as (Hy & Hm & Hd). apply four_text in Y; [|lia]. apply two_text in M; [|lia]. apply two_text in Dd; [|lia].
    subst. rewrite !forallb_app, d4_simple, !d2_simple by lia. reflexivity.
  - destruct (midnight_ranges t Md) as (Hy & Hm & Hd). apply four_text in Y; [|lia]. apply two_text in M; [|lia]. apply two_text in Dd; [|lia].
    subst. rewrite !forallb_app, d4_simple, !d2_simple by lia. reflexivity.
  - destruct (midnight_ranges t Md) as (Hy & Hm & Hd). apply four_text in Y; [|lia]. apply two_text in M; [|lia]. apply two_text in Dd; [|lia].
    subst. rewrite !forallb_app, d4_simple, !d2_simple by lia. reflexivity.
Qed.

Lemma d4_shape z : 0 <= z < 10000 -> of_shape [D; D; D; D] (d4 z).
Proof. intros H. unfold d4. change [D; D; D; D] with ([D; D] ++ [D; D]). apply Forall2_app; apply d2_shape; euclid. Qed.

Lemma moment_first zone t f z : calendar_time t -> fraction_text (tNsec t) f -> zone_form (tOff t) z ->
  first_layout zone dateFormats (stamp_text t ++ f ++ z) = Some t.
Proof.
  intros Ct Ft Zt. destruct (fraction_read _ _ Ft) as (k & K & Sh & _).
  assert (In k (seq 0 10)) as Ik by (apply in_seq; lia).
  pose proof (proj1 (forallb_forall _ _) moment_rejected k Ik) as R. rewrite !andb_true_iff in R. destruct R as [[[R1 R2] R3] R4].
  assert (forall w zs, of_shape zs w -> of_shape (moment_shape k zs) (stamp_text t ++ f ++ w)) as Sm.
  { intros w zs Hw. apply Forall2_app; [now apply moment_stamp_shape|]. now apply Forall2_app. }
  destruct (tOff t) as [o|] eqn:O; inversion Zt; subst.
  - apply (first_layout_shape zone (moment_shape k (C (zone_sign neg) :: [D; D; C ":"%char; D; D])) _ 41 t "2006-01-02T15:04:05-07:00").
    + apply Sm. constructor; [destruct neg; split; reflexivity|]. change [D; D; C ":"%char; D; D] with ([D; D] ++ [C ":"%char] ++ [D; D]).
      apply Forall2_app; [apply d2_shape; euclid|]. apply Forall2_app; [apply c_shape; reflexivity|]. apply d2_shape; euclid.
    + destruct neg; assumption.
    + reflexivity.
    + now apply parse_moment_offset.
  - apply (first_layout_shape zone (moment_shape k [C "Z"%char]) _ 45 t "2006-01-02T15:04:05Z").
    + apply Sm. apply c_shape. reflexivity.
    + assumption.
    + reflexivity.
    + now apply parse_moment_utc.
  - apply (first_layout_shape zone (moment_shape k []) _ 38 t "2006-01-02T15:04:05").
    + apply Sm. constructor.
    + assumption.
    + reflexivity.
    + now apply parse_moment_local.
Qed.

(* texts that begin with a digit and do not end with white space or a quote *)
Lemma unmarshal_text zone s : forallb simple s = true -> (exists c r, s = c :: r /\ is_digit c = true) ->
  (exists r c, s = r ++ [c] /\ is_space_char c = false /\ c <> quote_char) -> time_unmarshal zone (print (JStr s)) = first_layout zone dateFormats s.
Proof.
  intros S (c & r & E & Dc) (r' & c' & E' & Sp' & Q'). cbn [print]. rewrite quote_simple by assumption. unfold time_unmarshal.
  assert (is_space_char c = false /\ c <> quote_char) as [Sp Q].
  { apply is_digit_spec in Dc. split.
    - unfold is_space_char. rewrite (proj2 (Z.eqb_neq _ _)), (proj2 (Z.leb_gt (bval _) 13)) by lia. now rewrite andb_false_r.
    - intros ->. cbn in Dc. lia. }
  rewrite trim_quotes.
  - assert (parse_date_string zone s = first_layout zone dateFormats s) as P; [|destruct s; [discriminate E|exact P]].
    unfold parse_date_string. rewrite trim_none; [destruct s; [discriminate E|reflexivity]| |].
    + intros c1 r1 E1. rewrite E in E1. injection E1 as <- _. exact Sp.
    + intros c1 r1 E1. rewrite E' in E1. apply app_inj_tail in E1 as [_ <-]. exact Sp'.
  - intros c1 r1 E1. rewrite E in E1. injection E1 as <- _. exact Q.
  - intros c1 r1 E1. rewrite E' in E1. apply app_inj_tail in E1 as [_ <-]. exact Q'.
Qed.
Lemma digit_ends c : is_digit c = true -> is_space_char c = false /\ c <> quote_char.
Proof.
  intros Dc. apply is_digit_spec in Dc. split.
  - unfold is_space_char. rewrite (proj2 (Z.eqb_neq _ _)), (proj2 (Z.leb_gt (bval _) 13)) by lia. now rewrite andb_false_r.
  - intros ->. cbn in Dc. lia.
Qed.
Lemma fraction_last t f : calendar_time t -> fraction_text (tNsec t) f -> exists r c, stamp_text t ++ f = r ++ [c] /\ is_digit c = true.
Proof.
  intros (_ & _ & _ & H3) [|k z ds K Dt].
  - rewrite app_nil_r. unfold stamp_text. rewrite !app_assoc. apply last_digit. lia.
  - apply decimal_text_spec in Dt as (L & Dg & _). destruct (@exists_last _ ds) as (r & c & E); [intros ->; cbn in L; lia|].
    exists (stamp_text t ++ lit "." ++ r), c. subst ds. split; [rewrite <- !app_assoc; reflexivity|].
    rewrite forallb_app in Dg. apply andb_true_iff in Dg as [_ Dg]. cbn in Dg. now rewrite andb_true_r in Dg.
Qed.

Lemma date_unmarshal zone t s : date_text_of t s -> time_unmarshal zone (print (JStr s)) = Some t.
Proof.
  intros Dt. pose proof (date_simple t s Dt) as Sm.
  destruct Dt as [y m d h mi sec f z Ck Y M Dd H Mi Sc Ft Zt|y m d Md Y M Dd|y m d Md Y M Dd|y m d Md Y M Dd].
  - pose proof Ck as (H0 & H1 & H2 & H3). destruct (calendar_date_ranges _ _ _ H0) as (Hy & Hm & Hd).
    apply four_text in Y; [|lia]. apply two_text in M; [|lia]. apply two_text in Dd; [|lia]. apply two_text in H; [|lia].
    apply two_text in Mi; [|lia]. apply two_text in Sc; [|lia]. apply zone_forms in Zt. subst.
    assert (d4 (tYear t) ++ lit "-" ++ d2 (tMonth t) ++ lit "-" ++ d2 (tDay t) ++ lit "T" ++ d2 (tHour t) ++ lit ":" ++ d2 (tMin t)
      ++ lit ":" ++ d2 (tSec t) ++ f ++ z = stamp_text t ++ f ++ z) as E by (unfold stamp_text; rewrite <- !app_assoc; reflexivity).
    rewrite E in *. rewrite unmarshal_text; [now apply moment_first|assumption| |].
    + rewrite <- E. unfold d4. rewrite <- app_assoc. apply first_digit. euclid.
    + rewrite app_assoc. destruct (zone_form_last _ _ Zt) as [-> | (r & c & -> & Hc)]; [|exists ((stamp_text t ++ f) ++ r), c; now rewrite app_assoc].
      rewrite app_nil_r. destruct (fraction_last t f Ck Ft) as (r & c & -> & Dc). exists r, c. split; [reflexivity|now apply digit_ends].
  - destruct (midnight_ranges t Md) as (Hy & Hm & Hd). apply four_text in Y; [|lia]. apply two_text in M; [|lia]. apply two_text in Dd; [|lia].
    subst. apply unmarshal_layout; [assumption| | |].
    + unfold d4. rewrite <- app_assoc. apply first_digit. euclid.
    + rewrite !app_assoc. apply last_digit. lia.
    + apply (first_layout_shape zone day_shape _ 28 t "2006-01-02"); [|exact day_rejected|reflexivity|apply parse_day; assumption].
      change day_shape with ([D;D;D;D] ++ [C "-"%char] ++ [D;D] ++ [C "-"%char] ++ [D;D]).
      repeat (apply Forall2_app; [first [apply d4_shape; lia|apply d2_shape; lia|apply c_shape; reflexivity]|]). apply d2_shape. lia.
  - destruct (midnight_ranges t Md) as (Hy & Hm & Hd). apply four_text in Y; [|lia]. apply two_text in M; [|lia]. apply two_text in Dd; [|lia].
    subst. apply unmarshal_layout; [assumption| | |].
    + apply first_digit. lia.
    + unfold d4. rewrite !app_assoc. apply last_digit. euclid.
    + apply (first_layout_shape zone (us_shape "/") _ 1 t "01/02/2006"); [|exact slash_rejected|reflexivity|exact (parse_us zone t "/" (or_introl eq_refl) Md)].
      change (us_shape "/") with ([D;D] ++ [C "/"%char] ++ [D;D] ++ [C "/"%char] ++ [D;D;D;D]).
      repeat (apply Forall2_app; [first [apply d2_shape; lia|apply c_shape; reflexivity]|]). apply d4_shape. lia.
  - destruct (midnight_ranges t Md) as (Hy & Hm & Hd). apply four_text in Y; [|lia]. apply two_text in M; [|lia]. apply two_text in Dd; [|lia].
    subst. apply unmarshal_layout; [assumption| | |].
    + apply first_digit. lia.
    + unfold d4. rewrite !app_assoc. apply last_digit. euclid.
    + apply (first_layout_shape zone (us_shape "-") _ 0 t "01-02-2006"); [|reflexivity|reflexivity|exact (parse_us zone t "-" (or_intror eq_refl) Md)].
      change (us_shape "-") with ([D;D] ++ [C "-"%char] ++ [D;D] ++ [C "-"%char] ++ [D;D;D;D]).
      repeat (apply Forall2_app; [first [apply d2_shape; lia|apply c_shape; reflexivity]|]). apply d4_shape. lia.
Qed.

(* ---- numeric dates ---- *)

Definition numeral_text (p : bool) (z : Z) : bytes := if p then d2 z else [digit_char z].
Lemma numeral_is p z s : numeral p z s -> s = numeral_text p z /\ 0 <= z < (if p then 100 else 10).
Proof.
  intros [w t H|w t H]; pose proof (proj1 (decimal_text_spec _ _ _) H) as (L & Dg & V).
  - assert (0 <= w < 100) as R. { subst w. pose proof (dval_range t Dg) as R. rewrite L in R. exact R. }
    split; [now apply two_text|exact R].
  - destruct t as [|c [|? ?]]; try discriminate L. assert (0 <= w < 10) as R. { subst w. pose proof (dval_range [c] Dg) as R. exact R. }
    split; [|exact R]. unfold numeral_text. f_equal. subst w. cbn in Dg. rewrite andb_true_r in Dg.
    rewrite dval_cons. change (10 ^ Z.of_nat (length (@nil byte))) with 1. change (dval []) with 0.
    replace (digit_val c * 1 + 0) with (digit_val c) by ring. symmetry. now rewrite digit_char_val.
Qed.

Definition numeral_shape (p : bool) : list shape := if p then [D; D] else [D].
Lemma numeral_of_shape (p : bool) z : 0 <= z < (if p then 100 else 10) -> of_shape (numeral_shape p) (numeral_text p z).
Proof. intros H. destruct p; [now apply d2_shape|]. constructor; [now apply is_digit_digit_char|constructor]. Qed.

(* no further digit *)
Definition stops (r : bytes) : Prop := match r with c :: _ => is_digit c = false | [] => True end.
Lemma getnum_numeral (p : bool) z r fixed : 0 <= z < (if p then 100 else 10) -> stops r ->
  getnum (numeral_text p z ++ r) fixed = if fixed && negb p then None else Some (z, r).
Proof.
  intros H St. destruct p; cbn [numeral_text negb].
  - rewrite getnum_d2 by assumption. now rewrite andb_false_r.
  - cbn [app getnum]. rewrite is_digit_digit_char, digit_val_char by assumption. destruct r as [|c r]; [destruct fixed; reflexivity|].
    cbn in St. rewrite St. destruct fixed; reflexivity.
Qed.
Lemma num_in_numeral lo hi (p : bool) z r fixed : 0 <= z < (if p then 100 else 10) -> stops r ->
  num_in lo hi fixed (numeral_text p z ++ r) = if fixed && negb p then None else if (lo <=? z) && (z <=? hi) then Some (z, r) else None.
Proof. intros H St. unfold num_in. rewrite getnum_numeral by assumption. destruct (fixed && negb p); reflexivity. Qed.

Definition a_date (y m d : Z) : bool := (1 <=? m) && (m <=? 12) && valid_day y m d.
Lemma a_date_spec y m d : 0 <= y < 10000 -> (a_date y m d = true <-> calendar_date y m d).
Proof. intros H. unfold a_date. rewrite calendar_date_spec, !andb_true_iff, !Z.leb_le. intuition lia. Qed.

Lemma parsed_day zone y m d : 0 <= d -> 1 <= m ->
  parsed_time zone (mkParsed y m d 0 0 0 0 false false false (-1) []) = if valid_day y m d then Some (day_of y m d) else None.
Proof.
  intros Hd Hm. unfold parsed_time. cbn [pPm pAm pHour pMonth pDay pYear pMin pSec pNsec pUTC pOffset pZone andb].
  rewrite (proj2 (Z.ltb_ge _ _)), (proj2 (Z.ltb_ge _ _)) by lia. reflexivity.
Qed.

(* the elements of a numeric layout *)
Definition month_std (fixed : bool) : std := if fixed then StdZeroMonth else StdNumMonth.
Definition day_std (fixed : bool) : std := if fixed then StdZeroDay else StdDay.
Lemma parse_month frac fixed p v : parse_std frac (month_std fixed) p v =
  match num_in 1 12 fixed v with Some (m, r) => Some (set_month m p, r) | None => None end.
Proof. destruct fixed; reflexivity. Qed.
Lemma parse_day_std frac fixed p v : parse_std frac (day_std fixed) p v =
  match getnum v fixed with Some (n, r) => Some (set_day n p, r) | None => None end.
Proof. destruct fixed; reflexivity. Qed.

Section Numeric.
Variables (zone : bytes -> time -> time) (c : byte) (y a b : Z) (p q fixed : bool).
Hypothesis Hc : byte_eqb c " " = false.
Hypothesis Hd : is_digit c = false.
Hypothesis Hy : 0 <= y < 10000.
Hypothesis Ha : 0 <= a < (if p then 100 else 10).
Hypothesis Hb : 0 <= b < (if q then 100 else 10).

Lemma month_first_layout L : chList (chunks L) = [([], month_std fixed); ([c], day_std fixed); ([c], StdLongYear)] -> chRest (chunks L) = [] ->
  parse_layout zone L (numeral_text p a ++ [c] ++ numeral_text q b ++ [c] ++ d4 y)
  = if implb fixed (p && q) && a_date y a b then Some (day_of y a b) else None.
Proof.
  intros EL ER. unfold parse_layout. rewrite EL, ER. pose proof (fun r => skip_one c r Hc) as Sk. cbn [app]. remember [c] as pre eqn:Ep.
  cbn [parse_chunks skip_prefix is_frac]. rewrite parse_month. rewrite num_in_numeral by (assumption || exact Hd). unfold a_date.
  destruct fixed, p; cbn [andb negb implb]; try reflexivity; (destruct ((1 <=? a) && (a <=? 12)) eqn:Ea; [|rewrite ?andb_false_r; reflexivity]);
    rewrite Sk, parse_day_std, getnum_numeral by (assumption || exact Hd); destruct q; cbn [andb negb]; try reflexivity;
    rewrite Sk; cbn [parse_std]; rewrite <- (app_nil_r (d4 y)), getyear_d4 by assumption; cbn [set_month set_day set_year parsed0 pYear pMonth pDay pHour pMin pSec pNsec pAm pPm pUTC pOffset pZone];
    apply parsed_day; lia.
Qed.
Lemma day_first_layout L : chList (chunks L) = [([], day_std fixed); ([c], month_std fixed); ([c], StdLongYear)] -> chRest (chunks L) = [] ->
  parse_layout zone L (numeral_text p a ++ [c] ++ numeral_text q b ++ [c] ++ d4 y)
  = if implb fixed (p && q) && a_date y b a then Some (day_of y b a) else None.
Proof.
  intros EL ER. unfold parse_layout. rewrite EL, ER. pose proof (fun r => skip_one c r Hc) as Sk. cbn [app]. remember [c] as pre eqn:Ep.
  cbn [parse_chunks skip_prefix is_frac]. rewrite parse_day_std. rewrite getnum_numeral by (assumption || exact Hd). unfold a_date.
  destruct fixed, p; cbn [andb negb implb]; try reflexivity;
    rewrite Sk, parse_month, num_in_numeral by (assumption || exact Hd); destruct q; cbn [andb negb]; try reflexivity;
    (destruct ((1 <=? b) && (b <=? 12)) eqn:Ea; [|rewrite ?andb_false_r; reflexivity]);
    rewrite Sk; cbn [parse_std]; rewrite <- (app_nil_r (d4 y)), getyear_d4 by assumption; cbn [set_month set_day set_year parsed0 pYear pMonth pDay pHour pMin pSec pNsec pAm pPm pUTC pOffset pZone];
    apply parsed_day; lia.
Qed.
Lemma year_first_layout L : chList (chunks L) = [([], StdLongYear); ([c], month_std fixed); ([c], day_std fixed)] -> chRest (chunks L) = [] ->
  parse_layout zone L (d4 y ++ [c] ++ numeral_text p a ++ [c] ++ numeral_text q b)
  = if implb fixed (p && q) && a_date y a b then Some (day_of y a b) else None.
Proof.
  intros EL ER. unfold parse_layout. rewrite EL, ER. pose proof (fun r => skip_one c r Hc) as Sk. cbn [app]. remember [c] as pre eqn:Ep.
  cbn [parse_chunks skip_prefix is_frac parse_std]. rewrite getyear_d4 by assumption. rewrite Sk, parse_month, num_in_numeral by (assumption || exact Hd). unfold a_date.
  destruct fixed, p; cbn [andb negb implb]; try reflexivity; (destruct ((1 <=? a) && (a <=? 12)) eqn:Ea; [|rewrite ?andb_false_r; reflexivity]);
    rewrite Sk, parse_day_std; rewrite <- (app_nil_r (numeral_text q b)), getnum_numeral by (assumption || exact I); destruct q; cbn [andb negb]; try reflexivity;
    cbn [set_month set_day set_year parsed0 pYear pMonth pDay pHour pMin pSec pNsec pAm pPm pUTC pOffset pZone]; apply parsed_day; lia.
Qed.
End Numeric.

(* only the layouts that do not reject the shape matter *)
Definition kept (a : list shape) : list string := filter (fun x => negb (shape_rejects a x)) dateFormats.
Lemma first_layout_kept zone a v : of_shape a v -> first_layout zone dateFormats v = first_layout zone (kept a) v.
Proof.
  intros F. unfold kept. induction dateFormats as [|x l IH]; [reflexivity|]. cbn [filter first_layout].
  destruct (shape_rejects a x) eqn:R; cbn [negb].
  - rewrite (shape_rejects_sound zone a v x F R). exact IH.
  - cbn [first_layout]. now rewrite IH.
Qed.

(* a text of digits and separators that begins and ends with a digit *)
Lemma unmarshal_first zone s : forallb simple s = true -> (exists c r, s = c :: r /\ is_digit c = true) ->
  (exists r c, s = r ++ [c] /\ is_digit c = true) -> time_unmarshal zone (print (JStr s)) = first_layout zone dateFormats s.
Proof.
  intros S F (r & c & E & Dc). apply unmarshal_text; [assumption|assumption|]. exists r, c. split; [exact E|now apply digit_ends].
Qed.

Lemma numeral_simple (p : bool) z : 0 <= z < (if p then 100 else 10) -> forallb simple (numeral_text p z) = true.
Proof.
  intros H. destruct p; [now apply d2_simple|]. apply digits_simple. cbn. rewrite is_digit_digit_char by assumption. reflexivity.
Qed.
Lemma numeral_first (p : bool) z r : 0 <= z < (if p then 100 else 10) -> exists c s, numeral_text p z ++ r = c :: s /\ is_digit c = true.
Proof. intros H. destruct p; [now apply first_digit|]. exists (digit_char z), r. split; [reflexivity|now apply is_digit_digit_char]. Qed.
Lemma numeral_last (p : bool) z r : 0 <= z < (if p then 100 else 10) -> exists s c, r ++ numeral_text p z = s ++ [c] /\ is_digit c = true.
Proof. intros H. destruct p; [now apply last_digit|]. exists r, (digit_char z). split; [reflexivity|now apply is_digit_digit_char]. Qed.

Definition last_shape (c : byte) (p q : bool) : list shape := numeral_shape p ++ [C c] ++ numeral_shape q ++ [C c] ++ [D; D; D; D].
Definition first_shape (c : byte) (p q : bool) : list shape := [D; D; D; D] ++ [C c] ++ numeral_shape p ++ [C c] ++ numeral_shape q.

Lemma year_last_reads zone c a b y p q s : simple c = true -> is_digit c = false -> year_last c a b y p q s ->
  (0 <= y < 10000 /\ 0 <= a < (if p then 100 else 10) /\ 0 <= b < (if q then 100 else 10))
  /\ s = numeral_text p a ++ [c] ++ numeral_text q b ++ [c] ++ d4 y
  /\ time_unmarshal zone (print (JStr s)) = first_layout zone (kept (last_shape c p q)) s.
Proof.
  intros Sc Dc (s1 & s2 & s3 & -> & N1 & N2 & Y). destruct (numeral_is _ _ _ N1) as [-> R1]. destruct (numeral_is _ _ _ N2) as [-> R2].
  assert (0 <= y < 10000) as Ry.
  { apply decimal_text_spec in Y as (L & Dg & V). subst y. pose proof (dval_range s3 Dg) as R. rewrite L in R. exact R. }
  apply four_text in Y; [|assumption]. subst s3. split; [auto|]. split; [reflexivity|].
  rewrite unmarshal_first.
  - apply first_layout_kept. unfold last_shape.
    repeat (apply Forall2_app; [first [apply numeral_of_shape; assumption|apply c_shape; assumption]|]). now apply d4_shape.
  - rewrite !forallb_app, !numeral_simple, d4_simple by assumption. cbn [forallb]. rewrite Sc. reflexivity.
  - now apply numeral_first.
  - unfold d4. rewrite !app_assoc. apply last_digit. euclid.
Qed.
Lemma year_first_reads zone c y a b p q s : simple c = true -> is_digit c = false -> year_first c y a b p q s ->
  (0 <= y < 10000 /\ 0 <= a < (if p then 100 else 10) /\ 0 <= b < (if q then 100 else 10))
  /\ s = d4 y ++ [c] ++ numeral_text p a ++ [c] ++ numeral_text q b
  /\ time_unmarshal zone (print (JStr s)) = first_layout zone (kept (first_shape c p q)) s.
Proof.
  intros Sc Dc (s1 & s2 & s3 & -> & Y & N1 & N2). destruct (numeral_is _ _ _ N1) as [-> R1]. destruct (numeral_is _ _ _ N2) as [-> R2].
  assert (0 <= y < 10000) as Ry.
  { apply decimal_text_spec in Y as (L & Dg & V). subst y. pose proof (dval_range s1 Dg) as R. rewrite L in R. exact R. }
  apply four_text in Y; [|assumption]. subst s1. split; [auto|]. split; [reflexivity|].
  rewrite unmarshal_first.
  - apply first_layout_kept. unfold first_shape.
    repeat (apply Forall2_app; [first [apply numeral_of_shape; assumption|apply c_shape; assumption|apply d4_shape; assumption]|]). now apply numeral_of_shape.
  - rewrite !forallb_app, !numeral_simple, d4_simple by assumption. cbn [forallb]. rewrite Sc. reflexivity.
  - unfold d4. rewrite <- app_assoc. apply first_digit. euclid.
  - rewrite !app_assoc. now apply numeral_last.
Qed.

Lemma slash_kept p q : kept (last_shape "/" p q) = (if p && q then ["01/02/2006"; "02/01/2006"] else []) ++ ["1/2/2006"; "2/1/2006"].
Proof. destruct p, q; vm_compute; reflexivity. Qed.
Lemma dash_kept p q : kept (last_shape "-" p q) = (if p && q then ["01-02-2006"; "02-01-2006"] else []) ++ ["2-1-2006"].
Proof. destruct p, q; vm_compute; reflexivity. Qed.
Lemma iso_kept p q : kept (first_shape "-" p q) = (if p && q then ["2006-01-02"] else []) ++ ["2006-1-2"].
Proof. destruct p, q; vm_compute; reflexivity. Qed.
Lemma iso_slash_kept p q : kept (first_shape "/" p q) = if p && q then ["2006/01/02"] else [].
Proof. destruct p, q; vm_compute; reflexivity. Qed.
Lemma dots_kept p q : kept (last_shape "." p q) = [] /\ kept (first_shape "." p q) = [].
Proof. destruct p, q; vm_compute; split; reflexivity. Qed.

Lemma slash_date zone a b y p q s t : year_last "/" a b y p q s ->
  (reads_as zone s t <-> (calendar_date y a b /\ t = day_of y a b)
                         \/ (~ calendar_date y a b /\ calendar_date y b a /\ t = day_of y b a)).
Proof.
  intros Y. destruct (year_last_reads zone "/" a b y p q s eq_refl eq_refl Y) as ((Ry & Ra & Rb) & -> & E). unfold reads_as. rewrite E, slash_kept.
  rewrite <- !a_date_spec by assumption.
  assert (first_layout zone ((if p && q then ["01/02/2006"; "02/01/2006"] else []) ++ ["1/2/2006"; "2/1/2006"])
    (numeral_text p a ++ ["/"%char] ++ numeral_text q b ++ ["/"%char] ++ d4 y)
    = if a_date y a b then Some (day_of y a b) else if a_date y b a then Some (day_of y b a) else None) as ->.
  { destruct (p && q) eqn:PQ; cbn [app first_layout].
    - rewrite (month_first_layout zone "/" y a b p q true), (day_first_layout zone "/" y a b p q true), (month_first_layout zone "/" y a b p q false),
        (day_first_layout zone "/" y a b p q false) by (assumption || reflexivity). rewrite PQ. cbn [implb andb].
      destruct (a_date y a b), (a_date y b a); reflexivity.
    - rewrite (month_first_layout zone "/" y a b p q false), (day_first_layout zone "/" y a b p q false) by (assumption || reflexivity). cbn [implb andb].
      destruct (a_date y a b), (a_date y b a); reflexivity. }
  destruct (a_date y a b), (a_date y b a); intuition (congruence || discriminate).
Qed.

Lemma dash_date zone a b y p q s t : year_last "-" a b y p q s ->
  (reads_as zone s t <-> (p && q = true /\ calendar_date y a b /\ t = day_of y a b)
                         \/ (~ (p && q = true /\ calendar_date y a b) /\ calendar_date y b a /\ t = day_of y b a)).
Proof.
  intros Y. destruct (year_last_reads zone "-" a b y p q s eq_refl eq_refl Y) as ((Ry & Ra & Rb) & -> & E). unfold reads_as. rewrite E, dash_kept.
  rewrite <- !a_date_spec by assumption.
  assert (first_layout zone ((if p && q then ["01-02-2006"; "02-01-2006"] else []) ++ ["2-1-2006"])
    (numeral_text p a ++ ["-"%char] ++ numeral_text q b ++ ["-"%char] ++ d4 y)
    = if p && q && a_date y a b then Some (day_of y a b) else if a_date y b a then Some (day_of y b a) else None) as ->.
  { destruct (p && q) eqn:PQ; cbn [app first_layout].
    - rewrite (month_first_layout zone "-" y a b p q true), (day_first_layout zone "-" y a b p q true),
        (day_first_layout zone "-" y a b p q false) by (assumption || reflexivity). rewrite PQ. cbn [implb andb].
      destruct (a_date y a b), (a_date y b a); reflexivity.
    - rewrite (day_first_layout zone "-" y a b p q false) by (assumption || reflexivity). cbn [implb andb].
      destruct (a_date y b a); reflexivity. }
  destruct (p && q), (a_date y a b), (a_date y b a); cbn [andb]; intuition (congruence || discriminate).
Qed.

Lemma iso_date zone y a b p q s t : year_first "-" y a b p q s -> (reads_as zone s t <-> calendar_date y a b /\ t = day_of y a b).
Proof.
  intros Y. destruct (year_first_reads zone "-" y a b p q s eq_refl eq_refl Y) as ((Ry & Ra & Rb) & -> & E). unfold reads_as. rewrite E, iso_kept.
  rewrite <- !a_date_spec by assumption.
  assert (first_layout zone ((if p && q then ["2006-01-02"] else []) ++ ["2006-1-2"])
    (d4 y ++ ["-"%char] ++ numeral_text p a ++ ["-"%char] ++ numeral_text q b)
    = if a_date y a b then Some (day_of y a b) else None) as ->.
  { destruct (p && q) eqn:PQ; cbn [app first_layout].
    - rewrite (year_first_layout zone "-" y a b p q true), (year_first_layout zone "-" y a b p q false) by (assumption || reflexivity). rewrite PQ. cbn [implb andb].
      destruct (a_date y a b); reflexivity.
    - rewrite (year_first_layout zone "-" y a b p q false) by (assumption || reflexivity). cbn [implb andb].
      destruct (a_date y a b); reflexivity. }
  destruct (a_date y a b); intuition (congruence || discriminate).
Qed.
Lemma iso_slash_date zone y a b p q s t : year_first "/" y a b p q s ->
  (reads_as zone s t <-> p && q = true /\ calendar_date y a b /\ t = day_of y a b).
Proof.
  intros Y. destruct (year_first_reads zone "/" y a b p q s eq_refl eq_refl Y) as ((Ry & Ra & Rb) & -> & E). unfold reads_as. rewrite E, iso_slash_kept.
  rewrite <- !a_date_spec by assumption. destruct (p && q) eqn:PQ; cbn [first_layout]; [|intuition discriminate].
  rewrite (year_first_layout zone "/" y a b p q true) by (assumption || reflexivity). rewrite PQ. cbn [implb andb].
  destruct (a_date y a b); intuition (congruence || discriminate).
Qed.
Lemma dotted_date zone a b y p q s t : year_last "." a b y p q s \/ year_first "." y a b p q s -> ~ reads_as zone s t.
Proof.
  unfold reads_as. intros [Y|Y].
  - destruct (year_last_reads zone "." a b y p q s eq_refl eq_refl Y) as (_ & _ & E). rewrite E, (proj1 (dots_kept p q)). discriminate.
  - destruct (year_first_reads zone "." y a b p q s eq_refl eq_refl Y) as (_ & _ & E). rewrite E, (proj2 (dots_kept p q)). discriminate.
Qed.

Lemma eight_kept : kept [D; D; D; D; D; D; D; D] = [].
Proof. vm_compute. reflexivity. Qed.
Lemma eight_date zone z s t : decimal_text 8 z s -> ~ reads_as zone s t.
Proof.
  intros H. apply decimal_text_spec in H as (L & Dg & _). unfold reads_as.
  assert (of_shape [D; D; D; D; D; D; D; D] s) as Sh.
  { do 9 (destruct s as [|? s]; try discriminate L). cbn in Dg. repeat (apply andb_true_iff in Dg as [? Dg]).
    repeat (constructor; [assumption|]). constructor. }
  rewrite unmarshal_first.
  - rewrite (first_layout_kept zone _ s Sh), eight_kept. discriminate.
  - now apply digits_simple.
  - destruct s as [|c r]; [discriminate L|]. cbn in Dg. apply andb_true_iff in Dg as [Dc _]. now exists c, r.
  - destruct (@exists_last _ s) as (r & c & E); [now destruct s|]. exists r, c. split; [exact E|].
    rewrite E, forallb_app in Dg. apply andb_true_iff in Dg as [_ Dg]. cbn in Dg. now rewrite andb_true_r in Dg.
Qed.

(* every numeric date that is read is a day of the calendar, with the month and
   the day it shows *)
Lemma numeric_date zone sep a b y p q s t : In sep ["/"%char; "-"%char; "."%char] -> year_last sep a b y p q s \/ year_first sep y a b p q s ->
  reads_as zone s t -> exists m d, calendar_date y m d /\ t = day_of y m d /\ ((m = a /\ d = b) \/ (m = b /\ d = a)).
Proof.
  intros [<-|[<-|[<-|[]]]] [Y|Y] R.
  - apply (slash_date zone _ _ _ _ _ _ _ Y) in R as [(H & ->)|(_ & H & ->)]; do 2 eexists; (split; [exact H|split; [reflexivity|auto]]).
  - apply (iso_slash_date zone _ _ _ _ _ _ _ Y) in R as (_ & H & ->); do 2 eexists; (split; [exact H|split; [reflexivity|auto]]).
  - apply (dash_date zone _ _ _ _ _ _ _ Y) in R as [(_ & H & ->)|(_ & H & ->)]; do 2 eexists; (split; [exact H|split; [reflexivity|auto]]).
  - apply (iso_date zone _ _ _ _ _ _ _ Y) in R as (H & ->); do 2 eexists; (split; [exact H|split; [reflexivity|auto]]).
  - now apply (dotted_date zone a b y p q s t (or_introl Y)) in R.
  - now apply (dotted_date zone a b y p q s t (or_intror Y)) in R.
Qed.
