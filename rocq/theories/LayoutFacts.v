(* Facts about GoLayout.v: which layouts reject a text of a given shape, and
   dates written to JSON are read back *)
From Coq Require Import ZArith NArith Bool Ascii String List Lia.
Import ListNotations.
From Verif Require Import GoBase GoBaseFacts GoTime GoLayout Tables Codec SpecCodec TimeFacts SpecJson.
Local Open Scope string_scope.
Local Open Scope Z_scope.
Local Open Scope list_scope.
Local Notation length := List.length.

(* ---- shapes: some digit, or a given character that is not a digit ---- *)

Inductive shape := D | C (c : byte).
Definition fits_shape (a : shape) (c : byte) : Prop :=
  match a with D => is_digit c = true | C x => c = x /\ is_digit x = false end.

(* what an element does on every text of a shape *)
Inductive verdict := Rejects | Leaves (rest : list shape) | Unknown.

Definition shape_num (fixed : bool) (v : list shape) : verdict :=
  match v with
  | D :: D :: r => Leaves r
  | D :: C c :: r => if fixed then Rejects else Leaves (C c :: r)
  | [D] => if fixed then Rejects else Leaves []
  | C _ :: _ => Rejects
  | [] => Rejects
  end.

Fixpoint shape_digits (v : list shape) : list shape := match v with D :: r => shape_digits r | _ => v end.
Definition shape_sec (v : list shape) : list shape :=
  match v with
  | C c :: D :: r => if byte_eqb c "." || byte_eqb c "," then shape_digits r else v
  | _ => v
  end.

(* [frac]: the next element of the layout is a fractional second *)
Definition shape_std (frac : bool) (d : std) (v : list shape) : verdict :=
  match d with
  | StdYear => match v with D :: D :: r => Leaves r | C _ :: _ => Unknown | _ => Rejects end
  | StdLongYear => match v with D :: D :: D :: D :: r => Leaves r | _ => Rejects end
  | StdNumMonth => shape_num false v
  | StdZeroMonth => shape_num true v
  | StdDay => shape_num false v
  | StdZeroDay => shape_num true v
  | StdHour | StdHour12 => shape_num false v
  | StdZeroHour12 => shape_num true v
  | StdMinute => shape_num false v
  | StdZeroMinute => shape_num true v
  | StdZeroSecond => match shape_num true v with Leaves r => Leaves (if frac then r else shape_sec r) | x => x end
  | StdMonth | StdLongMonth | StdWeekDay | StdLongWeekDay => match v with D :: _ => Rejects | _ => Unknown end
  | StdNumTZ z => match v with [] | [C _] => Rejects | _ => Unknown end
  | _ => Unknown
  end.

Fixpoint shape_skip (prefix : bytes) (v : list shape) (blanks : bool) : verdict :=
  match prefix with
  | [] => Leaves v
  | p :: prefix' =>
      if byte_eqb p " " then
        if blanks then shape_skip prefix' v true
        else match v with
             | C c :: _ => if byte_eqb c " " then Unknown else Rejects
             | D :: _ => Rejects
             | [] => shape_skip prefix' [] true
             end
      else match v with
           | C c :: v' => if byte_eqb c p then shape_skip prefix' v' false else Rejects
           | D :: v' => if is_digit p then shape_skip prefix' v' false else Rejects
           | [] => Rejects
           end
  end.

Fixpoint shape_chunks (l : list (bytes * std)) (rest : bytes) (v : list shape) : bool :=
  match l with
  | [] => match shape_skip rest v false with
          | Rejects => true | Leaves (_ :: _) => true | _ => false
          end
  | (pre, d) :: l' =>
      match shape_skip pre v false with
      | Rejects => true
      | Unknown => false
      | Leaves v1 =>
          match shape_std (is_frac l') d v1 with
          | Rejects => true
          | Unknown => false
          | Leaves v2 => shape_chunks l' rest v2
          end
      end
  end.

Definition shape_rejects (v : list shape) (layout : string) : bool :=
  shape_chunks (chList (chunks layout)) (chRest (chunks layout)) v.

Notation of_shape := (Forall2 fits_shape).

Lemma blank_not_digit : is_digit " "%char = false. Proof. reflexivity. Qed.

Lemma digit_neq c x : is_digit c = true -> is_digit x = false -> byte_eqb c x = false.
Proof. intros H1 H2. apply byte_eqb_neq. intros ->. congruence. Qed.

(* a verdict about a partial function on texts *)
Definition sound {A} (w : verdict) (r : option (A * bytes)) : Prop :=
  match w with
  | Rejects => r = None
  | Leaves a => match r with Some (_, v') => of_shape a v' | None => True end
  | Unknown => True
  end.

Lemma shape_num_sound fixed a v : of_shape a v -> sound (shape_num fixed a) (getnum v fixed).
Proof.
  intros F. destruct F as [|x c a v H F]; [reflexivity|].
  destruct x as [|x]; cbn [fits_shape] in H.
  - destruct F as [|y c' a v H' F].
    + cbn. rewrite H. destruct fixed; cbn; auto.
    + destruct y as [|y]; cbn [fits_shape] in H'.
      * cbn [shape_num sound getnum]. rewrite H, H'. exact F.
      * destruct H' as [-> H']. cbn [shape_num getnum]. rewrite H, H'. destruct fixed; cbn [sound]; auto.
        constructor; auto. split; auto.
  - destruct H as [-> H]. cbn. rewrite H. reflexivity.
Qed.

Lemma num_in_sound lo hi fixed a v : of_shape a v -> sound (shape_num fixed a) (num_in lo hi fixed v).
Proof.
  intros F. pose proof (shape_num_sound fixed a v F) as S. unfold num_in.
  destruct (shape_num fixed a); cbn [sound] in *; auto.
  - now rewrite S.
  - destruct (getnum v fixed) as [[n r]|]; auto. destruct (_ && _); auto.
Qed.

Lemma take_digits_shape a : forall v, of_shape a v -> of_shape (shape_digits a) (snd (take_digits v)).
Proof.
  induction a as [|[|x] a IH]; intros v F; inversion F as [|? c ? w H F']; subst; [constructor| |].
  - cbn [shape_digits take_digits]. cbn [fits_shape] in H. rewrite H. specialize (IH w F'). destruct (take_digits w). exact IH.
  - cbn [shape_digits take_digits]. cbn [fits_shape] in H. destruct H as [-> H]. rewrite H. cbn [snd]. exact F.
Qed.
Lemma take_digits_length v : (length (snd (take_digits v)) <= length v)%nat.
Proof. induction v as [|c v IH]; [apply le_n|]. cbn [take_digits]. destruct (is_digit c); [|apply le_n]. destruct (take_digits v). cbn in *. lia. Qed.

Lemma opt_fraction_shape a v : of_shape a v -> exists ns v', opt_fraction v = Some (ns, v') /\ of_shape (shape_sec a) v'
  /\ (length v' = length v -> v' = v).
Proof.
  intros F. destruct F as [|x c a v H F]; [exists 0, []; repeat split; constructor|].
  destruct F as [|y c' a v H' F]; [exists 0, [c]; split; [reflexivity|]; split; [destruct x; (constructor; [exact H|constructor])|reflexivity]|].
  unfold opt_fraction. destruct x as [|x]; cbn [fits_shape] in H.
  - rewrite !digit_neq by (auto; reflexivity). cbn [orb andb]. eexists _, _. split; [reflexivity|]. split; [|reflexivity].
    constructor; [exact H|constructor; assumption].
  - destruct H as [-> H]. destruct y as [|y]; cbn [fits_shape] in H'.
    + rewrite H', andb_true_r. cbn [shape_sec]. destruct (byte_eqb x "." || byte_eqb x ",") eqn:E.
      * cbn [take_digits]. rewrite H'. pose proof (take_digits_shape a v F) as T. pose proof (take_digits_length v) as Ln.
        destruct (take_digits v) as [ds rest]. cbn [snd] in *. eexists _, _. split; [reflexivity|]. split; [exact T|].
        cbn [List.length]. lia.
      * eexists _, _. split; [reflexivity|]. split; [|reflexivity]. constructor; [split; auto|constructor; assumption].
    + destruct H' as [-> H']. rewrite H', andb_false_r. eexists _, _. split; [reflexivity|]. split; [|reflexivity].
      constructor; [split; auto|constructor; [split; auto|assumption]].
Qed.

Lemma lookup_digit tab : (forall n, In n tab -> exists x r, lit n = x :: r /\ is_digit (lower_char x) = false) ->
  forall n c r, is_digit c = true -> lookup_name tab n (c :: r) = None.
Proof.
  induction tab as [|y tab IH]; intros H n c r Dc; [reflexivity|]. cbn [lookup_name].
  destruct (H y (or_introl eq_refl)) as (x & w & E & N). rewrite E.
  destruct (bytes_eqb _ _) eqn:B; [|apply IH; [intros z I; apply H; now right|assumption]].
  apply bytes_eqb_eq in B. cbn in B. injection B as B _. exfalso. rewrite <- B in N. unfold lower_char in N.
  destruct (in_range 65 90 c) eqn:R; [|congruence]. apply is_digit_spec in Dc. unfold in_range in R. lia.
Qed.
Lemma named_none tab : In tab [shortMonthNames; longMonthNames; shortDayNames; longDayNames] ->
  forall n c r, is_digit c = true -> lookup_name tab n (c :: r) = None.
Proof.
  intros I. apply lookup_digit.
  assert (forall tab, In tab [shortMonthNames; longMonthNames; shortDayNames; longDayNames] ->
    forallb (fun n => match lit n with x :: _ => negb (is_digit (lower_char x)) | [] => false end) tab = true) as A.
  { clear. intros tab I. cbn [In] in I. repeat (destruct I as [<-|I]; [vm_compute; reflexivity|]). destruct I. }
  specialize (A tab I). rewrite forallb_forall in A. intros n In'. specialize (A n In'). destruct (lit n) as [|x w]; [discriminate|].
  exists x, w. split; [reflexivity|]. now apply negb_true_iff in A.
Qed.

Lemma num_zone_short z p c : num_zone z p [c] = None.
Proof. unfold num_zone. destruct z; reflexivity. Qed.

Lemma year_digits v : existsb (fun c => negb (is_digit c)) (firstn 4 v) = true -> getyear v = None.
Proof.
  destruct v as [|a [|b [|c [|d v]]]]; try reflexivity. cbn [firstn existsb getyear forallb].
  destruct (is_digit a), (is_digit b), (is_digit c), (is_digit d); (reflexivity || discriminate).
Qed.
Lemma shape_std_sound frac d p a v : of_shape a v -> sound (shape_std frac d a) (parse_std frac d p v).
Proof.
  intros F.
  assert (forall lo hi fixed (g : Z -> parsed), sound (shape_num fixed a)
    (match num_in lo hi fixed v with Some (n, r) => Some (g n, r) | None => None end)) as N.
  { intros lo hi fixed g. pose proof (num_in_sound lo hi fixed a v F) as S.
    destruct (shape_num fixed a); cbn [sound] in *; auto; destruct (num_in lo hi fixed v) as [[n r]|]; auto; congruence. }
  assert (forall fixed (g : Z -> parsed), sound (shape_num fixed a)
    (match getnum v fixed with Some (n, r) => Some (g n, r) | None => None end)) as G.
  { intros fixed g. pose proof (shape_num_sound fixed a v F) as S.
    destruct (shape_num fixed a); cbn [sound] in *; auto; destruct (getnum v fixed) as [[n r]|]; auto; congruence. }
  destruct d; cbn [shape_std parse_std]; try exact I;
    try exact (N _ _ _ _); try exact (G _ _).
  - (* names of months and days *)
    destruct F as [|[|] c ? w H F]; try exact I. cbn [sound]. rewrite named_none; [reflexivity|cbn [In]; tauto|exact H].
  - destruct F as [|[|] c ? w H F]; try exact I. cbn [sound]. rewrite named_none; [reflexivity|cbn [In]; tauto|exact H].
  - destruct F as [|[|] c ? w H F]; try exact I. cbn [sound]. rewrite named_none; [reflexivity|cbn [In]; tauto|exact H].
  - destruct F as [|[|] c ? w H F]; try exact I. cbn [sound]. rewrite named_none; [reflexivity|cbn [In]; tauto|exact H].
  - (* second *)
    pose proof (num_in_sound 0 59 true a v F) as S. destruct (shape_num true a) as [|r|]; cbn [sound] in *.
    + now rewrite S.
    + destruct (num_in 0 59 true v) as [[n v']|]; [|exact I]. destruct frac; [exact S|].
      destruct (opt_fraction_shape r v' S) as (ns & v2 & E & S2 & L). rewrite E.
      destruct (Nat.eqb_spec (length v2) (length v')) as [El|_]; [|exact S2]. rewrite <- (L El). exact S2.
    + exact I.
  - (* four digit year *)
    destruct F as [|[|] c1 ? ? H1 F]; [reflexivity| |].
    2: { destruct H1 as [-> Nd]. cbn [sound]. rewrite year_digits; [reflexivity|]. cbn [firstn existsb]. rewrite Nd, ?orb_true_r. reflexivity. }
    destruct F as [|[|] c2 ? ? H2 F]; [reflexivity| |].
    2: { destruct H2 as [-> Nd]. cbn [sound]. rewrite year_digits; [reflexivity|]. cbn [firstn existsb]. rewrite Nd, ?orb_true_r. reflexivity. }
    destruct F as [|[|] c3 ? ? H3 F]; [reflexivity| |].
    2: { destruct H3 as [-> Nd]. cbn [sound]. rewrite year_digits; [reflexivity|]. cbn [firstn existsb]. rewrite Nd, ?orb_true_r. reflexivity. }
    destruct F as [|[|] c4 ? ? H4 F]; [reflexivity| |].
    2: { destruct H4 as [-> Nd]. cbn [sound]. rewrite year_digits; [reflexivity|]. cbn [firstn existsb]. rewrite Nd, ?orb_true_r. reflexivity. }
    cbn [sound getyear]. destruct (forallb _ _); auto.
  - (* two digit year *)
    destruct F as [|[|] c1 ? ? H1 F]; [reflexivity| |exact I]. destruct F as [|[|] c2 ? ? H2 F]; [reflexivity| |].
    + cbn [sound]. destruct (time_atoi _); auto.
    + destruct H2 as [-> Nd]. cbn [sound]. unfold time_atoi. cbn [fits_shape] in H1.
      rewrite !digit_neq by (auto; reflexivity). cbn [forallb]. rewrite Nd, andb_false_r. reflexivity.
  - (* numeric zone *)
    destruct F as [|[|c] c1 ? ? H1 F]; [unfold num_zone; destruct z; reflexivity|exact I|]. destruct F; try exact I. apply num_zone_short.
Qed.

Lemma shape_skip_sound prefix : forall a v blanks, of_shape a v ->
  sound (shape_skip prefix a blanks) (match skip_prefix prefix v blanks with Some r => Some (tt, r) | None => None end).
Proof.
  induction prefix as [|p prefix IH]; intros a v blanks F; cbn [shape_skip skip_prefix]; [exact F|].
  destruct (byte_eqb p " ") eqn:P.
  - destruct blanks; [now apply IH|]. destruct F as [|[|x] c a v H F]; [now apply IH| |]; cbn [fits_shape] in H.
    + rewrite (digit_neq c " "%char) by (auto; reflexivity). reflexivity.
    + destruct H as [-> H]. destruct (byte_eqb x " "); [exact I|reflexivity].
  - destruct F as [|[|x] c a v H F]; [reflexivity| |]; cbn [fits_shape] in H.
    + destruct (is_digit p) eqn:Dp; [|rewrite (digit_neq c p) by auto; reflexivity].
      specialize (IH a v false F). destruct (byte_eqb c p); [exact IH|]. destruct (shape_skip prefix a false); reflexivity || exact I.
    + destruct H as [-> H]. destruct (byte_eqb x p) eqn:E; [|reflexivity]. now apply IH.
Qed.

Lemma shape_chunks_sound l rest : forall a v p, of_shape a v -> shape_chunks l rest a = true ->
  parse_chunks l rest p v = None.
Proof.
  induction l as [|[pre d] l IH]; intros a v p F H; cbn [shape_chunks parse_chunks] in *.
  - pose proof (shape_skip_sound rest a v false F) as S.
    destruct (shape_skip rest a false) as [|[|x r]|]; try discriminate; cbn [sound] in S.
    + destruct (skip_prefix rest v false); [discriminate|reflexivity].
    + destruct (skip_prefix rest v false) as [w|]; [|reflexivity]. inversion S; subst. reflexivity.
  - pose proof (shape_skip_sound pre a v false F) as S.
    destruct (shape_skip pre a false) as [|a1|]; try discriminate; cbn [sound] in S.
    + destruct (skip_prefix pre v false); [discriminate|reflexivity].
    + destruct (skip_prefix pre v false) as [v1|]; [|reflexivity].
      pose proof (shape_std_sound (is_frac l) d p a1 v1 S) as S2.
      destruct (shape_std (is_frac l) d a1) as [|a2|]; try discriminate; cbn [sound] in S2.
      * now rewrite S2.
      * destruct (parse_std (is_frac l) d p v1) as [[p' v2]|]; [|reflexivity]. eapply IH; eauto.
Qed.

Lemma shape_rejects_sound zone a v layout : of_shape a v -> shape_rejects a layout = true ->
  parse_layout zone layout v = None.
Proof.
  intros F H. unfold parse_layout. rewrite (shape_chunks_sound _ _ a v parsed0 F H). reflexivity.
Qed.

Lemma first_layout_app zone l x r v t : forallb (fun y => match parse_layout zone y v with None => true | _ => false end) l = true ->
  parse_layout zone x v = Some t -> first_layout zone (l ++ x :: r) v = Some t.
Proof.
  induction l as [|y l IH]; cbn [forallb app first_layout]; intros H E.
  - now rewrite E.
  - apply andb_prop in H as [H1 H2]. destruct (parse_layout zone y v); [discriminate|]. auto.
Qed.

Lemma first_layout_shape zone a v n t x : of_shape a v ->
  forallb (shape_rejects a) (firstn n dateFormats) = true ->
  nth_error dateFormats n = Some x -> parse_layout zone x v = Some t ->
  first_layout zone dateFormats v = Some t.
Proof.
  intros F H N E. destruct (nth_error_split _ _ N) as (l & r & E1 & E2).
  assert (firstn n dateFormats = l) as E3. { rewrite E1. apply firstn_app_exact. auto. }
  rewrite E3 in H. rewrite E1. apply first_layout_app; auto.
  clear - F H. induction l as [|y l IH]; [reflexivity|]. cbn [forallb] in *. apply andb_prop in H as [H1 H2].
  rewrite (shape_rejects_sound zone a v y F H1). auto.
Qed.

(* ---- the text of a date ---- *)

Definition stamp_shape : list shape :=
  [D; D; D; D; C "-"; D; D; C "-"; D; D; C "T"; D; D; C ":"; D; D; C ":"; D; D].
Definition utc_shape : list shape := stamp_shape ++ [C "Z"%char].
Definition offset_shape (sign : byte) : list shape := stamp_shape ++ [C sign; D; D; C ":"%char; D; D].

Definition stamp_text (t : time) : bytes :=
  d4 (tYear t) ++ lit "-" ++ d2 (tMonth t) ++ lit "-" ++ d2 (tDay t)
  ++ lit "T" ++ d2 (tHour t) ++ lit ":" ++ d2 (tMin t) ++ lit ":" ++ d2 (tSec t).

Lemma format_stamp t : clock t -> format_rfc3339 t = stamp_text t ++ format_zone (tOff t).
Proof.
  intros (H & H1 & H2 & H3 & _). destruct (calendar_date_ranges _ _ _ H) as (Hy & Hm & Hd).
  unfold format_rfc3339, stamp_text. rewrite append_int_4, !append_int_2 by lia. rewrite <- !app_assoc. reflexivity.
Qed.

Lemma d2_shape z : 0 <= z < 100 -> of_shape [D; D] (d2 z).
Proof.
  intros H. pose proof (d2_digits z H) as E. unfold d2 in *. cbn [forallb] in E.
  apply andb_prop in E as [E1 E]. apply andb_prop in E as [E2 _]. repeat constructor; assumption.
Qed.

Lemma c_shape c : is_digit c = false -> of_shape [C c] [c].
Proof. intros H. repeat constructor. exact H. Qed.

Lemma stamp_text_shape t : clock t -> of_shape stamp_shape (stamp_text t).
Proof.
  intros (H & H1 & H2 & H3 & _). destruct (calendar_date_ranges _ _ _ H) as (Hy & Hm & Hd).
  unfold stamp_text, d4. rewrite <- app_assoc.
  change stamp_shape with ([D;D] ++ [D;D] ++ [C "-"%char] ++ [D;D] ++ [C "-"%char] ++ [D;D] ++ [C "T"%char] ++ [D;D]
    ++ [C ":"%char] ++ [D;D] ++ [C ":"%char] ++ [D;D]).
  repeat (apply Forall2_app; [first [apply d2_shape; euclid | apply c_shape; reflexivity]|]).
  apply d2_shape; euclid.
Qed.

Lemma valid_clock t : clock t -> valid_day (tYear t) (tMonth t) (tDay t) = true.
Proof.
  intros (H & _). apply calendar_date_spec in H. tauto.
Qed.

Lemma getnum_cons2 z r b : 0 <= z < 100 -> forall x y, d2 z = [x; y] -> getnum (x :: y :: r) b = Some (z, r).
Proof. intros H x y E. rewrite <- (getnum_d2 z r b H), E. reflexivity. Qed.

Lemma num_in_d2 lo hi b z r : 0 <= z < 100 -> lo <= z <= hi -> num_in lo hi b (d2 z ++ r) = Some (z, r).
Proof.
  intros H I. unfold num_in. rewrite getnum_d2 by assumption.
  rewrite (proj2 (Z.leb_le _ _)), (proj2 (Z.leb_le _ _)) by lia. reflexivity.
Qed.

Lemma opt_fraction_at c r : byte_eqb c "." = false -> byte_eqb c "," = false -> opt_fraction (c :: r) = Some (0, c :: r).
Proof. intros H1 H2. unfold opt_fraction. destruct r; auto. now rewrite H1, H2. Qed.

Lemma skip_one c r : byte_eqb c " " = false -> skip_prefix [c] (c :: r) false = Some r.
Proof. intros H. cbn [skip_prefix]. rewrite H, byte_eqb_refl. reflexivity. Qed.

(* the elements 2006-01-02T15:04:05 *)
Definition stamp_chunks : list (bytes * std) :=
  [([], StdLongYear); (lit "-", StdZeroMonth); (lit "-", StdZeroDay); (lit "T", StdHour);
   (lit ":", StdZeroMinute); (lit ":", StdZeroSecond)].

Lemma parse_stamp_chunks t c r l rest : clock t -> is_frac l = false ->
  byte_eqb c "." = false -> byte_eqb c "," = false ->
  parse_chunks (stamp_chunks ++ l) rest parsed0 (stamp_text t ++ c :: r)
  = parse_chunks l rest (mkParsed (tYear t) (tMonth t) (tDay t) (tHour t) (tMin t) (tSec t) 0
                           false false false (-1) []) (c :: r).
Proof.
  intros (H & H1 & H2 & H3 & _) Fr N1 N2. destruct (calendar_date_ranges _ _ _ H) as (Hy & Hm & Hd).
  unfold stamp_text. rewrite <- !app_assoc. unfold stamp_chunks. cbn [app parse_chunks skip_prefix is_frac parse_std].
  rewrite getyear_d4 by lia. cbn [lit list_ascii_of_string app].
  rewrite skip_one by reflexivity. rewrite num_in_d2 by lia. cbn [app].
  rewrite skip_one by reflexivity. rewrite getnum_d2 by lia. cbn [app].
  rewrite skip_one by reflexivity. rewrite num_in_d2 by lia. cbn [app].
  rewrite skip_one by reflexivity. rewrite num_in_d2 by lia. cbn [app].
  rewrite skip_one by reflexivity. rewrite num_in_d2 by lia. rewrite Fr.
  rewrite opt_fraction_at by assumption. rewrite Nat.eqb_refl. reflexivity.
Qed.

Lemma parse_utc zone t : clock t -> tOff t = None ->
  parse_layout zone "2006-01-02T15:04:05Z" (stamp_text t ++ lit "Z") = Some t.
Proof.
  intros H O. unfold parse_layout. change (chList (chunks "2006-01-02T15:04:05Z")) with (stamp_chunks ++ []).
  change (chRest (chunks "2006-01-02T15:04:05Z")) with (lit "Z"). cbn [lit list_ascii_of_string].
  rewrite parse_stamp_chunks by (auto; reflexivity). cbn [parse_chunks]. rewrite skip_one by reflexivity.
  pose proof (valid_clock t H) as V. destruct H as (H & H1 & H2 & H3 & H4).
  destruct (calendar_date_ranges _ _ _ H) as (Hy & Hm & Hd).
  unfold parsed_time. cbn [pPm pAm pHour pMonth pDay pYear pMin pSec pNsec pUTC pOffset pZone andb].
  rewrite (proj2 (Z.ltb_ge _ _)), (proj2 (Z.ltb_ge _ _)) by lia. rewrite V.
  rewrite andb_false_r. cbn [andb negb Z.eqb]. change (negb (-1 =? -1)) with false. cbv iota.
  destruct t; cbn in *; subst; reflexivity.
Qed.

Lemma format_offset o m : o = 60 * m -> 0 < Z.abs m < 1440 ->
  format_zone (Some o) = (if m <? 0 then "-"%char else "+"%char) :: d2 (Z.abs m / 60) ++ lit ":" ++ d2 (Z.abs m mod 60).
Proof.
  intros -> H. unfold format_zone. destruct (Z.eqb_spec (60 * m) 0); [lia|].
  replace (Z.quot (60 * m) 60) with m by (rewrite Z.mul_comm; symmetry; apply Z.quot_mul; lia).
  rewrite !append_int_2 by euclid. reflexivity.
Qed.

Lemma parse_offset zone t m : clock t -> tOff t = Some (60 * m) -> 0 < Z.abs m < 1440 ->
  parse_layout zone "2006-01-02T15:04:05-07:00" (stamp_text t ++ format_zone (tOff t)) = Some t.
Proof.
  intros H O M. rewrite O, (format_offset (60 * m) m eq_refl M). unfold parse_layout.
  change (chList (chunks "2006-01-02T15:04:05-07:00")) with (stamp_chunks ++ [([], StdNumTZ ZColon)]).
  change (chRest (chunks "2006-01-02T15:04:05-07:00")) with (@nil ascii).
  rewrite parse_stamp_chunks by (auto; destruct (m <? 0); reflexivity).
  cbn [parse_chunks skip_prefix parse_std]. unfold num_zone.
  assert (0 <= Z.abs m / 60 < 24 /\ 0 <= Z.abs m mod 60 < 60) as [A B] by euclid.
  assert (forall s x z r, zone_parts ZColon (s :: d2 x ++ lit ":" ++ d2 z ++ r) = Some (s, d2 x, d2 z, lit "00", r)) as Z
    by reflexivity.
  rewrite <- (app_nil_r (d2 (Z.abs m mod 60))), Z.
  assert (forall lo hi z, 0 <= z < 100 -> lo <= z <= hi -> num_in lo hi true (d2 z) = Some (z, [])) as N.
  { intros. rewrite <- (app_nil_r (d2 z)). apply num_in_d2; assumption. }
  rewrite !N by lia.
  change (num_in 0 60 true (lit "00")) with (Some (0, @nil ascii)). cbv iota beta.
  pose proof (valid_clock t H) as V. destruct H as (H & H1 & H2 & H3 & H4).
  destruct (calendar_date_ranges _ _ _ H) as (Hy & Hm & Hd).
  assert ((Z.abs m / 60 * 60 + Z.abs m mod 60) * 60 + 0 = 60 * Z.abs m) as -> by euclid.
  set (p := mkParsed _ _ _ _ _ _ _ _ _ _ _ _).
  assert ((if byte_eqb (if m <? 0 then "-"%char else "+"%char) "+" then Some (set_offset (60 * Z.abs m) p, @nil ascii)
    else if byte_eqb (if m <? 0 then "-"%char else "+"%char) "-" then Some (set_offset (- (60 * Z.abs m)) p, []) else None)
    = Some (set_offset (60 * m) p, [])) as ->.
  { destruct (Z.ltb_spec m 0); cbn [byte_eqb Ascii.eqb Bool.eqb andb]; do 2 f_equal; f_equal; lia. }
  cbv iota beta. subst p. unfold parsed_time, set_offset.
  cbn [pPm pAm pHour pMonth pDay pYear pMin pSec pNsec pUTC pOffset pZone andb].
  rewrite (proj2 (Z.ltb_ge _ _)), (proj2 (Z.ltb_ge _ _)) by lia. rewrite V.
  rewrite andb_false_r. cbn [andb negb]. destruct (Z.eqb_spec (60 * m) (-1)); [lia|]. cbn [negb].
  destruct t; cbn in *; subst; reflexivity.
Qed.

(* the position of the layout that reads each form *)
Lemma utc_rejected : forallb (shape_rejects utc_shape) (firstn 45 dateFormats) = true.
Proof. vm_compute. reflexivity. Qed.
Lemma offset_rejected m : forallb (shape_rejects (offset_shape (if m <? 0 then "-"%char else "+"%char))) (firstn 41 dateFormats) = true.
Proof. destruct (m <? 0); vm_compute; reflexivity. Qed.

Lemma trim_none f s : (forall c r, s = c :: r -> f c = false) -> (forall c r, s = r ++ [c] -> f c = false) -> trim_both f s = s.
Proof.
  intros H1 H2. unfold trim_both. destruct s as [|c s]; [reflexivity|].
  cbn [drop_while]. rewrite (H1 c s eq_refl).
  destruct (rev (c :: s)) as [|d r] eqn:E.
  - apply (f_equal (@rev _)) in E. rewrite rev_involutive in E. discriminate.
  - assert (c :: s = rev r ++ [d]) as E'. { rewrite <- (rev_involutive (c :: s)), E. reflexivity. }
    cbn [drop_while]. rewrite (H2 d (rev r) E'). rewrite <- E. apply rev_involutive.
Qed.

Lemma stamp_first t r : clock t -> exists c s, stamp_text t ++ r = c :: s /\ is_digit c = true.
Proof.
  intros H. pose proof (stamp_text_shape t H) as S. destruct (stamp_text t) as [|c v]; inversion S; subst.
  exists c, (v ++ r). split; [reflexivity|]. assumption.
Qed.

Lemma zone_last o : (o = None \/ exists z, o = Some z /\ zone_minutes z) ->
  exists r c, format_zone o = r ++ [c] /\ is_space_char c = false /\ c <> quote_char.
Proof.
  intros [->|(z & -> & m & -> & M)].
  - exists [], "Z"%char. repeat split; discriminate.
  - rewrite (format_offset (60 * m) m eq_refl M).
    exists ((if m <? 0 then "-"%char else "+"%char) :: d2 (Z.abs m / 60) ++ lit ":" ++ [digit_char (Z.abs m mod 60 / 10)]),
      (digit_char (Z.abs m mod 60 mod 10)).
    split; [cbn [app]; rewrite <- !app_assoc; reflexivity|].
    assert (0 <= Z.abs m mod 60 mod 10 < 10) as Hd by euclid.
    apply is_digit_digit_char in Hd. apply is_digit_spec in Hd. split.
    + unfold is_space_char. rewrite (proj2 (Z.eqb_neq _ _)), (proj2 (Z.leb_gt (bval _) 13)) by lia. now rewrite andb_false_r.
    + intros E. rewrite E in Hd. cbn in Hd. lia.
Qed.

Lemma parse_rfc3339 zone t : json_date t -> parse_date_string zone (format_rfc3339 t) = Some t.
Proof.
  intros [H Z]. unfold parse_date_string. rewrite format_stamp by assumption.
  assert (trim_both is_space_char (stamp_text t ++ format_zone (tOff t)) = stamp_text t ++ format_zone (tOff t)) as ->.
  { apply trim_none.
    - intros c r E. destruct (stamp_first t (format_zone (tOff t)) H) as (c' & s & E' & Dg). rewrite E' in E. inversion E; subst.
      unfold is_space_char. apply is_digit_spec in Dg.
      rewrite (proj2 (Z.eqb_neq _ _)), (proj2 (Z.leb_gt (bval _) 13)) by lia. now rewrite andb_false_r.
    - intros c r E. destruct (zone_last _ Z) as (r' & c' & E' & Sp & _). rewrite E', app_assoc in E.
      apply app_inj_tail in E as [_ <-]. exact Sp. }
  destruct (stamp_first t (format_zone (tOff t)) H) as (c & s & E & _). rewrite E. rewrite <- E.
  destruct Z as [O|(z & O & m & Ez & M)].
  - rewrite O. apply (first_layout_shape zone utc_shape _ 45 t "2006-01-02T15:04:05Z").
    + apply Forall2_app; [apply stamp_text_shape; assumption|]. apply c_shape. reflexivity.
    + exact utc_rejected.
    + reflexivity.
    + apply parse_utc; assumption.
  - subst z. apply (first_layout_shape zone (offset_shape (if m <? 0 then "-"%char else "+"%char)) _ 41 t "2006-01-02T15:04:05-07:00").
    + apply Forall2_app; [apply stamp_text_shape; assumption|]. rewrite O, (format_offset (60 * m) m eq_refl M).
      constructor; [destruct (m <? 0); split; reflexivity|].
      change [D; D; C ":"%char; D; D] with ([D; D] ++ [C ":"%char] ++ [D; D]).
      apply Forall2_app; [apply d2_shape; euclid|]. apply Forall2_app; [apply c_shape; reflexivity|]. apply d2_shape; euclid.
    + apply offset_rejected.
    + reflexivity.
    + eapply parse_offset; eauto.
Qed.

Lemma json_date_zero t : json_date t -> tOff t = None -> is_zero t = true -> t = zero_time.
Proof.
  intros [(H & H1 & H2 & H3 & H4) _] O E. apply plain_stamp_is_zero; [|assumption]. repeat split; tauto || apply H.
Qed.
