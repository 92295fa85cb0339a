(* Facts about FormatExec.v: what is found on a form holds for every text of the form *)
From Coq Require Import ZArith NArith Bool Ascii String List Lia.
Import ListNotations.
From Verif Require Import GoBase GoBaseFacts GoTime TimeFacts GoLayout LayoutFacts SpecCodec SpecFormats FormatExec.
Local Open Scope string_scope.
Local Open Scope Z_scope.
Local Open Scope list_scope.
Local Notation length := List.length.
Local Notation D := FormatExec.D.

(* ---- the texts of a form ---- *)

(* a time, its offset as hours, minutes and seconds, a day of the week, digits of a
   fraction *)
Record env := mkEnv { eT : time; eH : Z; eM : Z; eS : Z; eDay : Z; eDs : bytes }.

Definition val (e : env) (v : var) : Z :=
  match v with
  | VMonth => tMonth (eT e) | VDay => tDay (eT e) | VYear => tYear (eT e) | VShort => tYear (eT e) mod 100
  | VHour => tHour (eT e) | VHalf => half_hour (tHour (eT e)) | VMin => tMin (eT e) | VSec => tSec (eT e)
  | VOffH => eH e | VOffM => eM e | VOffS => eS e
  end.
Definition digit_at (k n : nat) (z : Z) : Z :=
  match n, k with
  | 1%nat, _ => z
  | 2%nat, O => z / 10
  | 2%nat, _ => z mod 10
  | _, O => z / 100 / 10
  | _, 1%nat => z / 100 mod 10
  | _, 2%nat => z mod 100 / 10
  | _, _ => z mod 100 mod 10
  end.
Definition month_name (m : Z) : bytes := lit (nth (Z.to_nat (m - 1)) longMonthNames "").
Definition day_name (d : Z) : bytes := lit (nth (Z.to_nat d) longDayNames "").
Definition spell (e : env) (a : sym) : bytes :=
  match a with
  | D v k n => [digit_char (digit_at k n (val e v))]
  | K c => [c]
  | W ShortMonth => firstn 3 (month_name (tMonth (eT e)))
  | W LongMonth => month_name (tMonth (eT e))
  | W MonthRest => skipn 3 (month_name (tMonth (eT e)))
  | W ShortDay => firstn 3 (day_name (eDay e))
  | W LongDay => day_name (eDay e)
  | W DayRest => skipn 3 (day_name (eDay e))
  | W Tenth | W Parts => "."%char :: eDs e
  | W PartsRest => tl (eDs e)
  end.
Definition text (e : env) (l : list sym) : bytes := flat_map (spell e) l.

(* the words of the form are those of the environment *)
Definition fits (may : bool) (e : env) (a : sym) : Prop :=
  match a with
  | D v k n => (n = 1 \/ n = 2 \/ n = 4)%nat /\ 0 <= val e v < 10 ^ Z.of_nat n
               /\ (v = VShort -> 1969 <= tYear (eT e) <= 2068)
  | W ShortMonth => may = (tMonth (eT e) =? 5)
  | W LongMonth | W MonthRest => tMonth (eT e) <> 5
  | W Tenth => length (eDs e) = 1%nat
  | W Parts | W PartsRest => (2 <= length (eDs e))%nat
  | _ => True
  end.

Definition env_ok (kn : known) (e : env) : Prop :=
  calendar_time (eT e) /\ 0 <= eH e < 24 /\ 0 <= eM e < 60 /\ 0 <= eS e < 60 /\ 0 <= eDay e < 7
  /\ forallb is_digit (eDs e) = true /\ (1 <= length (eDs e) <= 9)%nat
  /\ tNsec (eT e) = dval (eDs e) * 10 ^ (9 - Z.of_nat (length (eDs e)))
  /\ (kFar kn = true -> 23 < eH e * 100 + eM e) /\ (kLate kn = true -> 12 < tDay (eT e)).

(* what was read *)
Definition offset_of (e : env) (o : offset_read) : Z :=
  match o with
  | NoOffset => -1
  | OffsetRead neg style =>
      (if neg then -1 else 1) *
      (eH e * 3600 + match style with Short => 0 | _ => eM e * 60 end + match style with ColonSeconds => eS e | _ => 0 end)
  end.
Definition realize (e : env) (g : got) : parsed :=
  let t := eT e in
  mkParsed (if gYear g then tYear t else 0) (if gMonth g then tMonth t else -1) (if gDay g then tDay t else -1)
    (match gHour g with NoHour => 0 | FullHour => tHour t | HalfRead => half_hour (tHour t) end)
    (if gMin g then tMin t else 0) (if gSec g then tSec t else 0) (if gNsec g then tNsec t else 0)
    (match gHalf g with Some false => true | _ => false end) (match gHalf g with Some true => true | _ => false end)
    (gUTC g) (offset_of e (gOff g)) (gZone g).

Section Sound.
Variables (may : bool) (kn : known) (e : env).
Hypothesis (Ok : env_ok kn e).
Local Notation fit := (Forall (fits may e)).
Local Notation txt := (text e).

Definition sound {A B} (real : A -> B) (o : outcome A) (r : option (B * bytes)) : Prop :=
  match o with
  | No => r = None
  | Yes a l => r = Some (real a, txt l) /\ fit l
  | May l => (forall b v, r = Some (b, v) -> v = txt l) /\ fit l
  | Unknown => True
  end.

Lemma ranges : 0 <= tYear (eT e) <= 9999 /\ 1 <= tMonth (eT e) <= 12 /\ 1 <= tDay (eT e) <= 31
  /\ 0 <= tHour (eT e) < 24 /\ 0 <= tMin (eT e) < 60 /\ 0 <= tSec (eT e) < 60.
Proof.
  destruct Ok as ((H & H1 & H2 & H3) & _). destruct (calendar_date_ranges _ _ _ H) as (Hy & Hm & Hd). lia.
Qed.
Lemma half_range h : 0 <= h < 24 -> 1 <= half_hour h <= 12.
Proof. intros H. unfold half_hour. destruct (Z.eqb_spec (h mod 12) 0); euclid. Qed.

(* first characters *)
Lemma digit_at_range v k n : (n = 1 \/ n = 2 \/ n = 4)%nat -> 0 <= val e v < 10 ^ Z.of_nat n -> 0 <= digit_at k n (val e v) < 10.
Proof.
  intros [->|[->| ->]] H; cbn in H; unfold digit_at; try (destruct k as [|[|[|k]]]); euclid.
Qed.
Lemma month_letters m : 1 <= m <= 12 -> exists a b c r, month_name m = a :: b :: c :: r /\ is_digit a = false
  /\ begins longMonthNames a = true /\ (m <> 5 -> exists x r', r = x :: r' /\ in_range 97 122 x = true).
Proof.
  intros H. assert (In m [1;2;3;4;5;6;7;8;9;10;11;12]) as I by (cbn [In]; lia).
  cbn [In] in I. repeat (destruct I as [<-|I]; [do 4 eexists; split; [vm_compute; reflexivity|]; split; [reflexivity|]; split; [reflexivity|]; intros N; try (now destruct N); do 2 eexists; split; reflexivity|]). destruct I.
Qed.
Lemma day_letters m : 0 <= m < 7 -> exists a b c r, day_name m = a :: b :: c :: r /\ is_digit a = false
  /\ begins longDayNames a = true /\ exists x r', r = x :: r' /\ in_range 97 122 x = true.
Proof.
  intros H. assert (In m [0;1;2;3;4;5;6]) as I by (cbn [In]; lia).
  cbn [In] in I. repeat (destruct I as [<-|I]; [do 4 eexists; split; [vm_compute; reflexivity|]; split; [reflexivity|]; split; [reflexivity|]; do 2 eexists; split; reflexivity|]). destruct I.
Qed.
Lemma lower_no_digit x : in_range 97 122 x = true -> is_digit x = false.
Proof. unfold in_range. intros H. apply not_true_iff_false. intros Dx. apply is_digit_spec in Dx. lia. Qed.
Lemma spell_head a : fits may e a -> exists c r, spell e a = c :: r /\ is_digit c = digital a
  /\ (one_char a = true -> r = [])
  /\ (forall w, a = W w -> starts w c = true).
Proof.
  destruct Ok as (_ & _ & _ & _ & Hd & Ds & Ln & _). destruct ranges as (_ & Hm & _).
  destruct (month_letters _ Hm) as (a1 & a2 & a3 & ar & Em & Dm & Bm & Rm).
  destruct (day_letters _ Hd) as (b1 & b2 & b3 & br & Ed & Dd & Bd & x & xr & Er & Lx).
  assert (forall c, In c (eDs e) -> is_digit c = true) as Dg by now apply forallb_forall.
  destruct a as [v k n|c|w]; intros F.
  - destruct F as (N & F & _). do 2 eexists. split; [reflexivity|]. split; [|split; [reflexivity|discriminate]].
    cbn [digital]. apply is_digit_digit_char. now apply digit_at_range.
  - do 2 eexists. split; [reflexivity|]. split; [reflexivity|]. split; [reflexivity|discriminate].
  - destruct w; cbn [spell digital one_char fits] in *.
    + rewrite Em. do 2 eexists. split; [reflexivity|]. split; [assumption|]. split; [discriminate|]. now intros w [= <-].
    + rewrite Em. do 2 eexists. split; [reflexivity|]. split; [assumption|]. split; [discriminate|]. now intros w [= <-].
    + rewrite Ed. do 2 eexists. split; [reflexivity|]. split; [assumption|]. split; [discriminate|]. now intros w [= <-].
    + rewrite Ed. do 2 eexists. split; [reflexivity|]. split; [assumption|]. split; [discriminate|]. now intros w [= <-].
    + destruct (Rm F) as (y & yr & -> & Ly). rewrite Em. do 2 eexists. split; [reflexivity|]. split; [now apply lower_no_digit|]. split; [discriminate|]. now intros w [= <-].
    + subst br. rewrite Ed. do 2 eexists. split; [reflexivity|]. split; [now apply lower_no_digit|]. split; [discriminate|]. now intros w [= <-].
    + do 2 eexists. split; [reflexivity|]. split; [reflexivity|]. split; [discriminate|]. now intros w [= <-].
    + do 2 eexists. split; [reflexivity|]. split; [reflexivity|]. split; [discriminate|]. now intros w [= <-].
    + destruct (eDs e) as [|c1 [|c2 ds]]; cbn in F; try lia. do 2 eexists. split; [reflexivity|].
      assert (is_digit c2 = true) by (apply Dg; cbn; tauto). split; [assumption|]. split; [discriminate|]. now intros w [= <-].
Qed.

Lemma txt_cons a l : txt (a :: l) = spell e a ++ txt l.
Proof. reflexivity. Qed.

(* ---- numbers ---- *)

Lemma digit_pair v r b : 0 <= val e v < 100 -> getnum (digit_char (digit_at 0 2 (val e v)) :: digit_char (digit_at 1 2 (val e v)) :: r) b = Some (val e v, r).
Proof. intros H. exact (getnum_d2 (val e v) r b H). Qed.

Lemma sym_num_sound fixed l : fit l -> sound (val e) (sym_num fixed l) (getnum (txt l) fixed).
Proof.
  intros F. destruct F as [|a r Fa F]; [reflexivity|]. cbn [sym_num].
  destruct (spell_head a Fa) as (c & cr & Ea & Da & Oa & _). rewrite txt_cons, Ea. cbn [app].
  destruct (digital a) eqn:Ga.
  2: { cbn [sound getnum]. now rewrite Da. }
  destruct (one_char a) eqn:One; [|exact I]. cbn [negb]. rewrite (Oa eq_refl). cbn [app].
  assert (Single : fit r -> match txt r with x :: _ => is_digit x = false | [] => True end ->
    sound (val e) (if fixed then No else match a with D v 0 1 => Yes v r | _ => May r end) (getnum (c :: txt r) fixed)).
  { intros Fr Nd. assert (G : getnum (c :: txt r) fixed = if fixed then None else Some (digit_val c, txt r)).
    { cbn [getnum]. rewrite Da. destruct (txt r) as [|x w]; [reflexivity|]. now rewrite Nd. }
    rewrite G. destruct fixed; [reflexivity|].
    destruct a as [v [|k] [|[|n]]|x|w]; cbn [sound]; try (split; [intros ? ? [= _ <-]; reflexivity|exact Fr]).
    split; [|exact Fr]. destruct Fa as (_ & Rv & _). cbn [spell digit_at] in Ea. injection Ea as <- _.
    rewrite digit_val_char by (cbn in Rv; lia). reflexivity. }
  destruct F as [|b r' Fb F].
  - apply Single; [constructor|exact I].
  - destruct (spell_head b Fb) as (c2 & cr2 & Eb & Db & Ob & _). destruct (digital b) eqn:Gb.
    + destruct (one_char b) eqn:Oneb; [|exact I]. cbn [negb]. rewrite txt_cons, Eb, (Ob eq_refl). cbn [app].
      assert (G : getnum (c :: c2 :: txt r') fixed = Some (10 * digit_val c + digit_val c2, txt r')) by (cbn [getnum]; now rewrite Da, Db).
      assert (M : sound (val e) (May r') (getnum (c :: c2 :: txt r') fixed)).
      { rewrite G. split; [intros ? ? [= _ <-]; reflexivity|exact F]. }
      destruct a as [v [|k] [|[|[|n]]]|x|w]; try exact M. destruct b as [v2 [|[|k]] [|[|[|n]]]|x|w]; try exact M.
      destruct (var_eqb v v2) eqn:V; [|exact M]. assert (v = v2) as <- by (destruct v, v2; discriminate || reflexivity).
      cbn [spell] in Ea, Eb. assert (c = digit_char (digit_at 0 2 (val e v))) as -> by congruence.
      assert (c2 = digit_char (digit_at 1 2 (val e v))) as -> by congruence. destruct Fa as (_ & Rv & _).
      rewrite digit_pair by exact Rv. split; [reflexivity|exact F].
    + apply Single; [now constructor|]. rewrite txt_cons, Eb. cbn [app]. exact Db.
Qed.

Lemma want_num {B} (real : got -> B) v a o (n : option (Z * bytes)) (f : Z -> B) ok :
  sound (val e) o n -> (ok (val e v) = true) -> real a = f (val e v) ->
  sound real (want v a o) (match n with Some (z, r) => if ok z then Some (f z, r) else None | None => None end).
Proof.
  intros S K R. destruct o as [|w l|l|]; cbn [want sound] in *.
  - now rewrite S.
  - destruct S as (-> & F). destruct (var_eqb v w) eqn:V.
    + assert (v = w) as <- by (destruct v, w; discriminate || reflexivity). rewrite K. cbn [sound]. now rewrite R.
    + cbn [sound]. split; [|exact F]. intros b r E. cbv beta iota in E. destruct (ok (val e w)); congruence.
  - destruct S as (S & F). split; [|exact F]. intros b r. destruct n as [[z r']|]; [|discriminate]. destruct (ok z); [|discriminate].
    intros E. apply (S z). congruence.
  - exact I.
Qed.

Lemma num_sound v (a : got) fixed l (f : Z -> parsed) : fit l -> realize e a = f (val e v) ->
  sound (realize e) (want v a (sym_num fixed l)) (match getnum (txt l) fixed with Some (n, r) => Some (f n, r) | None => None end).
Proof.
  intros F R. pose proof (want_num (realize e) v a _ _ f (fun _ => true) (sym_num_sound fixed l F) eq_refl R) as S. exact S.
Qed.
Lemma num_in_sound' v (a : got) lo hi fixed l (f : Z -> parsed) : fit l -> lo <= val e v <= hi -> realize e a = f (val e v) ->
  sound (realize e) (want v a (sym_num fixed l)) (match num_in lo hi fixed (txt l) with Some (n, r) => Some (f n, r) | None => None end).
Proof.
  intros F H R.
  assert (K : (fun n => (lo <=? n) && (n <=? hi)) (val e v) = true) by (cbv beta; lia).
  pose proof (want_num (realize e) v a _ _ f _ (sym_num_sound fixed l F) K R) as S.
  unfold num_in. destruct (getnum (txt l) fixed) as [[n r]|]; [|exact S]. destruct ((lo <=? n) && (n <=? hi)); exact S.
Qed.

(* ---- names ---- *)

Lemma lookup_no_name names c r : no_name names c = true -> forall n, lookup_name names n (c :: r) = None.
Proof.
  induction names as [|x names IH]; intros H n; [reflexivity|]. cbn [no_name forallb] in H. apply andb_true_iff in H as [Hx H].
  cbn [lookup_name]. destruct (lit x) as [|y w]; [discriminate|]. cbn [length firstn map bytes_eqb].
  apply negb_true_iff in Hx. unfold byte_eqb in *. rewrite Ascii.eqb_sym, Hx. cbn [andb]. exact (IH H _).
Qed.

Lemma short_month_read m r : 1 <= m <= 12 -> lookup_name shortMonthNames 1 (firstn 3 (month_name m) ++ r) = Some (m, r).
Proof.
  intros H. assert (In m [1;2;3;4;5;6;7;8;9;10;11;12]) as I by (cbn [In]; lia).
  cbn [In] in I. repeat (destruct I as [<-|I]; [reflexivity|]). destruct I.
Qed.
Lemma long_month_read m r : 1 <= m <= 12 -> lookup_name longMonthNames 1 (month_name m ++ r) = Some (m, r).
Proof.
  intros H. assert (In m [1;2;3;4;5;6;7;8;9;10;11;12]) as I by (cbn [In]; lia).
  cbn [In] in I. repeat (destruct I as [<-|I]; [reflexivity|]). destruct I.
Qed.
Lemma letter_lower c : letter c = false -> lower_char c = c.
Proof. unfold letter, lower_char. intros H. apply orb_false_iff in H as [-> _]. reflexivity. Qed.
Lemma no_letter_eqb c x : letter c = false -> letter x = true -> byte_eqb (lower_char c) x = false.
Proof. intros H X. rewrite letter_lower by assumption. apply byte_eqb_neq. intros ->. congruence. Qed.
Lemma short_month_long m r : 1 <= m <= 12 -> m <> 5 -> match r with c :: _ => letter c = false | [] => True end ->
  lookup_name longMonthNames 1 (firstn 3 (month_name m) ++ r) = None.
Proof.
  intros H N L. assert (In m [1;2;3;4;5;6;7;8;9;10;11;12]) as I by (cbn [In]; lia).
  destruct r as [|c r]; [cbn [In] in I; repeat (destruct I as [<-|I]; [try (now destruct N); reflexivity|]); destruct I|].
  cbn [In] in I. repeat (destruct I as [<-|I]; [try (now destruct N);
    match goal with |- context [firstn 3 (month_name ?k)] => let v := eval vm_compute in (firstn 3 (month_name k)) in change (firstn 3 (month_name k)) with v end;
    cbn [longMonthNames lit list_ascii_of_string firstn app lookup_name length map skipn bytes_eqb];
    rewrite ?(no_letter_eqb c) by (assumption || reflexivity); rewrite ?andb_false_r, ?andb_false_l; reflexivity|]). destruct I.
Qed.
Lemma short_day_read d r : 0 <= d < 7 -> lookup_name shortDayNames 0 (firstn 3 (day_name d) ++ r) = Some (d, r).
Proof.
  intros H. assert (In d [0;1;2;3;4;5;6]) as I by (cbn [In]; lia).
  cbn [In] in I. repeat (destruct I as [<-|I]; [reflexivity|]). destruct I.
Qed.
Lemma long_day_read d r : 0 <= d < 7 -> lookup_name longDayNames 0 (day_name d ++ r) = Some (d, r).
Proof.
  intros H. assert (In d [0;1;2;3;4;5;6]) as I by (cbn [In]; lia).
  cbn [In] in I. repeat (destruct I as [<-|I]; [reflexivity|]). destruct I.
Qed.
Lemma short_day_long d r : 0 <= d < 7 -> match r with c :: _ => letter c = false | [] => True end ->
  lookup_name longDayNames 0 (firstn 3 (day_name d) ++ r) = None.
Proof.
  intros H L. assert (In d [0;1;2;3;4;5;6]) as I by (cbn [In]; lia).
  destruct r as [|c r]; [cbn [In] in I; repeat (destruct I as [<-|I]; [reflexivity|]); destruct I|].
  cbn [In] in I. repeat (destruct I as [<-|I]; [
    match goal with |- context [firstn 3 (day_name ?k)] => let v := eval vm_compute in (firstn 3 (day_name k)) in change (firstn 3 (day_name k)) with v end;
    cbn [longDayNames lit list_ascii_of_string firstn app lookup_name length map skipn bytes_eqb];
    rewrite ?(no_letter_eqb c) by (assumption || reflexivity); rewrite ?andb_false_r, ?andb_false_l; reflexivity|]). destruct I.
Qed.
(* names of the other kind *)
Lemma day_no_month d r : 0 <= d < 7 ->
  lookup_name shortMonthNames 1 (firstn 3 (day_name d) ++ r) = None /\ lookup_name longMonthNames 1 (firstn 3 (day_name d) ++ r) = None.
Proof.
  intros H. assert (In d [0;1;2;3;4;5;6]) as I by (cbn [In]; lia).
  cbn [In] in I. repeat (destruct I as [<-|I]; [split; reflexivity|]). destruct I.
Qed.
Lemma month_no_day m r : 1 <= m <= 12 ->
  lookup_name shortDayNames 0 (firstn 3 (month_name m) ++ r) = None /\ lookup_name longDayNames 0 (firstn 3 (month_name m) ++ r) = None.
Proof.
  intros H. assert (In m [1;2;3;4;5;6;7;8;9;10;11;12]) as I by (cbn [In]; lia).
  cbn [In] in I. repeat (destruct I as [<-|I]; [split; reflexivity|]). destruct I.
Qed.
Lemma split3 (s r : bytes) : s ++ r = firstn 3 s ++ skipn 3 s ++ r.
Proof. now rewrite app_assoc, firstn_skipn. Qed.

Lemma no_letter_text l : fit l -> no_letter l = true -> match txt l with c :: _ => letter c = false | [] => True end.
Proof.
  intros F H. destruct F as [|a r Fa F]; [exact I|]. destruct (spell_head a Fa) as (c & cr & Ea & Da & _ & St). rewrite txt_cons, Ea. cbn [app].
  assert (Dl : is_digit c = true -> letter c = false).
  { intros Dc. apply is_digit_spec in Dc. unfold letter, in_range. destruct (Z.leb_spec 65 (bval c)), (Z.leb_spec 97 (bval c)); cbn; try lia. }
  destruct a as [v k n|x|w]; cbn [no_letter] in H.
  - now apply Dl.
  - cbn in Ea. assert (c = x) as -> by congruence. now apply negb_true_iff.
  - specialize (St w eq_refl). destruct w; try discriminate; cbn [starts] in St; apply byte_eqb_eq in St; now subst.
Qed.

Lemma first_digit l v k n : fit (D v k n :: l) -> exists c r, txt (D v k n :: l) = c :: r /\ is_digit c = true.
Proof.
  intros F. inversion F; subst. destruct (spell_head _ H1) as (c & r & E & Dc & _). rewrite txt_cons, E. exists c, (r ++ txt l). now split.
Qed.
Ltac digit_first F := let c := fresh in let r := fresh in let E := fresh in let Dc := fresh in
  destruct (first_digit _ _ _ _ F) as (c & r & E & Dc); rewrite E; rewrite named_none; [reflexivity|cbn [In]; tauto|exact Dc].
Lemma months_ok : 1 <= tMonth (eT e) <= 12. Proof. exact (proj1 (proj2 ranges)). Qed.
Lemma days_ok : 0 <= eDay e < 7. Proof. now destruct Ok as (_ & _ & _ & _ & H & _). Qed.

Lemma short_month_sound g l : fit l -> sound (realize e) (sym_short_month g l)
  (match lookup_name shortMonthNames 1 (txt l) with Some (m, r) => Some (set_month m (realize e g), r) | None => None end).
Proof.
  intros F. pose proof months_ok as Hm. pose proof days_ok as Hd. destruct l as [|[v k n|c|w] l]; [reflexivity| | |].
  - cbn [sym_short_month sound]. digit_first F.
  - cbn [sym_short_month]. destruct (no_name shortMonthNames c) eqn:N; [|exact I]. cbn [sound]. rewrite txt_cons. cbn [spell app]. now rewrite lookup_no_name.
  - inversion F as [|? ? Fa Fr]; subst. rewrite txt_cons. destruct w; cbn [sym_short_month sound spell]; try exact I.
    + rewrite short_month_read by assumption. now split.
    + rewrite split3, short_month_read by assumption. split; [reflexivity|]. constructor; assumption.
    + now rewrite (proj1 (day_no_month _ _ Hd)).
    + rewrite split3. now rewrite (proj1 (day_no_month _ _ Hd)).
    + cbn [app]. now rewrite lookup_no_name.
    + cbn [app]. now rewrite lookup_no_name.
Qed.
Lemma long_month_sound g l : fit l -> sound (realize e) (sym_long_month may g l)
  (match lookup_name longMonthNames 1 (txt l) with Some (m, r) => Some (set_month m (realize e g), r) | None => None end).
Proof.
  intros F. pose proof months_ok as Hm. pose proof days_ok as Hd. destruct l as [|[v k n|c|w] l]; [reflexivity| | |].
  - cbn [sym_long_month sound]. digit_first F.
  - cbn [sym_long_month]. destruct (no_name longMonthNames c) eqn:N; [|exact I]. cbn [sound]. rewrite txt_cons. cbn [spell app]. now rewrite lookup_no_name.
  - inversion F as [|? ? Fa Fr]; subst. rewrite txt_cons. destruct w; cbn [sym_long_month sound spell]; try exact I.
    + cbn [fits] in Fa. destruct (Z.eqb_spec (tMonth (eT e)) 5) as [M|M]; rewrite Fa.
      * cbn [sound]. assert (firstn 3 (month_name (tMonth (eT e))) = month_name (tMonth (eT e))) as -> by now rewrite M.
        rewrite long_month_read by assumption. now split.
      * destruct (no_letter l) eqn:L; [|exact I]. cbn [sound]. rewrite short_month_long; [reflexivity|assumption|assumption|now apply no_letter_text].
    + rewrite long_month_read by assumption. now split.
    + now rewrite (proj2 (day_no_month _ _ Hd)).
    + rewrite split3. now rewrite (proj2 (day_no_month _ _ Hd)).
    + cbn [app]. now rewrite lookup_no_name.
    + cbn [app]. now rewrite lookup_no_name.
Qed.
Lemma short_day_sound g l : fit l -> sound (realize e) (sym_short_day g l)
  (match lookup_name shortDayNames 0 (txt l) with Some (_, r) => Some (realize e g, r) | None => None end).
Proof.
  intros F. pose proof months_ok as Hm. pose proof days_ok as Hd. destruct l as [|[v k n|c|w] l]; [reflexivity| | |].
  - cbn [sym_short_day sound]. digit_first F.
  - cbn [sym_short_day]. destruct (no_name shortDayNames c) eqn:N; [|exact I]. cbn [sound]. rewrite txt_cons. cbn [spell app]. now rewrite lookup_no_name.
  - inversion F as [|? ? Fa Fr]; subst. rewrite txt_cons. destruct w; cbn [sym_short_day sound spell]; try exact I.
    + now rewrite (proj1 (month_no_day _ _ Hm)).
    + rewrite split3. now rewrite (proj1 (month_no_day _ _ Hm)).
    + rewrite short_day_read by assumption. now split.
    + rewrite split3, short_day_read by assumption. split; [reflexivity|]. constructor; [exact I|assumption].
    + cbn [app]. now rewrite lookup_no_name.
    + cbn [app]. now rewrite lookup_no_name.
Qed.
Lemma long_day_sound g l : fit l -> sound (realize e) (sym_long_day g l)
  (match lookup_name longDayNames 0 (txt l) with Some (_, r) => Some (realize e g, r) | None => None end).
Proof.
  intros F. pose proof months_ok as Hm. pose proof days_ok as Hd. destruct l as [|[v k n|c|w] l]; [reflexivity| | |].
  - cbn [sym_long_day sound]. digit_first F.
  - cbn [sym_long_day]. destruct (no_name longDayNames c) eqn:N; [|exact I]. cbn [sound]. rewrite txt_cons. cbn [spell app]. now rewrite lookup_no_name.
  - inversion F as [|? ? Fa Fr]; subst. rewrite txt_cons. destruct w; cbn [sym_long_day sound spell]; try exact I.
    + now rewrite (proj2 (month_no_day _ _ Hm)).
    + rewrite split3. now rewrite (proj2 (month_no_day _ _ Hm)).
    + destruct (no_letter l) eqn:L; [|exact I]. cbn [sound]. rewrite short_day_long; [reflexivity|assumption|now apply no_letter_text].
    + rewrite long_day_read by assumption. now split.
    + cbn [app]. now rewrite lookup_no_name.
    + cbn [app]. now rewrite lookup_no_name.
Qed.

(* ---- seconds ---- *)

Lemma digits_run (a r : bytes) : forallb is_digit a = true -> match r with c :: _ => is_digit c = false | [] => True end -> take_digits (a ++ r) = (a, r).
Proof.
  intros H N. induction a as [|c a IH]; cbn [app].
  - destruct r as [|c r]; [reflexivity|]. cbn [take_digits]. now rewrite N.
  - cbn in H. apply andb_true_iff in H as [Hc H]. cbn [take_digits]. now rewrite Hc, (IH H).
Qed.
Lemma parts_read r : match r with c :: _ => is_digit c = false | [] => True end ->
  opt_fraction ("."%char :: eDs e ++ r) = Some (tNsec (eT e), r).
Proof.
  intros N. destruct Ok as (_ & _ & _ & _ & _ & Ds & Ln & Ns & _). destruct (eDs e) as [|c ds] eqn:E; [cbn in Ln; lia|].
  unfold opt_fraction. cbn [app]. assert (is_digit c = true) as -> by (cbn in Ds; now apply andb_true_iff in Ds).
  change (byte_eqb "." "." || byte_eqb "." ",") with true. cbn [andb].
  change (c :: ds ++ r) with ((c :: ds) ++ r). rewrite digits_run by assumption. rewrite firstn_all2 by lia. now rewrite Ns.
Qed.
Lemma digital_text l : fit l -> match l with a :: _ => digital a = false | [] => True end -> match txt l with c :: _ => is_digit c = false | [] => True end.
Proof.
  intros F H. destruct F as [|a r Fa F]; [exact I|]. destruct (spell_head a Fa) as (c & cr & Ea & Da & _). rewrite txt_cons, Ea. cbn [app]. congruence.
Qed.
(* the end of the seconds *)
Definition after_sec (p : parsed) (r : bytes) : option (parsed * bytes) :=
  match opt_fraction r with
  | Some (ns, r') => if (length r' =? length r)%nat then Some (p, r) else Some (set_nsec ns p, r')
  | None => None
  end.
Lemma after_sec_id p c r : byte_eqb c "." = false -> byte_eqb c "," = false -> after_sec p (c :: r) = Some (p, c :: r).
Proof. intros H1 H2. unfold after_sec. rewrite opt_fraction_at by assumption. now rewrite Nat.eqb_refl. Qed.
Lemma parts_sound_at g l : fit l -> sound (realize e) (sym_parts g l) (after_sec (realize e g) (txt l)).
Proof.
  intros F. assert (P : forall r, fit r -> sound (realize e) (match r with [] => Yes (got_nsec true g) r | a :: _ => if digital a then Unknown else Yes (got_nsec true g) r end)
    (after_sec (realize e g) ("."%char :: eDs e ++ txt r))).
  { intros r Fr. assert (St : match r with a :: _ => digital a = false | [] => True end ->
      after_sec (realize e g) ("."%char :: eDs e ++ txt r) = Some (realize e (got_nsec true g), txt r)).
    { intros N. unfold after_sec. rewrite parts_read by now apply digital_text.
      rewrite (proj2 (Nat.eqb_neq _ _)); [reflexivity|]. cbn [length]. rewrite app_length. lia. }
    destruct r as [|a r]; [split; [now apply St|constructor]|]. destruct (digital a) eqn:Da; [exact I|]. split; [now apply St|assumption]. }
  destruct l as [|[v k n|c|w] l].
  - split; [reflexivity|constructor].
  - cbn [sym_parts sound]. split; [|exact F]. destruct (first_digit _ _ _ _ F) as (c & r & E & Dc). rewrite E.
    apply after_sec_id; apply byte_eqb_neq; intros ->; discriminate.
  - cbn [sym_parts]. destruct (byte_eqb c "." || byte_eqb c ",") eqn:B; [exact I|]. apply orb_false_iff in B as [B1 B2].
    cbn [sound]. split; [|exact F]. rewrite txt_cons. cbn [spell app]. now apply after_sec_id.
  - inversion F as [|? ? Fa Fr]; subst. destruct (spell_head _ Fa) as (c & r & E & Dc & _ & St). specialize (St w eq_refl).
    destruct w; cbn [sym_parts sound]; try (rewrite txt_cons; exact (P l Fr));
      (split; [|exact F]); rewrite txt_cons, E; cbn [app starts] in *;
      apply after_sec_id; apply byte_eqb_neq; intros ->; discriminate.
Qed.
Lemma after_sec_rest p p' r : option_map snd (after_sec p r) = option_map snd (after_sec p' r).
Proof. unfold after_sec. destruct (opt_fraction r) as [[ns r']|]; [|reflexivity]. now destruct (Nat.eqb _ _). Qed.
Lemma weaken_sound {A B} (real : A -> B) o r : sound real o r -> sound real (weaken o) r.
Proof.
  destruct o as [|a l|l|]; cbn [weaken sound]; auto. intros (-> & F). split; [|exact F]. intros b v E. congruence.
Qed.
Lemma second_sound frac fixed g l : fit l -> sound (realize e) (sym_second frac fixed g l)
  (match num_in 0 59 fixed (txt l) with
   | Some (n, r) => if frac : bool then Some (set_sec n (realize e g), r) else after_sec (set_sec n (realize e g)) r
   | None => None
   end).
Proof.
  intros F. unfold sym_second.
  assert (0 <= val e VSec <= 59) as Rs by (cbn [val]; destruct ranges as (_ & _ & _ & _ & _ & H); lia).
  pose proof (num_in_sound' VSec (got_sec g) 0 59 fixed l (fun n => set_sec n (realize e g)) F Rs eq_refl) as S.
  destruct frac; [exact S|].
  destruct (want VSec (got_sec g) (sym_num fixed l)) as [|a r|r|]; cbn [bind sound] in *.
  - now destruct (num_in 0 59 fixed (txt l)) as [[n r]|].
  - destruct S as (S & Fr). destruct (num_in 0 59 fixed (txt l)) as [[n r']|]; [|discriminate].
    assert (E1 : set_sec n (realize e g) = realize e a /\ r' = txt r) by (split; congruence). destruct E1 as [-> ->]. now apply parts_sound_at.
  - destruct S as (S & Fr). destruct (num_in 0 59 fixed (txt l)) as [[n r']|].
    + assert (r' = txt r) as -> by (eapply S; reflexivity). pose proof (weaken_sound _ _ _ (parts_sound_at g r Fr)) as W.
      pose proof (after_sec_rest (set_sec n (realize e g)) (realize e g) (txt r)) as Er.
      destruct (sym_parts g r) as [|a q|q|]; cbn [weaken sound] in *.
      * rewrite W in Er. now destruct (after_sec (set_sec n (realize e g)) (txt r)) as [[? ?]|].
      * destruct W as (W & Fq). split; [|exact Fq]. intros b v E. rewrite E in Er.
        destruct (after_sec (realize e g) (txt r)) as [[p2 v2]|] eqn:E2; [|discriminate]. cbn in Er. rewrite <- (W p2 v2 eq_refl). congruence.
      * destruct W as (W & Fq). split; [|exact Fq]. intros b v E. rewrite E in Er.
        destruct (after_sec (realize e g) (txt r)) as [[p2 v2]|] eqn:E2; [|discriminate]. cbn in Er. rewrite <- (W p2 v2 eq_refl). congruence.
      * exact I.
    + destruct (weaken (sym_parts g r)) as [|a q|q|] eqn:Ew; cbn [sound]; try exact I; try reflexivity.
      * destruct (sym_parts g r); discriminate.
      * pose proof (parts_sound_at g r Fr) as W. destruct (sym_parts g r) as [|a q'|q'|]; cbn in Ew; try discriminate;
          injection Ew as <-; (split; [discriminate|exact (proj2 W)]).
  - exact I.
Qed.

(* ---- numeric zones ---- *)

Lemma zone_parts_lead z c r s h m sec v : zone_parts z (c :: r) = Some (s, h, m, sec, v) -> s = c /\ exists x y r', r = x :: y :: r' /\ h = [x; y].
Proof.
  destruct z; cbn [zone_parts]; repeat (match goal with |- context [match ?l with [] => _ | _ :: _ => _ end] => is_var l; destruct l as [|? l] end; try discriminate);
    repeat (match goal with |- context [if ?b then _ else _] => destruct b end; try discriminate);
    (intros [= <- <- _ _ _]; split; [reflexivity|]; do 3 eexists; split; reflexivity).
Qed.
Lemma num_zone_no_sign z p c r : byte_eqb c "+" = false -> byte_eqb c "-" = false -> num_zone z p (c :: r) = None.
Proof.
  intros H1 H2. unfold num_zone. destruct (zone_parts z (c :: r)) as [[[[[s h] m] sec] v]|] eqn:E; [|reflexivity].
  apply zone_parts_lead in E as (-> & _). rewrite H1, H2.
  destruct (num_in 0 24 true h) as [[? ?]|]; [|reflexivity]. destruct (num_in 0 60 true m) as [[? ?]|]; [|reflexivity]. now destruct (num_in 0 60 true sec) as [[? ?]|].
Qed.
Lemma num_zone_no_hour z p c r : match r with x :: _ => is_digit x = false | [] => True end -> num_zone z p (c :: r) = None.
Proof.
  intros H. unfold num_zone. destruct (zone_parts z (c :: r)) as [[[[[s h] m] sec] v]|] eqn:E; [|reflexivity].
  apply zone_parts_lead in E as (_ & x & y & r' & -> & ->). unfold num_in at 1. cbn [getnum]. now rewrite H.
Qed.
Lemma pair_of_text v l r : pair_of v l = Some r -> fit l -> txt l = d2 (val e v) ++ txt r /\ fit r /\ 0 <= val e v < 100.
Proof.
  intros H F. destruct l as [|[a [|k] [|[|[|n]]]|c|w] l]; try discriminate. destruct l as [|[b [|[|k]] [|[|[|n]]]|c|w] l]; try discriminate.
  cbn [pair_of] in H. destruct (var_eqb v a) eqn:Va; [|discriminate]. destruct (var_eqb v b) eqn:Vb; [|discriminate]. cbn [andb] in H.
  assert (v = a) as <- by (destruct v, a; discriminate || reflexivity). assert (v = b) as <- by (destruct v, b; discriminate || reflexivity).
  assert (l = r) as <- by congruence. inversion F as [|? ? Fa F1]; subst. inversion F1 as [|? ? Fb F2]; subst.
  split; [reflexivity|]. split; [assumption|]. exact (proj1 (proj2 Fa)).
Qed.
Lemma colon_some l r : colon l = Some r -> fit l -> txt l = ":"%char :: txt r /\ fit r.
Proof.
  intros H F. destruct l as [|[v k n|c|w] l]; try discriminate. cbn [colon] in H. destruct (byte_eqb c ":") eqn:C; [|discriminate].
  apply byte_eqb_eq in C. subst c. assert (l = r) as <- by congruence. inversion F; subst. now split.
Qed.
Lemma colon_none l : colon l = None -> fit l -> match txt l with c :: _ => byte_eqb c ":" = false | [] => True end.
Proof.
  intros H F. destruct l as [|[v k n|c|w] l]; [exact I| | |].
  - destruct (first_digit _ _ _ _ F) as (c & r & E & Dc). rewrite E. apply byte_eqb_neq. intros ->. discriminate.
  - cbn [colon] in H. rewrite txt_cons. cbn [spell app]. now destruct (byte_eqb c ":").
  - inversion F as [|? ? Fa Fr]; subst. destruct (spell_head _ Fa) as (c & r & E & _ & _ & St). specialize (St w eq_refl).
    rewrite txt_cons, E. cbn [app]. apply byte_eqb_neq. intros ->. destruct w; discriminate.
Qed.
Lemma num_d2 lo hi z : 0 <= z < 100 -> lo <= z <= hi -> num_in lo hi true (d2 z) = Some (z, []).
Proof. intros. rewrite <- (app_nil_r (d2 z)). apply num_in_d2; assumption. Qed.
Lemma signed c (off : Z) p r : byte_eqb c "+" || byte_eqb c "-" = true ->
  (if byte_eqb c "+" then Some (set_offset off p, r) else if byte_eqb c "-" then Some (set_offset (- off) p, r) else None)
  = Some (set_offset ((if byte_eqb c "-" then -1 else 1) * off) p, r : bytes).
Proof.
  intros H. destruct (byte_eqb c "+") eqn:P.
  - apply byte_eqb_eq in P. subst. change (byte_eqb "+" "-") with false. cbv iota. replace (1 * off) with off by ring. reflexivity.
  - cbn [orb] in H. rewrite H. replace (-1 * off) with (- off) by ring. reflexivity.
Qed.
Lemma zone_two c p h m r : 0 <= h < 24 -> 0 <= m < 60 -> byte_eqb c "+" || byte_eqb c "-" = true ->
  num_zone ZPlain p (c :: d2 h ++ d2 m ++ r) = Some (set_offset ((if byte_eqb c "-" then -1 else 1) * (h * 3600 + m * 60 + 0)) p, r)
  /\ num_zone ZColon p (c :: d2 h ++ ":"%char :: d2 m ++ r) = Some (set_offset ((if byte_eqb c "-" then -1 else 1) * (h * 3600 + m * 60 + 0)) p, r)
  /\ num_zone ZShort p (c :: d2 h ++ r) = Some (set_offset ((if byte_eqb c "-" then -1 else 1) * (h * 3600 + 0 + 0)) p, r).
Proof.
  intros H M C.
  assert (forall m', (h * 60 + m') * 60 + 0 = h * 3600 + m' * 60 + 0) as A by (intros; lia).
  assert (num_in 0 60 true (lit "00") = Some (0, [])) as Z0 by reflexivity.
  repeat split; unfold num_zone.
  - change (zone_parts ZPlain (c :: d2 h ++ d2 m ++ r)) with (Some (c, d2 h, d2 m, lit "00", r)). cbv iota beta.
    rewrite !num_d2 by lia. rewrite Z0. cbv iota beta. rewrite A. now apply signed.
  - change (zone_parts ZColon (c :: d2 h ++ ":"%char :: d2 m ++ r)) with (Some (c, d2 h, d2 m, lit "00", r)). cbv iota beta.
    rewrite !num_d2 by lia. rewrite Z0. cbv iota beta. rewrite A. now apply signed.
  - change (zone_parts ZShort (c :: d2 h ++ r)) with (Some (c, d2 h, lit "00", lit "00", r)). cbv iota beta.
    rewrite !num_d2 by lia. rewrite Z0. cbv iota beta. rewrite A. now apply signed.
Qed.
Lemma zone_three c p h m s r : 0 <= h < 24 -> 0 <= m < 60 -> 0 <= s < 60 -> byte_eqb c "+" || byte_eqb c "-" = true ->
  num_zone ZColonSeconds p (c :: d2 h ++ ":"%char :: d2 m ++ ":"%char :: d2 s ++ r) = Some (set_offset ((if byte_eqb c "-" then -1 else 1) * (h * 3600 + m * 60 + s)) p, r).
Proof.
  intros H M S C. unfold num_zone.
  change (zone_parts ZColonSeconds (c :: d2 h ++ ":"%char :: d2 m ++ ":"%char :: d2 s ++ r)) with (Some (c, d2 h, d2 m, d2 s, r)). cbv iota beta.
  rewrite !num_d2 by lia. replace ((h * 60 + m) * 60 + s) with (h * 3600 + m * 60 + s) by ring. now apply signed.
Qed.
Lemma num_zone_no_colon z p c h r : z = ZColon \/ z = ZColonSeconds -> match r with x :: _ => byte_eqb x ":" = false | [] => True end ->
  num_zone z p (c :: d2 h ++ r) = None.
Proof.
  intros [-> | ->] H; unfold num_zone, d2; cbn [app zone_parts].
  - destruct r as [|x [|y [|w r]]]; try reflexivity; now rewrite H.
  - destruct r as [|x [|y [|w [|a [|b [|d r]]]]]]; try reflexivity; now rewrite H.
Qed.
Lemma num_zone_no_colon2 p c h m r : match r with x :: _ => byte_eqb x ":" = false | [] => True end ->
  num_zone ZColonSeconds p (c :: d2 h ++ ":"%char :: d2 m ++ r) = None.
Proof.
  intros H. unfold num_zone, d2; cbn [app zone_parts].
  destruct r as [|a [|b [|d r]]]; try reflexivity. rewrite H, andb_false_r. reflexivity.
Qed.
Lemma num_zone_no_minute p c h r : match r with x :: _ => is_digit x = false | [] => True end ->
  num_zone ZPlain p (c :: d2 h ++ r) = None.
Proof.
  intros H. unfold num_zone, d2; cbn [app zone_parts]. destruct r as [|x [|y r]]; try reflexivity.
  destruct (num_in 0 24 true _) as [[? ?]|]; [|reflexivity]. unfold num_in. cbn [getnum]. now rewrite H.
Qed.

Lemma zone_sound z g l : fit l -> sound (realize e) (sym_zone z g l) (num_zone z (realize e g) (txt l)).
Proof.
  intros F. pose proof Ok as (_ & RH & RM & RS & _). destruct l as [|[v k n|c|w] l].
  - destruct z; reflexivity.
  - cbn [sym_zone sound]. destruct (first_digit _ _ _ _ F) as (c & r & E & Dc). rewrite E. apply num_zone_no_sign; apply byte_eqb_neq; intros ->; discriminate.
  - cbn [sym_zone]. rewrite txt_cons. cbn [spell app]. inversion F as [|? ? _ Fr]; subst.
    destruct (byte_eqb c "+" || byte_eqb c "-") eqn:Sg.
    2: { apply orb_false_iff in Sg as [S1 S2]. cbn [sound]. now apply num_zone_no_sign. }
    destruct (match l with a :: _ => negb (digital a) | [] => true end) eqn:Hd.
    { cbn [sound]. apply num_zone_no_hour. apply digital_text; [assumption|]. destruct l as [|a l]; [exact I|]. now apply negb_true_iff in Hd. }
    clear Hd. destruct (pair_of VOffH l) as [r1|] eqn:P; [|destruct z; exact I].
    destruct (pair_of_text _ _ _ P Fr) as (E1 & F1 & _). rewrite E1. cbn [val].
    destruct z.
    + cbn [sound]. split; [|assumption]. exact (proj2 (proj2 (zone_two c (realize e g) (eH e) 0 (txt r1) RH ltac:(lia) Sg))).
    + destruct (pair_of VOffM r1) as [r2|] eqn:P2.
      * destruct (pair_of_text _ _ _ P2 F1) as (E2 & F2 & _). rewrite E2. cbn [val sound]. split; [|assumption]. exact (proj1 (zone_two c (realize e g) _ _ (txt r2) RH RM Sg)).
      * destruct (match r1 with a :: _ => digital a | [] => false end) eqn:Hd; [exact I|]. cbn [sound]. apply num_zone_no_minute.
        apply digital_text; [assumption|]. now destruct r1.
    + destruct (colon r1) as [r2|] eqn:C1.
      * destruct (colon_some _ _ C1 F1) as (E2 & F2). rewrite E2. destruct (pair_of VOffM r2) as [r3|] eqn:P2; [|exact I].
        destruct (pair_of_text _ _ _ P2 F2) as (E3 & F3 & _). rewrite E3. cbn [val sound]. split; [|assumption]. exact (proj1 (proj2 (zone_two c (realize e g) _ _ (txt r3) RH RM Sg))).
      * cbn [sound]. apply num_zone_no_colon; [now left|]. now apply colon_none.
    + exact I.
    + destruct (colon r1) as [r2|] eqn:C1.
      * destruct (colon_some _ _ C1 F1) as (E2 & F2). rewrite E2. destruct (pair_of VOffM r2) as [r3|] eqn:P2; [|exact I].
        destruct (pair_of_text _ _ _ P2 F2) as (E3 & F3 & _). rewrite E3. cbn [val]. destruct (colon r3) as [r4|] eqn:C2.
        -- destruct (colon_some _ _ C2 F3) as (E4 & F4). rewrite E4. destruct (pair_of VOffS r4) as [r5|] eqn:P3; [|exact I].
           destruct (pair_of_text _ _ _ P3 F4) as (E5 & F5 & _). rewrite E5. cbn [val sound]. split; [|assumption]. exact (zone_three c (realize e g) _ _ _ (txt r5) RH RM RS Sg).
        -- cbn [sound]. apply num_zone_no_colon2. now apply colon_none.
      * cbn [sound]. apply num_zone_no_colon; [now right|]. now apply colon_none.
  - cbn [sym_zone sound]. inversion F as [|? ? Fa Fr]; subst. destruct (spell_head _ Fa) as (c & r & E & _ & _ & St). specialize (St w eq_refl).
    rewrite txt_cons, E. cbn [app]. apply num_zone_no_sign; apply byte_eqb_neq; intros ->; destruct w; discriminate.
Qed.

(* ---- zone abbreviations ---- *)

Lemma upper_letter c : upper c = true -> letter c = true.
Proof. unfold upper, letter. now intros ->. Qed.
Lemma digit_no_upper c : is_digit c = true -> upper c = false.
Proof. intros H. apply not_true_iff_false. unfold upper, in_range. apply is_digit_spec in H. lia. Qed.
Lemma bytes_eqb_cons x y (a b : bytes) : bytes_eqb (x :: a) (y :: b) = byte_eqb x y && bytes_eqb a b.
Proof. reflexivity. Qed.
Lemma prefix_no_upper c r p q : upper c = false -> upper p = true -> bytes_eqb (c :: r) (p :: q) = false.
Proof. intros H P. rewrite bytes_eqb_cons. replace (byte_eqb c p) with false; [reflexivity|]. symmetry. apply byte_eqb_neq. intros ->. congruence. Qed.
Lemma no_prefixes c r : upper c = false -> has_prefix "UTC" (c :: r) = false /\ has_prefix "ChST" (c :: r) = false /\ has_prefix "MeST" (c :: r) = false /\ has_prefix "GMT" (c :: r) = false.
Proof. intros H. unfold has_prefix. cbn [lit length list_ascii_of_string firstn]. repeat split; apply prefix_no_upper; (assumption || reflexivity). Qed.
Lemma tz_no c r : upper c = false -> byte_eqb c "+" || byte_eqb c "-" = false -> time_zone_length (c :: r) = None.
Proof.
  intros H S. destruct (no_prefixes c r H) as (_ & P1 & P2 & P3). unfold time_zone_length.
  destruct (length (c :: r) <? 3)%nat; [reflexivity|]. rewrite P1, P2, P3, S. cbn [orb count_upper]. unfold upper in H. now rewrite H.
Qed.
Lemma d2_digits z : 0 <= z < 100 -> forallb is_digit (d2 z) = true.
Proof. intros H. unfold d2. cbn [forallb]. rewrite !is_digit_digit_char by euclid. reflexivity. Qed.
Lemma tz_offset c h m r : byte_eqb c "+" || byte_eqb c "-" = true -> 0 <= h < 24 -> 0 <= m < 60 ->
  match r with x :: _ => is_digit x = false | [] => True end ->
  time_zone_length (c :: d2 h ++ d2 m ++ r) = if 23 <? h * 100 + m then None else Some 5%nat.
Proof.
  intros S H M N. assert (upper c = false) as U by (apply orb_true_iff in S as [S|S]; apply byte_eqb_eq in S; subst; reflexivity).
  destruct (no_prefixes c (d2 h ++ d2 m ++ r) U) as (_ & P1 & P2 & P3). unfold time_zone_length. rewrite P1, P2, P3, S.
  replace (length (c :: d2 h ++ d2 m ++ r) <? 3)%nat with false by (symmetry; apply Nat.ltb_ge; unfold d2; cbn [app length]; lia).
  cbn [orb]. unfold signed_offset. rewrite orb_comm in S. rewrite S. rewrite (app_assoc (d2 h)).
  rewrite digits_run; [|now rewrite forallb_app, !d2_digits by lia|assumption].
  assert (V : dval (d2 h ++ d2 m) = h * 100 + m).
  { rewrite dval_app, !dval_d2 by lia. change (length (d2 m)) with 2%nat. lia. }
  rewrite V. unfold d2. cbn [app length]. now destruct (23 <? h * 100 + m).
Qed.

Lemma abbr_sound g l : fit l -> sound (realize e) (sym_abbr kn g l) (parse_std false StdTZ (realize e g) (txt l)).
Proof.
  intros F. cbn [parse_std]. destruct l as [|[v k n|a|w] l]; [reflexivity| | |exact I].
  - cbn [sym_abbr sound]. destruct (first_digit _ _ _ _ F) as (c & r & E & Dc). rewrite E.
    pose proof (digit_no_upper c Dc) as U. rewrite (proj1 (no_prefixes c r U)), (tz_no c r U); [reflexivity|].
    apply orb_false_iff; split; apply byte_eqb_neq; intros ->; discriminate.
  - inversion F as [|? ? _ Fr]; subst. rewrite txt_cons. cbn [spell app sym_abbr].
    destruct (byte_eqb a "+" || byte_eqb a "-") eqn:S.
    + destruct (pair_of VOffH l) as [r1|] eqn:P1; [|exact I]. cbn [opt_bind]. destruct (pair_of VOffM r1) as [r2|] eqn:P2; [|exact I].
      destruct (pair_of_text _ _ _ P1 Fr) as (E1 & F1 & _). destruct (pair_of_text _ _ _ P2 F1) as (E2 & F2 & _).
      destruct (match r2 with b :: _ => negb (digital b) | [] => true end) eqn:Nd; [|exact I].
      assert (upper a = false) as U by (apply orb_true_iff in S as [S|S]; apply byte_eqb_eq in S; subst; reflexivity).
      rewrite (proj1 (no_prefixes a (txt l) U)), E1, E2. cbn [val].
      pose proof Ok as (_ & RH & RM & _ & _ & _ & _ & _ & Far & _).
      rewrite tz_offset; [|assumption|assumption|assumption|].
      2: { apply digital_text; [assumption|]. destruct r2 as [|b r2]; [exact I|]. now apply negb_true_iff in Nd. }
      destruct (kFar kn).
      * specialize (Far eq_refl). replace (23 <? eH e * 100 + eM e) with true by (symmetry; apply Z.ltb_lt; lia). reflexivity.
      * cbn [sound]. split; [|assumption]. destruct (23 <? _); [discriminate|]. intros b v H. unfold d2 in H. cbn [app skipn] in H. congruence.
    + destruct (upper a) eqn:U; cbn [negb].
      2: { cbn [sound]. now rewrite (proj1 (no_prefixes a (txt l) U)), (tz_no a (txt l) U). }
      destruct l as [|[v k n|b|w] l]; [| exact I| |exact I].
      { cbn [sound text flat_map]. unfold has_prefix, time_zone_length. cbn [lit list_ascii_of_string length firstn]. rewrite bytes_eqb_cons. cbn [bytes_eqb]. rewrite andb_false_r. reflexivity. }
      inversion Fr as [|? ? _ Fr2]; subst. rewrite txt_cons. cbn [spell app].
      destruct l as [|[v k n|c|w] l]; [| exact I| |exact I].
      { cbn [text flat_map]. destruct (upper b) eqn:Ub; [|exact I]. cbn [sound]. unfold has_prefix, time_zone_length. cbn [lit list_ascii_of_string length firstn].
        rewrite !bytes_eqb_cons. cbn [bytes_eqb]. rewrite !andb_false_r. reflexivity. }
      inversion Fr2 as [|? ? _ Fr3]; subst. rewrite txt_cons. cbn [spell app].
      unfold has_prefix at 1. cbn [lit list_ascii_of_string length firstn]. change [ "U"%char; "T"%char; "C"%char] with (lit "UTC").
      destruct (bytes_eqb [a; b; c] (lit "UTC")) eqn:Q.
      { cbn [sound skipn]. split; [reflexivity|assumption]. }
      destruct (upper b) eqn:Ub; cbn [andb]; [|exact I].
      assert (Lo : forall x, in_range 97 122 x = true -> byte_eqb b x = false) by (intros x Hx; apply byte_eqb_neq; intros ->; unfold upper, in_range in *; lia).
      assert (Pr : has_prefix "ChST" (a :: b :: c :: txt l) || has_prefix "MeST" (a :: b :: c :: txt l) = false).
      { unfold has_prefix. cbn [lit list_ascii_of_string length firstn]. rewrite !bytes_eqb_cons. rewrite !Lo by reflexivity. cbn [andb]. now rewrite !andb_false_r. }
      assert (Ln : (length (a :: b :: c :: txt l) <? 3)%nat = false) by (apply Nat.ltb_ge; cbn [length]; lia).
      unfold time_zone_length. rewrite Ln, Pr, S. unfold has_prefix at 1. cbn [lit list_ascii_of_string length firstn skipn].
      change [ "G"%char; "M"%char; "T"%char] with (lit "GMT").
      destruct (upper c) eqn:Uc; cbn [andb].
      * destruct (bytes_eqb [a; b; c] (lit "GMT") && match l with K x :: _ => byte_eqb x "+" || byte_eqb x "-" | _ => false end) eqn:Gm; [exact I|].
        destruct (match l with [] => true | K x :: _ => negb (letter x) | D _ _ _ :: _ => true | W _ :: _ => false end) eqn:Nl.
        2: { destruct l as [|[v k n|x|w] l]; try discriminate; try exact I. destruct (letter x); [exact I|discriminate]. }
        assert (Hu : count_upper (txt l) = 0%nat /\ (bytes_eqb [a; b; c] (lit "GMT") = true -> signed_offset (txt l) = 0%nat)).
        { destruct l as [|[v k n|x|w] l]; [now split| | |discriminate].
          - destruct (first_digit _ _ _ _ Fr3) as (y & r & E & Dy). rewrite E. cbn [count_upper signed_offset].
            pose proof (digit_no_upper y Dy) as Uy. unfold upper in Uy. rewrite Uy. split; [reflexivity|]. intros _.
            replace (byte_eqb y "-" || byte_eqb y "+") with false; [reflexivity|]. symmetry. apply orb_false_iff; split; apply byte_eqb_neq; intros ->; discriminate.
          - rewrite txt_cons. cbn [spell app count_upper signed_offset]. apply negb_true_iff in Nl. unfold letter in Nl. apply orb_false_iff in Nl as [Nl _]. rewrite Nl.
            split; [reflexivity|]. intros Q2. rewrite Q2 in Gm. cbn [andb] in Gm. rewrite orb_comm in Gm. now rewrite Gm. }
        destruct Hu as (Hu & Hs).
        assert (R : sound (realize e) (Yes (got_zone [a; b; c] g) l)
          (match (if bytes_eqb [a; b; c] (lit "GMT") then Some (3 + signed_offset (txt l))%nat
                  else match count_upper (a :: b :: c :: txt l) with
                       | 5%nat => if bytes_eqb (firstn 1 (skipn 1 (txt l))) (lit "T") then Some 5%nat else None
                       | 4%nat => if bytes_eqb (firstn 1 (txt l)) (lit "T") || has_prefix "WITA" (a :: b :: c :: txt l) then Some 4%nat else None
                       | 3%nat => Some 3%nat | _ => None end)
           with Some n => Some (set_zone (firstn n (a :: b :: c :: txt l)) (realize e g), skipn n (a :: b :: c :: txt l)) | None => None end)).
        { cbn [sound]. split; [|assumption]. destruct (bytes_eqb [a; b; c] (lit "GMT")).
          - rewrite (Hs eq_refl). cbn [Nat.add firstn skipn]. reflexivity.
          - cbn [count_upper]. unfold upper in *. rewrite U, Ub, Uc, Hu. reflexivity. }
        destruct l as [|[v k n|x|w] l]; [exact R|exact R| |discriminate]. apply negb_true_iff in Nl. rewrite Nl. exact R.
      * destruct (letter c) eqn:Lc; cbn [negb]; [exact I|]. cbn [sound].
        replace (bytes_eqb [a; b; c] (lit "GMT")) with false.
        2: { symmetry. apply bytes_eqb_neq. intros [= -> -> ->]. discriminate. }
        cbn [count_upper]. unfold upper in *. rewrite U, Ub, Uc. reflexivity.
Qed.

(* ---- fractions of one digit, halves of the day, years ---- *)

Lemma nano_no c r : byte_eqb c "." || byte_eqb c "," = false -> nanoseconds (c :: r) = None.
Proof. intros H. cbn [nanoseconds]. now rewrite H. Qed.
Lemma tenth_none c r (p : parsed) : byte_eqb c "." || byte_eqb c "," = false ->
  parse_std false (StdFrac0 1) p (c :: r) = None.
Proof. intros H. cbn [parse_std]. destruct (_ <? _)%nat; [reflexivity|]. cbn [firstn]. now rewrite nano_no. Qed.
Lemma tenth_sound g l : fit l -> sound (realize e) (sym_tenth g l) (parse_std false (StdFrac0 1) (realize e g) (txt l)).
Proof.
  intros F. pose proof Ok as (_ & _ & _ & _ & _ & Ds & Ln & Ns & _). destruct l as [|[v k n|c|w] l]; [reflexivity| | |].
  - cbn [sym_tenth sound]. destruct (first_digit _ _ _ _ F) as (c & r & E & Dc). rewrite E. apply tenth_none.
    apply orb_false_iff; split; apply byte_eqb_neq; intros ->; discriminate.
  - cbn [sym_tenth]. rewrite txt_cons. cbn [spell app]. inversion F as [|? ? _ Fr]; subst. destruct (byte_eqb c ".") eqn:C.
    + destruct l as [|[v k n|x|w] l]; try exact I. destruct (byte_eqb x "0") eqn:X; [|exact I]. apply byte_eqb_eq in C, X. subst.
      inversion Fr as [|? ? _ Fr2]; subst. cbn [sound]. split; [reflexivity|assumption].
    + destruct (byte_eqb c ",") eqn:C2; [exact I|]. cbn [sound]. apply tenth_none. now rewrite C, C2.
  - inversion F as [|? ? Fa Fr]; subst.
    assert (No' : starts w "." = false -> starts w "," = false -> parse_std false (StdFrac0 1) (realize e g) (txt (W w :: l)) = None).
    { intros S1 S2. destruct (spell_head _ Fa) as (c & r & E & _ & _ & St). specialize (St w eq_refl). rewrite txt_cons, E. cbn [app]. apply tenth_none.
      apply orb_false_iff; split; apply byte_eqb_neq; intros ->; congruence. }
    destruct w; cbn [sym_tenth sound]; try (apply No'; reflexivity).
    + cbn [fits] in Fa. rewrite txt_cons. cbn [spell app]. destruct (eDs e) as [|d ds] eqn:E; [discriminate|]. destruct ds; [|discriminate].
      cbn [app parse_std length]. cbn [forallb] in Ds. rewrite andb_true_r in Ds.
      replace (S (S (length (txt l))) <? 2)%nat with false by (symmetry; apply Nat.ltb_ge; lia).
      cbn [firstn nanoseconds]. change (byte_eqb "." ".") with true. cbn [orb]. unfold time_atoi.
      replace (byte_eqb d "-") with false by (symmetry; apply byte_eqb_neq; intros ->; discriminate).
      replace (byte_eqb d "+") with false by (symmetry; apply byte_eqb_neq; intros ->; discriminate).
      cbn [forallb]. rewrite Ds. cbn [andb]. pose proof (dval_range [d]) as R. cbn [forallb] in R. rewrite Ds in R. specialize (R eq_refl).
      replace (dval [d] <? 0) with false by (symmetry; apply Z.ltb_ge; lia). cbn [skipn length]. split; [|assumption].
      unfold realize, got_nsec, set_nsec. cbn. rewrite Ns. cbn [length]. reflexivity.
    + cbn [fits] in Fa. split; [|constructor; assumption]. rewrite txt_cons. cbn [spell app]. destruct (eDs e) as [|d ds] eqn:E; [cbn in Fa; lia|].
      intros b v. cbn [app parse_std]. destruct (_ <? _)%nat; [discriminate|]. destruct (nanoseconds _); [|discriminate]. cbn [skipn].
      intros H. assert (v = ds ++ txt l) as -> by congruence. rewrite txt_cons. cbn [spell]. rewrite E. reflexivity.
Qed.

Lemma half_sound pm am g l (U : pm = "PM" /\ am = "AM" \/ pm = "pm" /\ am = "am") : fit l -> sound (realize e) (sym_half pm am g l)
  (if has_prefix pm (txt l) then Some (set_pm (realize e g), skipn 2 (txt l))
   else if has_prefix am (txt l) then Some (set_am (realize e g), skipn 2 (txt l)) else None).
Proof.
  intros F. assert (exists p a m, lit pm = [p; m] /\ lit am = [a; m] /\ is_digit p = false /\ is_digit a = false) as (p & a & m & Ep & Ea & Dp & Da)
    by (destruct U as [[-> ->]|[-> ->]]; do 3 eexists; repeat split).
  unfold has_prefix. rewrite Ep, Ea. cbn [length].
  destruct l as [|[v k n|c|w] l]; [reflexivity| | |exact I].
  - cbn [sym_half sound]. destruct (first_digit _ _ _ _ F) as (c & r & E & Dc). rewrite E. cbn [firstn]. rewrite !bytes_eqb_cons.
    replace (byte_eqb c p) with false by (symmetry; apply byte_eqb_neq; intros ->; congruence).
    replace (byte_eqb c a) with false by (symmetry; apply byte_eqb_neq; intros ->; congruence). reflexivity.
  - cbn [sym_half]. rewrite Ep, Ea. inversion F as [|? ? _ Fr]; subst. rewrite txt_cons. cbn [spell app firstn existsb].
    destruct (gHalf g) eqn:G; [exact I|]. rewrite !bytes_eqb_cons. destruct (byte_eqb c p || (byte_eqb c a || false)) eqn:C.
    + destruct l as [|[v k n|b|w] l]; try exact I. inversion Fr as [|? ? _ Fr2]; subst. rewrite txt_cons. cbn [spell app firstn skipn].
      rewrite !bytes_eqb_cons. cbn [bytes_eqb].
      destruct (byte_eqb c p && (byte_eqb b m && true)).
      { cbn [sound]. split; [|assumption]. unfold realize, got_half, set_pm. cbn. rewrite G. reflexivity. }
      destruct (byte_eqb c a && (byte_eqb b m && true)).
      { cbn [sound]. split; [|assumption]. unfold realize, got_half, set_am. cbn. rewrite G. reflexivity. }
      reflexivity.
    + apply orb_false_iff in C as [C1 C2]. rewrite orb_false_r in C2. rewrite C1, C2. reflexivity.
Qed.

Lemma digit_no_sign c : is_digit c = true -> byte_eqb c "-" = false /\ byte_eqb c "+" = false.
Proof. intros H. split; apply byte_eqb_neq; intros ->; discriminate. Qed.
Lemma atoi_pair x y : is_digit x = true -> time_atoi [x; y] = if is_digit y then Some (dval [x; y]) else None.
Proof. intros H. unfold time_atoi. destruct (digit_no_sign x H) as [-> ->]. cbn [forallb]. rewrite H. cbn [andb]. now rewrite andb_true_r. Qed.
Lemma one_text a l : fits may e a -> one_char a = true -> exists c, txt (a :: l) = c :: txt l /\ is_digit c = digital a.
Proof. intros Fa O. destruct (spell_head a Fa) as (c & r & E & Dc & Oc & _). rewrite txt_cons, E, (Oc O). exists c. now split. Qed.
Lemma some_text a l : fits may e a -> exists c r, txt (a :: l) = c :: r /\ is_digit c = digital a.
Proof. intros Fa. destruct (spell_head a Fa) as (c & r & E & Dc & _). rewrite txt_cons, E. exists c, (r ++ txt l). now split. Qed.

Lemma year2_sound g l : fit l -> sound (realize e) (sym_std may kn false StdYear g l) (parse_std false StdYear (realize e g) (txt l)).
Proof.
  intros F. cbn [sym_std parse_std]. destruct (pair_of VShort l) as [r|] eqn:P.
  - destruct (pair_of_text _ _ _ P F) as (E & Fr & Rg). cbn [sound]. split; [|assumption]. rewrite E.
    assert (Y : 1969 <= tYear (eT e) <= 2068).
    { destruct l as [|[a [|k] [|[|[|n]]]|c|w] l]; try discriminate. destruct l as [|[b [|[|k]] [|[|[|n]]]|c|w] l]; try discriminate.
      cbn [pair_of] in P. destruct a; try discriminate. inversion F as [|? ? Fa _]; subst. exact (proj2 (proj2 Fa) eq_refl). }
    pose proof (d2_digits _ Rg) as Dg. pose proof (dval_d2 _ Rg) as Dv. unfold d2 in *. cbn [app forallb] in *. apply andb_true_iff in Dg as [D1 D2]. rewrite andb_true_r in D2.
    rewrite (atoi_pair _ _ D1), D2, Dv. unfold realize, got_year, set_year. cbn [gYear gMonth gDay gHour gMin gSec gNsec gHalf gUTC gOff gZone pYear pMonth pDay pHour pMin pSec pNsec pAm pPm pUTC pOffset pZone].
    do 2 f_equal. cbn [val]. f_equal. destruct (Z.leb_spec 69 (tYear (eT e) mod 100)); euclid.
  - clear P. destruct l as [|a l]; [reflexivity|]. inversion F as [|? ? Fa Fr]; subst. destruct (digital a) eqn:Da.
    + destruct (one_char a) eqn:Oa; [|exact I]. cbn [negb]. destruct (one_text a l Fa Oa) as (c & E & Dc). rewrite E. rewrite Da in Dc.
      destruct l as [|b l]; [reflexivity|]. inversion Fr as [|? ? Fb Fr2]; subst. destruct (some_text b l Fb) as (x & r & Eb & Dx).
      destruct (digital b) eqn:Db; cbn [negb].
      * destruct (one_char b) eqn:Ob; [|exact I]. destruct (one_text b l Fb Ob) as (y & Ey & _). rewrite Ey in *. cbn [sound]. split; [|assumption].
        intros p v. destruct (time_atoi [c; y]); congruence.
      * cbn [sound]. rewrite Eb, (atoi_pair c x Dc), Dx. reflexivity.
    + assert (N : forall c r, is_digit c = false -> byte_eqb c "-" = false -> byte_eqb c "+" = false ->
        match c :: r with x :: y :: r' => match time_atoi [x; y] with Some y' => Some (set_year (if 69 <=? y' then y' + 1900 else y' + 2000) (realize e g), r') | None => None end | _ => None end = None).
      { intros c r H1 H2 H3. destruct r as [|y r]; [reflexivity|]. unfold time_atoi. rewrite H2, H3. cbn [forallb]. now rewrite H1. }
      destruct a as [v k n|c|w]; [discriminate| |].
      * destruct (byte_eqb c "+" || byte_eqb c "-") eqn:S; [exact I|]. apply orb_false_iff in S as [S1 S2]. cbn [sound]. rewrite txt_cons. cbn [spell app]. now apply N.
      * cbn [sound]. destruct (spell_head _ Fa) as (c & r & E & Dc & _ & St). specialize (St w eq_refl). rewrite txt_cons, E. cbn [app].
        apply N; [congruence| |]; apply byte_eqb_neq; intros ->; destruct w; discriminate.
Qed.

Lemma getyear_no pre c r : (length pre < 4)%nat -> is_digit c = false -> getyear (pre ++ c :: r) = None.
Proof.
  intros L H. destruct pre as [|x [|y [|z [|w pre]]]]; cbn [app length] in *; [| | | |lia]; unfold getyear;
    repeat (match goal with |- context [match ?l with [] => _ | _ :: _ => _ end] => is_var l; destruct l as [|? l] end; try reflexivity);
    cbn [forallb]; rewrite H; now rewrite ?andb_false_r.
Qed.
Lemma year4_sound g l : fit l -> sound (realize e) (sym_std may kn false StdLongYear g l) (parse_std false StdLongYear (realize e g) (txt l)).
Proof.
  intros F. cbn [sym_std parse_std]. destruct (year_of l) as [r|] eqn:P.
  - assert (txt l = d4 (tYear (eT e)) ++ txt r /\ fit r) as (E & Fr).
    { destruct l as [|[[] [|k] [|[|[|[|[|n]]]]]|c|w] l]; try discriminate. destruct l as [|[[] [|[|k]] [|[|[|[|[|n]]]]]|c|w] l]; try discriminate.
      destruct l as [|[[] [|[|[|k]]] [|[|[|[|[|n]]]]]|c|w] l]; try discriminate. destruct l as [|[[] [|[|[|[|k]]]] [|[|[|[|[|n]]]]]|c|w] l]; try discriminate.
      cbn [year_of] in P. assert (l = r) as <- by congruence. split; [reflexivity|]. now repeat (match goal with H : Forall _ (_ :: _) |- _ => inversion H; clear H; subst end). }
    cbn [sound]. split; [|assumption]. rewrite E, getyear_d4 by (pose proof ranges; lia). reflexivity.
  - clear P. destruct (Nat.ltb_spec (length l) 4) as [L|L].
    + assert (R : sound (realize e) (if forallb one_char l then No else Unknown)
                    (match getyear (txt l) with Some (y, r) => Some (set_year y (realize e g), r) | None => None end)).
      { destruct (forallb one_char l) eqn:O; [|exact I]. cbn [sound].
        assert (length (txt l) = length l) as Ll.
        { clear L. induction F as [|a l Fa F IH]; [reflexivity|]. cbn [forallb] in O. apply andb_true_iff in O as [Oa O]. destruct (one_text a l Fa Oa) as (c & E & _). rewrite E. cbn [length]. now rewrite IH. }
        unfold getyear. destruct (txt l) as [|? [|? [|? [|? ?]]]]; try reflexivity. cbn [length] in Ll. lia. }
      destruct l as [|a [|b [|c [|d l]]]]; try exact R. cbn [length] in L. lia.
    + destruct l as [|a [|b [|c [|d l]]]]; try (cbn [length] in L; lia). clear L.
      assert (F' := F). do 4 (match goal with H : Forall _ (_ :: _) |- _ => inversion H; clear H; subst end).
      cbn [forallb existsb].
      assert (Nd : forall pre x r, (length pre < 4)%nat -> fits may e x -> digital x = false ->
        match getyear (pre ++ txt (x :: r)) with Some (y, r) => Some (set_year y (realize e g), r) | None => None end = None).
      { intros pre x r L Fx Dx. destruct (some_text x r Fx) as (y & r' & E & Dy). rewrite E, getyear_no; [reflexivity|assumption|congruence]. }
      destruct (digital a) eqn:Da; cbn [andb negb orb].
      2: { destruct (_ || _); [exact I|]. cbn [sound]. apply (Nd [] a); [cbn [length]; lia|assumption|assumption]. }
      destruct (one_char a) eqn:Oa; cbn [andb negb orb]; [|destruct (digital b), (digital c), (digital d); exact I].
      destruct (one_text a (b :: c :: d :: l)) as (ca & Ea & Dca); [assumption|assumption|]. rewrite Ea.
      destruct (digital b) eqn:Db; cbn [andb negb orb].
      2: { destruct (_ || _); [exact I|]. cbn [sound]. apply (Nd [ca] b); [cbn [length]; lia|assumption|assumption]. }
      destruct (one_char b) eqn:Ob; cbn [andb negb orb]; [|destruct (digital c), (digital d); exact I].
      destruct (one_text b (c :: d :: l)) as (cb & Eb & Dcb); [assumption|assumption|]. rewrite Eb.
      destruct (digital c) eqn:Dc; cbn [andb negb orb].
      2: { destruct (_ || _); [exact I|]. cbn [sound]. apply (Nd [ca; cb] c); [cbn [length]; lia|assumption|assumption]. }
      destruct (one_char c) eqn:Oc; cbn [andb negb orb]; [|destruct (digital d); exact I].
      destruct (one_text c (d :: l)) as (cc & Ec & Dcc); [assumption|assumption|]. rewrite Ec.
      destruct (digital d) eqn:Dd; cbn [andb negb orb].
      2: { cbn [sound]. apply (Nd [ca; cb; cc] d); [cbn [length]; lia|assumption|assumption]. }
      destruct (one_char d) eqn:Od; cbn [andb negb orb]; [|exact I].
      destruct (one_text d l) as (cd & Ed & Dcd); [assumption|assumption|]. rewrite Ed. cbn [sound]. split; [|assumption].
      intros p v. unfold getyear. destruct (forallb is_digit [ca; cb; cc; cd]); congruence.
Qed.

(* ---- elements ---- *)

Lemma month_num_sound fixed g l : fit l -> sound (realize e) (want_month kn (got_month g) (sym_num fixed l))
  (match num_in 1 12 fixed (txt l) with Some (m, r) => Some (set_month m (realize e g), r) | None => None end).
Proof.
  intros F. pose proof (num_in_sound' VMonth (got_month g) 1 12 fixed l (fun m => set_month m (realize e g)) F (proj1 (proj2 ranges)) eq_refl) as S.
  pose proof (sym_num_sound fixed l F) as N.
  destruct (sym_num fixed l) as [|v r|r|] eqn:Q; try exact S. destruct v; try exact S. cbn [want_month]. destruct (kLate kn) eqn:Lt; [|exact S].
  cbn [sound] in N |- *. destruct N as [N _]. unfold num_in. rewrite N. cbn [val].
  pose proof Ok as (_ & _ & _ & _ & _ & _ & _ & _ & _ & La). specialize (La Lt).
  replace (tDay (eT e) <=? 12) with false by (symmetry; apply Z.leb_gt; lia). now rewrite andb_false_r.
Qed.

Lemma std_sound frac d g l : fit l -> sound (realize e) (sym_std may kn frac d g l) (parse_std frac d (realize e g) (txt l)).
Proof.
  intros F. pose proof ranges as (R1 & R2 & R3 & R4 & R5 & R6). pose proof (half_range _ R4) as R7. destruct d; try exact I.
  - exact (long_month_sound g l F).
  - exact (short_month_sound g l F).
  - exact (month_num_sound false g l F).
  - exact (month_num_sound true g l F).
  - exact (long_day_sound g l F).
  - exact (short_day_sound g l F).
  - exact (num_sound VDay (got_day g) false l (fun n => set_day n (realize e g)) F eq_refl).
  - cbn [sym_std parse_std].
    set (l' := match l with K c :: r => if byte_eqb c " " then r else l | _ => l end).
    assert (fit l' /\ match txt l with c :: r => if byte_eqb c " " then r else txt l | [] => txt l end = txt l') as (F' & ->).
    { subst l'. destruct l as [|[v k n|c|w] l]; [now split| | |].
      - destruct (first_digit _ _ _ _ F) as (c & r & E & Dc). rewrite E. split; [assumption|].
        replace (byte_eqb c " ") with false; [reflexivity|]. symmetry. apply byte_eqb_neq. intros ->. discriminate.
      - rewrite txt_cons. cbn [spell app]. inversion F; subst. now destruct (byte_eqb c " ").
      - inversion F as [|? ? Fa Fr]; subst. destruct (spell_head _ Fa) as (c & r & E & Dc & _ & St). specialize (St w eq_refl). rewrite txt_cons, E. cbn [app].
        split; [assumption|]. replace (byte_eqb c " ") with false; [reflexivity|]. symmetry. apply byte_eqb_neq. intros ->. destruct w; discriminate. }
    exact (num_sound VDay (got_day g) false l' (fun n => set_day n (realize e g)) F' eq_refl).
  - exact (num_sound VDay (got_day g) true l (fun n => set_day n (realize e g)) F eq_refl).
  - apply (num_in_sound' VHour (got_hour FullHour g) 0 23 false l (fun n => set_hour n (realize e g)) F); [cbn [val]; lia|reflexivity].
  - apply (num_in_sound' VHalf (got_hour HalfRead g) 0 12 false l (fun n => set_hour n (realize e g)) F); [cbn [val]; lia|reflexivity].
  - apply (num_in_sound' VHalf (got_hour HalfRead g) 0 12 true l (fun n => set_hour n (realize e g)) F); [cbn [val]; lia|reflexivity].
  - apply (num_in_sound' VMin (got_min g) 0 59 false l (fun n => set_min n (realize e g)) F); [cbn [val]; lia|reflexivity].
  - apply (num_in_sound' VMin (got_min g) 0 59 true l (fun n => set_min n (realize e g)) F); [cbn [val]; lia|reflexivity].
  - exact (second_sound frac false g l F).
  - exact (second_sound frac true g l F).
  - exact (year4_sound g l F).
  - exact (year2_sound g l F).
  - exact (half_sound "PM" "AM" g l (or_introl (conj eq_refl eq_refl)) F).
  - exact (half_sound "pm" "am" g l (or_intror (conj eq_refl eq_refl)) F).
  - exact (abbr_sound g l F).
  - cbn [sym_std parse_std]. unfold has_prefix. cbn [lit list_ascii_of_string length].
    destruct l as [|[v k n|c|w] l].
    + exact (zone_sound z g [] F).
    + pose proof (zone_sound z g _ F) as Z. destruct (first_digit _ _ _ _ F) as (c & r & E & Dc). rewrite E in *. cbn [firstn].
      rewrite bytes_eqb_cons. replace (byte_eqb c "Z") with false; [exact Z|]. symmetry. apply byte_eqb_neq. intros ->. discriminate.
    + pose proof (zone_sound z g _ F) as Z. rewrite txt_cons in *. cbn [spell app firstn skipn] in *. rewrite bytes_eqb_cons. cbn [bytes_eqb]. rewrite andb_true_r.
      destruct (byte_eqb c "Z"); [|exact Z]. inversion F; subst. cbn [sound]. now split.
    + pose proof (zone_sound z g _ F) as Z. inversion F as [|? ? Fa Fr]; subst. destruct (spell_head _ Fa) as (c & r & E & Dc & _ & St). specialize (St w eq_refl).
      rewrite txt_cons, E in *. cbn [app firstn] in *. rewrite bytes_eqb_cons. replace (byte_eqb c "Z") with false; [exact Z|]. symmetry. apply byte_eqb_neq. intros ->. destruct w; discriminate.
  - exact (zone_sound z g l F).
  - destruct digits as [|[|n]]; try exact I. exact (tenth_sound g l F).
Qed.

(* the rest does not depend on what was read before *)
Lemma std_rest frac d p p' v : option_map snd (parse_std frac d p v) = option_map snd (parse_std frac d p' v).
Proof.
  destruct d; cbn [parse_std]; unfold num_zone;
    repeat match goal with |- context [match ?x with _ => _ end] => destruct x end; reflexivity.
Qed.
Lemma chunks_none l rest : forall p p' v, parse_chunks l rest p v = None -> parse_chunks l rest p' v = None.
Proof.
  induction l as [|(pre & d) l IH]; intros p p' v; cbn [parse_chunks].
  - destruct (skip_prefix rest v false) as [[|]|]; congruence.
  - destruct (skip_prefix pre v false) as [v1|]; [|congruence]. pose proof (std_rest (is_frac l) d p p' v1) as S.
    destruct (parse_std _ d p v1) as [[q r]|], (parse_std _ d p' v1) as [[q' r']|]; cbn in S; try congruence. assert (r = r') as <- by congruence. apply IH.
Qed.

(* ---- literal text ---- *)

Lemma blanks_text l : fit l -> cut_space (txt l) = txt (sym_blanks l) /\ fit (sym_blanks l).
Proof.
  induction 1 as [|a l Fa F IH]; [split; [reflexivity|constructor]|]. destruct a as [v k n|c|w].
  - destruct (first_digit l v k n) as (c & r & E & Dc); [now constructor|]. cbn [sym_blanks]. rewrite E. cbn [cut_space].
    replace (byte_eqb c " ") with false by (symmetry; apply byte_eqb_neq; intros ->; discriminate). split; [reflexivity|now constructor].
  - rewrite txt_cons. cbn [spell app cut_space sym_blanks]. destruct (byte_eqb c " "); [exact IH|]. split; [reflexivity|now constructor].
  - cbn [sym_blanks]. destruct (spell_head _ Fa) as (c & r & E & Dc & _ & St). specialize (St w eq_refl). rewrite txt_cons, E. cbn [app cut_space].
    replace (byte_eqb c " ") with false by (symmetry; apply byte_eqb_neq; intros ->; destruct w; discriminate).
    split; [reflexivity|now constructor].
Qed.
Definition skips (o : outcome unit) (r : option bytes) : Prop :=
  match o with
  | No => r = None
  | Yes _ l => r = Some (txt l) /\ fit l
  | May l => (r = None \/ r = Some (txt l)) /\ fit l
  | Unknown => True
  end.
Lemma unsure_skips l : forall prefix blanks, match sym_skip prefix l blanks false with Yes _ _ => False | _ => True end.
Proof.
  intros prefix. revert l. induction prefix as [|p prefix IH]; intros l blanks; [exact I|]. cbn [sym_skip].
  destruct (byte_eqb p " ").
  - destruct blanks; [apply IH|]. destruct l as [|[v k n|c|w] l]; try exact I; [apply IH|]. destruct (byte_eqb c " "); [apply IH|exact I].
  - destruct l as [|[v k n|c|w] l]; try exact I.
    + destruct (is_digit p); [apply IH|exact I].
    + destruct (byte_eqb c p); [apply IH|exact I].
    + now destruct (starts w p).
Qed.
Lemma skip_sound prefix : forall l blanks sure, fit l -> skips (sym_skip prefix l blanks sure) (skip_prefix prefix (txt l) blanks).
Proof.
  induction prefix as [|p prefix IH]; intros l blanks sure F; cbn [sym_skip skip_prefix].
  - destruct sure; cbn [skips]; auto.
  - destruct (byte_eqb p " ") eqn:P.
    + destruct blanks; [now apply IH|]. destruct l as [|[v k n|c|w] l].
      * apply (IH [] true sure). constructor.
      * cbn [skips]. destruct (first_digit _ _ _ _ F) as (c & r & E & Dc). rewrite E.
        replace (byte_eqb c " ") with false by (symmetry; apply byte_eqb_neq; intros ->; discriminate). reflexivity.
      * destruct (byte_eqb c " ") eqn:C.
        -- destruct (blanks_text _ F) as (E & Fb). specialize (IH _ true sure Fb). rewrite <- E in IH.
           rewrite txt_cons in IH at 1 |- *. cbn [spell app] in IH |- *. rewrite C. exact IH.
        -- rewrite txt_cons. cbn [spell app skips]. now rewrite C.
      * cbn [skips]. inversion F as [|? ? Fa Fr]; subst. destruct (spell_head _ Fa) as (c & r & E & Dc & _ & St). specialize (St w eq_refl). rewrite txt_cons, E. cbn [app].
        replace (byte_eqb c " ") with false by (symmetry; apply byte_eqb_neq; intros ->; destruct w; discriminate). reflexivity.
    + destruct l as [|a l]; [reflexivity|]. inversion F as [|? ? Fa Fr]; subst. destruct a as [v k n|c|w].
      * destruct (one_text (D v k n) l Fa eq_refl) as (c & E & Dc). rewrite E. cbn [digital] in Dc. destruct (is_digit p) eqn:Dp.
        -- specialize (IH l false false Fr). pose proof (unsure_skips l prefix false) as U.
           destruct (byte_eqb c p); [exact IH|]. destruct (sym_skip prefix l false false); cbn [skips] in *; [reflexivity|now destruct U| |exact I].
           split; [now left|apply IH].
        -- cbn [skips]. replace (byte_eqb c p) with false by (symmetry; apply byte_eqb_neq; intros ->; congruence). reflexivity.
      * rewrite txt_cons. cbn [spell app]. destruct (byte_eqb c p); [now apply IH|reflexivity].
      * destruct (spell_head _ Fa) as (c & r & E & Dc & _ & St). specialize (St w eq_refl). rewrite txt_cons, E. cbn [app].
        destruct (starts w p) eqn:Sp; [exact I|]. cbn [skips]. replace (byte_eqb c p) with false by (symmetry; apply byte_eqb_neq; intros ->; congruence). reflexivity.
Qed.
Lemma skip_sure prefix : forall l blanks sure, match sym_skip prefix l blanks sure with Yes _ _ => sure = true | _ => True end.
Proof. intros l blanks [|]; [now destruct (sym_skip _ _ _ _)|]. pose proof (unsure_skips l prefix blanks) as U. now destruct (sym_skip prefix l blanks false). Qed.

(* ---- layouts ---- *)

Lemma txt_nil l : fit l -> txt l = [] -> l = [].
Proof. intros F H. destruct l as [|a l]; [reflexivity|]. inversion F as [|? ? Fa _]; subst. destruct (some_text a l Fa) as (c & r & E & _). congruence. Qed.
Definition reads (o : verdict) (r : option parsed) : Prop :=
  match o with Refuses => r = None | Reads g => r = Some (realize e g) | Unsure => True end.
Lemma chunks_unsure l rest : forall g v p, fit v ->
  match sym_chunks may kn l rest false g v with Refuses => parse_chunks l rest p (txt v) = None | Reads _ => False | Unsure => True end.
Proof.
  induction l as [|(pre & d) l IH]; intros g v p F; cbn [sym_chunks parse_chunks].
  - pose proof (skip_sound rest v false false F) as S. pose proof (unsure_skips v rest false) as U.
    destruct (sym_skip rest v false false) as [|u r|r|]; cbn [skips] in S; [now rewrite S|now destruct U| |exact I].
    destruct r as [|a r]; [exact I|]. destruct S as ([S|S] & Fr); rewrite S; [reflexivity|]. destruct (txt (a :: r)) eqn:E; [|reflexivity]. now apply txt_nil in E.
  - pose proof (skip_sound pre v false false F) as S. pose proof (unsure_skips v pre false) as U.
    destruct (sym_skip pre v false false) as [|u r|r|]; cbn [skips] in S; [now rewrite S|now destruct U| |exact I].
    destruct S as (S & Fr). pose proof (std_sound (is_frac l) d g r Fr) as T. pose proof (std_rest (is_frac l) d p (realize e g) (txt r)) as Q.
    destruct (sym_std may kn (is_frac l) d g r) as [|g' v2|v2|]; cbn [sound] in T; [| | |exact I].
    + destruct S as [S|S]; rewrite S; [reflexivity|]. rewrite T in Q. now destruct (parse_std _ d p (txt r)) as [[? ?]|].
    + destruct T as (T & F2). specialize (IH g v2). rewrite T in Q. cbn in Q.
      destruct S as [S|S]; rewrite S. { specialize (IH p F2). now destruct (sym_chunks _ _ _ _ _ _ _). }
      destruct (parse_std _ d p (txt r)) as [[p' v']|]; [|discriminate]. cbn in Q. assert (v' = txt v2) as -> by congruence. now apply IH.
    + destruct T as (T & F2). specialize (IH g v2).
      destruct S as [S|S]; rewrite S. { specialize (IH p F2). now destruct (sym_chunks _ _ _ _ _ _ _). }
      destruct (parse_std _ d p (txt r)) as [[p' v']|]; [|specialize (IH p F2); now destruct (sym_chunks _ _ _ _ _ _ _)]. cbn in Q.
      destruct (parse_std _ d (realize e g) (txt r)) as [[p2 v3]|]; [|discriminate]. cbn in Q. rewrite (T _ _ eq_refl) in Q. assert (v' = txt v2) as -> by congruence. now apply IH.
Qed.
Lemma chunks_sound l rest : forall g v, fit v -> reads (sym_chunks may kn l rest true g v) (parse_chunks l rest (realize e g) (txt v)).
Proof.
  assert (Un : forall l g v p, fit v -> reads (sym_chunks may kn l rest false g v) (parse_chunks l rest p (txt v))).
  { intros l' g v p F. pose proof (chunks_unsure l' rest g v p F) as U. destruct (sym_chunks _ _ _ _ _ _ _); [exact U|now destruct U|exact I]. }
  induction l as [|(pre & d) l IH]; intros g v F; cbn [sym_chunks parse_chunks].
  - pose proof (skip_sound rest v false true F) as S. destruct (sym_skip rest v false true) as [|u r|r|]; cbn [skips] in S; [now rewrite S| | |exact I].
    + destruct S as (S & Fr). rewrite S. destruct r as [|a r]; [reflexivity|]. cbn [reads]. destruct (txt (a :: r)) eqn:E; [|reflexivity]. now apply txt_nil in E.
    + destruct r as [|a r]; [exact I|]. cbn [reads]. destruct S as ([S|S] & Fr); rewrite S; [reflexivity|]. destruct (txt (a :: r)) eqn:E; [|reflexivity]. now apply txt_nil in E.
  - pose proof (skip_sound pre v false true F) as S. destruct (sym_skip pre v false true) as [|u r|r|]; cbn [skips] in S; [now rewrite S| | |exact I].
    + destruct S as (S & Fr). rewrite S. pose proof (std_sound (is_frac l) d g r Fr) as T.
      destruct (sym_std may kn (is_frac l) d g r) as [|g' v2|v2|]; cbn [sound] in T; [now rewrite T| | |exact I].
      * destruct T as (T & F2). rewrite T. now apply IH.
      * destruct T as (T & F2). destruct (parse_std _ d (realize e g) (txt r)) as [[p' v']|].
        -- rewrite (T _ _ eq_refl). now apply Un.
        -- pose proof (chunks_unsure l rest g v2 (realize e g) F2) as U. destruct (sym_chunks _ _ _ _ _ _ _); [reflexivity|now destruct U|exact I].
    + destruct S as (S & Fr). pose proof (std_sound (is_frac l) d g r Fr) as T.
      assert (W : forall v2, fit v2 -> (forall p' v', parse_std (is_frac l) d (realize e g) (txt r) = Some (p', v') -> v' = txt v2) ->
        reads (sym_chunks may kn l rest false g v2)
          (match skip_prefix pre (txt v) false with Some v1 => match parse_std (is_frac l) d (realize e g) v1 with Some (p', v3) => parse_chunks l rest p' v3 | None => None end | None => None end)).
      { intros v2 F2 H. pose proof (chunks_unsure l rest g v2 (realize e g) F2) as U.
        assert (N : reads (sym_chunks may kn l rest false g v2) None) by (destruct (sym_chunks _ _ _ _ _ _ _); [reflexivity|now destruct U|exact I]).
        destruct S as [S|S]; rewrite S; [exact N|]. destruct (parse_std _ d (realize e g) (txt r)) as [[p' v']|]; [|exact N]. rewrite (H _ _ eq_refl). now apply Un. }
      destruct (sym_std may kn (is_frac l) d g r) as [|g' v2|v2|]; cbn [sound] in T; [| | |exact I].
      * cbn [reads]. destruct S as [S|S]; rewrite S; [reflexivity|]. now rewrite T.
      * destruct T as (T & F2). apply W; [assumption|]. congruence.
      * destruct T as (T & F2). now apply W.
Qed.

Lemma realize0 : realize e got0 = parsed0.
Proof. reflexivity. Qed.
Lemma first_sound zone ls g v t : fit v -> sym_first may kn (map chunks ls) v = Reads g -> parsed_time zone (realize e g) = Some t ->
  first_layout zone ls (txt v) = Some t.
Proof.
  intros F. induction ls as [|x ls IH]; [discriminate|]. cbn [map sym_first first_layout].
  pose proof (chunks_sound (chList (chunks x)) (chRest (chunks x)) got0 v F) as C. rewrite realize0 in C.
  unfold parse_layout. destruct (sym_chunks _ _ _ _ _ _ _); cbn [reads] in C.
  - rewrite C. exact IH.
  - rewrite C. intros [= ->] ->. reflexivity.
  - discriminate.
Qed.
End Sound.
