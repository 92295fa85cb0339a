(* Facts about SpecFormats.v: the texts of a notation are those of its forms, and what
   is read from them is the time written *)
From Coq Require Import ZArith NArith Bool Ascii String List Lia.
Import ListNotations.
From Verif Require Import GoBase GoBaseFacts GoTime TimeFacts FieldFacts GoLayout LayoutFacts DateFacts SpecCodec SpecSparse Json JsonFacts SpecDates SpecFormats FormatExec FormatFacts.
Local Open Scope string_scope.
Local Open Scope Z_scope.
Local Open Scope list_scope.
Local Notation length := List.length.
Local Notation D := FormatExec.D.

(* ---- parts and their texts ---- *)

Lemma written_pairs abbr t l s : written abbr t l s ->
  exists ps, map fst ps = l /\ concat (map snd ps) = s /\ forall x, In x ps -> part_text abbr t (fst x) (snd x).
Proof.
  induction 1 as [|p l s r P W (ps & E1 & E2 & A)].
  - exists []. repeat split. intros x [].
  - exists ((p, s) :: ps). cbn. rewrite E1, E2. repeat split. intros x [<-|I]; [assumption|auto].
Qed.
Lemma none_or_one (q : part -> bool) (ps : list (part * bytes)) : (length (filter q (map fst ps)) <= 1)%nat ->
  (forall x, In x ps -> q (fst x) = false) \/ exists x, In x ps /\ q (fst x) = true /\ forall y, In y ps -> q (fst y) = true -> y = x.
Proof.
  assert (N : forall ps : list (part * bytes), (length (filter q (map fst ps)) = 0)%nat -> forall x, In x ps -> q (fst x) = false).
  { intros l. induction l as [|y l IH]; [intros _ x []|]. cbn [map filter]. destruct (q (fst y)) eqn:Q; [discriminate|]. intros H x [<-|I]; auto. }
  induction ps as [|x ps IH]; [left; intros x []|]. cbn [map filter]. destruct (q (fst x)) eqn:Q.
  - cbn [length]. intros H. right. exists x. split; [now left|]. split; [assumption|]. intros y [<-|I] Y; [reflexivity|].
    rewrite (N ps) in Y; [discriminate|lia|assumption].
  - intros H. destruct (IH H) as [A|(y & I & Y & U)].
    + left. intros y [<-|I]; auto.
    + right. exists y. split; [now right|]. split; [assumption|]. intros z [<-|I'] Z; [congruence|auto].
Qed.

Definition is_weekday (p : part) : bool := match p with Weekday _ => true | _ => false end.
Definition is_fraction (p : part) : bool := match p with Fraction => true | _ => false end.
Definition is_tenths (p : part) : bool := match p with Tenths => true | _ => false end.
(* weekday, offset and fraction occur once at most *)
Definition single (l : list part) : bool :=
  (length (filter is_weekday l) <=? 1)%nat && (length (filter is_offset l) <=? 1)%nat && (length (filter is_fraction l) <=? 1)%nat
  && negb (tells l is_fraction && tells l is_tenths).

Lemma tells_in l q p : In p l -> q p = true -> tells l q = true.
Proof. intros I Q. apply existsb_exists. eauto. Qed.
Lemma tells_none l q : (forall p, In p l -> q p = false) -> tells l q = false.
Proof. intros H. apply not_true_iff_false. intros T. apply existsb_exists in T as (p & I & Q). rewrite H in Q by assumption. discriminate. Qed.
Lemma both_in b c : In (b && c) (both c).
Proof. destruct b, c; cbn; auto. Qed.

Lemma one_text_of z s : decimal_text 1 z s -> 0 <= z < 10 /\ s = [digit_char z].
Proof.
  intros H. apply decimal_text_spec in H as (L & Dg & V). destruct s as [|c [|]]; try discriminate. cbn [forallb] in Dg. rewrite andb_true_r in Dg.
  unfold dval in V. cbn [dval_acc] in V. apply is_digit_spec in Dg as R. assert (digit_val c = z) as <- by (unfold digit_val in *; lia).
  split; [unfold digit_val; lia|]. now rewrite digit_char_val.
Qed.
Lemma two_text_of z s : decimal_text 2 z s -> 0 <= z < 100 /\ s = d2 z.
Proof.
  intros H. pose proof (proj1 (decimal_text_spec _ _ _) H) as (L & Dg & V). pose proof (dval_range s Dg) as R. rewrite L, V in R.
  assert (0 <= z < 100) by exact R. split; [assumption|]. now apply two_text.
Qed.

Lemma month_names t x full : 1 <= tMonth t <= 12 -> nth_error months (Z.to_nat (tMonth t - 1)) = Some x ->
  lit x = month_name (tMonth t) /\ (tMonth t = 5 -> full = true -> named full x = firstn 3 (month_name (tMonth t))).
Proof.
  intros H E. unfold month_name. change longMonthNames with months.
  assert (nth (Z.to_nat (tMonth t - 1)) months "" = x) as <- by (now apply nth_error_nth). split; [reflexivity|]. intros -> ->. reflexivity.
Qed.
Lemma weekday_names x : In x weekdays -> exists d, 0 <= d < 7 /\ lit x = day_name d.
Proof.
  intros I. apply In_nth_error in I as (n & E). assert (n < 7)%nat by (change 7%nat with (length weekdays); apply nth_error_Some; congruence).
  exists (Z.of_nat n). split; [lia|]. unfold day_name. rewrite Nat2Z.id. change longDayNames with weekdays. f_equal. symmetry. now apply nth_error_nth.
Qed.

(* ---- every text is of a form ---- *)

Definition first_bits (l : list part) (t : time) (neg parts tenth : bool) (abbr : string) : bits :=
  mkBits ((tMonth t =? 5) && tells l (fun p => match p with MonthName _ => true | _ => false end))
    ((tMonth t <? 10) && tells l (fun p => match p with Month false => true | _ => false end))
    ((tDay t <? 10) && tells l (fun p => match p with Day false | DayBlank => true | _ => false end))
    ((half_hour (tHour t) <? 10) && tells l (fun p => match p with HalfHour false => true | _ => false end))
    ((tMin t <? 10) && tells l (fun p => match p with Minute false => true | _ => false end))
    ((tSec t <? 10) && tells l (fun p => match p with Second false => true | _ => false end))
    ((12 <=? tHour t) && tells l (fun p => match p with Half _ => true | _ => false end))
    (neg && tells l is_offset)
    (match tOff t with None => true | Some _ => false end && tells l (fun p => match p with OffsetOrZ => true | _ => false end))
    (parts && tells l is_parts) (tenth && tells l is_parts)
    (if tells l is_zone then abbr else "UTC").

Lemma first_bits_in l t neg parts tenth abbr :
  (tells l is_zone = true -> In abbr (if tells l is_offset then skipn 2 zones else zones)) ->
  In (first_bits l t neg parts tenth abbr) (all_bits l).
Proof.
  intros Z. unfold all_bits, first_bits.
  repeat (apply in_flat_map; eexists; split; [apply both_in|]).
  apply in_map. destruct (tells l is_zone); [now apply Z|now left].
Qed.

Lemma text_app e a b : text e (a ++ b) = text e a ++ text e b.
Proof. apply flat_map_app. Qed.
Lemma text_K e c l : text e (K c :: l) = [c] ++ text e l.
Proof. reflexivity. Qed.
Lemma text_syms e s : text e (syms s) = s.
Proof. induction s as [|c s IH]; [reflexivity|]. cbn. now f_equal. Qed.
Lemma fits_syms may e s : Forall (fits may e) (syms s).
Proof. induction s as [|c s IH]; constructor; [exact I|exact IH]. Qed.

Lemma num2_text may e v s : (v = VShort -> 1969 <= tYear (eT e) <= 2068) -> decimal_text 2 (val e v) s -> text e (num2 v) = s /\ Forall (fits may e) (num2 v).
Proof.
  intros Y H. apply two_text_of in H as (R & ->). split; [reflexivity|].
  constructor; [|constructor; [|constructor]]; (split; [tauto|split; [exact R|exact Y]]).
Qed.
Lemma one_digit_text may e v s : v <> VShort -> decimal_text 1 (val e v) s -> text e [D v 0 1] = s /\ Forall (fits may e) [D v 0 1].
Proof.
  intros Y H. apply one_text_of in H as (R & ->). split; [reflexivity|].
  constructor; [|constructor]. split; [tauto|split; [exact R|congruence]].
Qed.
Lemma count_text_form may e v two one s : v <> VShort -> count_text two (val e v) s -> (two = false -> one = (val e v <? 10)) ->
  text e (count two one v) = s /\ Forall (fits may e) (count two one v).
Proof.
  intros Y H O. unfold count. inversion H as [z s' H1|z s' L H1|z s' L H1]; subst.
  - apply num2_text; [congruence|assumption].
  - rewrite (O eq_refl), (proj2 (Z.ltb_lt _ _) L). now apply one_digit_text.
  - rewrite (O eq_refl), (proj2 (Z.ltb_ge _ _) L). apply num2_text; [congruence|assumption].
Qed.
Lemma offset_form may e style neg th tm ts : decimal_text (match style with Bare => 1 | _ => 2 end) (eH e) th -> decimal_text 2 (eM e) tm -> decimal_text 2 (eS e) ts ->
  text e (offset_syms style neg) =
    (if neg then lit "-" else lit "+") ++
    match style with
    | Plain | Bare => th ++ tm
    | Colon => th ++ lit ":" ++ tm
    | Short => th
    | ColonSeconds => th ++ lit ":" ++ tm ++ lit ":" ++ ts
    end
  /\ Forall (fits may e) (offset_syms style neg).
Proof.
  intros H M S. apply (num2_text may e VOffM) in M as (M & Fm); [|discriminate]. apply (num2_text may e VOffS) in S as (S & Fs); [|discriminate].
  unfold offset_syms.
  split.
  - rewrite text_K. f_equal; [now destruct neg|].
    destruct style; try (apply (num2_text may e VOffH) in H as (H & Fh); [|discriminate]); try (apply (one_digit_text may e VOffH) in H as (H & Fh); [|discriminate]).
    + rewrite text_app. now rewrite H, M.
    + rewrite text_app, H. change (K ":" :: num2 VOffM) with (syms (lit ":") ++ num2 VOffM). now rewrite text_app, M.
    + exact H.
    + rewrite text_app, H. change (K ":" :: num2 VOffM ++ K ":" :: num2 VOffS) with (syms (lit ":") ++ num2 VOffM ++ syms (lit ":") ++ num2 VOffS).
      now rewrite !text_app, M, S.
    + change (D VOffH 0 1 :: num2 VOffM) with ([D VOffH 0 1] ++ num2 VOffM). now rewrite text_app, H, M.
  - constructor; [exact I|].
    destruct style; try (apply (num2_text may e VOffH) in H as (H & Fh); [|discriminate]); try (apply (one_digit_text may e VOffH) in H as (H & Fh); [|discriminate]).
    + apply Forall_app; now split.
    + apply Forall_app; split; [assumption|]. constructor; [exact I|assumption].
    + exact Fh.
    + apply Forall_app; split; [assumption|]. constructor; [exact I|]. apply Forall_app; split; [assumption|]. constructor; [exact I|assumption].
    + change (D VOffH 0 1 :: num2 VOffM) with ([D VOffH 0 1] ++ num2 VOffM). apply Forall_app; now split.
Qed.

(* far: every offset is 24 minutes or more; late: the day is past the 12th; short: day
   or month have one digit *)
Definition knows (k : known) (l : list part) (t : time) : Prop :=
  (kFar k = true -> tells l is_offset = true -> forall off, tOff t = Some off -> 1440 <= Z.abs off)
  /\ (kLate k = true -> 12 < tDay t)
  /\ (kShort k = true -> (tDay t < 10 \/ tMonth t < 10) /\ In (Day false) l /\ In (Month false) l).

(* what holds beside: the fraction is there, the offset is that of the form *)
Definition agrees (e : env) (b : bits) (l : list part) : Prop :=
  (tells l is_fraction = true -> bParts b = false -> tNsec (eT e) = 0)
  /\ forall p, In p l -> is_offset p = true ->
     match style_of b p with
     | None => tOff (eT e) = None
     | Some s => tOff (eT e) = Some (offset_of e (OffsetRead (bWest b) s))
     end.

Lemma text_form k l abbr t s : single l = true -> text_of abbr t l s -> knows k l t ->
  (tells l is_zone = true -> In abbr (if tells l is_offset then skipn 2 zones else zones)) ->
  exists e neg parts tenth, let b := first_bits l t neg parts tenth abbr in
    eT e = t /\ env_ok k e /\ text e (form b l) = s /\ Forall (fits (bMay b) e) (form b l) /\ agrees e b l.
Proof.
  intros Sg (Cal & No & Wr) (Far & Late & _) Zn. destruct (written_pairs _ _ _ _ Wr) as (ps & <- & <- & A). clear Wr.
  unfold single in Sg. rewrite !andb_true_iff, !Nat.leb_le in Sg. destruct Sg as (((S1 & S2) & S3) & S4). apply negb_true_iff in S4.
  set (l := map fst ps) in *.
  assert (Rg : 1 <= tMonth t <= 12) by (destruct Cal as (C & _); destruct (calendar_date_ranges _ _ _ C) as (_ & ? & _); assumption).
  (* the day of the week *)
  assert (exists wd, 0 <= wd < 7 /\ forall x full, In x ps -> fst x = Weekday full -> snd x = if full then day_name wd else firstn 3 (day_name wd)) as (wd & Rw & Wd).
  { destruct (none_or_one is_weekday ps S1) as [N|(x & Ix & Qx & U)].
    - exists 0. split; [lia|]. intros x full Ix E. specialize (N x Ix). rewrite E in N. discriminate.
    - destruct x as [p s]. destruct p; try discriminate Qx. pose proof (A _ Ix) as (n & In_ & E). cbn [fst snd] in *.
      destruct (weekday_names n In_) as (d & Rd & Ed). exists d. split; [assumption|]. intros y full' Iy Ey.
      assert (y = (Weekday full, s)) as -> by (apply U; [assumption|now rewrite Ey]). cbn [fst snd] in *. injection Ey as <-.
      rewrite E. unfold named. now rewrite Ed. }
  (* the offset *)
  assert (exists neg h m sec, 0 <= h < 24 /\ 0 <= m < 60 /\ 0 <= sec < 60 /\ (kFar k = true -> 23 < h * 100 + m)
    /\ forall x style, In x ps -> (fst x = Offset style \/ (fst x = OffsetOrZ /\ style = Colon /\ tOff t <> None)) ->
       exists th tm ts, decimal_text (match style with Bare => 1 | _ => 2 end) h th /\ decimal_text 2 m tm /\ decimal_text 2 sec ts
       /\ snd x = (if neg : bool then lit "-" else lit "+") ++
         match style with
         | Plain | Bare => th ++ tm
         | Colon => th ++ lit ":" ++ tm
         | Short => th
         | ColonSeconds => th ++ lit ":" ++ tm ++ lit ":" ++ ts
         end
       /\ match style with ColonSeconds => True | Short => m = 0 /\ sec = 0 | _ => sec = 0 end
       /\ tOff t = Some ((if neg then -1 else 1) * (h * 3600 + m * 60 + sec))) as (neg & h & m & sec & Rh & Rm & Rs & Fr & Of).
  { destruct (none_or_one is_offset ps S2) as [N|(x & Ix & Qx & U)].
    - exists false, 1, 0, 0. do 4 (split; [lia|]). intros x style Ix Q. specialize (N x Ix). destruct Q as [Q|(Q & _)]; rewrite Q in N; discriminate.
    - assert (Tl : tells l is_offset = true) by (apply (tells_in _ _ (fst x)); [now apply in_map|assumption]).
      assert (Main : forall style off, tOff t = Some off -> offset_text style off (snd x) ->
        (fst x = Offset style \/ fst x = OffsetOrZ /\ style = Colon) ->
        exists neg h m sec, 0 <= h < 24 /\ 0 <= m < 60 /\ 0 <= sec < 60 /\ (kFar k = true -> 23 < h * 100 + m)
        /\ forall x style, In x ps -> (fst x = Offset style \/ (fst x = OffsetOrZ /\ style = Colon /\ tOff t <> None)) ->
           exists th tm ts, decimal_text (match style with Bare => 1 | _ => 2 end) h th /\ decimal_text 2 m tm /\ decimal_text 2 sec ts
           /\ snd x = (if neg : bool then lit "-" else lit "+") ++
             match style with
             | Plain | Bare => th ++ tm
             | Colon => th ++ lit ":" ++ tm
             | Short => th
             | ColonSeconds => th ++ lit ":" ++ tm ++ lit ":" ++ ts
             end
           /\ match style with ColonSeconds => True | Short => m = 0 /\ sec = 0 | _ => sec = 0 end
           /\ tOff t = Some ((if neg then -1 else 1) * (h * 3600 + m * 60 + sec))).
      { intros style off Eo (neg & h & m & sec & th & tm & ts & E & Rh & Rm & Rs & Th & Tm & Ts & Es & Ex) Q.
        exists neg, h, m, sec. split; [assumption|]. split; [assumption|]. split; [assumption|]. split.
        { intros F. specialize (Far F Tl off Eo). rewrite E in Far. destruct neg; lia. }
        intros y style' Iy Qy. assert (y = x) as -> by (apply U; [assumption|destruct Qy as [Qy|(Qy & _)]; now rewrite Qy]).
        assert (style' = style) as -> by (destruct Q as [Q|(Q & ->)], Qy as [Qy|(Qy & Qs & _)]; congruence).
        exists th, tm, ts. rewrite Eo, E. auto 10. }
      pose proof (A x Ix) as Px. destruct x as [p s]. destruct p; try discriminate Qx; cbn [fst snd part_text] in *.
      + destruct Px as (off & Eo & Ot). exact (Main style off Eo Ot (or_introl eq_refl)).
      + destruct Px as [(Eo & Es)|(off & Eo & Ot)]; [|exact (Main Colon off Eo Ot (or_intror (conj eq_refl eq_refl)))].
        exists false, 1, 0, 0. do 4 (split; [lia|]). intros y style Iy Q.
        destruct Q as [Q|(_ & _ & Q)]; [|congruence]. assert (y = (OffsetOrZ, s)) as -> by (apply U; [assumption|now rewrite Q]). discriminate. }
  (* the fraction *)
  assert (exists ds parts tenth, forallb is_digit ds = true /\ (1 <= length ds <= 9)%nat /\ tNsec t = dval ds * 10 ^ (9 - Z.of_nat (length ds))
    /\ tenth = (length ds =? 1)%nat
    /\ (forall x, In x ps -> fst x = Fraction -> snd x = (if parts : bool then "."%char :: ds else []) /\ (parts = false -> tNsec t = 0))
    /\ (forall x, In x ps -> fst x = Tenths -> length ds = 1%nat /\ snd x = "."%char :: ds)) as (ds & parts & tenth & Dg & Ln & Ns & Te & Frac & Tenth).
  { destruct (tells l is_tenths) eqn:T.
    - apply existsb_exists in T as (p & Ip & Qp). apply in_map_iff in Ip as (x & <- & Ix). pose proof (A x Ix) as Px.
      destruct x as [p s]. destruct p; try discriminate Qp. cbn [fst snd part_text] in *. destruct Px as (d & Hd & Md & _).
      apply one_text_of in Hd as (Rd & ->).
      exists [digit_char (tNsec t / 100000000)], true, true. split; [cbn [forallb]; now rewrite is_digit_digit_char|]. split; [cbn; lia|].
      split. { unfold dval. cbn [dval_acc length]. rewrite digit_val_char by assumption. change (10 ^ (9 - Z.of_nat 1)) with 100000000. euclid. }
      split; [reflexivity|]. split.
      + intros y Iy Ey. assert (tells l is_fraction = true) as Tf by (apply (tells_in _ _ Fraction); [rewrite <- Ey; now apply in_map|reflexivity]).
        rewrite Tf in S4. discriminate.
      + intros y Iy Ey. split; [reflexivity|]. pose proof (A y Iy) as Py. rewrite Ey in Py. cbn [part_text] in Py. destruct Py as (d' & Hd' & _ & ->).
        apply one_text_of in Hd' as (_ & ->). reflexivity.
    - assert (NoT : forall x, In x ps -> fst x = Tenths -> False).
      { intros x Ix Ex. rewrite (tells_in l is_tenths (fst x)) in T; [discriminate|now apply in_map|now rewrite Ex]. }
      destruct (none_or_one is_fraction ps S3) as [N|(x & Ix & Qx & U)].
      + assert (tNsec t = 0) as E0.
        { destruct No as (_ & _ & _ & N4 & _). apply N4. apply tells_none. intros p Ip. apply in_map_iff in Ip as (x & <- & Ix). specialize (N x Ix). specialize (NoT x Ix).
          destruct (fst x); try reflexivity; try discriminate. now destruct NoT. }
        exists (lit "0"), false, true. split; [reflexivity|]. split; [cbn; lia|]. split; [rewrite E0; reflexivity|]. split; [reflexivity|]. split.
        * intros x Ix Ex. specialize (N x Ix). rewrite Ex in N. discriminate.
        * intros x Ix Ex. now destruct (NoT x Ix).
      + pose proof (A x Ix) as Px. destruct x as [p s]. destruct p; try discriminate Qx. cbn [fst snd part_text] in *.
        inversion Px as [E1 E2|kk z ds Rk Hz E1 E2].
        * exists (lit "0"), false, true. split; [reflexivity|]. split; [cbn; lia|]. split; [reflexivity|]. split; [reflexivity|]. split.
          -- intros y Iy Ey. assert (y = (Fraction, s)) as -> by (apply U; [assumption|now rewrite Ey]). cbn [snd]. now split.
          -- intros y Iy Ey. now destruct (NoT y Iy).
        * apply decimal_text_spec in Hz as (Lz & Dz & Vz). exists ds, true, (length ds =? 1)%nat. split; [assumption|]. split; [lia|].
          split; [rewrite Lz, Vz; reflexivity|]. split; [reflexivity|]. split.
          -- intros y Iy Ey. assert (y = (Fraction, s)) as -> by (apply U; [assumption|now rewrite Ey]). cbn [snd]. split; [symmetry; assumption|discriminate].
          -- intros y Iy Ey. now destruct (NoT y Iy). }
  set (e := mkEnv t h m sec wd ds). exists e, neg, parts, tenth. set (b := first_bits l t neg parts tenth abbr).
  split; [reflexivity|]. split.
  { unfold env_ok. cbn [eT eH eM eS eDay eDs]. repeat (split; [assumption|]). assumption. }
  (* each part *)
  assert (Each : forall x, In x ps -> text e (part_syms b (fst x)) = snd x /\ Forall (fits (bMay b) e) (part_syms b (fst x))).
  { intros x Ix. pose proof (A x Ix) as Px. assert (Il : In (fst x) l) by now apply in_map.
    assert (Tl : forall q, q (fst x) = true -> tells l q = true) by (intros q Q; now apply (tells_in _ _ (fst x))).
    destruct x as [p s]. cbn [fst snd] in *. destruct p; cbn [part_text part_syms] in *.
    - (* Text *) subst. split; [apply text_syms|apply fits_syms].
    - (* Weekday *) specialize (Wd _ full Ix eq_refl). cbn [snd] in Wd. subst s. destruct full; (split; [cbn; apply app_nil_r|repeat constructor]).
    - (* MonthName *) destruct Px as (n & En & ->). destruct (month_names t n full Rg En) as (El & E5).
      assert (Eb : bMay b = (tMonth t =? 5)) by (cbn [bMay b first_bits]; rewrite Tl by reflexivity; apply andb_true_r).
      rewrite Eb. destruct full; cbn [andb]; destruct (Z.eqb_spec (tMonth t) 5) as [M5|M5]; cbn [negb].
      + rewrite (E5 M5 eq_refl). split; [cbn; apply app_nil_r|]. repeat constructor. cbn. now rewrite M5.
      + unfold named. rewrite El. split; [cbn; apply app_nil_r|]. now repeat constructor.
      + unfold named. rewrite El. split; [cbn; apply app_nil_r|]. repeat constructor. cbn. now rewrite M5.
      + unfold named. rewrite El. split; [cbn; apply app_nil_r|]. repeat constructor. cbn. symmetry. now apply Z.eqb_neq.
    - (* Month *) apply count_text_form; [discriminate|assumption|]. intros ->. cbn [bMonth b first_bits val e eT]. rewrite Tl by reflexivity. apply andb_true_r.
    - (* Day *) apply count_text_form; [discriminate|assumption|]. intros ->. cbn [bDay b first_bits val e eT]. rewrite Tl by reflexivity. apply andb_true_r.
    - (* DayBlank *) assert (Eb : bDay b = (tDay t <? 10)) by (cbn [bDay b first_bits]; rewrite Tl by reflexivity; apply andb_true_r). rewrite Eb.
      destruct Px as [(L & Px)|(L & d & Px & ->)].
      + rewrite (proj2 (Z.ltb_ge _ _) L). apply num2_text; [discriminate|assumption].
      + rewrite (proj2 (Z.ltb_lt _ _) L). apply (one_digit_text (bMay b) e VDay) in Px as (Px & Fx); [|discriminate].
        split; [|constructor; [exact I|assumption]]. change (K " " :: [D VDay 0 1]) with (syms (lit " ") ++ [D VDay 0 1]). now rewrite text_app, Px.
    - (* Year *) assert (0 <= tYear t < 10000) as Ry by (destruct Cal as (C & _); destruct (calendar_date_ranges _ _ _ C) as (? & _); lia).
      rewrite (four_text _ _ Ry Px). split; [reflexivity|]. repeat (constructor; [split; [tauto|split; [exact Ry|discriminate]]|]). constructor.
    - (* ShortYear *) apply num2_text; [intros _; apply Px|apply Px].
    - (* Hour *) apply num2_text; [discriminate|assumption].
    - (* HalfHour *) apply count_text_form; [discriminate|assumption|]. intros ->. cbn [bHalf b first_bits val e eT]. rewrite Tl by reflexivity. apply andb_true_r.
    - (* Minute *) apply count_text_form; [discriminate|assumption|]. intros ->. cbn [bMin b first_bits val e eT]. rewrite Tl by reflexivity. apply andb_true_r.
    - (* Second *) apply count_text_form; [discriminate|assumption|]. intros ->. cbn [bSec b first_bits val e eT]. rewrite Tl by reflexivity. apply andb_true_r.
    - (* Fraction *) destruct (Frac _ Ix eq_refl) as (E & _). cbn [snd] in E.
      cbn [bParts bTenth b first_bits]. rewrite Tl by reflexivity. rewrite !andb_true_r. subst s. destruct parts; [|split; [reflexivity|constructor]].
      subst tenth. destruct (Nat.eqb_spec (length ds) 1) as [L1|L1].
      + split; [cbn; now rewrite app_nil_r|]. constructor; [exact L1|constructor].
      + split; [cbn; now rewrite app_nil_r|]. constructor; [cbn [fits e eDs]; lia|constructor].
    - (* Tenths *) destruct (Tenth _ Ix eq_refl) as (L1 & E). cbn [snd] in E. subst s. split; [cbn; now rewrite app_nil_r|]. constructor; [exact L1|constructor].
    - (* Half *) subst s. cbn [bPM b first_bits]. rewrite Tl by reflexivity. rewrite andb_true_r. split; [apply text_syms|apply fits_syms].
    - (* Zone *) destruct Px as (_ & ->). cbn [bAbbr b first_bits]. rewrite Tl by reflexivity. split; [apply text_syms|apply fits_syms].
    - (* Offset *) destruct (Of _ style Ix (or_introl eq_refl)) as (th & tm & ts & Th & Tm & Ts & E & _). cbn [snd] in E. subst s.
      cbn [bWest b first_bits]. rewrite Tl by reflexivity. rewrite andb_true_r. now apply offset_form.
    - (* OffsetOrZ *) cbn [bNone bWest b first_bits]. rewrite !Tl by reflexivity. rewrite !andb_true_r. destruct Px as [(Eo & ->)|(off & Eo & Ot)]; rewrite Eo.
      + split; [reflexivity|]. repeat constructor.
      + assert (So : tOff t <> None) by congruence. destruct (Of _ Colon Ix (or_intror (conj eq_refl (conj eq_refl So)))) as (th & tm & ts & Th & Tm & Ts & E & _). cbn [snd] in E. subst s.
        now apply (offset_form (bMay b) e Colon neg th tm ts). }
  split; [|split].
  - unfold form. subst l. clear - Each. revert Each. generalize b. clear b. intros b Each. induction ps as [|x ps IH]; [reflexivity|].
    cbn [map flat_map concat]. rewrite text_app, (proj1 (Each x (or_introl eq_refl))), IH; [reflexivity|]. intros y Iy. apply Each. now right.
  - unfold form. apply Forall_forall. intros a Ia. apply in_flat_map in Ia as (p & Ip & Ia). apply in_map_iff in Ip as (x & <- & Ix).
    exact (proj1 (Forall_forall _ _) (proj2 (Each x Ix)) a Ia).
  - split.
    + intros Tf Bp. apply existsb_exists in Tf as (p & Ip & Qp). apply in_map_iff in Ip as (x & <- & Ix). destruct (Frac x Ix) as (_ & F0); [now destruct (fst x)|].
      apply F0. cbn [bParts b first_bits] in Bp. rewrite (tells_in l is_parts (fst x)) in Bp; [now rewrite andb_true_r in Bp|now apply in_map|now destruct (fst x)].
    + intros p Ip Qp. assert (To : tells l is_offset = true) by now apply (tells_in _ _ p). apply in_map_iff in Ip as (x & <- & Ix).
      assert (Main : forall style, (fst x = Offset style \/ (fst x = OffsetOrZ /\ style = Colon /\ tOff t <> None)) ->
        tOff t = Some (offset_of e (OffsetRead (bWest b) style))).
      { intros style Q. destruct (Of x style Ix Q) as (_ & _ & _ & _ & _ & _ & _ & Ex & Eo). rewrite Eo. cbn [offset_of bWest b first_bits eH eM eS e]. rewrite To, andb_true_r.
        f_equal. f_equal. destruct style; lia. }
      pose proof (A x Ix) as Px. destruct x as [p s]. cbn [fst snd] in *. destruct p; try discriminate Qp; cbn [style_of].
      * apply Main. now left.
      * assert (Eb : bNone b = match tOff t with None => true | Some _ => false end).
        { cbn [bNone b first_bits]. rewrite (tells_in l _ OffsetOrZ); [apply andb_true_r|exact (in_map fst _ _ Ix)|reflexivity]. }
        rewrite Eb. cbn [eT e]. destruct (tOff t) eqn:Eo; [|reflexivity]. apply Main. right. repeat split. congruence.
Qed.

(* ---- what is read is the time written ---- *)

Lemma half_hour_back h : 0 <= h < 24 ->
  (if (12 <=? h) && (half_hour h <? 12) then half_hour h + 12
   else if negb ((12 <=? h) && (half_hour h <? 12)) && negb (12 <=? h) && (half_hour h =? 12) then 0 else half_hour h) = h.
Proof.
  intros H. assert (In h [0;1;2;3;4;5;6;7;8;9;10;11;12;13;14;15;16;17;18;19;20;21;22;23]) as I by (cbn [In]; lia).
  cbn [In] in I. repeat (destruct I as [<-|I]; [reflexivity|]). destruct I.
Qed.
Lemma style_eqb_eq a b : style_eqb a b = true -> a = b.
Proof. destruct a, b; discriminate || reflexivity. Qed.
Lemma if_same {A} (b : bool) (x : A) : (if b then x else x) = x.
Proof. now destruct b. Qed.
Lemma told b c z : Bool.eqb b c = true -> (c = false -> z = 0) -> (if b then z else 0) = z.
Proof. intros E H. apply eqb_prop in E. subst c. destruct b; [reflexivity|]. now rewrite H. Qed.

Lemma got_time zone l t abbr neg parts tenth e g : let b := first_bits l t neg parts tenth abbr in
  eT e = t -> calendar_time t -> no_more l t -> agrees e b l -> got_all b l g = true -> tOff t <> Some (-1) -> (tells l is_zone = true -> In abbr zones) ->
  parsed_time zone (realize e g) = Some (meant zone l abbr t).
Proof.
  intros b Et Cal (NH & NM & NS & NP & NO) (Fr & Of) G Sec Zn. pose proof Cal as (Cd & Rh & Rm & Rs). pose proof (valid_moment t Cal) as V.
  destruct (calendar_date_ranges _ _ _ Cd) as (Ry & Rmo & Rd).
  unfold got_all in G. rewrite !andb_true_iff in G. destruct G as ((((((((((G1 & _) & G2) & _) & G3) & _) & G4) & G5) & G6) & G7) & G8).
  unfold parsed_time, realize. rewrite Et. cbn [pYear pMonth pDay pHour pMin pSec pNsec pAm pPm pUTC pOffset pZone]. rewrite G1, G2, G3.
  replace (tMonth t <? 0) with false by (symmetry; apply Z.ltb_ge; lia). replace (tDay t <? 0) with false by (symmetry; apply Z.ltb_ge; lia). rewrite V.
  rewrite (told _ _ _ G5 NM), (told _ _ _ G6 NS).
  assert (En : (if gNsec g then tNsec t else 0) = tNsec t).
  { apply orb_true_iff in G7 as [G7|G7]; [apply orb_true_iff in G7 as [G7|G7]|].
    - now rewrite G7.
    - apply negb_true_iff in G7. rewrite (NP G7). apply if_same.
    - apply andb_true_iff in G7 as (G7 & Q). apply negb_true_iff in Q. rewrite Et in Fr. rewrite (Fr G7 Q). apply if_same. }
  rewrite En. clear G1 G2 G3 G5 G6 G7 En.
  set (hour := if _ && _ then _ else _).
  assert (hour = tHour t) as ->.
  { subst hour. destruct (gHour g).
    - apply andb_true_iff in G4 as (Q & G4). apply negb_true_iff in Q. rewrite (NH Q). now destruct (gHalf g).
    - apply andb_true_iff in G4 as (_ & G4). destruct (gHalf g); [discriminate|]. reflexivity.
    - apply andb_true_iff in G4 as (_ & G4). destruct (gHalf g) as [pm|]; [|discriminate]. apply andb_true_iff in G4 as (Q & Hf). apply eqb_prop in Q.
      cbn [b first_bits bPM] in Q. rewrite Hf, andb_true_r in Q. subst pm. pose proof (half_hour_back _ Rh) as B.
      destruct (12 <=? tHour t); cbn [andb negb] in *; exact B. }
  clear G4 NH NM NS NP.
  assert (Eta : t = mkTime (tYear t) (tMonth t) (tDay t) (tHour t) (tMin t) (tSec t) (tNsec t) (tOff t)) by now destruct t.
  unfold meant. destruct (filter (fun p => is_offset p) l) as [|p fl] eqn:Fl.
  - assert (To : tells l is_offset = false).
    { apply tells_none. intros p Ip. apply not_true_iff_false. intros Qp. assert (In p (filter (fun p => is_offset p) l)) as If by (apply filter_In; now split). rewrite Fl in If. destruct If. }
    rewrite To. rewrite (NO To) in Eta. rewrite <- Eta. apply andb_true_iff in G8 as (Q & G8). destruct (gOff g); [|discriminate]. cbn [offset_of]. change (-1 =? -1) with true. cbn [negb andb].
    rewrite andb_true_r. destruct (tells l is_zone) eqn:Tz; cbn [andb].
    + cbn [b first_bits bAbbr] in G8. rewrite Tz in G8. destruct (String.eqb_spec abbr "UTC") as [->|Na]; cbn [negb].
      * now rewrite G8.
      * apply andb_true_iff in G8 as (U & Z). apply negb_true_iff in U. apply bytes_eqb_eq in Z. rewrite U, Z.
        destruct (lit abbr) as [|c r] eqn:L; [|reflexivity]. exfalso. specialize (Zn eq_refl). cbn [zones In] in Zn.
        repeat (destruct Zn as [<-|Zn]; [discriminate|]). destruct Zn.
    + apply bytes_eqb_eq in G8. rewrite G8. now destruct (gUTC g).
  - assert (In p (filter (fun p => is_offset p) l)) as If by (rewrite Fl; now left). apply filter_In in If as (Ip & Qp).
    rewrite (tells_in l is_offset p Ip Qp). cbn [negb]. rewrite andb_false_r. cbn [andb]. specialize (Of p Ip Qp). rewrite Et in Of.
    destruct (style_of b p) as [s|].
    + apply andb_true_iff in G8 as (U & G8). apply negb_true_iff in U. rewrite U. destruct (gOff g) as [|neg' s']; [discriminate|].
      apply andb_true_iff in G8 as (Q1 & Q2). apply eqb_prop in Q1. apply style_eqb_eq in Q2. subst neg' s'.
      destruct (Z.eqb_spec (offset_of e (OffsetRead (bWest b) s)) (-1)) as [E1|E1]; [congruence|]. cbn [negb]. rewrite <- Of. now rewrite <- Eta.
    + apply andb_true_iff in G8 as (Q & G8). destruct (gOff g); [|discriminate]. cbn [offset_of]. change (-1 =? -1) with true. cbn [negb]. rewrite Of in Eta. rewrite <- Eta.
      destruct (gUTC g); [reflexivity|]. cbn [orb] in G8. apply bytes_eqb_eq in G8. now rewrite G8.
Qed.

Lemma reads_form zone k name l abbr t s : In (name, l) notations -> single l = true -> notation_ok k chunked_formats l = true ->
  text_of abbr t l s -> knows k l t -> (tells l is_zone = true -> In abbr (if tells l is_offset then skipn 2 zones else zones)) -> tOff t <> Some (-1) ->
  first_layout zone dateFormats s = Some (meant zone l abbr t)
  /\ exists e b, In b (all_bits l) /\ env_ok k e /\ s = text e (form b l) /\ Forall (fits (bMay b) e) (form b l).
Proof.
  intros In_ Sg Nok T Kn Zn Sec. destruct (text_form k l abbr t s Sg T Kn Zn) as (e & neg & parts & tenth & Et & Eok & Tx & Ft & Ag).
  set (b := first_bits l t neg parts tenth abbr) in *. pose proof (first_bits_in l t neg parts tenth abbr Zn) as Ib.
  split; [|exists e, b; exact (conj Ib (conj Eok (conj (eq_sym Tx) Ft)))].
  unfold notation_ok in Nok. rewrite forallb_forall in Nok. specialize (Nok b Ib). unfold form_ok in Nok.
  destruct (kLate k && bDay b || kShort k && negb (bDay b || bMonth b)) eqn:Q.
  { destruct Kn as (_ & Kl & Ks). apply orb_true_iff in Q as [Q|Q]; apply andb_true_iff in Q as (Q1 & Q2).
    - specialize (Kl Q1). cbn [b first_bits bDay] in Q2. apply andb_true_iff in Q2 as (Q2 & _). apply Z.ltb_lt in Q2. lia.
    - destruct (Ks Q1) as (Sh & I1 & I2). apply negb_true_iff, orb_false_iff in Q2 as (Q2 & Q3). cbn [b first_bits bDay bMonth] in Q2, Q3.
      rewrite (tells_in l _ (Day false) I1 eq_refl), andb_true_r in Q2. rewrite (tells_in l _ (Month false) I2 eq_refl), andb_true_r in Q3. apply Z.ltb_ge in Q2, Q3. lia. }
  destruct (sym_first _ _ _ _) as [|g|] eqn:Sf; try discriminate. rewrite <- Tx. destruct T as (Cal & No & _).
  apply (first_sound (bMay b) k e Eok zone dateFormats g); [assumption|exact Sf|].
  apply (got_time zone l t abbr neg parts tenth e g); auto. intros Tz. specialize (Zn Tz). destruct (tells l is_offset); [|assumption]. cbn [skipn zones In] in *. tauto.
Qed.

(* ---- ends ---- *)

(* neither quotes nor escapes; white space within only *)
Definition solid_char (c : byte) : bool := negb (is_space_char c).
Definition solid (a : sym) : bool := match a with K c => solid_char c | _ => true end.
Definition plain (a : sym) : bool := match a with K c => simple c | _ => true end.
Definition tidy (l : list sym) : bool :=
  forallb plain l && match l with a :: _ => solid a | [] => false end && match rev l with a :: _ => solid a | [] => false end.

Lemma digits_plain ds : forallb is_digit ds = true -> forallb (fun c => simple c && solid_char c) ds = true.
Proof.
  intros H. rewrite forallb_forall in *. intros c I. specialize (H c I). clear I. revert c H.
  assert (A : forallb (fun n => let c := ascii_of_nat n in implb (is_digit c) (simple c && solid_char c)) (seq 0 256) = true) by (vm_compute; reflexivity).
  rewrite forallb_forall in A. intros c H. specialize (A (nat_of_ascii c)). cbv zeta in A. rewrite ascii_nat_embedding, H in A. apply A. apply in_seq. split; [lia|]. apply nat_ascii_bounded.
Qed.
Lemma word_plain k e w may : env_ok k e -> fits may e (W w) -> forallb (fun c => simple c && solid_char c) (spell e (W w)) = true.
Proof.
  intros Eok Fw. pose proof (months_ok k e Eok) as Rm. pose proof (days_ok k e Eok) as Rd. pose proof Eok as (_ & _ & _ & _ & _ & Ds & _).
  assert (Pm : forallb (fun c => simple c && solid_char c) (month_name (tMonth (eT e))) = true).
  { generalize (tMonth (eT e)) Rm. intros m H. assert (In m [1;2;3;4;5;6;7;8;9;10;11;12]) as I by (cbn [In]; lia). cbn [In] in I.
    repeat (destruct I as [<-|I]; [vm_compute; reflexivity|]). destruct I. }
  assert (Pd : forallb (fun c => simple c && solid_char c) (day_name (eDay e)) = true).
  { generalize (eDay e) Rd. intros m H. assert (In m [0;1;2;3;4;5;6]) as I by (cbn [In]; lia). cbn [In] in I.
    repeat (destruct I as [<-|I]; [vm_compute; reflexivity|]). destruct I. }
  assert (Ps := digits_plain _ Ds).
  assert (Sk : forall n s, forallb (fun c => simple c && solid_char c) s = true -> forallb (fun c => simple c && solid_char c) (skipn n s) = true /\ forallb (fun c => simple c && solid_char c) (firstn n s) = true).
  { intros n s H. rewrite <- (firstn_skipn n s), forallb_app in H. now apply andb_true_iff in H as (-> & ->). }
  destruct w; cbn [spell]; try assumption; try exact (proj2 (Sk 3%nat _ Pm)); try exact (proj2 (Sk 3%nat _ Pd)); try exact (proj1 (Sk 3%nat _ Pm)); try exact (proj1 (Sk 3%nat _ Pd)).
  destruct (eDs e) as [|d ds]; [reflexivity|]. exact (proj1 (Sk 1%nat _ Ps)).
Qed.
Lemma spell_plain k e a may : env_ok k e -> fits may e a -> plain a = true -> forallb simple (spell e a) = true /\ (solid a = true -> forallb solid_char (spell e a) = true).
Proof.
  intros Eok Fa P. assert (B : forall s, forallb (fun c => simple c && solid_char c) s = true -> forallb simple s = true /\ forallb solid_char s = true).
  { induction s as [|c s IH]; [now split|]. cbn [forallb]. rewrite !andb_true_iff. intros ((H1 & H2) & H3). destruct (IH H3). auto. }
  destruct a as [v i n|c|w].
  - destruct (B (spell e (D v i n))) as (B1 & B2); [|now split]. apply digits_plain. destruct Fa as (N & R & _). cbn [spell forallb].
    rewrite is_digit_digit_char; [reflexivity|]. now apply digit_at_range.
  - cbn [plain solid spell forallb] in *. rewrite P. split; [reflexivity|]. now intros ->.
  - destruct (B _ (word_plain k e w may Eok Fa)). now split.
Qed.
Lemma tidy_text k e l may : env_ok k e -> Forall (fits may e) l -> tidy l = true ->
  forallb simple (text e l) = true
  /\ (exists c r, text e l = c :: r /\ is_space_char c = false) /\ (exists r c, text e l = r ++ [c] /\ is_space_char c = false).
Proof.
  intros Eok F T. unfold tidy in T. rewrite !andb_true_iff in T. destruct T as ((P & H1) & H2). split; [|split].
  - clear H1 H2. induction F as [|a l Fa F IH]; [reflexivity|]. cbn [forallb] in P. apply andb_true_iff in P as (Pa & P).
    change (text e (a :: l)) with (spell e a ++ text e l). rewrite forallb_app, (proj1 (spell_plain k e a may Eok Fa Pa)). now apply IH.
  - destruct l as [|a l]; [discriminate|]. cbn [forallb] in P. apply andb_true_iff in P as (Pa & _). inversion F as [|? ? Fa _]; subst.
    pose proof (proj2 (spell_plain k e a may Eok Fa Pa) H1) as S. destruct (spell_head may k e Eok a Fa) as (c & r & E & _). change (text e (a :: l)) with (spell e a ++ text e l).
    rewrite E in *. cbn [forallb] in S. apply andb_true_iff in S as (S & _). apply negb_true_iff in S. exists c, (r ++ text e l). now split.
  - destruct (rev l) as [|a l'] eqn:R; [discriminate|]. assert (l = rev l' ++ [a]) as -> by (rewrite <- (rev_involutive l), R; reflexivity).
    rewrite forallb_app in P. apply andb_true_iff in P as (_ & Pa). cbn [forallb] in Pa. rewrite andb_true_r in Pa. apply Forall_app in F as (_ & Fa). inversion Fa as [|? ? Fa' _]; subst. clear Fa.
    pose proof (proj2 (spell_plain k e a may Eok Fa' Pa) H2) as S. destruct (spell_head may k e Eok a Fa') as (c & r & E & _).
    rewrite text_app. change (text e [a]) with (spell e a ++ []). rewrite app_nil_r.
    destruct (@exists_last _ (spell e a)) as (r' & c' & E'); [rewrite E; discriminate|]. rewrite E' in *. rewrite forallb_app in S. apply andb_true_iff in S as (_ & S). cbn [forallb] in S.
    rewrite andb_true_r in S. apply negb_true_iff in S. exists (text e (rev l') ++ r'), c'. now rewrite app_assoc.
Qed.

Lemma white_space s : white s -> forallb is_space_char s = true.
Proof.
  intros H. apply forallb_forall. intros c I. unfold white in H. rewrite Forall_forall in H. specialize (H c I). unfold is_space_char, bval.
  cbn [In] in H. decompose [or] H; try contradiction; match goal with E : _ = N_of_ascii c |- _ => rewrite <- E; reflexivity end.
Qed.
Lemma drop_white w s : forallb is_space_char w = true -> (exists c r, s = c :: r /\ is_space_char c = false) -> drop_while is_space_char (w ++ s) = s.
Proof.
  intros H (c & r & -> & C). induction w as [|x w IH]; cbn [app drop_while]; [now rewrite C|]. cbn [forallb] in H. apply andb_true_iff in H as (-> & H). now apply IH.
Qed.
Lemma trim_white w1 s w2 : white w1 -> white w2 -> (exists c r, s = c :: r /\ is_space_char c = false) -> (exists r c, s = r ++ [c] /\ is_space_char c = false) ->
  trim_both is_space_char (w1 ++ s ++ w2) = s.
Proof.
  intros H1 H2 (c & r & E & C) (r' & c' & E' & C'). apply white_space in H1, H2. unfold trim_both. rewrite drop_white; [|assumption|].
  - rewrite rev_app_distr, drop_white, rev_involutive; [reflexivity| |].
    + clear - H2. apply forallb_forall. intros x I. apply in_rev in I. rewrite forallb_forall in H2. now apply H2.
    + rewrite E', rev_app_distr. exists c', (rev r'). now split.
  - exists c, (r ++ w2). now rewrite E.
Qed.

(* ---- all notations ---- *)

Definition in_list (x : string) (l : list string) : bool := existsb (String.eqb x) l.
Lemma in_list_spec x l : in_list x l = true <-> In x l.
Proof.
  unfold in_list. rewrite existsb_exists. split.
  - intros (y & I & E). apply String.eqb_eq in E. now subst.
  - intros I. exists x. split; [assumption|apply String.eqb_refl].
Qed.
Definition known_of (name : string) : known := mkKnown (in_list name near) (in_list name ambiguous) false.
Definition short_known : known := mkKnown false false true.
Definition check_notation (cs : list chunked) (x : string * list part) : bool :=
  in_list (fst x) unreadable
  || single (snd x) && forallb (fun b => tidy (form b (snd x))) (all_bits (snd x)) && notation_ok (known_of (fst x)) cs (snd x)
     && (negb (String.eqb (fst x) "2-1-2006") || notation_ok short_known cs (snd x)
         && existsb (fun p => match p with Day false => true | _ => false end) (snd x)
         && existsb (fun p => match p with Month false => true | _ => false end) (snd x)).
Lemma all_checked : forallb (check_notation chunked_formats) notations = true.
Proof. vm_compute. reflexivity. Qed.
Lemma names_listed : map fst notations = dateFormats.
Proof. vm_compute. reflexivity. Qed.

Lemma notation_reads zone name l abbr t s : In (name, l) notations -> readable name l abbr t -> text_of abbr t l s ->
  first_layout zone dateFormats s = Some (meant zone l abbr t)
  /\ forallb simple s = true /\ (exists c r, s = c :: r /\ is_space_char c = false) /\ (exists r c, s = r ++ [c] /\ is_space_char c = false).
Proof.
  intros In_ (Un & Am & Ne & Zb & Sec) T.
  pose proof (proj1 (forallb_forall _ _) all_checked _ In_) as C. unfold check_notation in C. cbn [fst snd] in C. apply orb_true_iff in C as [C|C].
  { apply in_list_spec in C. contradiction. }
  rewrite !andb_true_iff in C. destruct C as (((Sg & Td) & Nok) & Sh).
  assert (Zn : tells l is_zone = true -> In abbr (if tells l is_offset then skipn 2 zones else zones)).
  { intros Tz. destruct T as (_ & _ & W). assert (In abbr zones) as Iz.
    { clear - W Tz. induction W as [|p l s r P W IH]; [discriminate|]. cbn [tells existsb] in Tz. destruct p; try (now apply IH). exact (proj1 P). }
    destruct (tells l is_offset); [|assumption]. destruct (Zb Tz eq_refl) as (Z1 & Z2). cbn [zones In skipn] in *. destruct Iz as [Iz|[Iz|Iz]]; [congruence|congruence|assumption]. }
  assert (Main : forall k, notation_ok k chunked_formats l = true -> knows k l t ->
    first_layout zone dateFormats s = Some (meant zone l abbr t)
    /\ forallb simple s = true /\ (exists c r, s = c :: r /\ is_space_char c = false) /\ (exists r c, s = r ++ [c] /\ is_space_char c = false)).
  { intros k Ok Kn. destruct (reads_form zone k name l abbr t s In_ Sg Ok T Kn Zn Sec) as (R & e & b & Ib & Eok & -> & F).
    split; [assumption|]. rewrite forallb_forall in Td. exact (tidy_text k e (form b l) (bMay b) Eok F (Td b Ib)). }
  destruct (in_list name ambiguous) eqn:Qa.
  - apply in_list_spec in Qa as Ia. destruct (Am Ia) as [Lt|(-> & Bl)].
    + apply (Main _ Nok). unfold known_of. rewrite Qa. split; [|split]; cbn [kFar kLate kShort]; [|auto|discriminate]. intros Q. apply in_list_spec in Q. auto.
    + change (String.eqb "2-1-2006" "2-1-2006") with true in Sh. cbn [negb orb] in Sh. rewrite !andb_true_iff in Sh. destruct Sh as ((Sh & E1) & E2).
      apply (Main _ Sh). split; [discriminate|]. split; [discriminate|]. intros _. split; [assumption|].
      apply existsb_exists in E1 as (p1 & I1 & Q1). apply existsb_exists in E2 as (p2 & I2 & Q2). destruct p1 as [| | | |[|]| | | | | | | | | | | | |]; try discriminate. destruct p2 as [| | |[|]| | | | | | | | | | | | | |]; try discriminate. now split.
  - apply (Main _ Nok). unfold known_of. rewrite Qa. split; [|split]; cbn [kFar kLate kShort]; [|discriminate|discriminate]. intros Q. apply in_list_spec in Q. auto.
Qed.

Lemma notation_date zone name l abbr t s w1 w2 : In (name, l) notations -> readable name l abbr t -> text_of abbr t l s -> white w1 -> white w2 ->
  parse_date_string zone (w1 ++ s ++ w2) = Some (meant zone l abbr t).
Proof.
  intros In_ R T W1 W2. destruct (notation_reads zone name l abbr t s In_ R T) as (E & _ & H1 & H2). unfold parse_date_string.
  rewrite trim_white by assumption. destruct H1 as (c & r & -> & _). exact E.
Qed.
Lemma blanks_simple n : forallb simple (repeat " "%char n) = true.
Proof. induction n as [|n IH]; [reflexivity|]. cbn [repeat forallb]. rewrite IH. reflexivity. Qed.
Lemma blanks_white n : white (repeat " "%char n).
Proof. apply Forall_forall. intros c I. apply repeat_spec in I. subst. cbn. tauto. Qed.
Lemma notation_json zone name l abbr t s a b : In (name, l) notations -> readable name l abbr t -> text_of abbr t l s ->
  reads_as zone (repeat " "%char a ++ s ++ repeat " "%char b) (meant zone l abbr t).
Proof.
  intros In_ R T. destruct (notation_reads zone name l abbr t s In_ R T) as (_ & Sm & (c & r & E & _) & _).
  pose proof (notation_date zone name l abbr t s _ _ In_ R T (blanks_white a) (blanks_white b)) as P.
  assert (Sm' : forallb simple (repeat " "%char a ++ s ++ repeat " "%char b) = true) by (now rewrite !forallb_app, Sm, !blanks_simple).
  unfold reads_as, time_unmarshal. cbn [print]. rewrite quote_simple by assumption.
  assert (Nq : forall x, In x (repeat " "%char a ++ s ++ repeat " "%char b) -> x <> quote_char).
  { intros x I ->. rewrite forallb_forall in Sm'. specialize (Sm' _ I). vm_compute in Sm'. discriminate. }
  rewrite trim_quotes.
  - destruct (repeat " "%char a ++ s ++ repeat " "%char b) eqn:Z; [|exact P]. apply app_eq_nil in Z as (_ & Z). rewrite E in Z. discriminate.
  - intros x r' E'. apply Nq. rewrite E'. now left.
  - intros x r' E'. apply Nq. rewrite E'. apply in_or_app. right. now left.
Qed.
