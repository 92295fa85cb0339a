(* Files of JSON whose numbers are spelled otherwise *)
From Coq Require Import ZArith NArith Bool Ascii String List Lia.
Import ListNotations.
From Verif Require Import GoBase GoBaseFacts GoTime GoLayout Tables JsonTables Codec Records File Reader Json JsonFile JsonLeft GoFloat
  SpecCodec SpecRecords SpecJson SpecAccept SpecNumbers FieldFacts FieldRead RecordFacts JsonTextFacts JsonMapFacts JsonFacts JsonProps ServerProps AcceptFacts NumberFacts.
Local Open Scope string_scope.
Local Open Scope Z_scope.
Local Open Scope list_scope.
Local Notation length := List.length.

Lemma itoa_whole z : whole_number (itoa z) z.
Proof.
  unfold whole_number, amounts. exists (utoa (Z.abs z)), [], [], [], 0.
  assert (0 <= Z.abs z) as P by lia. split; [|split; [|split; [|split; [|split]]]].
  - rewrite !app_nil_r. unfold itoa. destruct (z <? 0) eqn:E; [apply Z.ltb_lt in E; rewrite Z.abs_neq by lia|apply Z.ltb_ge in E; rewrite Z.abs_eq by lia]; reflexivity.
  - destruct (Z.eq_dec z 0) as [->|N]; [left; reflexivity|]. right. split; [now apply utoa_numerals|].
    intros r E. destruct (utoa_first (Z.abs z) ltac:(lia)) as (c & q & E' & F). rewrite E' in E. injection E as -> _. discriminate.
  - left. auto.
  - left. auto.
  - lia.
  - rewrite app_nil_r, decimal_dval, dval_utoa by exact P. cbn. lia.
Qed.

Lemma exact_integer_float t : exact_integer t = true -> go_float t = Some t.
Proof.
  unfold exact_integer. destruct (parse_int 64 t) as [z [e|]]; [discriminate|]. intros H. apply andb_prop in H as [E B].
  apply bytes_eqb_eq in E. apply Z.leb_le in B. subst t. apply float_whole; [apply itoa_whole|exact B].
Qed.

Lemma renumber_float rt t : rtFloat rt = go_float -> renumber rt t = go_float t.
Proof. intros F. unfold renumber. destruct (exact_integer t) eqn:E; [symmetry; now apply exact_integer_float|now rewrite F]. Qed.

Lemma remarshal_respelled rt j : rtFloat rt = go_float -> forall j', respelled j j' -> remarshal rt j = remarshal rt j'.
Proof.
  intros Fl. induction j using json_induction; intros j' S; inversion S as [z t0 t1 B W W'|j0|l0 l1 F|l0 l1 F]; subst; try reflexivity.
  - cbn [remarshal]. rewrite !renumber_float by exact Fl. now rewrite (float_whole _ z W B), (float_whole _ z W' B).
  - rewrite !remarshal_arr. f_equal. apply traverse_two. clear S.
    induction F as [|x y l0 m Hxy F IH]; constructor; inversion H; subst; auto.
  - rewrite !remarshal_obj. f_equal. apply traverse_two. clear S.
    induction F as [|x y l0 m0 [Hk Hxy] F IH]; constructor; inversion H; subst.
    + unfold remarshal_member. rewrite Hk. f_equal. auto.
    + apply IH; assumption.
Qed.

Lemma map_respelled rt j j' : rtFloat rt = go_float -> respelled j j' -> json_map rt j' = json_map rt j.
Proof. intros F R. unfold json_map. now rewrite (remarshal_respelled rt j F j' R). Qed.

Lemma file_respelled rt j j' f : rtFloat rt = go_float -> respelled j j' -> unmarshal_file rt j' f = unmarshal_file rt j f /\ left_file rt j' f = left_file rt j f.
Proof. intros F R. unfold unmarshal_file, left_file. now rewrite (map_respelled rt j j' F R). Qed.
Lemma base_respelled rt n j j' b : rtFloat rt = go_float -> respelled j j' -> unmarshal_base rt n j' b = unmarshal_base rt n j b /\ left_base rt n j' b = left_base rt n j b.
Proof. intros F R. unfold unmarshal_base, left_base. now rewrite (map_respelled rt j j' F R). Qed.

Lemma file_numbers rt j j' f g : rtFloat rt = go_float -> orders rt -> plain_json j -> tidy j -> framed f -> respelled j j' ->
  (unmarshal_file rt j' f = Ok g <-> takes_file (rtZone rt) j f g).
Proof. intros F O P Y Fr R. rewrite (proj1 (file_respelled rt j j' f F R)). now apply unmarshal_file_spec. Qed.
Lemma base_numbers rt n j j' b c : rtFloat rt = go_float -> orders rt -> plain_json j -> tidy j -> respelled j j' ->
  (unmarshal_base rt n j' b = Ok c <-> takes_base (rtZone rt) j b c).
Proof. intros F O P Y R. rewrite (proj1 (base_respelled rt n j j' b F R)). now apply unmarshal_base_spec. Qed.

(* ---- CreateFile reads two numbers of the header from the text itself ---- *)

Lemma fold_upper k : ~ In "S"%char (fold_name k) -> ~ In "K"%char (fold_name k) -> fold_name k = to_upper k.
Proof.
  induction k as [|a k IH]; intros S K; [reflexivity|].
  destruct (fold_step a k) as [(t & _ & E)|[(t & _ & E)|E]].
  - rewrite E in S. destruct S. now left.
  - rewrite E in K. destruct K. now left.
  - rewrite E in *. cbn [to_upper map]. f_equal. apply IH; intros I; [apply S|apply K]; now right.
Qed.

Lemma header_upper k t : find_tag dummy_tags k = Some t -> to_upper k = lit "HEADER".
Proof.
  intros E. assert (fold_name k = lit "HEADER") as H by (apply (header_key_fold (k, JNull)); unfold is_header_key; cbn [fst]; now rewrite E).
  rewrite <- H. symmetry. apply fold_upper; rewrite H; intros I; cbn in I; repeat (destruct I as [I|I]; [discriminate|]); exact I.
Qed.

Lemma dummy_respelled rt l l' : Forall2 (fun m m' => fst m = fst m' /\ respelled (snd m) (snd m') /\ (to_upper (fst m) = lit "HEADER" -> snd m = snd m')) l l' ->
  forall h, decode_dummy_members rt l' h = decode_dummy_members rt l h.
Proof.
  induction 1 as [|[k j] [k' j'] l l' (K & _ & E) _ IH]; intros h; [reflexivity|]. cbn [fst snd] in *. subst k'. cbn [decode_dummy_members].
  destruct (find_tag dummy_tags k) as [t|] eqn:T; [|apply IH]. apply header_upper in T. rewrite <- (E T).
  destruct j; try (destruct (decode_struct _ _ _ _); [apply IH|reflexivity]). apply IH.
Qed.

Lemma respelled_file_respelled j j' : respelled_file j j' -> respelled j j'.
Proof.
  intros [l l' F]. apply RObj. induction F as [|m m' l l' (K & R & _) _ IH]; constructor; auto.
Qed.

Lemma create_respelled rt j j' s s' w w' rest rest' : rtFloat rt = go_float -> respelled_file j j' -> Forall white w -> Forall white w' ->
  spells j s -> spells j' s' ->
  file_from_json rt (w' ++ s' ++ rest') = file_from_json rt (w ++ s ++ rest) /\ left_create rt (w' ++ s' ++ rest') = left_create rt (w ++ s ++ rest).
Proof.
  intros F R W W' S S'. pose proof (respelled_file_respelled j j' R) as R0. destruct R as [l l' A].
  unfold file_from_json, left_create. rewrite (decode_object l s w rest), (decode_object l' s' w' rest') by assumption.
  cbn [decode_dummy]. rewrite (dummy_respelled rt l l' A). destruct (decode_dummy_members rt l None) as [h|]; [|auto].
  destruct (file_respelled rt (JObj l) (JObj l') (new_file_p (dummy_packed h)) F R0) as [-> ->]. auto.
Qed.

Lemma reader_respelled rt evs j j' s s' w w' rest rest' : rtFloat rt = go_float -> respelled_file j j' -> Forall white w -> Forall white w' ->
  (length w < 1024)%nat -> (length w' < 1024)%nat -> spells j s -> spells j' s' ->
  new_file_from_reader rt evs (w' ++ s' ++ rest') = new_file_from_reader rt evs (w ++ s ++ rest).
Proof.
  intros F R W W' L L' S S'. pose proof (create_respelled rt j j' s s' w w' rest rest' F R W W' S S') as [E _].
  destruct R as [l l' A]. rewrite (new_file_text rt evs w s rest l), (new_file_text rt evs w' s' rest' l') by assumption. now rewrite E.
Qed.

(* ---- a text that is read says the file, wherever its numbers are ---- *)

Lemma digits_amount t neg n d : forallb is_digit t = true -> t <> [] -> amounts t neg n d -> neg = false /\ n = dval t * d.
Proof.
  intros D N A. apply read_amount in A as (_ & c & p & E & _ & V). unfold read_decimal in E.
  assert (match t with c0 :: r => if byte_eqb c0 "-" then (true, r) else (false, t) | [] => (false, t) end = (false, t)) as Q.
  { destruct t as [|x t]; [reflexivity|]. cbn [forallb] in D. apply andb_prop in D as [D _]. destruct (byte_eqb x "-") eqn:X; [apply byte_eqb_eq in X; subst; discriminate|reflexivity]. }
  rewrite Q in E. clear Q. pose proof (take_run t [] D Logic.I) as T. rewrite app_nil_r in T. rewrite T in E. rewrite app_nil_r in E. cbn in E. injection E as <- <- <-.
  split; [reflexivity|]. change (Z.max (- (0)) 0) with 0 in V. change (Z.max (0 - Z.of_nat 0) 0) with 0 in V. rewrite Z.pow_0_r in V. lia.
Qed.

Lemma minus_amount t neg n d : amounts ("-"%char :: t) neg n d -> neg = true /\ amounts t false n d.
Proof.
  intros (whole & fraction & part & exponent & e & E & W & R). destruct neg.
  - split; [reflexivity|]. injection E as E. exists whole, fraction, part, exponent, e. auto.
  - exfalso. cbn [app] in E. destruct W as [-> | [[N F] _]]; [discriminate|]. destruct whole as [|c whole]; [congruence|]. injection E as <- _.
    inversion F as [|? ? B _]; subst. vm_compute in B. destruct B as [B _]. now apply B.
Qed.

Lemma plus_amount t neg n d : ~ amounts ("+"%char :: t) neg n d.
Proof.
  intros (whole & fraction & part & exponent & e & E & W & R). destruct neg; [discriminate|]. cbn [app] in E.
  destruct W as [-> | [[N F] _]]; [discriminate|]. destruct whole as [|c whole]; [congruence|]. injection E as <- _.
  inversion F as [|? ? B _]; subst. vm_compute in B. destruct B as [B _]. now apply B.
Qed.

Lemma parse_whole t z z' : whole_number t z -> parse_int 64 t = (z', None) -> z' = z.
Proof.
  intros W I. unfold whole_number in W. apply parse_int_inv in I as [(D & N & ->)|(c & ds & -> & C & D & N & ->)].
  - apply digits_amount in W as [S V]; [|assumption|assumption]. apply Z.ltb_ge in S. lia.
  - destruct C as [-> | ->]; [destruct (plus_amount _ _ _ _ W)|]. apply minus_amount in W as [S W]. apply digits_amount in W as [_ V]; [|assumption|assumption].
    apply Z.ltb_lt in S. cbn. lia.
Qed.

Definition untimed (st : fields) : Prop := forall n t, lookup n st <> Some (VTime t).

Lemma field_numbers rt old j j' v : (forall t, old <> VTime t) -> plain_json j -> respelled j j' -> decode_field rt old j' = Some v -> decode_field rt old j = Some v /\ (forall t, v <> VTime t).
Proof.
  intros N P R. inversion R as [z t t' B W W'|j0|l0 l1 F|l0 l1 F]; subst; destruct old as [x|x|x]; try (destruct (N x eq_refl)); try discriminate.
  - cbn [decode_field]. destruct (parse_int 64 t') as [z' [e|]] eqn:I; [discriminate|]. apply (parse_whole t' z) in I; [|exact W']. subst z'.
    inversion P as [| |y By| | |]; subst. rewrite parse_itoa by assumption.
    assert (y = z) as -> by (apply (parse_whole (itoa y)); [exact W|now apply parse_itoa]). intros [= <-]. split; [reflexivity|discriminate].
  - intros H. split; [exact H|]. cbn [decode_field] in H. destruct j'; try discriminate; try (injection H as <-; discriminate). destruct (parse_int 64 text) as [y [e|]]; [discriminate|]. injection H as <-. discriminate.
  - intros H. split; [exact H|]. cbn [decode_field] in H. destruct j'; try discriminate; injection H as <-; discriminate.
Qed.

Lemma set_untimed n v st : untimed st -> (forall t, v <> VTime t) -> untimed (set_field n v st).
Proof.
  intros U V k t. rewrite lookup_set_field. destruct (String.eqb k n); [|apply U]. destruct (lookup n st); [|discriminate]. intros [= E]. exact (V t E).
Qed.

Lemma members_numbers rt tags l l' : Forall (fun m => plain_json (snd m)) l -> Forall2 (fun m m' => fst m = fst m' /\ respelled (snd m) (snd m')) l l' ->
  forall st st', untimed st -> decode_members rt tags l' st = Some st' -> decode_members rt tags l st = Some st' /\ untimed st'.
Proof.
  intros P F. induction F as [|[k j] [k' j'] l l' [K R] F IH]; intros st st' U; cbn [decode_members].
  - intros [= <-]. auto.
  - cbn [fst snd] in *. subst k'. inversion P as [|? ? Pj Pl]; subst. cbn [snd] in Pj.
    destruct (find_tag tags k) as [t|]; [|now apply IH]. destruct (lookup (tgField t) st) as [old|] eqn:L; [|discriminate].
    destruct (decode_field rt old j') as [v|] eqn:D; [|discriminate].
    apply (field_numbers rt old j j') in D as [-> V]; [|intros u ->; exact (U _ _ L)|exact Pj|exact R]. apply IH; [exact Pl|]. now apply set_untimed.
Qed.

Lemma struct_numbers rt tags j j' st st' : plain_json j -> respelled j j' -> untimed st -> decode_struct rt tags j' st = Some st' ->
  decode_struct rt tags j st = Some st' /\ untimed st'.
Proof.
  intros P R U. inversion R as [z t0 t1 B W W'|j0|l0 l1 F|l0 l1 F]; subst; try discriminate.
  - destruct j'; try discriminate; [intros [= <-]; auto|]. cbn [decode_struct]. inversion P as [| | | | |l0 N Fl]; subst. apply members_numbers; [|clear; induction l; constructor; auto using RSame|exact U].
    eapply Forall_impl; [|exact Fl]. intros m [_ H]. exact H.
  - cbn [decode_struct]. inversion P as [| | | | |l N Fl]; subst. apply members_numbers; [|exact F|exact U]. eapply Forall_impl; [|exact Fl]. intros m [_ H]. exact H.
Qed.

Lemma info_untimed : untimed header_info0.
Proof. intros n t. cbn [header_info0 lookup]. repeat (destruct (String.eqb n _); [discriminate|]). discriminate. Qed.

Lemma dummy_numbers rt l l' : Forall (fun m => plain_json (snd m)) l -> Forall2 (fun m m' => fst m = fst m' /\ respelled (snd m) (snd m')) l l' ->
  forall h h', (forall st, h = Some st -> untimed st) -> decode_dummy_members rt l' h = Some h' -> decode_dummy_members rt l h = Some h'.
Proof.
  intros P F. induction F as [|[k j] [k' j'] l l' [K R] F IH]; intros h h' U; cbn [decode_dummy_members]; [auto|].
  cbn [fst snd] in *. subst k'. inversion P as [|? ? Pj Pl]; subst. cbn [snd] in Pj.
  destruct (find_tag dummy_tags k) as [t|]; [|now apply IH].
  set (st := match h with Some st => st | None => header_info0 end).
  assert (untimed st) as Us by (subst st; destruct h as [x|]; [now apply U|exact info_untimed]).
  assert (forall x, decode_struct rt header_info_tags j' st = Some x -> decode_struct rt header_info_tags j st = Some x /\ untimed x) as D by (intros x; now apply struct_numbers).
  assert (j' = JNull <-> j = JNull) as Nj by (inversion R; subst; split; congruence).
  destruct (json_eq_null j') as [E|E].
  - rewrite E. rewrite (proj1 Nj E). apply IH; [exact Pl|discriminate].
  - assert (j <> JNull) as E' by tauto. intros H.
    assert (match decode_struct rt header_info_tags j' st with Some x => decode_dummy_members rt l' (Some x) | None => None end = Some h') as H' by (destruct j'; try exact H; congruence).
    destruct (decode_struct rt header_info_tags j' st) as [x|]; [|discriminate]. destruct (D x eq_refl) as [Dx Ux].
    assert (decode_dummy_members rt l (Some x) = Some h') as G by (apply IH; [exact Pl|intros y [= <-]; exact Ux|exact H']).
    rewrite Dx. destruct j; try exact G. congruence.
Qed.

Lemma create_numbers rt j j' s w rest f : rtFloat rt = go_float -> orders rt -> plain_json j -> tidy j -> respelled j j' -> Forall white w -> spells j' s ->
  (rest = [] \/ exists l, j' = JObj l) -> file_from_json rt (w ++ s ++ rest) = Ok f -> takes_new (rtZone rt) j f.
Proof.
  intros Fl O P Y R W S A. unfold file_from_json, takes_new.
  assert (decode (w ++ s ++ rest) = Some j') as -> by (destruct A as [-> |(l & ->)]; [apply decode_spelled; [assumption|assumption|exact Logic.I]|now apply JsonProps.decode_object]).
  destruct (decode_dummy rt j') as [h|] eqn:E; [|discriminate]. rewrite (proj1 (file_respelled rt j j' _ Fl R)). intros H.
  assert (decode_dummy rt j = Some h) as D.
  { inversion R as [z t0 t1 B Wn W'|j0|l0 l1 F|l0 l1 F]; subst; try discriminate; [exact E|]. cbn [decode_dummy] in *.
    inversion P as [| | | | |l N Fp]; subst. apply (dummy_numbers rt l0 l1); [|exact F|discriminate|exact E]. eapply Forall_impl; [|exact Fp]. intros m [_ Hm]. exact Hm. }
  exists (dummy_packed h), new_header, new_trailer.
  split; [apply format_spec; [assumption|assumption|]; eauto|]. split; [now apply header_is_fresh|]. split; [now apply trailer_is_fresh|].
  apply (unmarshal_file_spec rt j (new_file_p (dummy_packed h)) f); try assumption. apply new_framed.
Qed.
