(* Facts about JsonFile.v: structs, data records and files that have been
   written as JSON are read back *)
From Coq Require Import ZArith NArith Bool Ascii String List Lia Permutation Sorted.
Import ListNotations.
From Verif Require Import GoBase GoBaseFacts GoTime TimeFacts GoLayout Json Tables JsonTables Codec Records File JsonFile
  SpecCodec SpecLayouts SpecRecords RecordFacts SpecJson LayoutFacts JsonTextFacts JsonMapFacts.
Local Open Scope string_scope.
Local Open Scope Z_scope.
Local Open Scope list_scope.
Local Notation length := List.length.

(* ---- dates ---- *)

Definition simple (c : byte) : bool := bytes_eqb (escape_char c) [c] && in_range 0 127 c.

Lemma quote_simple s : forallb simple s = true -> quote s = quote_char :: s ++ [quote_char].
Proof.
  intros H. assert (forallb is_ascii s = true) as A.
  { revert H. apply forallb_impl. intros c. unfold simple, is_ascii, in_range. intros H. apply andb_prop in H as [_ H].
    apply andb_prop in H as [_ H]. lia. }
  unfold quote. rewrite runes_ascii by assumption. f_equal. f_equal.
  clear A. induction s as [|c s IH]; [reflexivity|]. cbn [forallb] in H. apply andb_prop in H as [H1 H2].
  apply andb_prop in H1 as [H1 H1']. cbn [map List.concat]. rewrite IH by assumption. cbn [escape_rune]. rewrite H1'.
  apply bytes_eqb_eq in H1. rewrite H1. reflexivity.
Qed.

Lemma digit_simple c : is_digit c = true -> simple c = true.
Proof. destruct c as [[] [] [] [] [] [] [] []]; intros H; first [discriminate H|reflexivity]. Qed.

Lemma digits_simple s : forallb is_digit s = true -> forallb simple s = true.
Proof. apply forallb_impl. exact digit_simple. Qed.

Lemma zone_simple o : (o = None \/ exists z, o = Some z /\ zone_minutes z) -> forallb simple (format_zone o) = true.
Proof.
  intros [->|(z & -> & m & -> & M)]; [reflexivity|]. rewrite (format_offset (60 * m) m eq_refl M).
  cbn [forallb]. rewrite !forallb_app. rewrite (digits_simple (d2 (Z.abs m / 60))), (digits_simple (d2 (Z.abs m mod 60))) by (apply d2_digits; euclid).
  destruct (m <? 0); reflexivity.
Qed.

Lemma json_date_simple t : json_date t -> forallb simple (time_json_text t) = true.
Proof.
  intros [H Z]. unfold time_json_text. destruct (is_zero t); [reflexivity|]. rewrite format_stamp by assumption.
  destruct H as (H & H1 & H2 & H3 & _). destruct (calendar_date_ranges _ _ _ H) as (Hy & Hm & Hd).
  unfold stamp_text. rewrite !forallb_app. rewrite zone_simple by assumption.
  rewrite (digits_simple (d4 _)) by (apply d4_digits; lia).
  rewrite (digits_simple (d2 (tMonth t))), (digits_simple (d2 (tDay t))), (digits_simple (d2 (tHour t))),
    (digits_simple (d2 (tMin t))), (digits_simple (d2 (tSec t))) by (apply d2_digits; lia). reflexivity.
Qed.

Lemma trim_quotes s : (forall c r, s = c :: r -> c <> quote_char) -> (forall c r, s = r ++ [c] -> c <> quote_char) ->
  trim_both (byte_eqb quote_char) (quote_char :: s ++ [quote_char]) = s.
Proof.
  intros H1 H2. unfold trim_both. cbn [drop_while]. rewrite byte_eqb_refl.
  destruct s as [|c s].
  - reflexivity.
  - cbn [app drop_while]. assert (byte_eqb quote_char c = false) as -> by (apply byte_eqb_neq; intros E; symmetry in E; revert E; eapply H1; reflexivity).
    change (c :: s ++ [quote_char]) with ((c :: s) ++ [quote_char]). rewrite rev_unit. cbn [drop_while]. rewrite byte_eqb_refl.
    destruct (rev (c :: s)) as [|x r] eqn:E; [apply (f_equal (@rev byte)) in E; rewrite rev_involutive in E; discriminate|].
    assert (c :: s = rev r ++ [x]) as E' by (rewrite <- (rev_involutive (c :: s)), E; reflexivity).
    cbn [drop_while]. assert (byte_eqb quote_char x = false) as -> by (apply byte_eqb_neq; intros Eq; symmetry in Eq; revert Eq; eapply H2; exact E').
    rewrite <- E. apply rev_involutive.
Qed.

Lemma time_round_trip zone t : dated t -> time_unmarshal zone (print (JStr (time_json_text t))) = Some t.
Proof.
  intros [J Z]. cbn [print]. rewrite quote_simple by (apply json_date_simple; assumption). unfold time_unmarshal.
  unfold time_json_text. destruct (is_zero t) eqn:E.
  - rewrite (Z eq_refl). reflexivity.
  - rewrite trim_quotes.
    + pose proof (parse_rfc3339 zone t J) as P. destruct (format_rfc3339 t); [discriminate|exact P].
    + intros c r. destruct J as [H _]. rewrite format_stamp by assumption. destruct (stamp_first t (format_zone (tOff t)) H) as (c' & s & E' & Dg).
      rewrite E'. intros [= <- _] ->. discriminate Dg.
    + intros c r. destruct J as [H Zn]. rewrite format_stamp by assumption. destruct (zone_last _ Zn) as (r' & c' & E' & _ & N).
      rewrite E', app_assoc. intros X. apply app_inj_tail in X as [_ <-]. exact N.
Qed.

Lemma json_text_utf8 t : json_date t -> utf8_text (time_json_text t).
Proof.
  intros J. apply utf8_text_ascii. pose proof (json_date_simple t J) as S. revert S. apply forallb_impl.
  intros c H. unfold simple in H. apply andb_prop in H as [_ H]. unfold in_range, is_ascii in *. apply andb_prop in H as [_ H]. lia.
Qed.

(* ---- structs ---- *)

Definition is_zero_value (v : value) : bool :=
  match v with VInt z => z =? 0 | VStr s => Nat.eqb (length s) 0 | VTime _ => true end.

(* the tags of a struct type against a fresh value of it *)
Definition tags_okb (tags : list tag) (s : structure) (st0 : fields) : bool :=
  forallb (fun t => match find_tag tags (lit (tgKey t)) with Some t' => String.eqb (tgField t') (tgField t) | None => false end) tags
  && nodupb (map tgField tags) && nodupb (map tgKey tags)
  && forallb (fun n => existsb (String.eqb n) (map tgField tags)) (map fst s)
  && nodupb (map fst s)
  && forallb (fun t => match lookup (tgField t) st0 with Some v => negb (tgOmit t) || is_zero_value v | None => false end) tags
  && forallb (fun t => forallb is_ascii (lit (tgKey t))) tags.

Record tags_ok (tags : list tag) (s : structure) (st0 : fields) : Prop := mkTagsOk {
  tk_find : forall t, In t tags -> exists t', find_tag tags (lit (tgKey t)) = Some t' /\ tgField t' = tgField t;
  tk_fields : NoDup (map tgField tags);
  tk_keys : NoDup (map tgKey tags);
  tk_all : forall n, In n (map fst s) -> In n (map tgField tags);
  tk_names : NoDup (map fst s);
  tk_zero : forall t, In t tags -> exists v, lookup (tgField t) st0 = Some v /\ (tgOmit t = true -> is_zero_value v = true);
  tk_ascii : forall t, In t tags -> forallb is_ascii (lit (tgKey t)) = true }.

Lemma tags_okb_ok tags s st0 : tags_okb tags s st0 = true -> tags_ok tags s st0.
Proof.
  unfold tags_okb. rewrite !andb_true_iff. intros [[[[[[H1 H2] H3] H4] H5] H6] H7].
  rewrite forallb_forall in *. constructor.
  - intros t I. specialize (H1 t I). destruct (find_tag tags (lit (tgKey t))) as [t'|]; [|discriminate]. exists t'. split; [reflexivity|].
    now apply String.eqb_eq.
  - now apply nodupb_NoDup.
  - now apply nodupb_NoDup.
  - intros n I. apply existsb_string_In. apply H4. exact I.
  - now apply nodupb_NoDup.
  - intros t I. specialize (H6 t I). destruct (lookup (tgField t) st0) as [v|]; [|discriminate]. exists v. split; [reflexivity|].
    intros O. rewrite O in H6. exact H6.
  - exact H7.
Qed.

(* a member that sets its field to the value it has in [st] *)
Definition good_member (rt : runtime) (tags : list tag) (st : fields) (m : bytes * json) : Prop :=
  exists t v, find_tag tags (fst m) = Some t /\ lookup (tgField t) st = Some v /\
  forall old, kind_of old = kind_of v -> decode_field rt old (snd m) = Some v.

Lemma decode_good rt tags st l : Forall (good_member rt tags st) l -> forall st0, types st0 = types st ->
  exists st', decode_members rt tags l st0 = Some st' /\ types st' = types st /\
  forall n, lookup n st' = lookup n st \/
    (lookup n st' = lookup n st0 /\ forall m t, In m l -> find_tag tags (fst m) = Some t -> tgField t <> n).
Proof.
  induction 1 as [|[k j] l (t & v & F & L & G) _ IH]; intros st0 T; cbn [decode_members fst snd] in *.
  - exists st0. split; [reflexivity|]. split; [assumption|]. intros n. right. split; [reflexivity|]. intros m t [].
  - rewrite F. assert (exists old, lookup (tgField t) st0 = Some old /\ kind_of old = kind_of v) as (old & Lo & K).
    { pose proof (lookup_types (tgField t) st0) as E. rewrite T, lookup_types, L in E. destruct (lookup (tgField t) st0) as [old|]; [|discriminate].
      exists old. split; [reflexivity|]. cbn in E. congruence. }
    rewrite Lo, (G old K). destruct (IH (set_field (tgField t) v st0)) as (st' & D & T' & H).
    { rewrite set_field_types; [assumption|]. apply can_assign_spec. exists old. split; [assumption|congruence]. }
    exists st'. split; [assumption|]. split; [assumption|]. intros n. destruct (H n) as [E|[E N]]; [now left|].
    rewrite lookup_set_field in E. destruct (String.eqb_spec n (tgField t)) as [En|Ne].
    + left. rewrite E, Lo, En, L. reflexivity.
    + right. split; [assumption|]. intros m t' [<-|I] Fm; [|eapply N; eassumption].
      cbn [fst] in Fm. rewrite F in Fm. injection Fm as <-. congruence.
Qed.

Lemma encode_field_in t v m : In m (encode_field t v) -> fst m = lit (tgKey t).
Proof.
  unfold encode_field. destruct v; repeat match goal with |- context [if ?b then _ else _] => destruct b end; cbn; intuition (subst; reflexivity).
Qed.

Lemma encode_field_none t v : encode_field t v = [] -> tgOmit t = true /\ is_zero_value v = true /\ (v = VInt 0 \/ v = VStr []).
Proof.
  unfold encode_field. destruct v as [z|s|d].
  - destruct (tgOmit t); cbn; [|discriminate]. destruct (Z.eqb_spec z 0) as [->|]; [|discriminate]. auto.
  - destruct (tgOmit t); cbn; [|discriminate]. destruct s; [|discriminate]. auto.
  - discriminate.
Qed.

Lemma encode_field_good rt t v m : json_value v -> In m (encode_field t v) ->
  forall old, kind_of old = kind_of v -> decode_field rt old (snd m) = Some v.
Proof.
  intros J I old K. unfold encode_field in I. destruct v as [z|s|d]; cbn [json_value] in J.
  - destruct (tgOmit t && (z =? 0)); [destruct I|]. destruct I as [<-|[]]. destruct old; try discriminate K. cbn [decode_field snd].
    rewrite parse_itoa by assumption. reflexivity.
  - destruct (tgOmit t && (length s =? 0)%nat); [destruct I|]. destruct I as [<-|[]]. destruct old; try discriminate K. cbn [decode_field snd].
    rewrite utf8_text_clean by assumption. reflexivity.
  - destruct I as [<-|[]]. destruct old; try discriminate K. cbn [decode_field snd]. rewrite time_round_trip by assumption. reflexivity.
Qed.

Definition members_of (tags : list tag) (st : fields) : list (bytes * json) :=
  flat_map (fun t => match lookup (tgField t) st with Some v => encode_field t v | None => [] end) tags.

Lemma in_members tags st m : In m (members_of tags st) <->
  exists t v, In t tags /\ lookup (tgField t) st = Some v /\ In m (encode_field t v).
Proof.
  unfold members_of. rewrite in_flat_map. split.
  - intros (t & I & H). destruct (lookup (tgField t) st) as [v|] eqn:E; [|destruct H]. exists t, v. auto.
  - intros (t & v & I & E & H). exists t. rewrite E. auto.
Qed.

Lemma json_fields_lookup st n v : json_fields st -> lookup n st = Some v -> json_value v.
Proof. intros J L. apply (J n). apply lookup_In. assumption. Qed.

Lemma struct_read rt tags s st st0 l : tags_ok tags s st0 -> has_type s st -> has_type s st0 -> json_fields st ->
  (forall m, In m l <-> In m (members_of tags st)) -> decode_members rt tags l st0 = Some st.
Proof.
  intros K H H0 J L.
  destruct (decode_good rt tags st l) with (st0 := st0) as (st' & D & T & F).
  - apply Forall_forall. intros m I. apply L in I. apply in_members in I as (t & v & I & E & Hm).
    destruct (tk_find _ _ _ K t I) as (t' & F & Ef). exists t', v. rewrite (encode_field_in _ _ _ Hm). split; [assumption|].
    rewrite Ef. split; [assumption|]. eapply encode_field_good; [|exact Hm]. eapply json_fields_lookup; eassumption.
  - apply (has_type_types s); assumption.
  - rewrite D. f_equal. apply fields_ext.
    + rewrite <- types_names, T, types_names. reflexivity.
    + rewrite <- types_names, T, types_names, (has_type_names s st H). exact (tk_names _ _ _ K).
    + intros n. destruct (F n) as [E|[E N]]; [exact E|]. rewrite E.
      destruct (lookup n st) as [v|] eqn:Ln.
      * assert (In n (map tgField tags)) as I.
        { apply (tk_all _ _ _ K). rewrite <- (has_type_names s st H). eapply lookup_Some_In_fst. exact Ln. }
        apply in_map_iff in I as (t & <- & I).
        destruct (encode_field t v) as [|m r] eqn:Em.
        -- destruct (encode_field_none t v Em) as (O & _ & Z). destruct (tk_zero _ _ _ K t I) as (v0 & L0 & Z0). specialize (Z0 O).
           rewrite L0. pose proof (lookup_types (tgField t) st0) as X. rewrite (has_type_types s st0 st H0 H), lookup_types, Ln, L0 in X. cbn in X.
           destruct Z as [-> | ->]; destruct v0 as [z0|s0|d0]; try discriminate X; cbn in Z0.
           ++ f_equal. f_equal. lia.
           ++ destruct s0; [reflexivity|discriminate].
        -- exfalso. destruct (tk_find _ _ _ K t I) as (t' & Ft & Ef). assert (In m (encode_field t v)) as Im by (rewrite Em; now left).
           apply (N m t'); [|rewrite (encode_field_in _ _ _ Im); exact Ft|exact Ef].
           apply L. apply in_members. exists t, v. auto.
      * pose proof (lookup_types n st0) as X. rewrite (has_type_types s st0 st H0 H), lookup_types, Ln in X. destruct (lookup n st0); [discriminate|reflexivity].
Qed.

Lemma encode_field_plain t v m : json_value v -> In m (encode_field t v) -> plain_json (snd m) /\ norm (snd m) = snd m.
Proof.
  intros J I. unfold encode_field in I. destruct v as [z|s|d]; cbn [json_value] in J.
  - destruct (tgOmit t && (z =? 0)); [destruct I|]. destruct I as [<-|[]]. split; [constructor; assumption|reflexivity].
  - destruct (tgOmit t && (length s =? 0)%nat); [destruct I|]. destruct I as [<-|[]]. split; [|reflexivity].
    cbn [snd]. rewrite utf8_text_clean by assumption. constructor. assumption.
  - destruct I as [<-|[]]. split; [|reflexivity]. constructor. apply json_text_utf8. apply J.
Qed.

Lemma encode_field_single t v : encode_field t v = [] \/ exists j, encode_field t v = [(lit (tgKey t), j)].
Proof.
  unfold encode_field. destruct v; repeat match goal with |- context [if ?b then _ else _] => destruct b end; eauto.
Qed.

Lemma lit_inj a b : lit a = lit b -> a = b.
Proof. intros H. rewrite <- (string_of_list_ascii_of_string a), <- (string_of_list_ascii_of_string b). f_equal. exact H. Qed.

Lemma members_nodup tags st : NoDup (map tgKey tags) -> NoDup (map fst (members_of tags st)).
Proof.
  induction tags as [|t tags IH]; cbn [members_of flat_map map]; intros N; [constructor|]. inversion N as [|? ? N1 N2]; subst.
  fold (members_of tags st). specialize (IH N2).
  destruct (lookup (tgField t) st) as [v|]; [|exact IH]. destruct (encode_field_single t v) as [->|(j & ->)]; [exact IH|].
  cbn [app map fst]. constructor; [|exact IH]. intros I. apply in_map_iff in I as (m & E & I). apply in_members in I as (t' & v' & I & _ & Im).
  rewrite (encode_field_in _ _ _ Im) in E. apply lit_inj in E. apply N1. rewrite <- E. apply in_map. exact I.
Qed.

Lemma struct_plain tags s st st0 : tags_ok tags s st0 -> json_fields st -> plain_json (encode_struct tags st).
Proof.
  intros K J. unfold encode_struct. fold (members_of tags st). constructor.
  - apply members_nodup. exact (tk_keys _ _ _ K).
  - apply Forall_forall. intros m I. apply in_members in I as (t & v & I & L & Im). split.
    + rewrite (encode_field_in _ _ _ Im). apply utf8_text_ascii. apply (tk_ascii _ _ _ K). exact I.
    + eapply (encode_field_plain t v); [|exact Im]. eapply json_fields_lookup; eassumption.
Qed.

Lemma struct_norm tags s st st0 : tags_ok tags s st0 -> json_fields st ->
  norm (encode_struct tags st) = JObj (put_members (members_of tags st)).
Proof.
  intros K J. unfold encode_struct. fold (members_of tags st). cbn [norm]. do 2 f_equal.
  assert (forall m, In m (members_of tags st) -> norm (snd m) = snd m) as H.
  { intros m I. apply in_members in I as (t & v & I & L & Im). eapply (encode_field_plain t v); [|exact Im]. eapply json_fields_lookup; eassumption. }
  induction (members_of tags st) as [|[k j] l IH]; [reflexivity|]. cbn [map fst snd]. rewrite IH by (intros; apply H; now right).
  pose proof (H (k, j) (or_introl eq_refl)) as E. cbn [snd] in E. rewrite E. reflexivity.
Qed.

Lemma struct_round_trip rt tags s st st0 : tags_ok tags s st0 -> has_type s st -> has_type s st0 -> json_fields st ->
  decode_struct rt tags (norm (encode_struct tags st)) st0 = Some st.
Proof.
  intros K H H0 J. rewrite (struct_norm _ _ _ _ K J). cbn [decode_struct]. eapply struct_read; eauto.
  intros m. assert (Permutation (members_of tags st) (put_members (members_of tags st))) as P by (apply put_members_perm, members_nodup, (tk_keys _ _ _ K)).
  split; apply Permutation_in; [symmetry|]; exact P.
Qed.

(* a struct read straight from its own JSON, any order of the members *)
Lemma header_tags_ok : tags_ok header_tags header_struct new_header.
Proof. apply tags_okb_ok. vm_compute. reflexivity. Qed.
Lemma trailer_tags_ok : tags_ok trailer_tags trailer_struct new_trailer.
Proof. apply tags_okb_ok. vm_compute. reflexivity. Qed.
Lemma base_tags_ok : tags_ok base_tags base_struct (new_fields base_struct).
Proof. apply tags_okb_ok. vm_compute. reflexivity. Qed.
Lemma seg_tags_ok k : tags_ok (seg_tags k) (seg_struct k) (sFields (new_segment k)).
Proof. apply tags_okb_ok. destruct k; vm_compute; reflexivity. Qed.

Lemma new_header_type : has_type header_struct new_header. Proof. reflexivity. Qed.
Lemma new_trailer_type : has_type trailer_struct new_trailer. Proof. reflexivity. Qed.
Lemma new_base_type : has_type base_struct (new_fields base_struct). Proof. reflexivity. Qed.
Lemma new_segment_type k : has_type (seg_struct k) (sFields (new_segment k)). Proof. destruct k; reflexivity. Qed.

(* ---- data records ---- *)

Lemma unmarshal_base_steps rt l : forall b, unmarshal_base_members rt l b = run_steps (unmarshal_base_member rt) l b.
Proof. induction l as [|m l IH]; intros b; [reflexivity|]. cbn [unmarshal_base_members run_steps]. destruct (unmarshal_base_member rt m b); auto. Qed.

Lemma kind_of_name_spec name k : kind_of_name name = Some k -> name = lit (seg_name k).
Proof.
  unfold kind_of_name. intros H. apply find_some in H as [_ H]. now apply bytes_eqb_eq.
Qed.
Lemma kind_of_seg_name k : kind_of_name (lit (seg_name k)) = Some k.
Proof. destruct k; reflexivity. Qed.

Definition put_all (l : list segment) (b : base) : base := fold_left (fun b s => put_segment s b) l b.

Lemma segment_effect rt name j b b1 : unmarshal_segment rt name j b = Ok b1 ->
  (kind_of_name name = None /\ b1 = b /\ forall b', unmarshal_segment rt name j b' = Ok b') \/
  (exists s, kind_of_name name = Some (sKind s) /\ b1 = put_segment s b /\
     forall b', unmarshal_segment rt name j b' = Ok (put_segment s b')).
Proof.
  unfold unmarshal_segment. destruct (kind_of_name name) as [k|]; [|intros [= <-]; left; auto].
  destruct (decode_struct _ _ _ _) as [st|]; [|discriminate]. unfold base_add_segment.
  destruct (seg_validate (mkSegment k st)); [discriminate|]. intros [= <-]. right. exists (mkSegment k st). auto.
Qed.

Lemma segments_effect rt name l : forall b b1, unmarshal_segments rt name l b = Ok b1 ->
  (b1 = b /\ forall b', unmarshal_segments rt name l b' = Ok b') \/
  (exists k segs, kind_of_name name = Some k /\ Forall (fun s => sKind s = k) segs /\ b1 = put_all segs b /\
     forall b', unmarshal_segments rt name l b' = Ok (put_all segs b')).
Proof.
  induction l as [|j l IH]; intros b b1; cbn [unmarshal_segments]; [intros [= <-]; left; auto|].
  destruct (unmarshal_segment rt name j b) as [b0|e|] eqn:E; try discriminate. intros R.
  destruct (segment_effect _ _ _ _ _ E) as [(K & -> & G)|(s & K & -> & G)].
  - destruct (IH _ _ R) as [(-> & G')|(k & segs & K' & F & Eb & G')].
    + left. split; [reflexivity|]. intros b'. rewrite G. apply G'.
    + congruence.
  - right. destruct (IH _ _ R) as [(-> & G')|(k & segs & K' & F & -> & G')].
    + exists (sKind s), [s]. split; [assumption|]. split; [repeat constructor|]. split; [reflexivity|]. intros b'. rewrite G. apply G'.
    + rewrite K in K'. injection K' as <-. exists (sKind s), (s :: segs). split; [assumption|]. split; [constructor; [reflexivity|assumption]|].
      split; [reflexivity|]. intros b'. rewrite G. apply G'.
Qed.

(* what a member does: set the fields, add segments of its kind, or nothing *)
Inductive effect := Fields (st : fields) | Adds (k : segkind) (l : list segment) | Nothing.
Definition apply_effect (e : effect) (b : base) : base :=
  match e with Fields st => set_bFields b st | Adds _ l => put_all l b | Nothing => b end.
Definition effect_for (key : bytes) (e : effect) : Prop :=
  match e with
  | Fields _ => key = lit "base"
  | Adds k l => key = lit (seg_name k) /\ Forall (fun s => sKind s = k) l
  | Nothing => True
  end.

Lemma base_member_effect rt m b b1 : unmarshal_base_member rt m b = Ok b1 ->
  exists e, effect_for (fst m) e /\ b1 = apply_effect e b /\ forall b', unmarshal_base_member rt m b' = Ok (apply_effect e b').
Proof.
  destruct m as [key j]. cbn [fst]. unfold unmarshal_base_member. destruct (bytes_eqb key (lit "base")) eqn:Eb.
  - apply bytes_eqb_eq in Eb. destruct (decode_struct _ _ _ _) as [st|]; [|discriminate]. intros [= <-]. exists (Fields st). auto.
  - destruct (bytes_eqb key (lit "j1") || bytes_eqb key (lit "j2")).
    + destruct (json_list rt j) as [l|]; [|discriminate]. intros H.
      destruct (segments_effect _ _ _ _ _ H) as [(-> & G)|(k & segs & K & F & -> & G)].
      * exists Nothing. split; [exact I|]. auto.
      * exists (Adds k segs). split; [split; [now apply kind_of_name_spec|assumption]|]. auto.
    + intros H. destruct (segment_effect _ _ _ _ _ H) as [(K & -> & G)|(s & K & -> & G)].
      * exists Nothing. split; [exact I|]. auto.
      * exists (Adds (sKind s) [s]). split; [split; [now apply kind_of_name_spec|repeat constructor]|]. auto.
Qed.

Lemma put_fields s b st : put_segment s (set_bFields b st) = set_bFields (put_segment s b) st.
Proof. unfold put_segment. destruct (sKind s); reflexivity. Qed.
Lemma put_all_fields l : forall b st, put_all l (set_bFields b st) = set_bFields (put_all l b) st.
Proof. induction l as [|s l IH]; intros b st; [reflexivity|]. cbn [put_all fold_left]. rewrite put_fields. apply IH. Qed.
Lemma put_comm s s' b : sKind s <> sKind s' -> put_segment s (put_segment s' b) = put_segment s' (put_segment s b).
Proof. unfold put_segment. destruct (sKind s), (sKind s'); intros H; try congruence; reflexivity. Qed.
Lemma put_all_put l k s : Forall (fun s => sKind s = k) l -> sKind s <> k -> forall b, put_all l (put_segment s b) = put_segment s (put_all l b).
Proof.
  induction 1 as [|x l H F IH]; intros N b; [reflexivity|]. cbn [put_all fold_left]. rewrite put_comm by congruence. apply IH. assumption.
Qed.
Lemma put_all_comm l k l' k' : Forall (fun s => sKind s = k) l -> Forall (fun s => sKind s = k') l' -> k <> k' ->
  forall b, put_all l (put_all l' b) = put_all l' (put_all l b).
Proof.
  intros F F' N. induction F' as [|x l' H F' IH]; intros b; [reflexivity|]. cbn [put_all fold_left]. fold (put_all l').
  rewrite IH. rewrite (put_all_put l k) by (congruence || assumption). reflexivity.
Qed.

Lemma seg_name_not_base k : lit "base" <> lit (seg_name k).
Proof. destruct k; discriminate. Qed.

Lemma effects_comm k e k' e' b : effect_for k e -> effect_for k' e' -> k <> k' ->
  apply_effect e (apply_effect e' b) = apply_effect e' (apply_effect e b).
Proof.
  destruct e as [st|x l|], e' as [st'|x' l'|]; cbn [effect_for apply_effect]; intros H H' N; try reflexivity.
  - congruence.
  - symmetry. apply put_all_fields.
  - apply put_all_fields.
  - destruct H as [-> F], H' as [-> F']. apply (put_all_comm l x l' x'); try assumption. congruence.
Qed.

Lemma base_members_perm rt l l' b b' : Permutation l l' -> NoDup (map fst l) ->
  unmarshal_base_members rt l b = Ok b' -> unmarshal_base_members rt l' b = Ok b'.
Proof.
  rewrite !unmarshal_base_steps. intros P N. revert b b'. apply (run_steps_perm fst); try assumption.
  intros x y b b1 b2 Nk H1 H2. destruct (base_member_effect _ _ _ _ H1) as (e & Fe & -> & Ge).
  destruct (base_member_effect _ _ _ _ H2) as (e' & Fe' & -> & Ge'). exists (apply_effect e' b). split; [apply Ge'|].
  rewrite Ge. f_equal. apply (effects_comm (fst x) e (fst y) e'); assumption.
Qed.

(* ---- the segments of a data record ---- *)

Lemma segment_round_trip rt s b : json_segment s ->
  unmarshal_segment rt (lit (seg_name (sKind s))) (norm (encode_segment s)) b = Ok (put_segment s b).
Proof.
  intros (T & J & V). unfold unmarshal_segment. rewrite kind_of_seg_name. unfold encode_segment.
  rewrite (struct_round_trip rt _ (seg_struct (sKind s)) (sFields s)); [|apply seg_tags_ok|assumption|apply new_segment_type|assumption].
  unfold base_add_segment. assert (mkSegment (sKind s) (sFields s) = s) as -> by (destruct s; reflexivity). rewrite V. reflexivity.
Qed.

Lemma segments_round_trip rt k l : Forall json_segment l -> Forall (fun s => sKind s = k) l -> forall b,
  unmarshal_segments rt (lit (seg_name k)) (map norm (map encode_segment l)) b = Ok (put_all l b).
Proof.
  intros J F. induction l as [|s l IH]; intros b; [reflexivity|]. inversion J; inversion F; subst. cbn [map unmarshal_segments].
  rewrite segment_round_trip by assumption. rewrite IH by assumption. reflexivity.
Qed.

Lemma segment_plain s : json_segment s -> plain_json (encode_segment s).
Proof. intros (T & J & V). eapply struct_plain; [apply seg_tags_ok|assumption]. Qed.

Lemma norm_norm_list l : Forall plain_json l -> map norm (map norm l) = map norm l.
Proof. induction 1 as [|j l H _ IH]; [reflexivity|]. cbn [map]. rewrite norm_norm, IH by assumption. reflexivity. Qed.

Lemma segments_plain l : Forall json_segment l -> Forall plain_json (map encode_segment l).
Proof. induction 1; constructor; [apply segment_plain|]; assumption. Qed.

Definition many_member (k : segkind) (l : list segment) : list (bytes * json) :=
  match l with [] => [] | _ => [(lit (seg_name k), JArr (map encode_segment l))] end.
Definition one_member (k : segkind) (o : option segment) : list (bytes * json) :=
  match o with Some s => [(lit (seg_name k), encode_segment s)] | None => [] end.
Definition norm_members (l : list (bytes * json)) : list (bytes * json) := map (fun m => (fst m, norm (snd m))) l.

Lemma many_round_trip rt k l b : (k = J1 \/ k = J2) -> Forall json_segment l -> Forall (fun s => sKind s = k) l ->
  run_steps (unmarshal_base_member rt) (norm_members (many_member k l)) b = Ok (put_all l b).
Proof.
  intros K J F. destruct l as [|s l]; [reflexivity|].
  change (norm_members (many_member k (s :: l))) with [(lit (seg_name k), JArr (map norm (map encode_segment (s :: l))))].
  pose proof (segments_plain _ J) as Pl. remember (s :: l) as ls. cbn [run_steps].
  unfold unmarshal_base_member.
  assert (bytes_eqb (lit (seg_name k)) (lit "base") = false) as -> by (destruct k; reflexivity).
  assert (bytes_eqb (lit (seg_name k)) (lit "j1") || bytes_eqb (lit (seg_name k)) (lit "j2") = true) as -> by (destruct K as [-> | ->]; reflexivity).
  unfold json_list. rewrite remarshal_arr, (traverse_some _ norm).
  - cbn [option_map]. rewrite norm_norm_list by assumption. rewrite segments_round_trip by assumption. reflexivity.
  - apply Forall_forall. intros j I. apply in_map_iff in I as (j' & <- & I). apply remarshal_plain. apply norm_plain.
    rewrite Forall_forall in Pl. auto.
Qed.

Lemma one_round_trip rt k o b : k <> J1 -> k <> J2 -> (forall s, o = Some s -> json_segment s /\ sKind s = k) ->
  run_steps (unmarshal_base_member rt) (norm_members (one_member k o)) b = Ok (put_all (opt_to_list o) b).
Proof.
  intros N1 N2 J. destruct o as [s|]; [|reflexivity]. destruct (J s eq_refl) as [Js Ks]. cbn [one_member norm_members map fst snd run_steps opt_to_list].
  unfold unmarshal_base_member.
  assert (bytes_eqb (lit (seg_name k)) (lit "base") = false) as -> by (destruct k; reflexivity).
  assert (bytes_eqb (lit (seg_name k)) (lit "j1") || bytes_eqb (lit (seg_name k)) (lit "j2") = false) as -> by (destruct k; try congruence; reflexivity).
  rewrite <- Ks. rewrite segment_round_trip by assumption. reflexivity.
Qed.

Lemma put_j1 l : Forall (fun s => sKind s = J1) l -> forall f a b c d e g h i,
  put_all l (mkBase f a b c d e g h i) = mkBase f (a ++ l) b c d e g h i.
Proof.
  induction 1 as [|s l H F IH]; intros; cbn [put_all fold_left]; [now rewrite app_nil_r|]. unfold put_segment at 2. rewrite H. cbn.
  fold (put_all l). rewrite IH. rewrite <- app_assoc. reflexivity.
Qed.
Lemma put_j2 l : Forall (fun s => sKind s = J2) l -> forall f a b c d e g h i,
  put_all l (mkBase f a b c d e g h i) = mkBase f a (b ++ l) c d e g h i.
Proof.
  induction 1 as [|s l H F IH]; intros; cbn [put_all fold_left]; [now rewrite app_nil_r|]. unfold put_segment at 2. rewrite H. cbn.
  fold (put_all l). rewrite IH. rewrite <- app_assoc. reflexivity.
Qed.

Lemma put_k1 o : (forall s, o = Some s -> sKind s = K1) -> forall f a b d e g h i,
  put_all (opt_to_list o) (mkBase f a b None d e g h i) = mkBase f a b o d e g h i.
Proof. intros H. destruct o as [s|]; [|reflexivity]. intros. cbn [opt_to_list put_all fold_left]. unfold put_segment. rewrite (H s eq_refl). reflexivity. Qed.
Lemma put_k2 o : (forall s, o = Some s -> sKind s = K2) -> forall f a b c e g h i,
  put_all (opt_to_list o) (mkBase f a b c None e g h i) = mkBase f a b c o e g h i.
Proof. intros H. destruct o as [s|]; [|reflexivity]. intros. cbn [opt_to_list put_all fold_left]. unfold put_segment. rewrite (H s eq_refl). reflexivity. Qed.
Lemma put_k3 o : (forall s, o = Some s -> sKind s = K3) -> forall f a b c d g h i,
  put_all (opt_to_list o) (mkBase f a b c d None g h i) = mkBase f a b c d o g h i.
Proof. intros H. destruct o as [s|]; [|reflexivity]. intros. cbn [opt_to_list put_all fold_left]. unfold put_segment. rewrite (H s eq_refl). reflexivity. Qed.
Lemma put_k4 o : (forall s, o = Some s -> sKind s = K4) -> forall f a b c d e h i,
  put_all (opt_to_list o) (mkBase f a b c d e None h i) = mkBase f a b c d e o h i.
Proof. intros H. destruct o as [s|]; [|reflexivity]. intros. cbn [opt_to_list put_all fold_left]. unfold put_segment. rewrite (H s eq_refl). reflexivity. Qed.
Lemma put_l1 o : (forall s, o = Some s -> sKind s = L1) -> forall f a b c d e g i,
  put_all (opt_to_list o) (mkBase f a b c d e g None i) = mkBase f a b c d e g o i.
Proof. intros H. destruct o as [s|]; [|reflexivity]. intros. cbn [opt_to_list put_all fold_left]. unfold put_segment. rewrite (H s eq_refl). reflexivity. Qed.
Lemma put_n1 o : (forall s, o = Some s -> sKind s = N1) -> forall f a b c d e g h,
  put_all (opt_to_list o) (mkBase f a b c d e g h None) = mkBase f a b c d e g h o.
Proof. intros H. destruct o as [s|]; [|reflexivity]. intros. cbn [opt_to_list put_all fold_left]. unfold put_segment. rewrite (H s eq_refl). reflexivity. Qed.

Lemma encode_base_members b : encode_base b = JObj ((lit "base", encode_struct base_tags (bFields b))
  :: many_member J1 (bJ1 b) ++ many_member J2 (bJ2 b) ++ one_member K1 (bK1 b) ++ one_member K2 (bK2 b)
  ++ one_member K3 (bK3 b) ++ one_member K4 (bK4 b) ++ one_member L1 (bL1 b) ++ one_member N1 (bN1 b)).
Proof.
  unfold encode_base, many_member, one_member, segs_of. destruct b as [f a b c d e g h i].
  cbn [bFields bJ1 bJ2 bK1 bK2 bK3 bK4 bL1 bN1]. destruct a, b, c, d, e, g, h, i; reflexivity.
Qed.

Lemma norm_members_app a b : norm_members (a ++ b) = norm_members a ++ norm_members b.
Proof. apply map_app. Qed.

Definition base_members (b : base) : list (bytes * json) :=
  (lit "base", encode_struct base_tags (bFields b))
  :: many_member J1 (bJ1 b) ++ many_member J2 (bJ2 b) ++ one_member K1 (bK1 b) ++ one_member K2 (bK2 b)
  ++ one_member K3 (bK3 b) ++ one_member K4 (bK4 b) ++ one_member L1 (bL1 b) ++ one_member N1 (bN1 b).

Lemma NoDup_lits l : nodupb l = true -> NoDup (map lit l).
Proof.
  intros H. apply nodupb_NoDup in H. induction H as [|x l N _ IH]; cbn [map]; constructor; [|assumption].
  intros I. apply in_map_iff in I as (y & E & I). apply lit_inj in E. subst. contradiction.
Qed.

Definition if_list (c : bool) (n : string) : list string := if c then [n] else [].
Lemma many_keys k l : exists c, map fst (many_member k l) = map lit (if_list c (seg_name k)).
Proof. destruct l; [exists false|exists true]; reflexivity. Qed.
Lemma one_keys k o : exists c, map fst (one_member k o) = map lit (if_list c (seg_name k)).
Proof. destruct o; [exists true|exists false]; reflexivity. Qed.

Lemma base_members_nodup b : NoDup (map fst (base_members b)).
Proof.
  unfold base_members. cbn [map fst]. rewrite !map_app.
  destruct (many_keys J1 (bJ1 b)) as (c1 & ->), (many_keys J2 (bJ2 b)) as (c2 & ->), (one_keys K1 (bK1 b)) as (c3 & ->),
    (one_keys K2 (bK2 b)) as (c4 & ->), (one_keys K3 (bK3 b)) as (c5 & ->), (one_keys K4 (bK4 b)) as (c6 & ->),
    (one_keys L1 (bL1 b)) as (c7 & ->), (one_keys N1 (bN1 b)) as (c8 & ->).
  rewrite <- !map_app.
  match goal with |- NoDup (_ :: map lit ?l) => change (NoDup (map lit ("base" :: l))) end.
  apply NoDup_lits. destruct c1, c2, c3, c4, c5, c6, c7, c8; vm_compute; reflexivity.
Qed.

Lemma base_segments_in b s : json_base b ->
  (In s (bJ1 b) \/ In s (bJ2 b) \/ bK1 b = Some s \/ bK2 b = Some s \/ bK3 b = Some s \/ bK4 b = Some s \/ bL1 b = Some s \/ bN1 b = Some s) ->
  json_segment s.
Proof.
  intros (_ & _ & F) H. rewrite Forall_forall in F. apply F. unfold segments_of. rewrite !in_app_iff.
  intuition (match goal with E : _ = Some _ |- _ => rewrite E end; cbn; tauto).
Qed.

Lemma key_text k : utf8_text (lit (seg_name k)).
Proof. apply utf8_text_ascii. destruct k; reflexivity. Qed.

Lemma many_plain k l : Forall json_segment l -> Forall (fun m => utf8_text (fst m) /\ plain_json (snd m)) (many_member k l).
Proof.
  intros F. destruct l as [|s l]; [constructor|]. constructor; [|constructor]. split; [apply key_text|]. cbn [snd]. constructor.
  apply Forall_forall. intros j I. apply in_map_iff in I as (x & <- & I). apply segment_plain. rewrite Forall_forall in F. auto.
Qed.
Lemma one_plain k o : (forall s, o = Some s -> json_segment s) -> Forall (fun m => utf8_text (fst m) /\ plain_json (snd m)) (one_member k o).
Proof.
  intros F. destruct o as [s|]; [|constructor]. constructor; [|constructor]. split; [apply key_text|]. cbn [snd]. apply segment_plain. auto.
Qed.

Lemma base_plain b : json_base b -> plain_json (encode_base b).
Proof.
  intros J. rewrite encode_base_members. fold (base_members b). constructor; [apply base_members_nodup|].
  unfold base_members. constructor.
  - split; [apply utf8_text_ascii; reflexivity|]. cbn [snd]. eapply struct_plain; [apply base_tags_ok|]. apply J.
  - pose proof (base_segments_in b) as B. rewrite !Forall_app.
    repeat split; first [apply many_plain; apply Forall_forall|apply one_plain]; intros s H; apply B; tauto.
Qed.

Lemma base_members_round_trip rt b : json_base b ->
  unmarshal_base_members rt (norm_members (base_members b)) new_base = Ok b.
Proof.
  intros J. pose proof J as ((T & P) & Jf & _). rewrite unmarshal_base_steps. unfold base_members. cbn [norm_members map fst snd].
  fold (norm_members (many_member J1 (bJ1 b) ++ many_member J2 (bJ2 b) ++ one_member K1 (bK1 b) ++ one_member K2 (bK2 b)
    ++ one_member K3 (bK3 b) ++ one_member K4 (bK4 b) ++ one_member L1 (bL1 b) ++ one_member N1 (bN1 b))).
  cbn [run_steps]. unfold unmarshal_base_member at 1. rewrite bytes_eqb_refl.
  rewrite (struct_round_trip rt base_tags base_struct (bFields b)); [|apply base_tags_ok|assumption|apply new_base_type|assumption].
  destruct P as (P1 & P2 & P3 & P4 & P5 & P6 & P7 & P8). pose proof (base_segments_in b) as B.
  rewrite !norm_members_app.
  erewrite run_steps_app by (apply many_round_trip; [now left|apply Forall_forall; intros s H; apply B; tauto|assumption]).
  erewrite run_steps_app by (apply many_round_trip; [now right|apply Forall_forall; intros s H; apply B; tauto|assumption]).
  erewrite run_steps_app by (apply one_round_trip; [discriminate|discriminate|intros s H; split; [apply B; tauto|auto]]).
  erewrite run_steps_app by (apply one_round_trip; [discriminate|discriminate|intros s H; split; [apply B; tauto|auto]]).
  erewrite run_steps_app by (apply one_round_trip; [discriminate|discriminate|intros s H; split; [apply B; tauto|auto]]).
  erewrite run_steps_app by (apply one_round_trip; [discriminate|discriminate|intros s H; split; [apply B; tauto|auto]]).
  erewrite run_steps_app by (apply one_round_trip; [discriminate|discriminate|intros s H; split; [apply B; tauto|auto]]).
  rewrite one_round_trip; [|discriminate|discriminate|intros s H; split; [apply B; tauto|auto]].
  f_equal. clear - P1 P2 P3 P4 P5 P6 P7 P8. destruct b as [f l1 l2 c d e g h i]. cbn [bFields bJ1 bJ2 bK1 bK2 bK3 bK4 bL1 bN1] in *.
  unfold new_base, set_bFields. cbn [bFields bJ1 bJ2 bK1 bK2 bK3 bK4 bL1 bN1]. rewrite put_j1, put_j2 by assumption. cbn [app].
  rewrite put_k1, put_k2, put_k3, put_k4, put_l1, put_n1 by assumption. reflexivity.
Qed.

Lemma norm_base b : norm (encode_base b) = JObj (put_members (norm_members (base_members b))).
Proof. rewrite encode_base_members. reflexivity. Qed.

Lemma norm_members_nodup l : NoDup (map fst l) -> NoDup (map fst (norm_members l)).
Proof. unfold norm_members. rewrite map_keys. auto. Qed.

Lemma unmarshal_base_round_trip rt n j b : orders rt -> json_base b -> plain_json j -> norm j = norm (encode_base b) ->
  unmarshal_base rt n j new_base = Ok b.
Proof.
  intros O J Pj E. unfold unmarshal_base, json_map. rewrite remarshal_plain by assumption. rewrite E, norm_base.
  change (clear_j new_base) with new_base.
  pose proof (norm_members_nodup _ (base_members_nodup b)) as N.
  eapply base_members_perm; [|exact N|apply base_members_round_trip; assumption].
  transitivity (put_members (norm_members (base_members b))); [apply put_members_perm; exact N|apply O].
Qed.

(* ---- files ---- *)

Lemma file_steps rt l : forall f, decode_file_members rt l f = run_steps (decode_file_member rt) l f.
Proof. induction l as [|m l IH]; intros f; [reflexivity|]. cbn [decode_file_members run_steps]. destruct (decode_file_member rt m f); auto. Qed.

Lemma decode_data_effect rt l : forall n f f1, decode_data rt n l f = Ok f1 ->
  exists bs, f1 = set_bases f (flBases f ++ bs) /\
  forall f', flPacked f' = flPacked f -> decode_data rt n l f' = Ok (set_bases f' (flBases f' ++ bs)).
Proof.
  induction l as [|j l IH]; intros n f f1; cbn [decode_data].
  - intros [= <-]. exists []. split; [rewrite app_nil_r; destruct f; reflexivity|]. intros f' _. rewrite app_nil_r. destruct f'; reflexivity.
  - destruct (decode_record rt n j (new_data_record (flPacked f))) as [r|e|] eqn:E; try discriminate. intros H.
    destruct (IH _ _ _ H) as (bs & -> & G). exists (r :: bs). split.
    + unfold set_bases. cbn. rewrite <- app_assoc. reflexivity.
    + intros f' P. rewrite P, E. rewrite G by exact P. unfold set_bases. cbn. rewrite <- app_assoc. reflexivity.
Qed.

Lemma file_members_perm rt l l' f f' : Permutation l l' -> NoDup (map fst l) ->
  decode_file_members rt l f = Ok f' -> decode_file_members rt l' f = Ok f'.
Proof.
  rewrite !file_steps. intros P N. revert f f'. apply (run_steps_perm fst); try assumption.
  intros [kx jx] [ky jy] f f1 f2 Nk. cbn [fst] in Nk. unfold decode_file_member.
  destruct (bytes_eqb kx (lit "header")) eqn:X1; [apply bytes_eqb_eq in X1; subst kx|].
  - assert (bytes_eqb ky (lit "header") = false) as -> by (apply bytes_eqb_neq; congruence).
    destruct (decode_record rt 0 jx (flHeader f)) as [h|e|] eqn:Eh; try discriminate. intros [= <-].
    destruct (bytes_eqb ky (lit "trailer")).
    + cbn. destruct (decode_record rt 0 jy (flTrailer f)) as [t|e|] eqn:Et; try discriminate. intros [= <-].
      exists (set_trailer f t). split; [reflexivity|]. cbn. rewrite Eh. reflexivity.
    + destruct (bytes_eqb ky (lit "data")).
      * destruct (json_list rt jy) as [d|]; [|discriminate]. intros H. destruct (decode_data_effect _ _ _ _ _ H) as (bs & -> & G).
        exists (set_bases f (flBases f ++ bs)). split; [apply G; reflexivity|]. cbn. rewrite Eh. reflexivity.
      * intros [= <-]. exists f. rewrite Eh. auto.
  - destruct (bytes_eqb kx (lit "trailer")) eqn:X2; [apply bytes_eqb_eq in X2; subst kx|].
    + assert (bytes_eqb ky (lit "trailer") = false) as -> by (apply bytes_eqb_neq; congruence).
      destruct (decode_record rt 0 jx (flTrailer f)) as [h|e|] eqn:Eh; try discriminate. intros [= <-].
      destruct (bytes_eqb ky (lit "header")).
      * cbn. destruct (decode_record rt 0 jy (flHeader f)) as [t|e|] eqn:Et; try discriminate. intros [= <-].
        exists (set_header f t). split; [reflexivity|]. cbn. rewrite Eh. reflexivity.
      * destruct (bytes_eqb ky (lit "data")).
        -- destruct (json_list rt jy) as [d|]; [|discriminate]. intros H. destruct (decode_data_effect _ _ _ _ _ H) as (bs & -> & G).
           exists (set_bases f (flBases f ++ bs)). split; [apply G; reflexivity|]. cbn. rewrite Eh. reflexivity.
        -- intros [= <-]. exists f. rewrite Eh. auto.
    + destruct (bytes_eqb kx (lit "data")) eqn:X3; [apply bytes_eqb_eq in X3; subst kx|].
      * assert (bytes_eqb ky (lit "data") = false) as -> by (apply bytes_eqb_neq; congruence).
        destruct (json_list rt jx) as [d|]; [|discriminate]. intros H. destruct (decode_data_effect _ _ _ _ _ H) as (bs & -> & G).
        destruct (bytes_eqb ky (lit "header")).
        -- cbn. destruct (decode_record rt 0 jy (flHeader f)) as [t|e|] eqn:Et; try discriminate. intros [= <-].
           exists (set_header f t). split; [reflexivity|]. rewrite G by reflexivity. reflexivity.
        -- destruct (bytes_eqb ky (lit "trailer")).
           ++ cbn. destruct (decode_record rt 0 jy (flTrailer f)) as [t|e|] eqn:Et; try discriminate. intros [= <-].
              exists (set_trailer f t). split; [reflexivity|]. rewrite G by reflexivity. reflexivity.
           ++ intros [= <-]. exists f. rewrite G by reflexivity. auto.
      * intros [= <-] H. exists f2. split; [exact H|reflexivity].
Qed.

Definition data_json (isNil : bool) (l : list record) : json :=
  match l with [] => if isNil then JNull else JArr [] | l => JArr (map encode_record l) end.
Definition file_members (isNil : bool) (f : file) : list (bytes * json) :=
  [(lit "header", encode_record (flHeader f)); (lit "data", data_json isNil (flBases f));
   (lit "trailer", encode_record (flTrailer f))].

Lemma encode_file_members isNil f : encode_file isNil f = JObj (file_members isNil f).
Proof. unfold encode_file, file_members, data_json. destruct (flBases f); reflexivity. Qed.

Lemma file_members_nodup isNil f : NoDup (map fst (file_members isNil f)).
Proof. change (NoDup (map lit ["header"; "data"; "trailer"])). apply NoDup_lits. reflexivity. Qed.

Lemma file_plain isNil f : json_file f -> plain_json (encode_file isNil f).
Proof.
  intros ((h & Eh & Th & Jh) & F & (t & Et & Tt & Jt)). rewrite encode_file_members.
  constructor; [apply file_members_nodup|]. unfold file_members. rewrite Eh, Et. cbn [encode_record].
  repeat apply Forall_cons; try apply Forall_nil; cbn [fst snd]; (split; [apply utf8_text_ascii; reflexivity|]).
  - eapply struct_plain; [apply header_tags_ok|assumption].
  - unfold data_json. destruct (flBases f) as [|r l]; [destruct isNil; repeat constructor|]. constructor. apply Forall_forall. intros j I.
    apply in_map_iff in I as (x & <- & I). rewrite Forall_forall in F. destruct (F x I) as (b & -> & J). apply base_plain. assumption.
  - eapply struct_plain; [apply trailer_tags_ok|assumption].
Qed.

Lemma records_plain p l : Forall (fun r => exists b, r = RBase p b /\ json_base b) l -> Forall plain_json (map encode_record l).
Proof. induction 1 as [|r l (b & -> & J) _ IH]; constructor; [apply base_plain; assumption|assumption]. Qed.

Lemma data_round_trip rt p l : orders rt -> Forall (fun r => exists b, r = RBase p b /\ json_base b) l ->
  forall n f, flPacked f = p -> decode_data rt n (map norm (map encode_record l)) f = Ok (set_bases f (flBases f ++ l)).
Proof.
  intros O F. induction F as [|r l (b & -> & J) F IH]; intros n f P; cbn [map decode_data].
  - rewrite app_nil_r. destruct f; reflexivity.
  - rewrite P. cbn [decode_record new_data_record encode_record].
    rewrite (unmarshal_base_round_trip rt n _ b); [|assumption|assumption|apply norm_plain, base_plain; assumption|apply norm_norm, base_plain; assumption].
    rewrite IH by exact P. unfold set_bases. cbn. rewrite <- app_assoc. reflexivity.
Qed.

Lemma file_round_trip rt isNil j f : orders rt -> json_file f -> plain_json j -> norm j = norm (encode_file isNil f) ->
  unmarshal_file rt j (new_file_p (flPacked f)) = Ok f.
Proof.
  intros O J Pj E. unfold unmarshal_file, json_map. rewrite remarshal_plain by assumption. rewrite E.
  rewrite encode_file_members. change (norm (JObj (file_members isNil f))) with (JObj (put_members (norm_members (file_members isNil f)))).
  pose proof (norm_members_nodup _ (file_members_nodup isNil f)) as N.
  eapply file_members_perm; [|exact N|].
  - transitivity (put_members (norm_members (file_members isNil f))); [apply put_members_perm; exact N|apply O].
  - clear N Pj E j. destruct J as ((h & Eh & Th & Jh) & F & (t & Et & Tt & Jt)).
    destruct f as [p hd bs tr]. cbn [flPacked flHeader flBases flTrailer] in *. subst hd tr.
    unfold file_members, norm_members. cbn [map fst snd flHeader flTrailer flBases].
    cbn [decode_file_members]. unfold decode_file_member at 1. rewrite bytes_eqb_refl. unfold new_file_p at 1. cbn [flHeader decode_record encode_record].
    rewrite (struct_round_trip rt header_tags header_struct h); [|apply header_tags_ok|assumption|apply new_header_type|assumption].
    unfold decode_file_member at 1. change (bytes_eqb (lit "data") (lit "header")) with false. change (bytes_eqb (lit "data") (lit "trailer")) with false.
    rewrite bytes_eqb_refl. cbv iota.
    assert (forall f, flPacked f = p -> match json_list rt (norm (data_json isNil bs)) with
      | Some l => decode_data rt 1 l f | None => Err (ErrOther "Unable to parse input json file") end = Ok (set_bases f (flBases f ++ bs))) as D.
    { intros f Pf. destruct bs as [|b bs].
      - rewrite app_nil_r. destruct isNil; destruct f; reflexivity.
      - change (norm (data_json isNil (b :: bs))) with (JArr (map norm (map encode_record (b :: bs)))).
        unfold json_list. pose proof (records_plain p _ F) as Pl. remember (b :: bs) as l. rewrite remarshal_arr, (traverse_some _ norm).
        + cbn [option_map]. rewrite norm_norm_list by assumption. apply (data_round_trip rt p); assumption.
        + apply Forall_forall. intros j I. apply in_map_iff in I as (j' & <- & I). apply remarshal_plain. apply norm_plain.
          rewrite Forall_forall in Pl. auto. }
    rewrite D by reflexivity. unfold decode_file_member. change (bytes_eqb (lit "trailer") (lit "header")) with false. rewrite bytes_eqb_refl. cbv iota.
    cbn [set_bases set_header new_file_p flPacked flHeader flBases flTrailer decode_record encode_record app].
    rewrite (struct_round_trip rt trailer_tags trailer_struct t); [|apply trailer_tags_ok|assumption|apply new_trailer_type|assumption].
    reflexivity.
Qed.

(* every value that differs in the order of keys only *)
Lemma same_plain_norm j j' : plain_json j -> same_json j j' -> forall rt, remarshal rt j' = Some (norm j).
Proof. intros P S rt. rewrite <- (remarshal_same rt j j' S). apply remarshal_plain. assumption. Qed.
