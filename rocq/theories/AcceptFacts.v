(* Facts about the JSON that is accepted *)
From Coq Require Import ZArith NArith Bool Ascii String List Permutation Lia.
Import ListNotations.
From Verif Require Import GoBase GoBaseFacts GoTime TimeFacts GoLayout Json Tables JsonTables Codec Records File Reader JsonFile
  SpecCodec SpecLayouts SpecRecords FieldFacts FieldProps RecordFacts SpecJson LayoutFacts JsonTextFacts JsonMapFacts JsonFacts JsonProps
  SpecSparse DateFacts SparseFacts SpecDates SpecMerge MergeFacts SpecAccept.
Local Open Scope string_scope.
Local Open Scope Z_scope.
Local Open Scope list_scope.
Local Notation length := List.length.

(* ---- arrays and objects are no dates ---- *)

Lemma no_bracket zone c : c = "["%char \/ c = "{"%char -> Forall (fun l => forall r, parse_layout zone l (c :: r) = None) dateFormats.
Proof.
  unfold dateFormats. intros [-> | ->];
    repeat (apply Forall_cons; [intros [|x1 [|x2 [|x3 r]]]; vm_compute; reflexivity|]); apply Forall_nil.
Qed.

Lemma first_layout_none zone l s : Forall (fun f => parse_layout zone f s = None) l -> first_layout zone l s = None.
Proof. induction 1 as [|f l H _ IH]; [reflexivity|]. cbn [first_layout]. rewrite H. exact IH. Qed.

Lemma drop_while_last f l c : f c = false -> exists r, drop_while f (l ++ [c]) = r ++ [c].
Proof.
  intros H. induction l as [|x l IH]; cbn [app drop_while].
  - rewrite H. exists []. reflexivity.
  - destruct (f x); [exact IH|]. exists (x :: l). reflexivity.
Qed.
Lemma trim_kept f c r : f c = false -> exists r', trim_both f (c :: r) = c :: r'.
Proof.
  intros H. unfold trim_both. cbn [drop_while]. rewrite H. cbn [rev]. destruct (drop_while_last f (rev r) c H) as (x & E). rewrite E.
  exists (rev x). rewrite rev_app_distr. reflexivity.
Qed.

Lemma bracket_undated zone c r : c = "["%char \/ c = "{"%char -> time_unmarshal zone (c :: r) = None.
Proof.
  intros C. unfold time_unmarshal. destruct (trim_kept (byte_eqb quote_char) c r) as (r1 & ->); [destruct C as [-> | ->]; reflexivity|].
  unfold parse_date_string. destruct (trim_kept is_space_char c r1) as (r2 & ->); [destruct C as [-> | ->]; reflexivity|].
  apply first_layout_none. eapply Forall_impl; [|exact (no_bracket zone c C)]. intros l H. apply H.
Qed.

Lemma word_undated zone w : In w [lit "null"; lit "true"; lit "false"] -> time_unmarshal zone w = None.
Proof. intros [<-|[<-|[<-|[]]]]; vm_compute; reflexivity. Qed.

Lemma dated_spec zone j t : time_unmarshal zone (print j) = Some t <-> dated zone j t.
Proof.
  unfold dated, reads_as. destruct j as [|b|s|s|l|l].
  - change (print JNull) with (lit "null"). rewrite word_undated by (cbn; tauto). split; [discriminate|]. intros [(s & [=] & _)|(s & [=] & _)].
  - replace (time_unmarshal zone (print (JBool b))) with (@None time) by (symmetry; apply word_undated; destruct b; cbn; tauto).
    split; [discriminate|]. intros [(s & [=] & _)|(s & [=] & _)].
  - split; [intros H; right; exists s; auto|]. intros [(x & [=] & _)|(x & [= <-] & H)]. exact H.
  - split; [intros H; left; exists s; auto|]. intros [(x & [= <-] & H)|(x & [=] & _)]. exact H.
  - cbn [print]. rewrite bracket_undated by auto. split; [discriminate|]. intros [(s & [=] & _)|(s & [=] & _)].
  - cbn [print]. rewrite bracket_undated by auto. split; [discriminate|]. intros [(s & [=] & _)|(s & [=] & _)].
Qed.

(* ---- fields ---- *)

Lemma field_spec rt o j v : plain_json j ->
  (decode_field rt o j = Some v <-> kind_of v = kind_of o /\ (says (rtZone rt) j v \/ (j = JNull /\ kind_of v <> KTime /\ v = o))).
Proof.
  intros P. destruct o as [z|s|t]; cbn [decode_field kind_of].
  - destruct j as [|b|n|x|l|l]; try (split; [discriminate|]; intros [K [S|(E & _)]]; [inversion S; subst; discriminate|discriminate E]).
    + split; [intros [= <-]; split; [reflexivity|right; split; [reflexivity|split; [discriminate|reflexivity]]]|].
      intros [K [S|(_ & _ & ->)]]; [inversion S; subst; discriminate K|reflexivity].
    + inversion P as [| |z' Hz| | |]; subst. rewrite parse_itoa by assumption. split.
      * intros [= <-]. split; [reflexivity|]. left. now constructor.
      * intros [K [S|(E & _)]]; [|discriminate E]. inversion S as [z2 H2 E2| |j2 t2 D2]; subst; [|discriminate K].
        assert (parse_int 64 (itoa z2) = parse_int 64 (itoa z')) as E by (rewrite E2; reflexivity). rewrite !parse_itoa in E by assumption. congruence.
  - destruct j as [|b|n|x|l|l]; try (split; [discriminate|]; intros [K [S|(E & _)]]; [inversion S; subst; discriminate|discriminate E]).
    + split; [intros [= <-]; split; [reflexivity|right; split; [reflexivity|split; [discriminate|reflexivity]]]|].
      intros [K [S|(_ & _ & ->)]]; [inversion S; subst; discriminate K|reflexivity].
    + split; [intros [= <-]; split; [reflexivity|left; constructor]|].
      intros [K [S|(E & _)]]; [|discriminate E]. inversion S; subst; [reflexivity|discriminate K].
  - split.
    + destruct (time_unmarshal (rtZone rt) (print j)) as [t'|] eqn:E; [|discriminate]. intros [= <-]. split; [reflexivity|]. left. constructor. now apply dated_spec.
    + intros [K [S|(_ & N & ->)]]; [|exfalso; now apply N]. inversion S as [z Hz|s|j' t' D]; subst; try discriminate K. apply dated_spec in D. rewrite D. reflexivity.
Qed.

(* ---- structs ---- *)

Lemma clear_tail m l : clear_keys (m :: l) -> clear_keys l.
Proof. intros [A N]. inversion A; subst. cbn [map] in N. inversion N; subst. split; assumption. Qed.

Section Struct.
Variables (rt : runtime) (tags : list tag) (s : structure).
Hypothesis R : forall old, has_type s old -> readable tags s old.
Hypothesis NN : NoDup (map fst s).
Let says_ := says (rtZone rt).

Lemma typed_nodup st : has_type s st -> NoDup (map fst st).
Proof. intros T. rewrite (has_type_names s st T). exact NN. Qed.
Lemma typed_unique st n v w : has_type s st -> holds st n v -> holds st n w -> v = w.
Proof. intros T H G. pose proof (In_lookup _ _ _ (typed_nodup _ T) H). pose proof (In_lookup _ _ _ (typed_nodup _ T) G). congruence. Qed.
Lemma typed_same st st' n v : has_type s st -> has_type s st' -> holds st n v -> exists w, holds st' n w /\ kind_of w = kind_of v.
Proof.
  intros T T' H. pose proof (In_lookup _ _ _ (typed_nodup _ T) H) as L. pose proof (lookup_types n st') as E.
  rewrite (has_type_types s st' st T' T), lookup_types, L in E. destruct (lookup n st') as [w|] eqn:Lw; [|discriminate]. exists w.
  split; [now apply lookup_In|]. cbn in E. congruence.
Qed.

Lemma members_spec l : clear_keys l -> Forall (fun m => plain_json (snd m)) l -> forall old st, has_type s old ->
  (decode_members rt tags l old = Some st <-> takes (rtZone rt) s l old st).
Proof.
  induction l as [|[k j] l IH]; intros C P old st T.
  - cbn [decode_members]. split.
    + intros [= <-]. split; [assumption|]. intros n v H. right. split; [intros k j []|assumption].
    + intros [T' D]. f_equal. apply fields_ext.
      * rewrite (has_type_names s old T), (has_type_names s st T'). reflexivity.
      * now apply typed_nodup.
      * intros n. destruct (lookup n st) as [v|] eqn:L.
        -- destruct (D n v) as [(k & j & [] & _)|[_ H]]; [now apply lookup_In|]. apply In_lookup; [now apply typed_nodup|assumption].
        -- pose proof (lookup_types n old) as E. rewrite (has_type_types s old st T T'), lookup_types, L in E. destruct (lookup n old); [discriminate|reflexivity].
  - pose proof (clear_tail _ _ C) as C'. inversion P as [|m ms Pj Pl]; subst. cbn [snd] in Pj. specialize (IH C' Pl).
    assert (Forall (fun c => code c < 128) k) as A by (destruct C as [A _]; inversion A; assumption).
    cbn [decode_members]. destruct (find_tag tags k) as [t|] eqn:F.
    + pose proof (find_key _ _ _ _ _ (R old T) A F) as K. destruct (find_tag_fold _ _ _ F) as [It _].
      destruct (rd_fields _ _ _ (R old T) t It) as (o & Lo). rewrite Lo.
      assert (holds old (tgField t) o) as Ho by now apply lookup_In.
      assert (forall k' j', In (k', j') l -> ~ key_is (tgField t) k') as Only.
      { intros k' j' I K'. destruct (key_same_member _ _ _ _ _ _ C (or_introl eq_refl) (or_intror I) K K') as [<- _].
        destruct C as [_ N]. cbn [map] in N. inversion N as [|x y Nx _]; subst. apply Nx. apply in_map_iff. exists (k, j'). auto. }
      assert (forall v, kind_of v = kind_of o -> has_type s (set_field (tgField t) v old)) as Ts.
      { intros v Kv. pose proof (set_field_types (tgField t) v old) as E. unfold has_type in *. unfold types in E. rewrite E; [assumption|].
        apply can_assign_spec. exists o. auto. }
      assert (forall v n w, kind_of v = kind_of o -> holds (set_field (tgField t) v old) n w -> (n = tgField t /\ w = v) \/ (n <> tgField t /\ holds old n w)) as Hs.
      { intros v n w Kv H. apply In_lookup in H; [|now apply typed_nodup, Ts]. rewrite lookup_set_field in H. destruct (String.eqb_spec n (tgField t)) as [E|E].
        - rewrite Lo in H. left. split; congruence.
        - right. split; [assumption|now apply lookup_In]. }
      assert (forall v n w, n <> tgField t -> holds old n w -> holds (set_field (tgField t) v old) n w) as Hs'.
      { intros v n w N H. apply lookup_In. rewrite lookup_set_field. destruct (String.eqb_spec n (tgField t)); [contradiction|]. apply In_lookup; [now apply typed_nodup|assumption]. }
      split.
      * destruct (decode_field rt o j) as [v|] eqn:D; [|discriminate]. intros H. apply (field_spec rt o j v Pj) in D as [Kv D].
        apply IH in H; [|now apply Ts]. destruct H as [T' H]. split; [assumption|]. intros n w Hw.
        destruct (H n w Hw) as [(k' & j' & I & K' & G)|[No G]].
        -- left. exists k', j'. split; [now right|]. split; [assumption|]. destruct G as [G|(-> & Kt & G)]; [now left|]. right. split; [reflexivity|]. split; [assumption|].
           destruct (Hs v n w Kv G) as [[-> _]|[_ G']]; [exfalso; exact (Only _ _ I K')|assumption].
        -- destruct (Hs v n w Kv G) as [[-> ->]|[Nn G']].
           ++ left. exists k, j. split; [now left|]. split; [assumption|]. destruct D as [D|(-> & Kt & ->)]; [now left|right; auto].
           ++ right. split; [|assumption]. intros k' j' [[= <- <-]|I]; [|exact (No _ _ I)]. intros K'. apply Nn.
              destruct (key_find tags s old k n (R old T) A) as (t' & F' & E'); [|assumption|congruence].
              rewrite <- (has_type_names s old T). apply in_map_iff. exists (n, w). auto.
      * intros [T' H]. destruct (typed_same old st _ _ T T' Ho) as (v & Hv & Kv).
        assert (says_ j v \/ (j = JNull /\ kind_of v <> KTime /\ v = o)) as D.
        { destruct (H _ _ Hv) as [(k' & j' & I & K' & G)|[No _]]; [|exfalso; exact (No _ _ (or_introl eq_refl) K)].
          destruct (key_same_member _ _ _ _ _ _ C (or_introl eq_refl) I K K') as [<- <-]. destruct G as [G|(E & Kt & G)]; [now left|right].
          split; [assumption|]. split; [assumption|]. exact (typed_unique old _ _ _ T G Ho). }
        assert (decode_field rt o j = Some v) as -> by (apply field_spec; auto).
        apply IH; [now apply Ts|]. split; [assumption|]. intros n w Hw. destruct (String.eqb_spec n (tgField t)) as [->|Nn].
        -- right. split; [exact Only|]. assert (w = v) as -> by exact (typed_unique st _ _ _ T' Hw Hv). apply lookup_In. rewrite lookup_set_field, String.eqb_refl, Lo. reflexivity.
        -- destruct (H n w Hw) as [(k' & j' & [[= <- <-]|I] & K' & G)|[No G]].
           ++ exfalso. apply Nn. destruct (key_find tags s old k n (R old T) A) as (t' & F' & E'); [|assumption|congruence].
              rewrite <- (has_type_names s st T'). apply in_map_iff. exists (n, w). auto.
           ++ left. exists k', j'. split; [assumption|]. split; [assumption|]. destruct G as [G|(E & Kt & G)]; [now left|right]. auto.
           ++ right. split; [|auto]. intros k' j' I. apply (No k' j'). now right.
    + assert (forall n v st', has_type s st' -> holds st' n v -> ~ key_is n k) as No.
      { intros n v st' T' H K. destruct (key_find tags s old k n (R old T) A) as (t' & F' & _); [|assumption|congruence].
        rewrite <- (has_type_names s st' T'). apply in_map_iff. exists (n, v). auto. }
      rewrite IH by assumption. split; intros [T' H]; (split; [assumption|]); intros n v Hv; specialize (No n v st T' Hv).
      * destruct (H n v Hv) as [(k' & j' & I & G)|[N G]]; [left; exists k', j'; split; [now right|assumption]|].
        right. split; [|assumption]. intros k' j' [[= <- <-]|I]; [assumption|exact (N _ _ I)].
      * destruct (H n v Hv) as [(k' & j' & [[= <- <-]|I] & K & G)|[N G]]; [contradiction|left; exists k', j'; auto|].
        right. split; [|assumption]. intros k' j' I. apply (N k' j'). now right.
Qed.

Lemma says_norm zone j v : says zone (norm j) v <-> says zone j v.
Proof.
  destruct j; try reflexivity; split; intros S; inversion S as [| |j t D]; subst;
    destruct D as [(x & E & _)|(x & E & _)]; discriminate E.
Qed.
Lemma norm_null j : norm j = JNull <-> j = JNull.
Proof. destruct j; cbn [norm]; split; congruence. Qed.

Lemma normed_in l k j : NoDup (map fst l) -> In (k, j) l -> In (k, norm j) (put_members (norm_members l)).
Proof. intros N I. now apply normal_in. Qed.
Lemma normed_out l k j : NoDup (map fst l) -> In (k, j) (put_members (norm_members l)) -> exists j', In (k, j') l /\ j = norm j'.
Proof.
  intros N I. eapply Permutation_in in I; [|apply Permutation_sym, normed_perm; exact N]. unfold norm_members in I.
  apply in_map_iff in I as ([k' j'] & E & I). cbn [fst snd] in E. injection E as -> <-. eauto.
Qed.

Lemma takes_norm zone l old st : NoDup (map fst l) -> (takes zone s (put_members (norm_members l)) old st <-> takes zone s l old st).
Proof.
  intros N. split; intros [T H]; (split; [assumption|]); intros n v Hv.
  - destruct (H n v Hv) as [(k & j & I & K & G)|[No G]].
    + apply normed_out in I as (j' & I & ->); [|assumption]. left. exists k, j'. split; [assumption|]. split; [assumption|].
      destruct G as [G|(E & Kt & G)]; [left; exact (proj1 (says_norm _ _ _) G)|right]. apply (proj1 (norm_null _)) in E. auto.
    + right. split; [|assumption]. intros k j I. apply (No k (norm j)). now apply normed_in.
  - destruct (H n v Hv) as [(k & j & I & K & G)|[No G]].
    + left. exists k, (norm j). split; [now apply normed_in|]. split; [assumption|].
      destruct G as [G|(-> & Kt & G)]; [left; now apply says_norm|right]. auto.
    + right. split; [|assumption]. intros k j I. apply normed_out in I as (j' & I & _); [|assumption]. exact (No _ _ I).
Qed.

Lemma struct_spec j old st : plain_json j -> tidy j -> has_type s old ->
  (decode_struct rt tags (norm j) old = Some st <-> takes_struct (rtZone rt) s j old st).
Proof.
  intros P Y T. unfold takes_struct. destruct j as [|b|x|x|l|l]; cbn [norm decode_struct].
  - split; [intros [= <-]; right; auto|]. intros [(l & [=] & _)|[_ ->]]. reflexivity.
  - split; [discriminate|]. intros [(l & [=] & _)|[[=] _]].
  - split; [discriminate|]. intros [(l & [=] & _)|[[=] _]].
  - split; [discriminate|]. intros [(l & [=] & _)|[[=] _]].
  - split; [discriminate|]. intros [(l' & [=] & _)|[[=] _]].
  - inversion Y as [| | | | |l0 C Fl]; subst. pose proof (plain_obj_nodup _ P) as N.
    change (map (fun m => (fst m, norm (snd m))) l) with (norm_members l).
    rewrite members_spec.
    + rewrite takes_norm by assumption. split; [intros H; left; exists l; auto|]. intros [(l' & [= <-] & H)|[[=] _]]. exact H.
    + eapply clear_perm; [apply normed_perm; assumption|now apply clear_norm].
    + apply Forall_forall. intros [k j] I. cbn [snd]. apply normed_out in I as (j' & I & ->); [|assumption]. apply norm_plain. eapply plain_member; eassumption.
    + assumption.
Qed.
End Struct.

Lemma header_spec rt j old st : plain_json j -> tidy j -> has_type header_struct old ->
  (decode_struct rt header_tags (norm j) old = Some st <-> takes_struct (rtZone rt) header_struct j old st).
Proof.
  apply struct_spec; [|apply (rd_names _ _ _ header_readable)]. intros x T. eapply readable_any; [apply header_readable|assumption].
Qed.
Lemma trailer_spec rt j old st : plain_json j -> tidy j -> has_type trailer_struct old ->
  (decode_struct rt trailer_tags (norm j) old = Some st <-> takes_struct (rtZone rt) trailer_struct j old st).
Proof.
  apply struct_spec; [|apply (rd_names _ _ _ trailer_readable)]. intros x T. eapply readable_any; [apply trailer_readable|assumption].
Qed.
Lemma base_spec rt j old st : plain_json j -> tidy j -> has_type base_struct old ->
  (decode_struct rt base_tags (norm j) old = Some st <-> takes_struct (rtZone rt) base_struct j old st).
Proof.
  apply struct_spec; [|apply (rd_names _ _ _ base_readable)]. intros x T. eapply readable_any; [apply base_readable|assumption].
Qed.
Lemma seg_spec rt k j old st : plain_json j -> tidy j -> has_type (seg_struct k) old ->
  (decode_struct rt (seg_tags k) (norm j) old = Some st <-> takes_struct (rtZone rt) (seg_struct k) j old st).
Proof.
  apply struct_spec; [|apply (rd_names _ _ _ (seg_readable k))]. intros x T. eapply readable_any; [apply seg_readable|assumption].
Qed.

(* ---- new structs ---- *)

Lemma left_out_unique id n v w : left_out id n v -> left_out id n w -> kind_of v = kind_of w -> v = w.
Proof. intros [E|E|E|E] [F|F|F|F] K; try reflexivity; try contradiction; discriminate K. Qed.

Lemma fresh_unique s id a b : NoDup (map fst s) -> fresh s id a -> fresh s id b -> a = b.
Proof.
  intros N [Ta Fa] [Tb Fb]. apply fields_ext.
  - rewrite (has_type_names s a Ta), (has_type_names s b Tb). reflexivity.
  - rewrite (has_type_names s a Ta). exact N.
  - intros n. pose proof (lookup_types n a) as E. rewrite (has_type_types s a b Ta Tb), lookup_types in E.
    destruct (lookup n a) as [v|] eqn:La, (lookup n b) as [w|] eqn:Lb; try discriminate E; [|reflexivity].
    cbn in E. f_equal. apply (left_out_unique id n); [apply Fa; now apply lookup_In|apply Fb; now apply lookup_In|congruence].
Qed.

Lemma fresh_new s id st : has_type s st -> fresh_okb id st = true -> fresh s id st.
Proof.
  intros T F. split; [assumption|]. intros n v H. unfold fresh_okb in F. rewrite forallb_forall in F. specialize (F _ H). cbn [fst snd] in F.
  destruct (String.eqb_spec n (fst id)) as [E|E].
  - destruct v as [z|x|t]; try discriminate F. apply bytes_eqb_eq in F. rewrite F. now apply LeftId.
  - destruct v as [z|[|c x]|t]; try discriminate F.
    + apply Z.eqb_eq in F. rewrite F. now apply LeftInt.
    + now apply LeftStr.
    + rewrite (is_no_date_eq _ F). now apply LeftDate.
Qed.
Lemma seg_is_fresh k old : fresh (seg_struct k) (segment_id k) old <-> old = sFields (new_segment k).
Proof.
  pose proof (fresh_new _ _ _ (rd_type _ _ _ (seg_readable k)) (seg_fresh k)) as F. split; [|intros ->; exact F].
  intros H. eapply fresh_unique; [apply (rd_names _ _ _ (seg_readable k))|exact H|exact F].
Qed.
Lemma base_is_fresh old : fresh base_struct no_id old <-> old = new_fields base_struct.
Proof.
  pose proof (fresh_new _ _ _ (rd_type _ _ _ base_readable) base_fresh) as F. split; [|intros ->; exact F].
  intros H. eapply fresh_unique; [apply (rd_names _ _ _ base_readable)|exact H|exact F].
Qed.
Lemma blank_is b : blank b <-> b = new_base.
Proof.
  unfold blank. split.
  - intros (F & H1 & H2 & H3 & H4 & H5 & H6 & H7 & H8). apply base_is_fresh in F. destruct b as [f a1 a2 x d e g h i]. cbn [bFields bJ1 bJ2 bK1 bK2 bK3 bK4 bL1 bN1] in *. subst. reflexivity.
  - intros ->. split; [now apply base_is_fresh|]. repeat split.
Qed.

(* ---- members ---- *)

Lemma member_iff l key (P Q : json -> Prop) (m n : Prop) : (forall j, In (lit key, j) l -> (P j <-> Q j)) -> (m <-> n) -> (member l key P m <-> member l key Q n).
Proof.
  intros H E. unfold member. split; (intros [(j & I & G)|[A G]]; [left; exists j; split; [assumption|now apply (H j I)]|right; split; [assumption|now apply E]]).
Qed.
Lemma member_ex {A} l key (P : A -> json -> Prop) (m : A -> Prop) :
  member l key (fun j => exists x, P x j) (exists x, m x) <-> exists x, member l key (P x) (m x).
Proof.
  unfold member. split.
  - intros [(j & I & x & G)|[N (x & G)]]; exists x; [left; eauto|right; eauto].
  - intros (x & [(j & I & G)|[N G]]); [left; eauto|right; eauto].
Qed.
Lemma member_and l key (P : json -> Prop) (m X : Prop) : member l key (fun j => X /\ P j) (X /\ m) <-> X /\ member l key P m.
Proof.
  unfold member. split.
  - intros [(j & I & x & G)|[N (x & G)]]; (split; [assumption|]); [left; eauto|right; eauto].
  - intros (x & [(j & I & G)|[N G]]); [left; eauto|right; eauto].
Qed.
Lemma member_nil key P m : member [] key P m <-> m.
Proof. unfold member. split; [intros [(j & [] & _)|[_ H]]; exact H|]. intros H. right. split; [intros []|assumption]. Qed.

Lemma given_or_absent key (l : list (bytes * json)) : (exists j, In (lit key, j) l) \/ absent key l.
Proof.
  unfold absent. induction l as [|[k j] l [(x & I)|IH]].
  - right. intros [].
  - left. exists x. now right.
  - destruct (list_eq_dec ascii_dec k (lit key)) as [->|N]; [left; exists j; now left|]. right. intros [E|E]; [cbn in E; congruence|contradiction].
Qed.

Lemma chunk_spec {B} (step : bytes * json -> B -> res B) l key b c : NoDup (map fst l) ->
  (run_steps step (pick (lit key) (put_members (norm_members l))) b = Ok c <-> member l key (fun j => step (lit key, norm j) b = Ok c) (c = b)).
Proof.
  intros N. pose proof (normal_keys l N) as N'. destruct (given_or_absent key l) as [(j & I)|A].
  - rewrite (pick_in _ _ _ N' (normed_in _ _ _ N I)). cbn [run_steps].
    assert (match step (lit key, norm j) b with Ok b' => Ok b' | Err e => Err e | Panic => Panic end = step (lit key, norm j) b) as E by (destruct (step (lit key, norm j) b); reflexivity).
    split.
    + intros H. left. exists j. split; [assumption|]. destruct (step (lit key, norm j) b); try discriminate. assumption.
    + intros [(j' & I' & H)|[A _]].
      * rewrite (nodup_same _ _ _ _ N I I'). rewrite H. reflexivity.
      * exfalso. apply A. apply in_map_iff. exists (lit key, j). auto.
  - rewrite pick_absent by now apply normal_absent. cbn [run_steps]. split; [intros [= <-]; right; auto|].
    intros [(j' & I' & _)|[_ ->]]; [|reflexivity]. exfalso. apply A. apply in_map_iff. exists (lit key, j'). auto.
Qed.

Lemma run_steps_split {A B} (step : A -> B -> res B) l l' b c :
  run_steps step (l ++ l') b = Ok c <-> exists b1, run_steps step l b = Ok b1 /\ run_steps step l' b1 = Ok c.
Proof.
  revert b. induction l as [|x l IH]; intros b; cbn [app run_steps].
  - split; [intros H; exists b; auto|]. intros (b1 & [= <-] & H). exact H.
  - destruct (step x b); [apply IH| |]; (split; [discriminate|]; intros (b1 & H & _); discriminate H).
Qed.

Lemma tidy_member l k j : tidy (JObj l) -> In (k, j) l -> tidy j.
Proof. intros Y I. inversion Y as [| | | | |l0 C F]; subst. rewrite Forall_forall in F. exact (F _ I). Qed.

(* ---- segments ---- *)

Lemma segment_spec rt k j b c : plain_json j -> tidy j ->
  (unmarshal_segment rt (lit (seg_name k)) (norm j) b = Ok c <-> exists s, c = put_segment s b /\ takes_segment (rtZone rt) k j s).
Proof.
  intros P Y. unfold unmarshal_segment. rewrite kind_of_seg_name.
  pose proof (fun st => seg_spec rt k j (sFields (new_segment k)) st P Y (rd_type _ _ _ (seg_readable k))) as D.
  split.
  - destruct (decode_struct rt (seg_tags k) (norm j) (sFields (new_segment k))) as [st|] eqn:E; [|discriminate].
    unfold base_add_segment. destruct (seg_validate (mkSegment k st)) eqn:V; [discriminate|]. intros [= <-].
    exists (mkSegment k st). split; [reflexivity|]. split; [reflexivity|]. split; [assumption|]. exists (sFields (new_segment k)).
    split; [now apply seg_is_fresh|]. now apply D.
  - intros (s & -> & K & V & old & F & T). apply seg_is_fresh in F. subst old. apply D in T. rewrite T. unfold base_add_segment.
    assert (mkSegment k (sFields s) = s) as -> by (destruct s; cbn in *; congruence). rewrite V. reflexivity.
Qed.

Lemma segments_spec rt k a : Forall plain_json a -> Forall tidy a -> forall b c,
  (unmarshal_segments rt (lit (seg_name k)) (map norm a) b = Ok c <-> exists segs, c = put_all segs b /\ Forall2 (takes_segment (rtZone rt) k) a segs).
Proof.
  induction 1 as [|j a P F IH]; intros Y b c; cbn [map unmarshal_segments].
  - split; [intros [= <-]; exists []; split; [reflexivity|constructor]|]. intros (segs & -> & H). inversion H. reflexivity.
  - inversion Y as [|x y Yj Ya]; subst. specialize (IH Ya). split.
    + destruct (unmarshal_segment rt (lit (seg_name k)) (norm j) b) as [b1| |] eqn:E; try discriminate. intros H.
      apply segment_spec in E as (s & -> & T); try assumption. apply IH in H as (segs & -> & G). exists (s :: segs). split; [reflexivity|now constructor].
    + intros (segs & -> & H). inversion H as [|x s a' r T G]; subst. rewrite (proj2 (segment_spec rt k j b (put_segment s b) P Yj)) by eauto.
      apply IH. exists r. split; [reflexivity|assumption].
Qed.

Lemma json_list_norm rt j l : plain_json j ->
  (json_list rt (norm j) = Some l <-> (exists a, j = JArr a /\ l = map norm a) \/ (j = JNull /\ l = [])).
Proof.
  intros P. unfold json_list. rewrite remarshal_plain by now apply norm_plain. rewrite norm_norm by assumption.
  destruct j; cbn [norm]; (split; [try discriminate; intros [= <-]|intros [(a & E & F)|[E F]]; try discriminate E; subst; try reflexivity]).
  - right. auto.
  - left. eauto.
  - injection E as ->. reflexivity.
Qed.

Lemma many_step rt k j b c : (k = J1 \/ k = J2) -> plain_json j -> tidy j ->
  (unmarshal_base_member rt (lit (seg_name k), norm j) b = Ok c <-> exists segs, c = put_all segs b /\ takes_list (takes_segment (rtZone rt) k) j segs).
Proof.
  intros K P Y.
  assert (unmarshal_base_member rt (lit (seg_name k), norm j) b =
    match json_list rt (norm j) with Some l => unmarshal_segments rt (lit (seg_name k)) l b | None => Err (ErrOther "unable to parse segment") end) as ->
    by (destruct K as [-> | ->]; reflexivity).
  unfold takes_list. split.
  - destruct (json_list rt (norm j)) as [l|] eqn:E; [|discriminate]. intros H. apply json_list_norm in E as [(a & -> & ->)|[-> ->]]; [| |assumption].
    + inversion P; inversion Y; subst. apply segments_spec in H as (segs & -> & F); try assumption. exists segs. split; [reflexivity|]. left. eauto.
    + cbn in H. injection H as <-. exists []. split; [reflexivity|]. right. auto.
  - intros (segs & -> & [(a & -> & F)|[-> ->]]).
    + rewrite (proj2 (json_list_norm rt (JArr a) (map norm a) P)) by eauto. inversion P; inversion Y; subst. apply segments_spec; eauto.
    + reflexivity.
Qed.

Lemma one_step rt k j b c : k <> J1 -> k <> J2 -> plain_json j -> tidy j ->
  (unmarshal_base_member rt (lit (seg_name k), norm j) b = Ok c <-> exists s, c = put_segment s b /\ takes_segment (rtZone rt) k j s).
Proof.
  intros H1 H2 P Y. rewrite <- segment_spec by assumption.
  assert (unmarshal_base_member rt (lit (seg_name k), norm j) b = unmarshal_segment rt (lit (seg_name k)) (norm j) b) as -> by (destruct k; try congruence; reflexivity).
  reflexivity.
Qed.

Lemma base_step rt j b c : plain_json j -> tidy j ->
  (unmarshal_base_member rt (lit "base", norm j) b = Ok c <->
   exists st, c = set_bFields b st /\ exists old, fresh base_struct no_id old /\ takes_struct (rtZone rt) base_struct j old st).
Proof.
  intros P Y. unfold unmarshal_base_member. rewrite bytes_eqb_refl.
  pose proof (fun st => base_spec rt j (new_fields base_struct) st P Y (rd_type _ _ _ base_readable)) as D. split.
  - destruct (decode_struct rt base_tags (norm j) (new_fields base_struct)) as [st|] eqn:E; [|discriminate]. intros [= <-]. exists st. split; [reflexivity|].
    exists (new_fields base_struct). split; [now apply base_is_fresh|now apply D].
  - intros (st & -> & old & F & T). apply base_is_fresh in F. subst old. apply D in T. rewrite T. reflexivity.
Qed.

(* ---- data records ---- *)

Section Base.
Variables (rt : runtime) (l : list (bytes * json)).
Hypothesis P : plain_json (JObj l).
Hypothesis Y : tidy (JObj l).
Let N : NoDup (map fst l) := plain_obj_nodup _ P.
Let l' := put_members (norm_members l).
Let go key := run_steps (unmarshal_base_member rt) (pick (lit key) l').

Lemma base_chunk b c : go "base" b = Ok c <->
  exists st, c = set_bFields b st /\ member l "base" (fun v => exists old, fresh base_struct no_id old /\ takes_struct (rtZone rt) base_struct v old st) (st = bFields b).
Proof.
  unfold go, l'. rewrite chunk_spec by exact N.
  rewrite (member_iff l "base" _ (fun v => exists st, c = set_bFields b st /\ exists old, fresh base_struct no_id old /\ takes_struct (rtZone rt) base_struct v old st)
    _ (exists st, c = set_bFields b st /\ st = bFields b)).
  - rewrite member_ex. split; intros (st & H); exists st; now apply member_and.
  - intros j I. apply base_step; [eapply plain_member; eassumption|eapply tidy_member; eassumption].
  - split; [intros ->; exists (bFields b); split; [destruct b; reflexivity|reflexivity]|]. intros (st & -> & ->). destruct b; reflexivity.
Qed.
Lemma many_chunk k b c : (k = J1 \/ k = J2) -> (go (seg_name k) b = Ok c <-> exists segs, c = put_all segs b /\ takes_many (rtZone rt) l (seg_name k) k segs).
Proof.
  intros K. unfold go, l'. rewrite chunk_spec by exact N.
  rewrite (member_iff l (seg_name k) _ (fun v => exists segs, c = put_all segs b /\ takes_list (takes_segment (rtZone rt) k) v segs)
    _ (exists segs, c = put_all segs b /\ segs = [])).
  - rewrite member_ex. split; intros (st & H); exists st; now apply member_and.
  - intros j I. apply many_step; [assumption|eapply plain_member; eassumption|eapply tidy_member; eassumption].
  - split; [intros ->; exists []; auto|]. intros (segs & -> & ->). reflexivity.
Qed.
Lemma one_chunk k b c : k <> J1 -> k <> J2 -> (go (seg_name k) b = Ok c <-> exists n, c = put_over k n b /\
  member l (seg_name k) (fun j => exists s, n = Some s /\ takes_segment (rtZone rt) k j s) (n = None)).
Proof.
  intros H1 H2. unfold go, l'. rewrite chunk_spec by exact N.
  rewrite (member_iff l (seg_name k) _ (fun v => exists n, c = put_over k n b /\ exists s, n = Some s /\ takes_segment (rtZone rt) k v s)
    _ (exists n, c = put_over k n b /\ n = None)).
  - rewrite member_ex. split; intros (st & H); exists st; now apply member_and.
  - intros j I. rewrite one_step; [|assumption|assumption|eapply plain_member; eassumption|eapply tidy_member; eassumption]. split.
    + intros (s & -> & T). exists (Some s). split; [reflexivity|]. eauto.
    + intros (n & -> & s & -> & T). exists s. split; [reflexivity|assumption].
  - split; [intros ->; exists None; auto|]. intros (n & -> & ->). reflexivity.
Qed.

Lemma one_over key k old o : takes_one (rtZone rt) l key k old o <->
  exists n, o = match n with Some s => Some s | None => old end /\
  member l key (fun j => exists s, n = Some s /\ takes_segment (rtZone rt) k j s) (n = None).
Proof.
  unfold takes_one. split.
  - intros [(j & I & s & -> & T)|[A ->]]; [exists (Some s)|exists None]; (split; [reflexivity|]); [left; eauto|right; auto].
  - intros (n & -> & [(j & I & s & -> & T)|[A ->]]); [left; eauto|right; auto].
Qed.

Lemma list_kinds k j segs : takes_list (takes_segment (rtZone rt) k) j segs -> Forall (fun s => sKind s = k) segs.
Proof. intros [(a & _ & F)|[_ ->]]; [|constructor]. induction F as [|x s a r (K & _) F IH]; constructor; assumption. Qed.
Lemma many_kinds key k segs : takes_many (rtZone rt) l key k segs -> Forall (fun s => sKind s = k) segs.
Proof. intros [(j & _ & T)|[_ ->]]; [eapply list_kinds; eassumption|constructor]. Qed.
Lemma over_kind key k n : member l key (fun j => exists s, n = Some s /\ takes_segment (rtZone rt) k j s) (n = None) -> forall s, n = Some s -> sKind s = k.
Proof. intros [(j & _ & s & -> & K & _)|[_ ->]] s' E; [injection E as <-; assumption|discriminate]. Qed.

Lemma base_loop b c : run_steps (unmarshal_base_member rt) (arrange base_keys l') (clear_j b) = Ok c <->
  member l "base" (fun v => exists old, fresh base_struct no_id old /\ takes_struct (rtZone rt) base_struct v old (bFields c)) (bFields c = bFields b)
  /\ takes_many (rtZone rt) l "j1" J1 (bJ1 c) /\ takes_many (rtZone rt) l "j2" J2 (bJ2 c)
  /\ takes_one (rtZone rt) l "k1" K1 (bK1 b) (bK1 c) /\ takes_one (rtZone rt) l "k2" K2 (bK2 b) (bK2 c) /\ takes_one (rtZone rt) l "k3" K3 (bK3 b) (bK3 c)
  /\ takes_one (rtZone rt) l "k4" K4 (bK4 b) (bK4 c) /\ takes_one (rtZone rt) l "l1" L1 (bL1 b) (bL1 c) /\ takes_one (rtZone rt) l "n1" N1 (bN1 b) (bN1 c).
Proof.
  unfold base_keys. cbn [map arrange].
  assert (forall k k' l, k <> k' -> pick (lit k) (drop (lit k') l) = pick (lit k) l) as PD
    by (intros k k' x Hk; apply pick_drop; intros Hl; apply Hk; now apply lit_inj).
  rewrite !PD by discriminate.
  assert (forall b, run_steps (unmarshal_base_member rt) (drop (lit "n1") (drop (lit "l1") (drop (lit "k4") (drop (lit "k3") (drop (lit "k2")
    (drop (lit "k1") (drop (lit "j2") (drop (lit "j1") (drop (lit "base") l'))))))))) b = Ok b) as Rest.
  { intros b0. apply other_members. intros m I. repeat (apply in_drop in I as [I ?]). unfold base_keys. cbn [map]. intros J.
    repeat destruct J as [J|J]; try (symmetry in J; contradiction). contradiction. }
  split.
  - intros H. apply run_steps_split in H as (b1 & G1 & H). apply run_steps_split in H as (b2 & G2 & H). apply run_steps_split in H as (b3 & G3 & H).
    apply run_steps_split in H as (b4 & G4 & H). apply run_steps_split in H as (b5 & G5 & H). apply run_steps_split in H as (b6 & G6 & H).
    apply run_steps_split in H as (b7 & G7 & H). apply run_steps_split in H as (b8 & G8 & H). apply run_steps_split in H as (b9 & G9 & H).
    rewrite Rest in H. injection H as <-.
    apply base_chunk in G1 as (st & -> & M1). apply (many_chunk J1) in G2 as (s1 & -> & M2); [|now left]. apply (many_chunk J2) in G3 as (s2 & -> & M3); [|now right].
    apply (one_chunk K1) in G4 as (n1 & -> & M4); [|discriminate|discriminate]. apply (one_chunk K2) in G5 as (n2 & -> & M5); [|discriminate|discriminate].
    apply (one_chunk K3) in G6 as (n3 & -> & M6); [|discriminate|discriminate]. apply (one_chunk K4) in G7 as (n4 & -> & M7); [|discriminate|discriminate].
    apply (one_chunk L1) in G8 as (n5 & -> & M8); [|discriminate|discriminate]. apply (one_chunk N1) in G9 as (n6 & -> & M9); [|discriminate|discriminate].
    cbn [seg_name] in *. destruct b as [f a1 a2 x d e g h i]. unfold clear_j, set_bFields in *. cbn [bFields bJ1 bJ2 bK1 bK2 bK3 bK4 bL1 bN1] in *.
    rewrite put_j1, put_j2 by (eapply many_kinds; eassumption). cbn [app].
    rewrite over_k1, over_k2, over_k3, over_k4, over_l1, over_n1 by (eapply over_kind; eassumption).
    cbn [bFields bJ1 bJ2 bK1 bK2 bK3 bK4 bL1 bN1]. split; [assumption|]. split; [assumption|]. split; [assumption|].
    repeat (split; [apply one_over; eexists; split; [reflexivity|assumption]|]). apply one_over; eexists; split; [reflexivity|assumption].
  - intros (M1 & M2 & M3 & M4 & M5 & M6 & M7 & M8 & M9).
    apply one_over in M4 as (n1 & E4 & M4). apply one_over in M5 as (n2 & E5 & M5). apply one_over in M6 as (n3 & E6 & M6).
    apply one_over in M7 as (n4 & E7 & M7). apply one_over in M8 as (n5 & E8 & M8). apply one_over in M9 as (n6 & E9 & M9).
    apply run_steps_split. eexists. split; [apply base_chunk; exists (bFields c); split; [reflexivity|exact M1]|].
    apply run_steps_split. eexists. split; [apply (many_chunk J1); [now left|]; exists (bJ1 c); split; [reflexivity|exact M2]|].
    apply run_steps_split. eexists. split; [apply (many_chunk J2); [now right|]; exists (bJ2 c); split; [reflexivity|exact M3]|].
    apply run_steps_split. eexists. split; [apply (one_chunk K1); [discriminate|discriminate|]; exists n1; split; [reflexivity|exact M4]|].
    apply run_steps_split. eexists. split; [apply (one_chunk K2); [discriminate|discriminate|]; exists n2; split; [reflexivity|exact M5]|].
    apply run_steps_split. eexists. split; [apply (one_chunk K3); [discriminate|discriminate|]; exists n3; split; [reflexivity|exact M6]|].
    apply run_steps_split. eexists. split; [apply (one_chunk K4); [discriminate|discriminate|]; exists n4; split; [reflexivity|exact M7]|].
    apply run_steps_split. eexists. split; [apply (one_chunk L1); [discriminate|discriminate|]; exists n5; split; [reflexivity|exact M8]|].
    apply run_steps_split. eexists. split; [apply (one_chunk N1); [discriminate|discriminate|]; exists n6; split; [reflexivity|exact M9]|].
    rewrite Rest. f_equal. destruct b as [f a1 a2 x d e g h i], c as [f' a1' a2' x' d' e' g' h' i']. unfold clear_j, set_bFields in *.
    cbn [bFields bJ1 bJ2 bK1 bK2 bK3 bK4 bL1 bN1] in *.
    rewrite put_j1, put_j2 by (eapply many_kinds; eassumption). cbn [app].
    rewrite over_k1, over_k2, over_k3, over_k4, over_l1, over_n1 by (eapply over_kind; eassumption). congruence.
Qed.
End Base.

Lemma members_norm rt j l : plain_json j -> (json_map rt j = Some l <-> exists l0, members j l0 /\ l = put_members (norm_members l0)).
Proof.
  intros P. unfold json_map, members. rewrite remarshal_plain by assumption. destruct j; cbn [norm];
    (split; [try discriminate; intros [= <-]|intros (l1 & [E|[E F]] & G); try discriminate E; subst; try reflexivity]).
  - exists []. auto.
  - eexists. split; [left; reflexivity|reflexivity].
  - injection E as ->. reflexivity.
Qed.

Lemma unmarshal_base_spec rt n j b c : orders rt -> plain_json j -> tidy j -> (unmarshal_base rt n j b = Ok c <-> takes_base (rtZone rt) j b c).
Proof.
  intros O P Y. unfold unmarshal_base, takes_base.
  assert (forall l, plain_json (JObj l) -> tidy (JObj l) ->
    (unmarshal_base_members rt (rtOrder rt n (put_members (norm_members l))) (clear_j b) = Ok c <->
     run_steps (unmarshal_base_member rt) (arrange base_keys (put_members (norm_members l))) (clear_j b) = Ok c)) as Arr.
  { intros l Pl Yl. pose proof (normal_keys l (plain_obj_nodup _ Pl)) as N. rewrite <- unmarshal_base_steps.
    split; apply base_members_perm.
    - transitivity (put_members (norm_members l)); [apply Permutation_sym, O|apply arrange_perm].
    - eapply Permutation_NoDup; [apply Permutation_map, O|exact N].
    - transitivity (put_members (norm_members l)); [apply Permutation_sym, arrange_perm|apply O].
    - eapply Permutation_NoDup; [apply Permutation_map, (arrange_perm base_keys)|exact N]. }
  assert (plain_json (JObj [])) as Pn by (constructor; constructor).
  assert (tidy (JObj [])) as Yn by (constructor; [split; constructor|constructor]).
  split.
  - destruct (json_map rt j) as [l'|] eqn:E; [|discriminate]. intros H. apply members_norm in E as (l & M & ->); [|assumption].
    exists l. split; [assumption|]. destruct M as [-> |[-> ->]]; apply Arr in H; try assumption; now apply base_loop in H.
  - intros (l & M & H). rewrite (proj2 (members_norm rt j _ P)) by eauto. destruct M as [-> |[-> ->]]; apply Arr; try assumption; now apply base_loop.
Qed.

(* ---- files ---- *)

Lemma unmarshal_base_norm rt n j b : plain_json j -> unmarshal_base rt n (norm j) b = unmarshal_base rt n j b.
Proof.
  intros P. unfold unmarshal_base, json_map. rewrite !remarshal_plain by (try apply norm_plain; assumption). rewrite norm_norm by assumption. reflexivity.
Qed.

Lemma data_spec rt a : orders rt -> Forall plain_json a -> Forall tidy a -> forall n f g,
  (decode_data rt n (map norm a) f = Ok g <->
   exists bases, g = set_bases f (flBases f ++ map (RBase (flPacked f)) bases) /\ Forall2 (fun x b => exists b0, blank b0 /\ takes_base (rtZone rt) x b0 b) a bases).
Proof.
  intros O. induction 1 as [|j a P F IH]; intros Y n f g; cbn [map decode_data].
  - split.
    + intros [= <-]. exists []. split; [|constructor]. cbn [map]. rewrite app_nil_r. destruct f; reflexivity.
    + intros (bases & -> & H). inversion H. cbn [map]. rewrite app_nil_r. destruct f; reflexivity.
  - inversion Y as [|x y Yj Ya]; subst. specialize (IH Ya). unfold new_data_record. cbn [decode_record]. rewrite unmarshal_base_norm by assumption.
    pose proof (fun c => unmarshal_base_spec rt n j new_base c O P Yj) as D. split.
    + destruct (unmarshal_base rt n j new_base) as [b| |] eqn:E; try discriminate. intros H. apply IH in H as (bases & -> & G).
      exists (b :: bases). split.
      * destruct f as [p0 h0 bs0 t0]. cbn [set_bases flBases flPacked map]. rewrite <- app_assoc. reflexivity.
      * constructor; [|assumption]. exists new_base. split; [now apply blank_is|now apply D].
    + intros (bases & -> & H). inversion H as [|x b a' r (b0 & B & T) G]; subst. apply blank_is in B. subst b0. apply D in T. rewrite T.
      apply IH. exists r. split; [|assumption]. destruct f as [p0 h0 bs0 t0]. cbn [set_bases flBases flPacked map]. rewrite <- app_assoc. reflexivity.
Qed.

Section Files.
Variables (rt : runtime) (l : list (bytes * json)).
Hypothesis O : orders rt.
Hypothesis P : plain_json (JObj l).
Hypothesis Y : tidy (JObj l).
Let N : NoDup (map fst l) := plain_obj_nodup _ P.
Let l' := put_members (norm_members l).
Let go key := run_steps (decode_file_member rt) (pick (lit key) l').

Lemma header_chunk p q h bs t g : has_type header_struct h -> (go "header" (mkFile p (RHeader q h) bs t) = Ok g <->
  exists h', g = mkFile p (RHeader q h') bs t /\ member l "header" (fun v => takes_struct (rtZone rt) header_struct v h h') (h' = h)).
Proof.
  intros T. unfold go, l'. rewrite chunk_spec by exact N.
  rewrite (member_iff l "header" _ (fun v => exists h', g = mkFile p (RHeader q h') bs t /\ takes_struct (rtZone rt) header_struct v h h')
    _ (exists h', g = mkFile p (RHeader q h') bs t /\ h' = h)).
  - rewrite member_ex. split; intros (st & H); exists st; now apply member_and.
  - intros j I. unfold decode_file_member. rewrite bytes_eqb_refl. cbn [flHeader decode_record].
    pose proof (fun st => header_spec rt j h st (plain_member _ _ _ P I) (tidy_member _ _ _ Y I) T) as D. split.
    + destruct (decode_struct rt header_tags (norm j) h) as [st|] eqn:E; [|discriminate]. intros [= <-]. exists st. split; [reflexivity|now apply D].
    + intros (st & -> & H). apply D in H. rewrite H. reflexivity.
  - split; [intros ->; exists h; auto|]. intros (st & -> & ->). reflexivity.
Qed.
Lemma trailer_chunk p h bs r t g : has_type trailer_struct t -> (go "trailer" (mkFile p h bs (RTrailer r t)) = Ok g <->
  exists t', g = mkFile p h bs (RTrailer r t') /\ member l "trailer" (fun v => takes_struct (rtZone rt) trailer_struct v t t') (t' = t)).
Proof.
  intros T. unfold go, l'. rewrite chunk_spec by exact N.
  rewrite (member_iff l "trailer" _ (fun v => exists t', g = mkFile p h bs (RTrailer r t') /\ takes_struct (rtZone rt) trailer_struct v t t')
    _ (exists t', g = mkFile p h bs (RTrailer r t') /\ t' = t)).
  - rewrite member_ex. split; intros (st & H); exists st; now apply member_and.
  - intros j I. unfold decode_file_member. change (bytes_eqb (lit "trailer") (lit "header")) with false. rewrite bytes_eqb_refl. cbn [flTrailer decode_record].
    pose proof (fun st => trailer_spec rt j t st (plain_member _ _ _ P I) (tidy_member _ _ _ Y I) T) as D. split.
    + destruct (decode_struct rt trailer_tags (norm j) t) as [st|] eqn:E; [|discriminate]. intros [= <-]. exists st. split; [reflexivity|now apply D].
    + intros (st & -> & H). apply D in H. rewrite H. reflexivity.
  - split; [intros ->; exists t; auto|]. intros (st & -> & ->). reflexivity.
Qed.
Lemma data_chunk f g : go "data" f = Ok g <->
  exists bases, g = set_bases f (flBases f ++ map (RBase (flPacked f)) bases)
  /\ member l "data" (fun v => takes_list (fun x b => exists b0, blank b0 /\ takes_base (rtZone rt) x b0 b) v bases) (bases = []).
Proof.
  unfold go, l'. rewrite chunk_spec by exact N.
  rewrite (member_iff l "data" _ (fun v => exists bases, g = set_bases f (flBases f ++ map (RBase (flPacked f)) bases)
      /\ takes_list (fun x b => exists b0, blank b0 /\ takes_base (rtZone rt) x b0 b) v bases)
    _ (exists bases, g = set_bases f (flBases f ++ map (RBase (flPacked f)) bases) /\ bases = [])).
  - rewrite member_ex. split; intros (st & H); exists st; now apply member_and.
  - intros j I. unfold decode_file_member. change (bytes_eqb (lit "data") (lit "header")) with false.
    change (bytes_eqb (lit "data") (lit "trailer")) with false. rewrite bytes_eqb_refl. cbv iota.
    pose proof (plain_member _ _ _ P I) as Pj. pose proof (tidy_member _ _ _ Y I) as Yj. unfold takes_list. split.
    + destruct (json_list rt (norm j)) as [x|] eqn:E; [|discriminate]. intros H. apply json_list_norm in E as [(a & -> & ->)|[-> ->]]; [| |assumption].
      * inversion Pj; inversion Yj; subst. apply data_spec in H as (bases & -> & F); try assumption. exists bases. split; [reflexivity|]. left. eauto.
      * cbn in H. injection H as <-. exists []. split; [cbn [map]; rewrite app_nil_r; destruct f; reflexivity|]. right. auto.
    + intros (bases & -> & [(a & -> & F)|[-> ->]]).
      * rewrite (proj2 (json_list_norm rt (JArr a) (map norm a) Pj)) by eauto. inversion Pj; inversion Yj; subst. apply data_spec; eauto.
      * cbn [map]. rewrite app_nil_r. destruct f; reflexivity.
  - split.
    + intros ->. exists []. split; [cbn [map]; rewrite app_nil_r; destruct f; reflexivity|reflexivity].
    + intros (bases & -> & ->). cbn [map]. rewrite app_nil_r. destruct f; reflexivity.
Qed.

Lemma file_loop p q h bs r t g : has_type header_struct h -> has_type trailer_struct t ->
  (run_steps (decode_file_member rt) (arrange file_keys l') (mkFile p (RHeader q h) bs (RTrailer r t)) = Ok g <->
   exists h' t' bases, g = mkFile p (RHeader q h') (bs ++ map (RBase p) bases) (RTrailer r t')
   /\ member l "header" (fun v => takes_struct (rtZone rt) header_struct v h h') (h' = h)
   /\ member l "data" (fun v => takes_list (fun x b => exists b0, blank b0 /\ takes_base (rtZone rt) x b0 b) v bases) (bases = [])
   /\ member l "trailer" (fun v => takes_struct (rtZone rt) trailer_struct v t t') (t' = t)).
Proof.
  intros Th Tt. unfold file_keys. cbn [map arrange].
  assert (forall k k' l, k <> k' -> pick (lit k) (drop (lit k') l) = pick (lit k) l) as PD
    by (intros k k' x Hk; apply pick_drop; intros Hl; apply Hk; now apply lit_inj).
  rewrite !PD by discriminate.
  assert (forall f, run_steps (decode_file_member rt) (drop (lit "trailer") (drop (lit "data") (drop (lit "header") l'))) f = Ok f) as Rest.
  { intros f. apply other_file_members. intros m I. repeat (apply in_drop in I as [I ?]). unfold file_keys. cbn [map]. intros J.
    repeat destruct J as [J|J]; try (symmetry in J; contradiction). contradiction. }
  split.
  - intros H. apply run_steps_split in H as (b1 & G1 & H). apply run_steps_split in H as (b2 & G2 & H). apply run_steps_split in H as (b3 & G3 & H).
    rewrite Rest in H. injection H as <-. apply header_chunk in G1 as (h' & -> & M1); [|assumption]. apply data_chunk in G2 as (bases & -> & M2).
    cbn [set_bases flBases flPacked flHeader flTrailer] in G3. apply trailer_chunk in G3 as (t' & -> & M3); [|assumption]. exists h', t', bases. auto.
  - intros (h' & t' & bases & -> & M1 & M2 & M3).
    apply run_steps_split. eexists. split; [apply header_chunk; [assumption|]; exists h'; split; [reflexivity|exact M1]|].
    apply run_steps_split. eexists. split; [apply data_chunk; exists bases; split; [reflexivity|exact M2]|].
    apply run_steps_split. eexists. split; [apply trailer_chunk; [assumption|]; exists t'; split; [reflexivity|exact M3]|].
    apply Rest.
Qed.
End Files.

Lemma unmarshal_file_spec rt j f g : orders rt -> plain_json j -> tidy j -> framed f -> (unmarshal_file rt j f = Ok g <-> takes_file (rtZone rt) j f g).
Proof.
  intros O P Y (q & r & h & t & Eh & Et & Th & Tt). unfold unmarshal_file, takes_file.
  assert (forall l, plain_json (JObj l) ->
    (decode_file_members rt (rtOrder rt 0 (put_members (norm_members l))) f = Ok g <->
     run_steps (decode_file_member rt) (arrange file_keys (put_members (norm_members l))) f = Ok g)) as Arr.
  { intros l Pl. pose proof (normal_keys l (plain_obj_nodup _ Pl)) as N. rewrite <- file_steps.
    split; apply file_members_perm.
    - transitivity (put_members (norm_members l)); [apply Permutation_sym, O|apply arrange_perm].
    - eapply Permutation_NoDup; [apply Permutation_map, O|exact N].
    - transitivity (put_members (norm_members l)); [apply Permutation_sym, arrange_perm|apply O].
    - eapply Permutation_NoDup; [apply Permutation_map, (arrange_perm file_keys)|exact N]. }
  assert (plain_json (JObj [])) as Pn by (constructor; constructor).
  assert (tidy (JObj [])) as Yn by (constructor; [split; constructor|constructor]).
  destruct f as [p h0 bs t0]. cbn [flHeader flTrailer flPacked flBases] in *. subst h0 t0. split.
  - destruct (json_map rt j) as [l'|] eqn:E; [|discriminate]. intros H. apply members_norm in E as (l & M & ->); [|assumption].
    assert (plain_json (JObj l) /\ tidy (JObj l)) as [Pl Yl] by (destruct M as [-> |[-> ->]]; auto).
    apply Arr in H; [|assumption]. apply file_loop in H as (h' & t' & bases & H); try assumption. exists l, q, r, h, h', t, t', bases. auto.
  - intros (l & q0 & r0 & h0 & h' & t0 & t' & bases & M & E1 & E2 & H). injection E1 as <- <-. injection E2 as <- <-.
    rewrite (proj2 (members_norm rt j _ P)) by eauto.
    assert (plain_json (JObj l) /\ tidy (JObj l)) as [Pl Yl] by (destruct M as [-> |[-> ->]]; auto).
    apply Arr; [assumption|]. apply file_loop; try assumption. exists h', t', bases. exact H.
Qed.

(* ---- no panic ---- *)

Lemma segment_calm rt n j b : unmarshal_segment rt n j b <> Panic.
Proof.
  unfold unmarshal_segment. repeat match goal with |- context [match ?x with _ => _ end] => destruct x; try discriminate end.
Qed.
Lemma segments_calm rt n l : forall b, unmarshal_segments rt n l b <> Panic.
Proof.
  induction l as [|j l IH]; intros b; cbn [unmarshal_segments]; [discriminate|]. pose proof (segment_calm rt n j b) as H.
  destruct (unmarshal_segment rt n j b); [apply IH|discriminate|contradiction].
Qed.
Lemma base_member_calm rt m b : unmarshal_base_member rt m b <> Panic.
Proof.
  destruct m as [key j]. unfold unmarshal_base_member. destruct (bytes_eqb key (lit "base")); [destruct (decode_struct _ _ _ _); discriminate|].
  destruct (_ || _); [destruct (json_list rt j); [apply segments_calm|discriminate]|apply segment_calm].
Qed.
Lemma unmarshal_base_calm rt n j b : unmarshal_base rt n j b <> Panic.
Proof.
  unfold unmarshal_base. destruct (json_map rt j) as [l|]; [|discriminate]. generalize (rtOrder rt n l), (clear_j b). clear l b.
  induction l as [|m l IH]; intros b; cbn [unmarshal_base_members]; [discriminate|]. pose proof (base_member_calm rt m b) as H.
  destruct (unmarshal_base_member rt m b); [apply IH|discriminate|contradiction].
Qed.
Lemma record_calm rt n j r : decode_record rt n j r <> Panic.
Proof.
  destruct r; cbn [decode_record]; try (destruct (decode_struct _ _ _ _); discriminate).
  pose proof (unmarshal_base_calm rt n j b) as H. destruct (unmarshal_base rt n j b); [discriminate|discriminate|contradiction].
Qed.
Lemma decode_data_calm rt l : forall n f, decode_data rt n l f <> Panic.
Proof.
  induction l as [|j l IH]; intros n f; cbn [decode_data]; [discriminate|]. pose proof (record_calm rt n j (new_data_record (flPacked f))) as H.
  destruct (decode_record rt n j _); [apply IH|discriminate|contradiction].
Qed.
Lemma file_member_calm rt m f : decode_file_member rt m f <> Panic.
Proof.
  destruct m as [key j]. unfold decode_file_member.
  destruct (bytes_eqb key (lit "header")); [pose proof (record_calm rt 0 j (flHeader f)) as H; destruct (decode_record rt 0 j _); [discriminate|discriminate|contradiction]|].
  destruct (bytes_eqb key (lit "trailer")); [pose proof (record_calm rt 0 j (flTrailer f)) as H; destruct (decode_record rt 0 j _); [discriminate|discriminate|contradiction]|].
  destruct (bytes_eqb key (lit "data")); [|discriminate]. destruct (json_list rt j); [apply decode_data_calm|discriminate].
Qed.
Lemma unmarshal_file_calm rt j f : unmarshal_file rt j f <> Panic.
Proof.
  unfold unmarshal_file. destruct (json_map rt j) as [l|]; [|discriminate]. generalize (rtOrder rt 0 l). clear l. intros l. revert f.
  induction l as [|m l IH]; intros f; cbn [decode_file_members]; [discriminate|]. pose proof (file_member_calm rt m f) as H.
  destruct (decode_file_member rt m f); [apply IH|discriminate|contradiction].
Qed.

Lemma file_refused rt j f : orders rt -> plain_json j -> tidy j -> framed f -> (forall g, ~ takes_file (rtZone rt) j f g) -> exists e, unmarshal_file rt j f = Err e.
Proof.
  intros O P Y F H. pose proof (unmarshal_file_calm rt j f) as C1. destruct (unmarshal_file rt j f) as [g|e|] eqn:E; [|eauto|contradiction].
  apply unmarshal_file_spec in E; try assumption. destruct (H g E).
Qed.
Lemma base_refused rt n j b : orders rt -> plain_json j -> tidy j -> (forall c, ~ takes_base (rtZone rt) j b c) -> exists e, unmarshal_base rt n j b = Err e.
Proof.
  intros O P Y H. pose proof (unmarshal_base_calm rt n j b) as C1. destruct (unmarshal_base rt n j b) as [c|e|] eqn:E; [|eauto|contradiction].
  apply unmarshal_base_spec in E; try assumption. destruct (H c E).
Qed.

(* ---- texts ---- *)

Lemma json_eq_null j : j = JNull \/ j <> JNull.
Proof. destruct j; [left; reflexivity| | | | |]; right; discriminate. Qed.

Lemma raw_struct_spec rt tags s j old st : (forall x, has_type s x -> readable tags s x) -> NoDup (map fst s) -> plain_json j -> tidy j -> has_type s old ->
  (decode_struct rt tags j old = Some st <-> takes_struct (rtZone rt) s j old st).
Proof.
  intros R NN P Y T. unfold takes_struct. destruct j as [|b|x|x|l|l]; cbn [decode_struct].
  - split; [intros [= <-]; right; auto|]. intros [(l & [=] & _)|[_ ->]]. reflexivity.
  - split; [discriminate|]. intros [(l & [=] & _)|[[=] _]].
  - split; [discriminate|]. intros [(l & [=] & _)|[[=] _]].
  - split; [discriminate|]. intros [(l & [=] & _)|[[=] _]].
  - split; [discriminate|]. intros [(l' & [=] & _)|[[=] _]].
  - inversion Y as [| | | | |l0 C Fl]; subst. rewrite (members_spec rt tags s R NN l C); [| |assumption].
    + split; [intros H; left; exists l; auto|]. intros [(l' & [= <-] & H)|[[=] _]]. exact H.
    + apply Forall_forall. intros [k j] I. cbn [snd]. eapply plain_member; eassumption.
Qed.

Lemma info_spec rt j st : plain_json j -> tidy j ->
  (decode_struct rt header_info_tags j header_info0 = Some st <-> takes_struct (rtZone rt) words j header_info0 st).
Proof.
  intros P Y. apply raw_struct_spec; [|apply (rd_names _ _ _ info_readable)|assumption|assumption|reflexivity].
  intros x T. exact (readable_any _ _ _ _ info_readable T).
Qed.
Lemma info_is_fresh old : fresh words no_id old <-> old = header_info0.
Proof.
  assert (fresh words no_id header_info0) as F by (apply fresh_new; reflexivity). split; [|intros ->; exact F].
  intros H. eapply fresh_unique; [apply (rd_names _ _ _ info_readable)|exact H|exact F].
Qed.
Lemma header_is_fresh old : fresh header_struct ("RecordIdentifier", lit "HEADER") old <-> old = new_header.
Proof.
  pose proof (fresh_new _ _ _ (rd_type _ _ _ header_readable) header_fresh) as F. split; [|intros ->; exact F].
  intros H. eapply fresh_unique; [apply (rd_names _ _ _ header_readable)|exact H|exact F].
Qed.
Lemma trailer_is_fresh old : fresh trailer_struct ("RecordIdentifier", lit "TRAILER") old <-> old = new_trailer.
Proof.
  pose proof (fresh_new _ _ _ (rd_type _ _ _ trailer_readable) trailer_fresh) as F. split; [|intros ->; exact F].
  intros H. eapply fresh_unique; [apply (rd_names _ _ _ trailer_readable)|exact H|exact F].
Qed.

Lemma header_key k : Forall (fun c => code c < 128) k -> (is_header_key (k, JNull) = true <-> to_upper k = lit "HEADER").
Proof.
  intros A. rewrite <- upper_ascii_fold by assumption. split; [intros H; exact (header_key_fold _ H)|]. intros H. unfold is_header_key. cbn [fst].
  unfold find_tag. destruct (find _ dummy_tags) eqn:E1; [reflexivity|]. destruct (find _ dummy_tags) eqn:E2 at 1; [reflexivity|].
  exfalso. cbn [find dummy_tags tgKey] in *. revert E1 E2. rewrite H. vm_compute. intros; discriminate.
Qed.

Lemma packed_words st bdw rdw p : has_type words st -> holds st "BlockDescriptorWord" (VInt bdw) -> holds st "RecordDescriptorWord" (VInt rdw) ->
  (dummy_packed (Some st) = p <-> (p = true <-> rdw <> 426 /\ 0 < bdw)).
Proof.
  intros T B R. pose proof (rd_names _ _ _ info_readable) as NN. change info_struct with words in NN. rewrite <- (has_type_names words st T) in NN.
  pose proof (In_lookup _ _ _ NN B) as Lb. pose proof (In_lookup _ _ _ NN R) as Lr. unfold dummy_packed, get_int. rewrite Lb, Lr.
  change (Z.of_nat UnpackedRecordLength) with 426. destruct (Z.eqb_spec rdw 426) as [E|E], p; split; intros H; try reflexivity; try discriminate H.
  - exfalso. destruct (proj1 H eq_refl) as [N _]. contradiction.
  - split; [discriminate|intros [N _]; contradiction].
  - apply Z.ltb_lt in H. tauto.
  - apply Z.ltb_lt. apply H. reflexivity.
  - apply Z.ltb_ge in H. split; [discriminate|]. intros [_ G]. lia.
  - apply Z.ltb_ge. destruct (Z_le_gt_dec bdw 0) as [G|G]; [assumption|]. exfalso. assert (false = true) as X by (apply H; split; [assumption|lia]). discriminate X.
Qed.
Lemma words_hold st : has_type words st -> exists bdw rdw, holds st "BlockDescriptorWord" (VInt bdw) /\ holds st "RecordDescriptorWord" (VInt rdw).
Proof.
  unfold has_type, words. destruct st as [|[n1 v1] [|[n2 v2] [|[n3 v3] [|m st]]]]; try discriminate. cbn [map fst snd]. intros [= -> K1 -> K2 -> K3].
  destruct v1 as [a| |]; try discriminate K1. destruct v2 as [b| |]; try discriminate K2. exists a, b. split; [left|right; left]; reflexivity.
Qed.
Lemma struct_typed zone s j old st : has_type s old -> takes_struct zone s j old st -> has_type s st.
Proof. intros T [(l & _ & H & _)|[_ ->]]; assumption. Qed.

Lemma format_spec rt j p : plain_json j -> tidy j ->
  ((exists h, decode_dummy rt j = Some h /\ dummy_packed h = p) <-> takes_format (rtZone rt) j p).
Proof.
  intros P Y. unfold takes_format, members. destruct j as [|x|x|x|x|l];
    try (split; [intros (h & E & _); discriminate E|intros (l & [E|[E _]] & _); discriminate E]).
  - cbn [decode_dummy]. split.
    + intros (h & [= <-] & <-). exists []. split; [right; auto|]. left. split; [intros k v []|reflexivity].
    + intros (l & [[=]|[_ ->]] & [[_ ->]|(k & v & old & st & bdw & rdw & [] & _)]). exists None. auto.
  - cbn [decode_dummy]. rewrite dummy_filter. inversion Y as [| | | | |l0 C Fl]; subst. pose proof C as [A _]. rewrite Forall_forall in A.
    assert (forall k v, In (k, v) l -> to_upper k = lit "HEADER" -> In (k, v) (filter is_header_key l)) as In1.
    { intros k v I E. apply filter_In. split; [assumption|]. exact (proj2 (header_key k (A _ I)) E). }
    assert (forall k v, In (k, v) (filter is_header_key l) -> In (k, v) l /\ to_upper k = lit "HEADER") as In2.
    { intros k v I. apply filter_In in I as [I E]. split; [assumption|]. exact (proj1 (header_key k (A _ I)) E). }
    destruct (one_header l (clear_fold l C)) as [E|([k v] & E)]; rewrite E in *.
    + cbn [decode_dummy_members]. split.
      * intros (h & [= <-] & <-). exists l. split; [left; reflexivity|]. left. split; [|reflexivity]. intros k v I U. destruct (In1 _ _ I U).
      * intros (l' & [[= <-]|[[=] _]] & [[_ ->]|(k & v & old & st & bdw & rdw & I & U & _)]); [exists None; auto|destruct (In1 _ _ I U)].
    + destruct (In2 k v (or_introl eq_refl)) as [I U].
      assert (find_tag dummy_tags k <> None) as Fk.
      { pose proof (proj2 (header_key k (A _ I)) U) as H. unfold is_header_key in H. cbn [fst] in H. destruct (find_tag dummy_tags k); [discriminate|discriminate H]. }
      pose proof (plain_member _ _ _ P I) as Pv. pose proof (tidy_member _ _ _ Y I) as Yv. pose proof (fun st => info_spec rt v st Pv Yv) as D.
      cbn [decode_dummy_members]. destruct (find_tag dummy_tags k) as [t|]; [clear Fk|contradiction].
      assert (forall k' v', In (k', v') l -> to_upper k' = lit "HEADER" -> v' = v) as Same.
      { intros k' v' I' U'. destruct (In1 _ _ I' U') as [[= _ <-]|[]]. reflexivity. }
      destruct (json_eq_null v) as [-> |Nv].
      * split.
        -- intros (h & [= <-] & <-). exists l. split; [left; reflexivity|]. left. split; [exact Same|reflexivity].
        -- intros (l' & [[= <-]|[[=] _]] & [[_ ->]|(k' & v' & old & st & bdw & rdw & I' & U' & N' & _)]); [exists None; auto|]. destruct (N' (Same _ _ I' U')).
      * assert (match v with JNull => Some None | _ => match decode_struct rt header_info_tags v header_info0 with Some st => Some (Some st) | None => None end end
          = match decode_struct rt header_info_tags v header_info0 with Some st => Some (Some st) | None => None end) as -> by (destruct v; try reflexivity; contradiction).
        split.
        -- intros (h & E' & Ep). destruct (decode_struct rt header_info_tags v header_info0) as [st|] eqn:Ds; [|discriminate]. injection E' as <-.
           pose proof (proj1 (D st) eq_refl) as Ts. assert (has_type words st) as T by (eapply struct_typed; [|exact Ts]; reflexivity).
           destruct (words_hold st T) as (bdw & rdw & B & R). exists l. split; [left; reflexivity|]. right. exists k, v, header_info0, st, bdw, rdw.
           split; [assumption|]. split; [assumption|]. split; [assumption|]. split; [now apply info_is_fresh|]. split; [assumption|]. split; [assumption|]. split; [assumption|].
           exact (proj1 (packed_words st bdw rdw p T B R) Ep).
        -- intros (l' & [[= <-]|[[=] _]] & [[Al _]|(k' & v' & old & st & bdw & rdw & I' & U' & N' & F' & T' & B & R & Ep)]).
           ++ destruct (Nv (Al _ _ I U)).
           ++ pose proof (Same _ _ I' U'). subst v'. apply info_is_fresh in F'. subst old.
              assert (has_type words st) as T by (eapply struct_typed; [|exact T']; reflexivity). apply D in T'. rewrite T'. exists (Some st). split; [reflexivity|].
              exact (proj2 (packed_words st bdw rdw p T B R) Ep).
Qed.

Lemma new_framed p : framed (new_file_p p).
Proof. exists p, p, new_header, new_trailer. split; [reflexivity|]. split; [reflexivity|]. split; [apply new_header_type|apply new_trailer_type]. Qed.

Lemma text_spec rt j s w rest f : orders rt -> plain_json j -> tidy j -> Forall white w -> spells j s -> (rest = [] \/ exists l, j = JObj l) ->
  (file_from_json rt (w ++ s ++ rest) = Ok f <-> takes_new (rtZone rt) j f).
Proof.
  intros O P Y W S A. unfold file_from_json, takes_new.
  assert (decode (w ++ s ++ rest) = Some j) as -> by (destruct A as [-> |(l & ->)]; [apply decode_spelled; [assumption|assumption|exact I]|now apply decode_object]). split.
  - destruct (decode_dummy rt j) as [h|] eqn:E; [|discriminate]. intros H. exists (dummy_packed h), new_header, new_trailer.
    split; [apply format_spec; [assumption|assumption|]; eauto|]. split; [now apply header_is_fresh|]. split; [now apply trailer_is_fresh|].
    apply (unmarshal_file_spec rt j (new_file_p (dummy_packed h)) f); try assumption. apply new_framed.
  - intros (p & h & t & F & Fh & Ft & T). apply header_is_fresh in Fh. apply trailer_is_fresh in Ft. subst h t.
    apply format_spec in F as (h & -> & ->); [|assumption|assumption].
    apply (unmarshal_file_spec rt j (new_file_p p) f); try assumption. apply new_framed.
Qed.

Lemma read_spec rt evs j s w rest f : orders rt -> plain_json j -> tidy j -> (exists l, j = JObj l) -> Forall white w -> (length w < 1024)%nat -> spells j s ->
  (new_file_from_reader rt evs (w ++ s ++ rest) = Some (Ok f) <-> takes_new (rtZone rt) j f).
Proof.
  intros O P Y (l & ->) W L Sp. rewrite (new_file_text rt evs w s rest l) by assumption.
  unfold file_from_json. rewrite (decode_object l s w rest) by assumption.
  pose proof (text_spec rt (JObj l) s [] [] f O P Y (Forall_nil _) Sp) as T. cbn [app] in T. rewrite <- T by (left; reflexivity).
  unfold file_from_json. pose proof (decode_object l s [] [] Sp (Forall_nil _)) as E. cbn [app] in E. rewrite E.
  split; [intros [= H]; exact H|intros ->; reflexivity].
Qed.

Lemma text_refused rt j s w rest : orders rt -> plain_json j -> tidy j -> Forall white w -> spells j s -> (rest = [] \/ exists l, j = JObj l) ->
  (forall f, ~ takes_new (rtZone rt) j f) -> exists e, file_from_json rt (w ++ s ++ rest) = Err e.
Proof.
  intros O P Y W S A H. destruct (file_from_json rt (w ++ s ++ rest)) as [f|e|] eqn:E; [|eauto|].
  - apply (text_spec rt j s w rest f) in E; try assumption. destruct (H f E).
  - exfalso. revert E. unfold file_from_json. destruct (decode _); [|discriminate]. destruct (decode_dummy rt _); [|discriminate]. apply unmarshal_file_calm.
Qed.

(* ---- what is read is determined by the JSON and what was there ---- *)

Lemma file_once zone j f g g' : plain_json j -> tidy j -> framed f -> takes_file zone j f g -> takes_file zone j f g' -> g = g'.
Proof.
  intros P Y F T T'. set (rt := mkRuntime (fun _ => None) zone (fun _ l => l)). assert (orders rt) as O by (intros n l; apply Permutation_refl).
  apply (unmarshal_file_spec rt j f g O P Y F) in T. apply (unmarshal_file_spec rt j f g' O P Y F) in T'. congruence.
Qed.
Lemma same_host rt rt' j f g : orders rt -> orders rt' -> rtZone rt = rtZone rt' -> plain_json j -> tidy j -> framed f ->
  (unmarshal_file rt j f = Ok g <-> unmarshal_file rt' j f = Ok g).
Proof. intros O O' Z P Y F. rewrite !unmarshal_file_spec by assumption. rewrite Z. reflexivity. Qed.

(* ---- what is refused ---- *)

Lemma shapeless_struct zone s j old st : shapeless j -> ~ takes_struct zone s j old st.
Proof. intros [O N] [(l & E & _)|[E _]]; [exact (O l E)|exact (N E)]. Qed.
Lemma null_date_struct zone s l n k old st : clear_keys l -> In (k, JNull) l -> key_is n k -> In (n, KTime) s -> ~ takes_struct zone s (JObj l) old st.
Proof.
  intros C I K Is [(l' & [= <-] & T & H)|[[=] _]].
  assert (exists v, holds st n v /\ kind_of v = KTime) as (v & Hv & Kv).
  { unfold has_type in T. rewrite <- T in Is. apply in_map_iff in Is as ([m v] & E & Iv). cbn [fst snd] in E. injection E as -> Kv. exists v. auto. }
  destruct (H n v Hv) as [(k' & j' & I' & K' & G)|[No _]]; [|exact (No _ _ I K)].
  destruct (key_same_member _ _ _ _ _ _ C I I' K K') as [<- <-]. destruct G as [S|(_ & N & _)]; [|contradiction].
  inversion S as [| |j t D]; subst. destruct D as [(x & [=] & _)|(x & [=] & _)].
Qed.

Lemma member_given l key j P m : NoDup (map fst l) -> In (lit key, j) l -> member l key P m -> P j.
Proof.
  intros N I [(j' & I' & H)|[A _]]; [rewrite (nodup_same _ _ _ _ N I I'); exact H|].
  exfalso. apply A. apply in_map_iff. exists (lit key, j). auto.
Qed.

Lemma header_shape rt l j f : orders rt -> plain_json (JObj l) -> tidy (JObj l) -> framed f -> In (lit "header", j) l -> shapeless j ->
  exists e, unmarshal_file rt (JObj l) f = Err e.
Proof.
  intros O P Y F I H. apply file_refused; try assumption. intros g (l' & q & r & h & h' & t & t' & bases & [[= <-]|[[=] _]] & _ & _ & _ & M & _).
  apply (member_given _ _ j) in M; [|exact (plain_obj_nodup _ P)|assumption]. exact (shapeless_struct _ _ _ _ _ H M).
Qed.
Lemma header_null_date rt l o n k f : orders rt -> plain_json (JObj l) -> tidy (JObj l) -> framed f -> In (lit "header", JObj o) l ->
  In (k, JNull) o -> key_is n k -> In (n, KTime) header_struct -> exists e, unmarshal_file rt (JObj l) f = Err e.
Proof.
  intros O P Y F I Ik K Is. apply file_refused; try assumption. intros g (l' & q & r & h & h' & t & t' & bases & [[= <-]|[[=] _]] & _ & _ & _ & M & _).
  apply (member_given _ _ (JObj o)) in M; [|exact (plain_obj_nodup _ P)|assumption]. pose proof (tidy_member _ _ _ Y I) as Yo. inversion Yo as [| | | | |l0 C Fl]; subst.
  exact (null_date_struct _ _ _ _ _ _ _ C Ik K Is M).
Qed.
Lemma record_shape rt l a j f : orders rt -> plain_json (JObj l) -> tidy (JObj l) -> framed f -> In (lit "data", JArr a) l -> In j a -> shapeless j ->
  exists e, unmarshal_file rt (JObj l) f = Err e.
Proof.
  intros O P Y F I Ij [Ho Hn]. apply file_refused; try assumption. intros g (l' & q & r & h & h' & t & t' & bases & [[= <-]|[[=] _]] & _ & _ & _ & _ & M & _).
  apply (member_given _ _ (JArr a)) in M; [|exact (plain_obj_nodup _ P)|assumption]. destruct M as [(a' & [= <-] & G)|[[=] _]].
  clear - G Ij Ho Hn. induction G as [|x b a r (b0 & _ & T) G IH]; [destruct Ij|]. destruct Ij as [-> |Ij]; [|auto].
  destruct T as (l & [E|[E _]] & _); [exact (Ho l E)|exact (Hn E)].
Qed.

(* a segment that no valid segment is taken from *)
Lemma record_segment rt n l k j b : orders rt -> plain_json (JObj l) -> tidy (JObj l) -> k <> J1 -> k <> J2 -> In (lit (seg_name k), j) l ->
  (forall s, ~ takes_segment (rtZone rt) k j s) -> exists e, unmarshal_base rt n (JObj l) b = Err e.
Proof.
  intros O P Y H1 H2 I H. apply base_refused; try assumption. pose proof (plain_obj_nodup _ P) as N.
  intros c (l' & [[= <-]|[[=] _]] & _ & _ & _ & M1 & M2 & M3 & M4 & M5 & M6). unfold takes_one in *.
  destruct k; try congruence; cbn [seg_name] in I;
    match goal with M : member l ?key _ _ |- _ => apply (member_given _ _ j) in M; [|exact N|exact I]; destruct M as (s & _ & T); exact (H s T) end.
Qed.
