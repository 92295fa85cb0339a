(* Facts about JSON read into records and files that hold something already *)
From Coq Require Import ZArith NArith Bool Ascii String List Permutation Lia.
Import ListNotations.
From Verif Require Import GoBase GoBaseFacts GoTime TimeFacts GoLayout Json Tables JsonTables Codec Records File Reader JsonFile
  SpecCodec SpecLayouts SpecRecords FieldFacts FieldProps RecordFacts SpecJson LayoutFacts JsonTextFacts JsonMapFacts JsonFacts JsonProps
  SpecSparse DateFacts SparseFacts SpecMerge.
Local Open Scope string_scope.
Local Open Scope Z_scope.
Local Open Scope list_scope.
Local Notation length := List.length.

(* ---- structs ---- *)

Lemma readable_any tags s st0 old : readable tags s st0 -> has_type s old -> readable tags s old.
Proof.
  intros [K A Al N F T] To. constructor; try assumption. intros t I. destruct (F t I) as (v & L).
  pose proof (lookup_types (tgField t) st0) as E. rewrite (has_type_types s st0 old T To), lookup_types, L in E.
  destruct (lookup (tgField t) old) as [w|]; [eauto|discriminate].
Qed.

Lemma amended_reads rt tags s old l st : readable tags s old -> amends s l old st -> decode_members rt tags l old = Some st.
Proof.
  intros R (C & To & T & Dn).
  assert (types old = types st) as Ty by (apply (has_type_types s); assumption).
  assert (NoDup (map fst st)) as Nn by (rewrite (has_type_names s st T); exact (rd_names _ _ _ R)).
  assert (NoDup (map fst old)) as No by (rewrite (has_type_names s old To); exact (rd_names _ _ _ R)).
  assert (forall k j, In (k, j) l -> Forall (fun c => code c < 128) k) as A.
  { intros k j I. destruct C as [A _]. rewrite Forall_forall in A. exact (A _ I). }
  destruct (decode_fair rt tags st l) with (st0 := old) as (st' & D & T' & F).
  - apply Forall_forall. intros [k j] I. unfold fair_member. cbn [fst snd]. destruct (find_tag tags k) as [t|] eqn:Ft; [|now left]. right.
    pose proof (find_key _ _ _ _ _ R (A k j I) Ft) as K. destruct (find_tag_fold _ _ _ Ft) as [It _].
    assert (exists v, lookup (tgField t) st = Some v) as (v & L).
    { destruct (rd_fields _ _ _ R t It) as (w & Lw). pose proof (lookup_types (tgField t) st) as E. rewrite <- Ty, lookup_types, Lw in E.
      destruct (lookup (tgField t) st) as [v|]; [eauto|discriminate]. }
    exists t, v. split; [reflexivity|]. split; [assumption|].
    destruct (Dn (tgField t) v) as [(k' & j' & I' & K' & S)|[N _]]; [exact (lookup_In _ _ _ L)| |exfalso; exact (N k j I K)].
    destruct (key_same_member _ _ _ _ _ _ C I I' K K') as [<- <-].
    destruct S as [S|(-> & Kt & _)]; [right; apply stated_reads; assumption|left; auto].
  - exact Ty.
  - rewrite D. f_equal. apply fields_ext.
    + rewrite <- types_names, T', types_names. reflexivity.
    + rewrite <- types_names, T', types_names. exact Nn.
    + intros n. destruct (F n) as [E|[E N]]; [exact E|]. destruct (lookup n st) as [v|] eqn:L.
      * rewrite E. destruct (Dn n v) as [(k & j & I & K & [S|(-> & _ & O)])|[_ O]]; [exact (lookup_In _ _ _ L)| | |].
        -- exfalso. destruct (key_find tags s old k n R (A k j I)) as (t & Ft & En); [|assumption|].
           { rewrite <- (has_type_names s st T). eapply lookup_Some_In_fst. eassumption. }
           exact (N (k, j) t I Ft (stated_not_null _ _ S) En).
        -- exact (In_lookup _ _ _ No O).
        -- exact (In_lookup _ _ _ No O).
      * rewrite E. pose proof (lookup_types n old) as E0. rewrite Ty, lookup_types, L in E0. destruct (lookup n old); [discriminate|reflexivity].
Qed.

Lemma header_amended rt l old st : amends header_struct l old st -> decode_members rt header_tags l old = Some st.
Proof. intros A. eapply amended_reads; [|exact A]. eapply readable_any; [apply header_readable|]. apply A. Qed.
Lemma trailer_amended rt l old st : amends trailer_struct l old st -> decode_members rt trailer_tags l old = Some st.
Proof. intros A. eapply amended_reads; [|exact A]. eapply readable_any; [apply trailer_readable|]. apply A. Qed.

(* ---- the order of keys ---- *)

Lemma amends_perm s l l' old st : Permutation l l' -> amends s l old st -> amends s l' old st.
Proof.
  intros P (C & To & T & D). split; [eapply clear_perm; eassumption|]. split; [assumption|]. split; [assumption|]. intros n v H.
  destruct (D n v H) as [(k & j & I & R)|[N O]].
  - left. exists k, j. split; [eapply Permutation_in; eassumption|assumption].
  - right. split; [|assumption]. intros k j I. apply (N k j). eapply Permutation_in; [apply Permutation_sym; eassumption|assumption].
Qed.
Lemma amends_normed s l old st : amends s l old st -> amends s (norm_members l) old st.
Proof.
  intros (C & To & T & D). split; [now apply clear_norm|]. split; [assumption|]. split; [assumption|]. intros n v H. unfold norm_members.
  destruct (D n v H) as [(k & j & I & K & S)|[N O]].
  - left. exists k, j. split; [|auto]. apply in_map_iff. exists (k, j). split; [|assumption]. cbn [fst snd]. f_equal.
    destruct S as [S|(-> & _)]; [eapply stated_norm; eassumption|reflexivity].
  - right. split; [|assumption]. intros k j I. apply in_map_iff in I as ([k' j'] & E & I). cbn in E. injection E as <- _. exact (N _ _ I).
Qed.
Lemma amends_norm s l old st : amends s l old st -> amends s (put_members (norm_members l)) old st.
Proof. intros D. eapply amends_perm; [|apply amends_normed; exact D]. apply normed_perm. apply clear_nodup. apply D. Qed.

Section Normal.
Variable l : list (bytes * json).
Hypothesis N : NoDup (map fst l).
Let l' := put_members (norm_members l).

Lemma not_given_norm key : not_given l key -> not_given l' key.
Proof. intros [A|I]; [left; now apply normal_absent|right; exact (normal_in l N _ _ I)]. Qed.
Lemma amends_object_norm key s old st : amends_object l key s old st -> amends_object l' key s old st.
Proof.
  intros [(o & I & D)|[A E]].
  - left. exists (put_members (norm_members o)). split; [exact (normal_in l N _ _ I)|now apply amends_norm].
  - right. split; [now apply not_given_norm|assumption].
Qed.
Lemma amends_fields_norm old st : amends_fields l old st -> amends_fields l' old st.
Proof.
  intros [(o & I & D)|[[I D]|[A E]]].
  - left. exists (put_members (norm_members o)). split; [exact (normal_in l N _ _ I)|now apply describes_norm].
  - right. left. split; [exact (normal_in l N _ _ I)|assumption].
  - right. right. split; [now apply normal_absent|assumption].
Qed.
Lemma amends_one_norm key k old o : amends_one l key k old o -> amends_one l' key k old o.
Proof.
  intros [(j & s & I & E & D)|[A E]].
  - left. exists (norm j), s. split; [exact (normal_in l N _ _ I)|]. split; [assumption|now apply segment_norm].
  - right. split; [now apply normal_absent|assumption].
Qed.
End Normal.

Lemma amends_base_norm j b c : plain_json j -> amends_base j b c -> amends_base (norm j) b c.
Proof.
  intros P (l & -> & D0 & D1 & D2 & D3 & D4 & D5 & D6 & D7 & D8). pose proof (plain_obj_nodup _ P) as N.
  rewrite norm_object. eexists. split; [reflexivity|].
  split; [now apply amends_fields_norm|]. split; [now apply many_norm|]. split; [now apply many_norm|].
  repeat (split; [now apply amends_one_norm|]). now apply amends_one_norm.
Qed.

(* ---- data records ---- *)

Lemma fields_read rt l b st : NoDup (map fst l) -> amends_fields l (bFields b) st ->
  run_steps (unmarshal_base_member rt) (pick (lit "base") l) b = Ok (set_bFields b st).
Proof.
  intros N [(o & I & D)|[[I D]|[A ->]]].
  - rewrite (pick_in _ _ _ N I). cbn [run_steps]. unfold unmarshal_base_member. rewrite bytes_eqb_refl. cbn [decode_struct].
    rewrite (base_reads rt _ _ D). reflexivity.
  - pose proof (base_reads rt _ _ D) as E. cbn [decode_members] in E. apply some_injective in E.
    rewrite (pick_in _ _ _ N I). cbn [run_steps]. unfold unmarshal_base_member. rewrite bytes_eqb_refl. cbn [decode_struct]. rewrite E. reflexivity.
  - rewrite pick_absent by assumption. destruct b; reflexivity.
Qed.

(* the segment put into a record that may have one *)
Definition put_over (k : segkind) (o : option segment) (b : base) : base :=
  match o with Some s => put_segment s b | None => b end.

Lemma over_reads rt l k old o : k <> J1 -> k <> J2 -> NoDup (map fst l) -> amends_one l (seg_name k) k old o ->
  exists n, (forall s, n = Some s -> sKind s = k) /\ o = match n with Some s => Some s | None => old end /\
  forall b, run_steps (unmarshal_base_member rt) (pick (lit (seg_name k)) l) b = Ok (put_over k n b).
Proof.
  intros H1 H2 N D.
  assert (forall j b, unmarshal_base_member rt (lit (seg_name k), j) b = unmarshal_segment rt (lit (seg_name k)) j b) as U
    by (intros; destruct k; try congruence; reflexivity).
  destruct D as [(j & s & I & -> & D)|[A ->]].
  - exists (Some s). split; [intros s' [= <-]; apply D|]. split; [reflexivity|]. intros b. rewrite (pick_in _ _ _ N I). cbn [run_steps].
    rewrite U, (segment_reads rt k j s b D). reflexivity.
  - exists None. split; [discriminate|]. split; [reflexivity|]. intros b. rewrite pick_absent by assumption. reflexivity.
Qed.

Lemma over_k1 n : (forall s, n = Some s -> sKind s = K1) -> forall f a b c d e g h i,
  put_over K1 n (mkBase f a b c d e g h i) = mkBase f a b (match n with Some s => Some s | None => c end) d e g h i.
Proof. intros H. destruct n as [s|]; [|reflexivity]. intros. unfold put_over, put_segment. rewrite (H s eq_refl). reflexivity. Qed.
Lemma over_k2 n : (forall s, n = Some s -> sKind s = K2) -> forall f a b c d e g h i,
  put_over K2 n (mkBase f a b c d e g h i) = mkBase f a b c (match n with Some s => Some s | None => d end) e g h i.
Proof. intros H. destruct n as [s|]; [|reflexivity]. intros. unfold put_over, put_segment. rewrite (H s eq_refl). reflexivity. Qed.
Lemma over_k3 n : (forall s, n = Some s -> sKind s = K3) -> forall f a b c d e g h i,
  put_over K3 n (mkBase f a b c d e g h i) = mkBase f a b c d (match n with Some s => Some s | None => e end) g h i.
Proof. intros H. destruct n as [s|]; [|reflexivity]. intros. unfold put_over, put_segment. rewrite (H s eq_refl). reflexivity. Qed.
Lemma over_k4 n : (forall s, n = Some s -> sKind s = K4) -> forall f a b c d e g h i,
  put_over K4 n (mkBase f a b c d e g h i) = mkBase f a b c d e (match n with Some s => Some s | None => g end) h i.
Proof. intros H. destruct n as [s|]; [|reflexivity]. intros. unfold put_over, put_segment. rewrite (H s eq_refl). reflexivity. Qed.
Lemma over_l1 n : (forall s, n = Some s -> sKind s = L1) -> forall f a b c d e g h i,
  put_over L1 n (mkBase f a b c d e g h i) = mkBase f a b c d e g (match n with Some s => Some s | None => h end) i.
Proof. intros H. destruct n as [s|]; [|reflexivity]. intros. unfold put_over, put_segment. rewrite (H s eq_refl). reflexivity. Qed.
Lemma over_n1 n : (forall s, n = Some s -> sKind s = N1) -> forall f a b c d e g h i,
  put_over N1 n (mkBase f a b c d e g h i) = mkBase f a b c d e g h (match n with Some s => Some s | None => i end).
Proof. intros H. destruct n as [s|]; [|reflexivity]. intros. unfold put_over, put_segment. rewrite (H s eq_refl). reflexivity. Qed.

Lemma amended_base rt n j b c : orders rt -> plain_json j -> amends_base j b c -> unmarshal_base rt n j b = Ok c.
Proof.
  intros O Pj D. unfold unmarshal_base, json_map. rewrite remarshal_plain by assumption.
  pose proof (amends_base_norm _ _ _ Pj D) as Dn. pose proof (norm_plain _ Pj) as Pn.
  destruct Dn as (l & E & D0 & D1 & D2 & D3 & D4 & D5 & D6 & D7 & D8). rewrite E in *. clear E D Pj j.
  pose proof (plain_obj_nodup _ Pn) as N.
  eapply (base_members_perm rt (arrange base_keys l)).
  - transitivity l; [apply Permutation_sym, arrange_perm|apply O].
  - eapply Permutation_NoDup; [apply Permutation_map, (arrange_perm base_keys)|exact N].
  - rewrite unmarshal_base_steps. unfold base_keys. cbn [map arrange].
    assert (forall k k' l, k <> k' -> pick (lit k) (drop (lit k') l) = pick (lit k) l) as PD
      by (intros k k' x Hk; apply pick_drop; intros Hl; apply Hk; now apply lit_inj).
    rewrite !PD by discriminate.
    erewrite run_steps_app by (apply fields_read; [exact N|exact D0]).
    destruct (many_reads rt l J1 (bJ1 c)) as [F1 S1]; [now left|assumption|assumption|].
    destruct (many_reads rt l J2 (bJ2 c)) as [F2 S2]; [now right|assumption|assumption|].
    destruct (over_reads rt l K1 _ _ ltac:(discriminate) ltac:(discriminate) N D3) as (n3 & F3 & E3 & S3).
    destruct (over_reads rt l K2 _ _ ltac:(discriminate) ltac:(discriminate) N D4) as (n4 & F4 & E4 & S4).
    destruct (over_reads rt l K3 _ _ ltac:(discriminate) ltac:(discriminate) N D5) as (n5 & F5 & E5 & S5).
    destruct (over_reads rt l K4 _ _ ltac:(discriminate) ltac:(discriminate) N D6) as (n6 & F6 & E6 & S6).
    destruct (over_reads rt l L1 _ _ ltac:(discriminate) ltac:(discriminate) N D7) as (n7 & F7 & E7 & S7).
    destruct (over_reads rt l N1 _ _ ltac:(discriminate) ltac:(discriminate) N D8) as (n8 & F8 & E8 & S8).
    cbn [seg_name] in *.
    erewrite run_steps_app by apply S1. erewrite run_steps_app by apply S2. erewrite run_steps_app by apply S3.
    erewrite run_steps_app by apply S4. erewrite run_steps_app by apply S5. erewrite run_steps_app by apply S6.
    erewrite run_steps_app by apply S7. erewrite run_steps_app by apply S8.
    rewrite other_members.
    + f_equal. clear - F1 F2 F3 F4 F5 F6 F7 F8 E3 E4 E5 E6 E7 E8.
      destruct b as [f l1 l2 x d e g h i], c as [f' l1' l2' x' d' e' g' h' i']. cbn [bFields bJ1 bJ2 bK1 bK2 bK3 bK4 bL1 bN1] in *.
      unfold clear_j, set_bFields. cbn [bFields bJ1 bJ2 bK1 bK2 bK3 bK4 bL1 bN1]. rewrite put_j1, put_j2 by assumption. cbn [app].
      rewrite over_k1, over_k2, over_k3, over_k4, over_l1, over_n1 by assumption. congruence.
    + intros m I. repeat (apply in_drop in I as [I ?]). unfold base_keys. cbn [map]. intros J. repeat destruct J as [J|J]; try (symmetry in J; contradiction). contradiction.
Qed.

(* ---- files ---- *)

Lemma header_object_amended rt l p q h h' bs t : NoDup (map fst l) -> amends_object l "header" header_struct h h' ->
  run_steps (decode_file_member rt) (pick (lit "header") l) (mkFile p (RHeader q h) bs t) = Ok (mkFile p (RHeader q h') bs t).
Proof.
  intros N [(o & I & D)|[[A|I] ->]].
  - rewrite (pick_in _ _ _ N I). cbn [run_steps]. unfold decode_file_member. rewrite bytes_eqb_refl. cbn [flHeader decode_record decode_struct].
    rewrite (header_amended rt _ _ _ D). reflexivity.
  - rewrite pick_absent by assumption. reflexivity.
  - rewrite (pick_in _ _ _ N I). reflexivity.
Qed.
Lemma trailer_object_amended rt l p h bs r t t' : NoDup (map fst l) -> amends_object l "trailer" trailer_struct t t' ->
  run_steps (decode_file_member rt) (pick (lit "trailer") l) (mkFile p h bs (RTrailer r t)) = Ok (mkFile p h bs (RTrailer r t')).
Proof.
  intros N [(o & I & D)|[[A|I] ->]].
  - rewrite (pick_in _ _ _ N I). cbn [run_steps]. unfold decode_file_member. change (bytes_eqb (lit "trailer") (lit "header")) with false.
    rewrite bytes_eqb_refl. cbn [flTrailer decode_record decode_struct]. rewrite (trailer_amended rt _ _ _ D). reflexivity.
  - rewrite pick_absent by assumption. reflexivity.
  - rewrite (pick_in _ _ _ N I). reflexivity.
Qed.

Lemma amends_file_norm j f g : plain_json j -> amends_file j f g -> amends_file (norm j) f g.
Proof.
  intros P (l & p & q & r & h & h' & t & t' & bases & -> & Eh & Et & Ep & E & D0 & D1 & D2). pose proof (plain_obj_nodup _ P) as N.
  rewrite norm_object. exists (put_members (norm_members l)), p, q, r, h, h', t, t', bases. split; [reflexivity|]. do 4 (split; [assumption|]).
  split; [now apply amends_object_norm|]. split; [|now apply amends_object_norm]. destruct D1 as [(a & I & F)|[A Eb]].
  - left. exists (map norm a). split; [exact (normal_in _ N _ _ I)|]. pose proof (plain_member _ _ _ P I) as Pa. inversion Pa as [| | | |l0 Pl|]; subst.
    clear - F Pl. induction F; constructor; inversion Pl; subst; [now apply base_norm|auto].
  - right. split; [now apply not_given_norm|assumption].
Qed.

Lemma amended_file rt j f g : orders rt -> plain_json j -> amends_file j f g -> unmarshal_file rt j f = Ok g.
Proof.
  intros O Pj D. unfold unmarshal_file, json_map. rewrite remarshal_plain by assumption.
  pose proof (amends_file_norm _ _ _ Pj D) as Dn. pose proof (norm_plain _ Pj) as Pn.
  destruct Dn as (l & p & q & r & h & h' & t & t' & bases & E & Eh & Et & Ep & Eg & D0 & D1 & D2). rewrite E in *. clear E D Pj j.
  pose proof (plain_obj_nodup _ Pn) as N. subst g. destruct f as [p0 h0 bs t0]. cbn [flHeader flTrailer flPacked flBases] in *. subst p0 h0 t0.
  eapply (file_members_perm rt (arrange file_keys l)).
  - transitivity l; [apply Permutation_sym, arrange_perm|apply O].
  - eapply Permutation_NoDup; [apply Permutation_map, (arrange_perm file_keys)|exact N].
  - rewrite file_steps. unfold file_keys. cbn [map arrange].
    assert (forall k k' l, k <> k' -> pick (lit k) (drop (lit k') l) = pick (lit k) l) as PD
      by (intros k k' x Hk; apply pick_drop; intros Hl; apply Hk; now apply lit_inj).
    rewrite !PD by discriminate.
    erewrite run_steps_app by (apply header_object_amended; [exact N|exact D0]).
    assert (run_steps (decode_file_member rt) (pick (lit "data") l) (mkFile p (RHeader q h') bs (RTrailer r t))
      = Ok (mkFile p (RHeader q h') (bs ++ map (RBase p) bases) (RTrailer r t))) as Sd.
    { destruct D1 as [(a & I & F)|[[A|I] ->]].
      - rewrite (pick_in _ _ _ N I). cbn [run_steps]. unfold decode_file_member. change (bytes_eqb (lit "data") (lit "header")) with false.
        change (bytes_eqb (lit "data") (lit "trailer")) with false. rewrite bytes_eqb_refl. cbv iota.
        pose proof (plain_member _ _ _ Pn I) as Pa. inversion Pa as [| | | |l0 Pl|]; subst. rewrite normal_list by assumption.
        rewrite (data_reads rt p (map norm a) bases); [reflexivity|assumption| | |reflexivity].
        + rewrite Forall_map. revert Pl. apply Forall_impl. apply norm_plain.
        + clear - F Pl. induction F; constructor; inversion Pl; subst; [now apply base_norm|auto].
      - rewrite pick_absent by assumption. cbn [map]. rewrite app_nil_r. reflexivity.
      - rewrite (pick_in _ _ _ N I). cbn [map]. rewrite app_nil_r. reflexivity. }
    erewrite run_steps_app by exact Sd. erewrite run_steps_app by (apply trailer_object_amended; [exact N|exact D2]).
    apply other_file_members. intros m I. repeat (apply in_drop in I as [I ?]). unfold file_keys. cbn [map]. intros J.
    repeat destruct J as [J|J]; try (symmetry in J; contradiction). contradiction.
Qed.

(* ---- twice the same JSON ---- *)

Lemma describes_again s id l st : describes s id l st -> amends s l st st.
Proof.
  intros (C & T & D). split; [assumption|]. split; [assumption|]. split; [assumption|]. intros n v H.
  destruct (D n v H) as [(k & j & I & K & [S|(E & Kt & _)])|[N _]].
  - left. exists k, j. auto.
  - left. exists k, j. split; [assumption|]. split; [assumption|]. right. auto.
  - right. auto.
Qed.
Lemma object_again l key s id st : describes_object l key s id st -> amends_object l key s st st.
Proof.
  intros [(o & I & D)|[A D]].
  - left. exists o. split; [assumption|eapply describes_again; eassumption].
  - right. split; [exact A|reflexivity].
Qed.
Lemma one_again l key k o : describes_one l key k o -> amends_one l key k o o.
Proof.
  intros [H|[A E]]; [left; exact H|right; split; [exact A|reflexivity]].
Qed.

Lemma base_again rt n j b : orders rt -> plain_json j -> describes_base j b -> unmarshal_base rt n j b = Ok b.
Proof.
  intros O P (l & E & D0 & D1 & D2 & D3 & D4 & D5 & D6 & D7 & D8). apply amended_base; try assumption. exists l. split; [assumption|].
  split. { destruct D0 as [H|[[A|I] D]]; [left; exact H|right; right; split; [exact A|reflexivity]|right; left; split; [exact I|exact D]]. }
  split; [exact D1|]. split; [exact D2|]. repeat (split; [now apply one_again|]). now apply one_again.
Qed.

Lemma file_again rt j f : orders rt -> plain_json j -> describes_file j f ->
  unmarshal_file rt j f = Ok (mkFile (flPacked f) (flHeader f) (flBases f ++ flBases f) (flTrailer f)).
Proof.
  intros O P (l & h & bases & t & E & Ef & D0 & D1 & D2). apply amended_file; try assumption.
  remember (flPacked f) as p eqn:Hp. clear Hp. subst f. cbn [flPacked flHeader flBases flTrailer].
  exists l, p, p, p, h, h, t, t, bases. cbn [flPacked flHeader flBases flTrailer]. split; [assumption|]. do 4 (split; [reflexivity|]).
  split; [eapply object_again; eassumption|]. split; [exact D1|eapply object_again; eassumption].
Qed.

(* ---- JSON that gives every field ---- *)

Lemma amends_given s o old old' st : has_type s old' -> (forall n, In n (map fst s) -> exists k v, In (k, v) o /\ key_is n k /\ v <> JNull) ->
  amends s o old st -> amends s o old' st.
Proof.
  intros To' G (C & To & T & D). split; [assumption|]. split; [assumption|]. split; [assumption|]. intros n v H.
  destruct (G n) as (k0 & v0 & I0 & K0 & N0).
  { rewrite <- (has_type_names s st T). apply in_map_iff. exists (n, v). auto. }
  destruct (D n v H) as [(k & j & I & K & [S|(E & Kt & _)])|[N _]].
  - left. exists k, j. auto.
  - exfalso. destruct (key_same_member _ _ _ _ _ _ C I I0 K K0) as [_ E']. congruence.
  - exfalso. exact (N _ _ I0 K0).
Qed.

Lemma nodup_same {A} (l : list (bytes * A)) k a b : NoDup (map fst l) -> In (k, a) l -> In (k, b) l -> a = b.
Proof.
  intros N I J. assert ((k, a) = (k, b)) as E; [|congruence]. apply (NoDup_map_inj fst l); auto.
Qed.

Lemma object_given l key s old old' st : NoDup (map fst l) -> has_type s old' -> gives_all l key s ->
  amends_object l key s old st -> amends_object l key s old' st.
Proof.
  intros N To (o & I & G) [(o' & I' & D)|[[A|I'] _]].
  - left. exists o'. split; [assumption|]. eapply amends_given; try eassumption.
    assert (o = o') as <- by (pose proof (nodup_same _ _ _ _ N I I'); congruence). exact G.
  - exfalso. apply A. apply in_map_iff. eexists. split; [|exact I]. reflexivity.
  - exfalso. pose proof (nodup_same _ _ _ _ N I I'). discriminate.
Qed.

Lemma whole_file rt j p f f' g : orders rt -> plain_json j -> whole j -> bare p f -> bare p f' -> amends_file j f g ->
  unmarshal_file rt j f = Ok g /\ unmarshal_file rt j f' = Ok g.
Proof.
  intros O P (l & -> & Gh & Gt) (h1 & t1 & -> & Th & Tt) (h2 & t2 & -> & Th' & Tt') A. split; [now apply amended_file|].
  apply amended_file; try assumption. destruct A as (l0 & p0 & q & r & h & h' & t & t' & bases & [= <-] & [= <- <-] & [= <- <-] & <- & -> & D0 & D1 & D2).
  pose proof (plain_obj_nodup _ P) as N.
  exists l, p, p, p, h2, h', t2, t', bases. cbn [flPacked flHeader flBases flTrailer]. do 5 (split; [reflexivity|]).
  split; [eapply object_given; eassumption|]. split; [assumption|eapply object_given; eassumption].
Qed.
