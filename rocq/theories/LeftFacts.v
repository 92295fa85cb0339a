(* Facts about what JSON that is refused leaves behind *)
From Coq Require Import ZArith NArith Bool Ascii String List Permutation Sorted Lia.
Import ListNotations.
From Verif Require Import GoBase GoBaseFacts GoTime TimeFacts GoLayout Json Tables JsonTables Codec Records File Reader JsonFile JsonLeft
  SpecCodec SpecLayouts SpecRecords FieldFacts FieldProps RecordFacts SpecJson LayoutFacts JsonTextFacts JsonMapFacts JsonFacts JsonProps
  SpecSparse DateFacts SparseFacts SpecDates SpecMerge MergeFacts SchemaFacts SpecAccept AcceptFacts SpecLeft.
Local Open Scope string_scope.
Local Open Scope Z_scope.
Local Open Scope list_scope.
Local Notation length := List.length.

(* ---- agreement with JsonFile.v ---- *)

Definition told {A} (x : A * res unit) : res A := match snd x with Ok _ => Ok (fst x) | Err e => Err e | Panic => Panic end.

Lemma field_told rt o j : decode_field rt o j = match snd (left_field rt o j) with Done => Some (fst (left_field rt o j)) | _ => None end.
Proof.
  destruct o as [z|s|t]; cbn [decode_field left_field]; try (destruct j; reflexivity).
  - destruct j; try reflexivity. match goal with |- context [parse_int 64 ?x] => destruct (parse_int 64 x) as [y [e|]] end; reflexivity.
  - destruct (time_unmarshal (rtZone rt) (print j)); reflexivity.
Qed.
Lemma members_told rt tags l : forall st, decode_members rt tags l st = if snd (left_members rt tags l st) then None else Some (fst (left_members rt tags l st)).
Proof.
  induction l as [|[k j] l IH]; intros st; cbn [decode_members left_members]; [reflexivity|]. destruct (find_tag tags k) as [t|]; [|apply IH].
  destruct (lookup (tgField t) st) as [o|]; [|reflexivity]. rewrite field_told. destruct (left_field rt o j) as [v []]; cbn [fst snd]; [apply IH|reflexivity|reflexivity].
Qed.
Lemma struct_told rt tags j st : decode_struct rt tags j st = if snd (left_struct rt tags j st) then None else Some (fst (left_struct rt tags j st)).
Proof. destruct j; try reflexivity. apply members_told. Qed.

Lemma segment_told rt n j b : unmarshal_segment rt n j b = told (left_segment rt n j b).
Proof.
  unfold unmarshal_segment, left_segment. destruct (kind_of_name n); [|reflexivity]. destruct (decode_struct _ _ _ _); [|reflexivity].
  destruct (base_add_segment _ _) as [b' [e|]]; reflexivity.
Qed.
Lemma segments_told rt n l : forall b, unmarshal_segments rt n l b = told (left_segments rt n l b).
Proof.
  induction l as [|j l IH]; intros b; cbn [unmarshal_segments left_segments]; [reflexivity|]. rewrite segment_told.
  destruct (left_segment rt n j b) as [b' [u|e|]]; cbn [told fst snd]; [apply IH|reflexivity|reflexivity].
Qed.
Lemma base_member_told rt m b : unmarshal_base_member rt m b = told (left_base_member rt m b).
Proof.
  destruct m as [k j]. unfold unmarshal_base_member, left_base_member. destruct (bytes_eqb k (lit "base")); [destruct (decode_struct _ _ _ _); reflexivity|].
  destruct (_ || _); [destruct (json_list rt j); [apply segments_told|reflexivity]|apply segment_told].
Qed.
Lemma base_members_told rt l : forall b, unmarshal_base_members rt l b = told (left_base_members rt l b).
Proof.
  induction l as [|m l IH]; intros b; cbn [unmarshal_base_members left_base_members]; [reflexivity|]. rewrite base_member_told.
  destruct (left_base_member rt m b) as [b' [u|e|]]; cbn [told fst snd]; [apply IH|reflexivity|reflexivity].
Qed.
Lemma base_told rt n j b : unmarshal_base rt n j b = told (left_base rt n j b).
Proof. unfold unmarshal_base, left_base. destruct (json_map rt j); [apply base_members_told|reflexivity]. Qed.
Lemma record_told rt n j r : decode_record rt n j r = told (left_record rt n j r).
Proof.
  destruct r; cbn [decode_record left_record].
  - rewrite struct_told. destruct (left_struct rt header_tags j st) as [st' []]; reflexivity.
  - rewrite base_told. destruct (left_base rt n j b) as [b' [u|e|]]; reflexivity.
  - rewrite struct_told. destruct (left_struct rt trailer_tags j st) as [st' []]; reflexivity.
Qed.
Lemma data_told rt l : forall n f, decode_data rt n l f = told (left_data rt n l f).
Proof.
  induction l as [|j l IH]; intros n f; cbn [decode_data left_data]; [reflexivity|]. rewrite record_told.
  destruct (left_record rt n j _) as [b [u|e|]]; cbn [told fst snd]; [apply IH|reflexivity|reflexivity].
Qed.
Lemma file_member_told rt m f : decode_file_member rt m f = told (left_file_member rt m f).
Proof.
  destruct m as [k j]. unfold decode_file_member, left_file_member.
  destruct (bytes_eqb k (lit "header")); [rewrite record_told; destruct (left_record rt 0 j _) as [b [u|e|]]; reflexivity|].
  destruct (bytes_eqb k (lit "trailer")); [rewrite record_told; destruct (left_record rt 0 j _) as [b [u|e|]]; reflexivity|].
  destruct (bytes_eqb k (lit "data")); [destruct (json_list rt j); [apply data_told|reflexivity]|reflexivity].
Qed.
Lemma file_members_told rt l : forall f, decode_file_members rt l f = told (left_file_members rt l f).
Proof.
  induction l as [|m l IH]; intros f; cbn [decode_file_members left_file_members]; [reflexivity|]. rewrite file_member_told.
  destruct (left_file_member rt m f) as [f' [u|e|]]; cbn [told fst snd]; [apply IH|reflexivity|reflexivity].
Qed.
Lemma file_told rt j f : unmarshal_file rt j f = told (left_file rt j f).
Proof. unfold unmarshal_file, left_file. destruct (json_map rt j); [apply file_members_told|reflexivity]. Qed.
Lemma create_told rt text : file_from_json rt text =
  match left_create rt text with (Some f, Ok _) => Ok f | (_, Err e) => Err e | _ => Panic end.
Proof.
  unfold file_from_json, left_create. destruct (decode text); [|reflexivity]. destruct (decode_dummy rt j); [|reflexivity]. rewrite file_told.
  destruct (left_file rt j _) as [f [u|e|]]; reflexivity.
Qed.

(* ---- order ---- *)

Lemma earlier_cmp a : forall b, bytes_cmp a b = Lt -> earlier a b.
Proof.
  induction a as [|x a IH]; intros [|y b] H; cbn [bytes_cmp] in H; try discriminate; [constructor|].
  destruct (Z.compare_spec (bval x) (bval y)) as [E|E|E]; try discriminate.
  - apply bval_inj in E. subst. apply EarlierNext. now apply IH.
  - now apply EarlierByte.
Qed.
Lemma cmp_earlier a b : earlier a b -> bytes_cmp a b = Lt.
Proof.
  induction 1 as [c s|a b s t H|a s t H IH]; cbn [bytes_cmp]; [reflexivity| |].
  - change (bval a < bval b) in H. now rewrite (proj2 (Z.compare_lt_iff _ _)).
  - now rewrite Z.compare_refl.
Qed.
Lemma earlier_irrefl a : ~ earlier a a.
Proof. intros H. apply cmp_earlier in H. rewrite cmp_refl in H. discriminate. Qed.
Lemma earlier_trans a b c : earlier a b -> earlier b c -> earlier a c.
Proof. intros H G. apply earlier_cmp. eapply cmp_trans; apply cmp_earlier; eassumption. Qed.

(* ---- structs ---- *)

Lemma key_given n (l : list (bytes * json)) : (exists k j, In (k, j) l /\ key_is n k) \/ (forall k j, In (k, j) l -> ~ key_is n k).
Proof.
  unfold key_is. induction l as [|[k j] l [(x & y & I & K)|IH]].
  - right. intros k j [].
  - left. exists x, y. split; [now right|assumption].
  - destruct (list_eq_dec ascii_dec (to_upper k) (to_upper (json_key n))) as [E|E]; [left; exists k, j; split; [now left|assumption]|].
    right. intros x y [[= <- <-]|I]; [assumption|exact (IH x y I)].
Qed.

Lemma says_dated zone j t : says zone j (VTime t) <-> dated zone j t.
Proof. split; [intros S; inversion S; assumption|apply SaysTime]. Qed.
Lemma undated_norm zone s k j : undated zone s k (norm j) <-> undated zone s k j.
Proof.
  unfold undated. split; intros (n & I & K & D); exists n; (split; [assumption|]); (split; [assumption|]); intros t G; apply (D t).
  - apply says_dated, says_norm, says_dated. exact G.
  - apply says_dated, (proj1 (says_norm zone j (VTime t))), says_dated. exact G.
Qed.
Lemma null_silent zone v : ~ says zone JNull v.
Proof. intros S. inversion S as [| |j t [(x & E & _)|(x & E & _)]]; discriminate E. Qed.

Section Struct.
Variables (rt : runtime) (tags : list tag) (s : structure).
Hypothesis R : forall old, has_type s old -> readable tags s old.
Hypothesis NN : NoDup (map fst s).
Let zone := rtZone rt.

Lemma field_left o j v e : plain_json j -> left_field rt o j = (v, e) ->
  match e with
  | Done => kind_of v = kind_of o /\ (says zone j v \/ (v = o /\ forall w, kind_of w = kind_of v -> ~ says zone j w))
            /\ (kind_of o = KTime -> exists t, dated zone j t)
  | Noted => v = o /\ kind_of o <> KTime /\ forall w, kind_of w = kind_of o -> ~ says zone j w
  | Ended => v = VTime no_date /\ kind_of o = KTime /\ forall t, ~ dated zone j t
  end.
Proof.
  intros P E. pose proof (field_told rt o j) as F. rewrite E in F. cbn [fst snd] in F. destruct e.
  - apply field_spec in F as [K D]; [|assumption]. split; [assumption|]. split.
    + destruct D as [D|(-> & _ & ->)]; [now left|right]. split; [reflexivity|]. intros w _. apply null_silent.
    + intros Ko. destruct D as [D|(_ & Kv & _)]; [|congruence]. destruct v as [z|x|t]; cbn [kind_of] in K; try congruence. exists t. now apply says_dated.
  - assert (forall w, kind_of w = kind_of o -> ~ says zone j w) as No.
    { intros w K S. rewrite (proj2 (field_spec rt o j w P)) in F; [discriminate|]. split; [assumption|now left]. }
    destruct o as [z|x|t]; cbn [left_field] in E.
    + split; [|split; [discriminate|exact No]]. destruct j; try congruence. match type of E with context [parse_int 64 ?x] => destruct (parse_int 64 x) as [y [e|]] end; congruence.
    + split; [|split; [discriminate|exact No]]. destruct j; congruence.
    + destruct (time_unmarshal _ _); congruence.
  - destruct o as [z|x|t]; cbn [left_field] in E.
    + destruct j; try congruence. match type of E with context [parse_int 64 ?x] => destruct (parse_int 64 x) as [y [e|]] end; congruence.
    + destruct j; congruence.
    + destruct (time_unmarshal _ _) eqn:D; [congruence|]. injection E as <-. split; [reflexivity|]. split; [reflexivity|].
      intros x G. apply dated_spec in G. unfold zone in G. congruence.
Qed.

Lemma kind_holds st n v : has_type s st -> holds st n v -> In (n, kind_of v) s.
Proof.
  intros T H. unfold has_type in T. rewrite <- T. apply in_map_iff. exists (n, v). auto.
Qed.

Lemma members_left l : sorted l -> clear_keys l -> Forall (fun m => plain_json (snd m)) l -> forall old, has_type s old ->
  leaves zone s l old (fst (left_members rt tags l old)).
Proof.
  induction l as [|[k j] l IH]; intros S C P old T.
  - cbn [left_members fst]. split; [assumption|]. intros n v H. right. split; [intros k j []|assumption].
  - pose proof (clear_tail _ _ C) as C'. inversion P as [|m ms Pj Pl]; subst. inversion S as [|m ms S' Fs]; subst. cbn [snd] in Pj. specialize (IH S' C' Pl).
    assert (Forall (fun c => code c < 128) k) as A by (destruct C as [A _]; inversion A; assumption).
    assert (forall k' j', In (k', j') l -> earlier k k') as Later.
    { intros k' j' I. rewrite Forall_forall in Fs. apply earlier_cmp. exact (Fs _ I). }
    cbn [left_members]. destruct (find_tag tags k) as [t|] eqn:F.
    + pose proof (find_key _ _ _ _ _ (R old T) A F) as K. destruct (find_tag_fold _ _ _ F) as [It _].
      destruct (rd_fields _ _ _ (R old T) t It) as (o & Lo). rewrite Lo.
      assert (holds old (tgField t) o) as Ho by now apply lookup_In.
      assert (forall k' j', In (k', j') l -> ~ key_is (tgField t) k') as Only.
      { intros k' j' I K'. destruct (key_same_member _ _ _ _ _ _ C (or_introl eq_refl) (or_intror I) K K') as [<- _].
        destruct C as [_ N]. cbn [map] in N. inversion N as [|x y Nx _]; subst. apply Nx. apply in_map_iff. exists (k, j'). auto. }
      assert (forall n v st', has_type s st' -> holds st' n v -> key_is n k -> n = tgField t) as Same.
      { intros n v st' T' H K'. destruct (key_find tags s old k n (R old T) A) as (t' & F' & E'); [|assumption|congruence].
        rewrite <- (has_type_names s st' T'). apply in_map_iff. exists (n, v). auto. }
      assert (forall v, kind_of v = kind_of o -> has_type s (set_field (tgField t) v old)) as Ts.
      { intros v Kv. pose proof (set_field_types (tgField t) v old) as E. unfold has_type in *. unfold types in E. rewrite E; [assumption|].
        apply can_assign_spec. exists o. auto. }
      assert (forall v n w, kind_of v = kind_of o -> holds (set_field (tgField t) v old) n w -> (n = tgField t /\ w = v) \/ (n <> tgField t /\ holds old n w)) as Hs.
      { intros v n w Kv H. apply In_lookup in H; [|now apply (typed_nodup s NN), Ts]. rewrite lookup_set_field in H. destruct (String.eqb_spec n (tgField t)) as [E|E].
        - rewrite Lo in H. left. split; congruence.
        - right. split; [assumption|now apply lookup_In]. }
      assert (forall j', undated zone s k j' -> kind_of o = KTime) as Ko.
      { intros j' (n & I & K' & _). destruct (key_find tags s old k n (R old T) A) as (t' & F' & E'); [|assumption|].
        - apply in_map_iff. exists (n, KTime). auto.
        - assert (n = tgField t) as -> by congruence. pose proof (kind_holds _ _ _ T Ho) as G.
          assert ((tgField t, KTime) = (tgField t, kind_of o)) as E by (apply (NoDup_map_inj fst s); auto). congruence. }
      destruct (left_field rt o j) as [v e] eqn:D. pose proof (field_left _ _ _ _ Pj D) as G. destruct e.
      * destruct G as (Kv & G & Gt).
        assert (~ undated zone s k j) as Nu by (intros U; destruct (Gt (Ko _ U)) as (x & Dx); destruct U as (n & _ & _ & No); exact (No x Dx)).
        destruct (IH (set_field (tgField t) v old) (Ts v Kv)) as [T' H]. split; [assumption|]. intros n w Hw.
        destruct (H n w Hw) as [(k' & j' & I & K' & Alt)|[No Hold]].
        -- assert (n <> tgField t) as Nn by (intros ->; exact (Only _ _ I K')).
           assert (holds (set_field (tgField t) v old) n w -> holds old n w) as Back by (intros X; destruct (Hs v n w Kv X) as [[-> _]|[_ X']]; [contradiction|assumption]).
           left. exists k', j'. split; [now right|]. split; [assumption|]. destruct Alt as [[B W]|[(U & B & W)|[(k2 & j2 & I2 & U2 & B2) W]]].
           ++ left. split; [|destruct W as [W|[W W']]; [now left|right; auto]]. intros k2 j2 [[= <- <-]|I2] U; [contradiction|exact (B _ _ I2 U)].
           ++ right; left. split; [assumption|]. split; [|assumption]. intros k2 j2 [[= <- <-]|I2] U2; [contradiction|exact (B _ _ I2 U2)].
           ++ right; right. split; [|auto]. exists k2, j2. split; [now right|auto].
        -- destruct (Hs v n w Kv Hold) as [[-> ->]|[Nn Hold']].
           ++ left. exists k, j. split; [now left|]. split; [assumption|]. left. split.
              ** intros k2 j2 [[= <- <-]|I2] U; [contradiction|exact (Later _ _ I2)].
              ** destruct G as [G|[-> G]]; [now left|right; auto].
           ++ right. split; [|assumption]. intros k2 j2 [[= <- <-]|I2]; [|exact (No _ _ I2)]. intros K'. apply Nn. exact (Same _ _ _ T Hold' K').
      * destruct G as (-> & Kn & G). assert (~ undated zone s k j) as Nu by (intros U; exact (Kn (Ko _ U))).
        cbn [fst]. destruct (IH old T) as [T' H]. split; [assumption|]. intros n w Hw.
        destruct (H n w Hw) as [(k' & j' & I & K' & Alt)|[No Hold]].
        -- left. exists k', j'. split; [now right|]. split; [assumption|]. destruct Alt as [[B W]|[(U & B & W)|[(k2 & j2 & I2 & U2 & B2) W]]].
           ++ left. split; [|assumption]. intros k2 j2 [[= <- <-]|I2] U; [contradiction|exact (B _ _ I2 U)].
           ++ right; left. split; [assumption|]. split; [|assumption]. intros k2 j2 [[= <- <-]|I2] U2; [contradiction|exact (B _ _ I2 U2)].
           ++ right; right. split; [|auto]. exists k2, j2. split; [now right|auto].
        -- destruct (String.eqb_spec n (tgField t)) as [->|Nn].
           ++ assert (w = o) as -> by exact (typed_unique s NN old _ _ _ T Hold Ho).
              left. exists k, j. split; [now left|]. split; [assumption|]. left. split.
              ** intros k2 j2 [[= <- <-]|I2] U; [contradiction|exact (Later _ _ I2)].
              ** right. auto.
           ++ right. split; [|assumption]. intros k2 j2 [[= <- <-]|I2]; [|exact (No _ _ I2)]. intros K'. apply Nn. exact (Same _ _ _ T Hold K').
      * destruct G as (-> & Kt & G). cbn [fst]. pose proof (Ts (VTime no_date) (eq_sym Kt)) as T'. split; [assumption|]. intros n w Hw.
        assert (undated zone s k j) as U. { exists (tgField t). split; [|auto]. rewrite <- Kt. exact (kind_holds _ _ _ T Ho). }
        destruct (Hs (VTime no_date) n w (eq_sym Kt) Hw) as [[-> ->]|[Nn Hold]].
        -- left. exists k, j. split; [now left|]. split; [assumption|]. right; left. split; [assumption|]. split; [|reflexivity].
           intros k2 j2 [[= <- <-]|I2] _; [now left|right; exact (Later _ _ I2)].
        -- destruct (key_given n l) as [(k' & j' & I & K')|No].
           ++ left. exists k', j'. split; [now right|]. split; [assumption|]. right; right. split; [|assumption]. exists k, j. split; [now left|]. split; [assumption|exact (Later _ _ I)].
           ++ right. split; [|assumption]. intros k2 j2 [[= <- <-]|I2]; [|exact (No _ _ I2)]. intros K'. apply Nn. exact (Same _ _ _ T Hold K').
    + assert (forall n v st', has_type s st' -> holds st' n v -> ~ key_is n k) as Non.
      { intros n v st' T' H K. destruct (key_find tags s old k n (R old T) A) as (t' & F' & _); [|assumption|congruence].
        rewrite <- (has_type_names s st' T'). apply in_map_iff. exists (n, v). auto. }
      assert (~ undated zone s k j) as Nu.
      { intros (n & I & K & _). destruct (key_find tags s old k n (R old T) A) as (t' & F' & _); [|assumption|congruence]. apply in_map_iff. exists (n, KTime). auto. }
      destruct (IH old T) as [T' H]. split; [assumption|]. intros n w Hw.
      destruct (H n w Hw) as [(k' & j' & I & K' & Alt)|[No Hold]].
      -- left. exists k', j'. split; [now right|]. split; [assumption|]. destruct Alt as [[B W]|[(U & B & W)|[(k2 & j2 & I2 & U2 & B2) W]]].
         ++ left. split; [|assumption]. intros k2 j2 [[= <- <-]|I2] U; [contradiction|exact (B _ _ I2 U)].
         ++ right; left. split; [assumption|]. split; [|assumption]. intros k2 j2 [[= <- <-]|I2] U2; [contradiction|exact (B _ _ I2 U2)].
         ++ right; right. split; [|auto]. exists k2, j2. split; [now right|auto].
      -- right. split; [|assumption]. intros k2 j2 [[= <- <-]|I2]; [|exact (No _ _ I2)]. exact (Non _ _ _ T' Hw).
Qed.

Lemma leaves_norm l old st : NoDup (map fst l) -> leaves zone s (put_members (norm_members l)) old st -> leaves zone s l old st.
Proof.
  intros N [T H]. split; [assumption|]. intros n v Hv.
  destruct (H n v Hv) as [(k & j & I & K & Alt)|[No G]].
  - apply normed_out in I as (j' & I & ->); [|assumption]. left. exists k, j'. split; [assumption|]. split; [assumption|].
    destruct Alt as [[B W]|[(U & B & W)|[(k2 & j2 & I2 & U2 & B2) W]]].
    + left. split.
      * intros k2 j2 I2 U. apply (B k2 (norm j2)); [now apply normed_in|now apply undated_norm].
      * destruct W as [W|[W W']]; [left; exact (proj1 (says_norm _ _ _) W)|right]. split; [assumption|]. intros w Kw S. apply (W' w Kw). now apply says_norm.
    + right; left. split; [now apply (proj1 (undated_norm zone s k j'))|]. split; [|assumption].
      intros k2 j2 I2 U2. apply (B k2 (norm j2)); [now apply normed_in|now apply undated_norm].
    + right; right. split; [|assumption]. apply normed_out in I2 as (j3 & I2 & ->); [|assumption]. exists k2, j3. split; [assumption|]. split; [now apply (proj1 (undated_norm zone s k2 j3))|assumption].
  - right. split; [|assumption]. intros k j I. apply (No k (norm j)). now apply normed_in.
Qed.

Lemma struct_left j old : plain_json j -> tidy j -> has_type s old -> leaves_struct zone s j old (fst (left_struct rt tags (norm j) old)).
Proof.
  intros P Y T. destruct j as [|b|x|x|l|l]; try (right; split; [discriminate|reflexivity]).
  left. exists l. split; [reflexivity|]. inversion Y as [| | | | |l0 C Fl]; subst. pose proof (plain_obj_nodup _ P) as N.
  cbn [norm left_struct]. change (map (fun m => (fst m, norm (snd m))) l) with (norm_members l).
  apply leaves_norm; [assumption|]. apply members_left.
  - apply put_members_sorted.
  - eapply clear_perm; [apply normed_perm; assumption|now apply clear_norm].
  - apply Forall_forall. intros [k j] I. cbn [snd]. apply normed_out in I as (j' & I & ->); [|assumption]. apply norm_plain. eapply plain_member; eassumption.
  - assumption.
Qed.

(* what is left is determined *)
Lemma leaves_unique l old a b : clear_keys l -> has_type s old -> leaves zone s l old a -> leaves zone s l old b -> a = b.
Proof.
  intros C T [Ta Ha] [Tb Hb]. apply fields_ext.
  - rewrite (has_type_names s a Ta), (has_type_names s b Tb). reflexivity.
  - now apply (typed_nodup s NN).
  - intros n. destruct (lookup n a) as [v|] eqn:La.
    + assert (holds a n v) as Hv by now apply lookup_In. destruct (typed_same s NN a b n v Ta Tb Hv) as (w & Hw & Kw).
      rewrite (In_lookup _ _ _ (typed_nodup s NN _ Tb) Hw). f_equal. symmetry.
      assert (forall x, says zone x v -> says zone x w -> w = v) as Sv.
      { intros x S1 S2. inversion S1; subst; inversion S2; subst; try discriminate Kw; try reflexivity.
        - f_equal. match goal with E : itoa _ = itoa _ |- _ => apply itoa_injective in E; congruence end.
        - f_equal. repeat match goal with D : dated _ _ _ |- _ => apply dated_spec in D end. congruence. }
      assert (holds old n v -> holds old n w -> w = v) as Ov by (intros A B; exact (typed_unique s NN old _ _ _ T B A)).
      destruct (Ha n v Hv) as [(k & j & I & K & Alt)|[No G]], (Hb n w Hw) as [(k' & j' & I' & K' & Alt')|[No' G']];
        try (exfalso; eapply No; eassumption); try (exfalso; eapply No'; eassumption); [|now apply Ov].
      destruct (key_same_member _ _ _ _ _ _ C I I' K K') as [<- <-].
      destruct Alt as [[B W]|[(U & B & W)|[(k2 & j2 & I2 & U2 & B2) W]]], Alt' as [[B' W']|[(U' & B' & W')|[(k3 & j3 & I3 & U3 & B3) W']]].
      * destruct W as [W|[W X]], W' as [W'|[W' X']]; [now apply (Sv j)|exfalso; exact (X' v (eq_sym Kw) W)|exfalso; exact (X w Kw W')|now apply Ov].
      * exfalso. exact (earlier_irrefl _ (B _ _ I U')).
      * exfalso. exact (earlier_irrefl _ (earlier_trans _ _ _ B3 (B _ _ I3 U3))).
      * exfalso. exact (earlier_irrefl _ (B' _ _ I U)).
      * congruence.
      * exfalso. destruct (B _ _ I3 U3) as [-> |X]; [exact (earlier_irrefl _ B3)|exact (earlier_irrefl _ (earlier_trans _ _ _ X B3))].
      * exfalso. exact (earlier_irrefl _ (earlier_trans _ _ _ B2 (B' _ _ I2 U2))).
      * exfalso. destruct (B' _ _ I2 U2) as [-> |X]; [exact (earlier_irrefl _ B2)|exact (earlier_irrefl _ (earlier_trans _ _ _ X B2))].
      * now apply Ov.
    + pose proof (lookup_types n b) as E. rewrite (has_type_types s b a Tb Ta), lookup_types, La in E. destruct (lookup n b); [discriminate|reflexivity].
Qed.
End Struct.

Lemma header_left rt j old : plain_json j -> tidy j -> has_type header_struct old ->
  leaves_struct (rtZone rt) header_struct j old (fst (left_struct rt header_tags (norm j) old)).
Proof.
  apply struct_left; [|apply (rd_names _ _ _ header_readable)]. intros x T. eapply readable_any; [apply header_readable|assumption].
Qed.
Lemma trailer_left rt j old : plain_json j -> tidy j -> has_type trailer_struct old ->
  leaves_struct (rtZone rt) trailer_struct j old (fst (left_struct rt trailer_tags (norm j) old)).
Proof.
  apply struct_left; [|apply (rd_names _ _ _ trailer_readable)]. intros x T. eapply readable_any; [apply trailer_readable|assumption].
Qed.
Lemma leaves_struct_type zone s j old st : has_type s old -> leaves_struct zone s j old st -> has_type s st.
Proof. intros T [(l & _ & H & _)|[_ ->]]; assumption. Qed.
Lemma leaves_struct_unique rt s j old a b : NoDup (map fst s) -> tidy j -> has_type s old ->
  leaves_struct (rtZone rt) s j old a -> leaves_struct (rtZone rt) s j old b -> a = b.
Proof.
  intros N Y T [(l & E & A)|[E A]] [(l' & E' & B)|[E' B]]; try congruence.
  assert (l' = l) as -> by congruence. subst j. inversion Y as [| | | | |l0 C Fl]; subst. eapply leaves_unique; eassumption.
Qed.

(* ---- members that were reached ---- *)

Section Near.
Variable l : list (bytes * json).
Definition shut (L : list (bytes * json)) (key : string) (some : json -> Prop) : Prop := exists j, In (lit key, norm j) L /\ In (lit key, j) l /\ some j.
Definition near (L : list (bytes * json)) (key : string) (refused : Prop) (some : json -> Prop) (none : Prop) : Prop :=
  shut L key some \/ (none /\ (~ In (lit key) (map fst L) \/ refused)).
Lemma shut_skip m L key some : shut L key some -> shut (m :: L) key some.
Proof. intros (j & I & G). exists j. split; [now right|assumption]. Qed.
Lemma shut_head j L key (some : json -> Prop) : In (lit key, j) l -> some j -> shut ((lit key, norm j) :: L) key some.
Proof. intros I S. exists j. split; [now left|auto]. Qed.
Lemma shut_stop L key some : ~ In (lit key) (map fst L) -> ~ shut L key some.
Proof. intros N (j & I & _). apply N. apply in_map_iff. exists (lit key, norm j). auto. Qed.
Lemma shut_refuses L key A (some : json -> A -> Prop) : shut L key (fun v => forall x, ~ some v x) -> refuses l key some.
Proof. intros (j & _ & I & H). exists j. auto. Qed.
Lemma near_skip m L key (refused refused' : Prop) some none : fst m <> lit key -> (refused -> refused') -> near L key refused some none -> near (m :: L) key refused' some none.
Proof.
  intros N R [H|(H & G)]; [left; now apply shut_skip|right]. split; [assumption|]. destruct G as [G|G]; [left|right; auto]. intros [E|E]; [contradiction|contradiction].
Qed.
Lemma near_nil key refused some (none : Prop) : none -> near [] key refused some none.
Proof. intros H. right. split; [assumption|]. left. intros []. Qed.
Lemma near_shut L key (refused : Prop) some (none : Prop) : refused -> none -> near L key refused some none.
Proof. intros R H. right. auto. Qed.
Lemma near_head j L key refused (some : json -> Prop) none : In (lit key, j) l -> some j -> near ((lit key, norm j) :: L) key refused some none.
Proof. intros I S. left. now apply shut_head. Qed.
Lemma near_stop L key refused some none : ~ In (lit key) (map fst L) -> near L key refused some none -> none.
Proof. intros N [H|(H & _)]; [|assumption]. exfalso. eapply shut_stop; eassumption. Qed.
Lemma near_may L key (refused refused' : Prop) some none : (forall j, In (lit key, j) l -> In (lit key) (map fst L)) -> (refused -> refused') ->
  near L key refused some none -> may l key refused' some none.
Proof.
  intros Src R [(j & _ & I & S)|(H & G)]; [left; eauto|right]. split; [assumption|]. destruct G as [G|G]; [left|right; auto].
  intros I. apply in_map_iff in I as ([k j] & E & I). cbn [fst] in E. subst k. apply G. exact (Src j I).
Qed.
End Near.

Lemma refused_tail {A} (each : json -> A -> Prop) a x b : (forall y, ~ each x y) -> forall l, ~ takes_list each (JArr (a ++ x :: b)) l.
Proof.
  intros N l [(c & E & F)|[E _]]; [|discriminate]. injection E as <-. revert l F. induction a as [|y a IH]; intros l F; inversion F; subst; [eapply N; eassumption|eapply IH; eassumption].
Qed.

(* ---- data records ---- *)

Lemma segment_left rt k j b : plain_json j -> tidy j ->
  match left_segment rt (lit (seg_name k)) (norm j) b with
  | (b1, Ok _) => exists s, b1 = put_segment s b /\ takes_segment (rtZone rt) k j s
  | (b1, _) => b1 = b /\ forall s, ~ takes_segment (rtZone rt) k j s
  end.
Proof.
  intros P Y. pose proof (fun c => segment_spec rt k j b c P Y) as D. rewrite segment_told in D. unfold told in D.
  assert (forall e, (forall c, (Err e = Ok c <-> exists s, c = put_segment s b /\ takes_segment (rtZone rt) k j s)) -> forall s, ~ takes_segment (rtZone rt) k j s) as No.
  { intros e H s T. pose proof (proj2 (H (put_segment s b)) (ex_intro _ s (conj eq_refl T))) as E. discriminate E. }
  unfold left_segment in *. rewrite kind_of_seg_name in *. destruct (decode_struct _ _ _ _) as [st|]; [|split; [reflexivity|exact (No _ D)]].
  unfold base_add_segment in *. destruct (seg_validate (mkSegment k st)); [split; [reflexivity|exact (No _ D)]|]. cbn [fst snd] in *. apply D. reflexivity.
Qed.
Lemma segments_left rt k a : Forall plain_json a -> Forall tidy a -> forall b,
  exists a1 a2 segs, a = a1 ++ a2 /\ fst (left_segments rt (lit (seg_name k)) (map norm a) b) = put_all segs b /\ Forall2 (takes_segment (rtZone rt) k) a1 segs
  /\ match a2 with x :: _ => forall s, ~ takes_segment (rtZone rt) k x s | [] => True end
  /\ match snd (left_segments rt (lit (seg_name k)) (map norm a) b) with Ok _ => True | _ => a2 <> [] end.
Proof.
  induction 1 as [|j a P F IH]; intros Y b; cbn [map left_segments].
  - exists [], [], []. split; [reflexivity|]. split; [reflexivity|]. split; [constructor|]. split; exact I.
  - inversion Y as [|x y Yj Ya]; subst. pose proof (segment_left rt k j b P Yj) as D.
    destruct (left_segment rt (lit (seg_name k)) (norm j) b) as [b1 [u|e|]].
    + destruct D as (s & -> & T). destruct (IH Ya (put_segment s b)) as (a1 & a2 & segs & -> & E & G & G2). exists (j :: a1), a2, (s :: segs).
      split; [reflexivity|]. split; [exact E|]. split; [constructor; assumption|exact G2].
    + destruct D as [-> D]. exists [], (j :: a), []. split; [reflexivity|]. split; [reflexivity|]. split; [constructor|]. split; [exact D|discriminate].
    + destruct D as [-> D]. exists [], (j :: a), []. split; [reflexivity|]. split; [reflexivity|]. split; [constructor|]. split; [exact D|discriminate].
Qed.

Section Base.
Variables (rt : runtime) (l : list (bytes * json)).
Hypothesis P : plain_json (JObj l).
Hypothesis Y : tidy (JObj l).
Let zone := rtZone rt.

(* what one member does *)
Inductive effect (b : base) : bytes * json -> base -> Prop :=
| StopEffect m : balks zone l -> effect b m b
| OtherEffect m : (forall key, In key ["base"; "j1"; "j2"; "k1"; "k2"; "k3"; "k4"; "l1"; "n1"] -> fst m <> lit key) -> effect b m b
| BaseEffect j old st : In (lit "base", j) l -> fresh base_struct no_id old -> takes_struct zone base_struct j old st -> effect b (lit "base", norm j) (set_bFields b st)
| ManyEffect k j segs : k = J1 \/ k = J2 -> In (lit (seg_name k), j) l -> some_of (takes_segment zone k) j segs -> effect b (lit (seg_name k), norm j) (put_all segs b)
| OneEffect k j s : k <> J1 -> k <> J2 -> In (lit (seg_name k), j) l -> takes_segment zone k j s -> effect b (lit (seg_name k), norm j) (put_segment s b).

Lemma member_effect key j b : In (key, j) l -> effect b (key, norm j) (fst (left_base_member rt (key, norm j) b))
  /\ match snd (left_base_member rt (key, norm j) b) with Ok _ => True | _ => balks zone l end.
Proof.
  intros I. pose proof (plain_member _ _ _ P I) as Pj. pose proof (tidy_member _ _ _ Y I) as Yj. unfold left_base_member.
  destruct (bytes_eqb key (lit "base")) eqn:Eb.
  - apply bytes_eqb_eq in Eb. subst key. pose proof (fun st => base_spec rt j (new_fields base_struct) st Pj Yj (rd_type _ _ _ base_readable)) as D.
    destruct (decode_struct _ _ _ _) as [st|]; cbn [fst snd].
    + split; [|exact Logic.I]. eapply BaseEffect; [assumption|now apply base_is_fresh|now apply D].
    + assert (balks zone l) as B.
      { apply BalkBase. exists j. split; [assumption|]. intros st (old & Fo & T). apply base_is_fresh in Fo. subst old. apply D in T. discriminate T. }
      split; [now apply StopEffect|exact B].
  - assert (forall k, k = J1 \/ k = J2 -> key = lit (seg_name k) ->
      let r := match json_list rt (norm j) with Some x => left_segments rt key x b | None => (b, Err (ErrOther "unable to parse segment")) end in
      effect b (key, norm j) (fst r) /\ match snd r with Ok _ => True | _ => balks zone l end) as Many.
    { intros k K ->. destruct (json_list rt (norm j)) as [x|] eqn:E.
      - apply json_list_norm in E as [(a & -> & ->)|[-> ->]]; [| |assumption].
        + inversion Pj; inversion Yj; subst. destruct (segments_left rt k a) with (b := b) as (a1 & a2 & segs & -> & E1 & F & M & E2); try assumption.
          cbv zeta. rewrite E1. split.
          * apply ManyEffect; try assumption. left. exists a1, a2. auto.
          * destruct (snd _); [exact Logic.I| |]; (apply (BalkMany zone l k K); exists (JArr (a1 ++ a2)); split; [assumption|]; destruct a2 as [|x a2]; [contradiction|now apply refused_tail]).
        + split; [|exact Logic.I]. apply (ManyEffect b k JNull []); try assumption. right. auto.
      - assert (balks zone l) as B.
        { apply (BalkMany zone l k K). exists j. split; [assumption|]. intros segs [(a & -> & _)|[-> _]];
            (rewrite (proj2 (json_list_norm rt _ _ Pj)) in E by eauto; discriminate E). }
        split; [now apply StopEffect|exact B]. }
    destruct (bytes_eqb key (lit "j1")) eqn:E1; cbn [orb]; [apply (Many J1); [now left|now apply bytes_eqb_eq in E1]|].
    destruct (bytes_eqb key (lit "j2")) eqn:E2; [apply (Many J2); [now right|now apply bytes_eqb_eq in E2]|].
    destruct (kind_of_name key) as [k|] eqn:K.
    + apply kind_of_name_spec in K. subst key. pose proof (segment_left rt k j b Pj Yj) as D.
      assert (k <> J1) as N1' by (intros ->; discriminate). assert (k <> J2) as N2' by (intros ->; discriminate).
      destruct (left_segment rt (lit (seg_name k)) (norm j) b) as [b1 [u|e|]]; cbn [fst snd].
      * destruct D as (s & -> & T). split; [now apply OneEffect|exact Logic.I].
      * destruct D as [-> D]. assert (balks zone l) as B by (apply (BalkOne zone l k N1' N2'); exists j; auto). split; [now apply StopEffect|exact B].
      * destruct D as [-> D]. assert (balks zone l) as B by (apply (BalkOne zone l k N1' N2'); exists j; auto). split; [now apply StopEffect|exact B].
    + unfold left_segment. rewrite K. split; [|exact Logic.I]. apply OtherEffect. intros x Ix Ek. cbn [fst] in Ek. subst key.
      destruct Ix as [<-|[<-|[<-|[<-|[<-|[<-|[<-|[<-|[<-|[]]]]]]]]]]; first [discriminate Eb|discriminate E1|discriminate E2|discriminate K].
Qed.

Definition kept (L : list (bytes * json)) (b c : base) : Prop :=
  near l L "base" (balks zone l) (fun v => exists old, fresh base_struct no_id old /\ takes_struct zone base_struct v old (bFields c)) (bFields c = bFields b)
  /\ (exists segs, bJ1 c = bJ1 b ++ segs /\ near l L "j1" (balks zone l) (fun j => some_of (takes_segment zone J1) j segs) (segs = []))
  /\ (exists segs, bJ2 c = bJ2 b ++ segs /\ near l L "j2" (balks zone l) (fun j => some_of (takes_segment zone J2) j segs) (segs = []))
  /\ near l L "k1" (balks zone l) (fun j => exists s, bK1 c = Some s /\ takes_segment zone K1 j s) (bK1 c = bK1 b)
  /\ near l L "k2" (balks zone l) (fun j => exists s, bK2 c = Some s /\ takes_segment zone K2 j s) (bK2 c = bK2 b)
  /\ near l L "k3" (balks zone l) (fun j => exists s, bK3 c = Some s /\ takes_segment zone K3 j s) (bK3 c = bK3 b)
  /\ near l L "k4" (balks zone l) (fun j => exists s, bK4 c = Some s /\ takes_segment zone K4 j s) (bK4 c = bK4 b)
  /\ near l L "l1" (balks zone l) (fun j => exists s, bL1 c = Some s /\ takes_segment zone L1 j s) (bL1 c = bL1 b)
  /\ near l L "n1" (balks zone l) (fun j => exists s, bN1 c = Some s /\ takes_segment zone N1 j s) (bN1 c = bN1 b).

Lemma kept_nil b : kept [] b b.
Proof.
  unfold kept. repeat split; try (now apply near_nil).
  - exists []. rewrite app_nil_r. split; [reflexivity|now apply near_nil].
  - exists []. rewrite app_nil_r. split; [reflexivity|now apply near_nil].
Qed.
Lemma kept_shut L b : balks zone l -> kept L b b.
Proof.
  intros B. unfold kept. repeat split; try (now apply near_shut).
  - exists []. rewrite app_nil_r. split; [reflexivity|now apply near_shut].
  - exists []. rewrite app_nil_r. split; [reflexivity|now apply near_shut].
Qed.

Lemma some_kinds k j segs : some_of (takes_segment zone k) j segs -> Forall (fun s => sKind s = k) segs.
Proof. intros [(a & r & _ & F & _)|[_ ->]]; [|constructor]. induction F as [|x s a q (K & _) F IH]; constructor; assumption. Qed.

Lemma kept_step m L b b1 c : ~ In (fst m) (map fst L) -> effect b m b1 -> kept L b1 c -> kept (m :: L) b c.
Proof.
  intros N Ef Kp.
  assert (forall key some none, fst m <> lit key -> near l L key (balks zone l) some none -> near l (m :: L) key (balks zone l) some none) as Skip
    by (intros key some none D; apply near_skip; [assumption|auto]).
  assert (forall a b, a <> b -> lit a <> lit b) as Lit by (intros x y D E; apply D; now apply lit_inj).
  destruct Ef as [m B|m Other|j old st I F T|k j segs Kk I So|k j s N1' N2' I T].
  - destruct Kp as (M1 & (s1 & E1 & M2) & (s2 & E2 & M3) & M4 & M5 & M6 & M7 & M8 & M9).
    assert (forall key some none, near l L key (balks zone l) some none -> near l (m :: L) key (balks zone l) some none) as Sk.
    { intros key some none [H|[H _]]; [left; now apply shut_skip|now apply near_shut]. }
    split; [now apply Sk|]. split; [exists s1; split; [assumption|now apply Sk]|]. split; [exists s2; split; [assumption|now apply Sk]|].
    repeat (split; [now apply Sk|]). now apply Sk.
  - destruct Kp as (M1 & (s1 & E1 & M2) & (s2 & E2 & M3) & M4 & M5 & M6 & M7 & M8 & M9).
    assert (forall key some none, In key ["base"; "j1"; "j2"; "k1"; "k2"; "k3"; "k4"; "l1"; "n1"] -> near l L key (balks zone l) some none -> near l (m :: L) key (balks zone l) some none) as Sk.
    { intros key some none Ik. apply Skip. now apply Other. }
    split; [apply Sk; [cbn; tauto|assumption]|]. split; [exists s1; split; [assumption|apply Sk; [cbn; tauto|assumption]]|]. split; [exists s2; split; [assumption|apply Sk; [cbn; tauto|assumption]]|].
    repeat (split; [apply Sk; [cbn; tauto|assumption]|]). apply Sk; [cbn; tauto|assumption].
  - cbn [fst] in *. unfold kept in *. unfold set_bFields in *. cbn [bFields bJ1 bJ2 bK1 bK2 bK3 bK4 bL1 bN1] in *.
    destruct Kp as (M1 & (s1 & E1 & M2) & (s2 & E2 & M3) & M4 & M5 & M6 & M7 & M8 & M9).
    split; [apply near_stop in M1; [|assumption]; rewrite M1; apply near_head; eauto|].
    split; [exists s1; split; [assumption|apply Skip; [now apply Lit|assumption]]|]. split; [exists s2; split; [assumption|apply Skip; [now apply Lit|assumption]]|].
    repeat (split; [apply Skip; [now apply Lit|assumption]|]). apply Skip; [now apply Lit|assumption].
  - destruct b as [f a1 a2 x d e g h i]. destruct Kk as [-> | ->]; cbn [fst seg_name] in *; [rewrite put_j1 in Kp by (eapply some_kinds; eassumption)|rewrite put_j2 in Kp by (eapply some_kinds; eassumption)];
      unfold kept in *; cbn [bFields bJ1 bJ2 bK1 bK2 bK3 bK4 bL1 bN1] in *; destruct Kp as (M1 & (s1 & E1 & M2) & (s2 & E2 & M3) & M4 & M5 & M6 & M7 & M8 & M9).
    + apply near_stop in M2; [|assumption]. subst s1. rewrite app_nil_r in E1.
      split; [apply Skip; [now apply Lit|assumption]|]. split; [exists segs; split; [assumption|now apply near_head]|]. split; [exists s2; split; [assumption|apply Skip; [now apply Lit|assumption]]|].
      repeat (split; [apply Skip; [now apply Lit|assumption]|]). apply Skip; [now apply Lit|assumption].
    + apply near_stop in M3; [|assumption]. subst s2. rewrite app_nil_r in E2.
      split; [apply Skip; [now apply Lit|assumption]|]. split; [exists s1; split; [assumption|apply Skip; [now apply Lit|assumption]]|]. split; [exists segs; split; [assumption|now apply near_head]|].
      repeat (split; [apply Skip; [now apply Lit|assumption]|]). apply Skip; [now apply Lit|assumption].
  - destruct b as [f a1 a2 x d e g h i]. unfold put_segment in Kp. rewrite (proj1 T) in Kp.
    destruct k; try congruence; cbn [fst seg_name] in *; unfold kept in *; cbn [bFields bJ1 bJ2 bK1 bK2 bK3 bK4 bL1 bN1] in *;
      destruct Kp as (M1 & (s1 & E1 & M2) & (s2 & E2 & M3) & M4 & M5 & M6 & M7 & M8 & M9);
      (split; [apply Skip; [now apply Lit|assumption]|]); (split; [exists s1; split; [assumption|apply Skip; [now apply Lit|assumption]]|]); (split; [exists s2; split; [assumption|apply Skip; [now apply Lit|assumption]]|]);
      repeat match goal with
      | M : near l L ?key _ _ _ |- near l _ ?key _ _ _ /\ _ =>
          split; [first [apply near_stop in M; [|exact N]; rewrite M; apply near_head; solve [eauto]|apply Skip; [now apply Lit|exact M]]|]
      | M : near l L ?key _ _ _ |- near l _ ?key _ _ _ =>
          first [apply near_stop in M; [|exact N]; rewrite M; apply near_head; solve [eauto]|apply Skip; [now apply Lit|exact M]]
      end.
Qed.

Lemma base_members_left L : NoDup (map fst L) -> (forall k x, In (k, x) L -> exists j, In (k, j) l /\ x = norm j) ->
  forall b, kept L b (fst (left_base_members rt L b)).
Proof.
  induction L as [|[k x] L IH]; intros N Src b; [apply kept_nil|]. cbn [map fst] in N. inversion N as [|? ? N1' N2']; subst.
  destruct (Src k x (or_introl eq_refl)) as (j & I & ->). destruct (member_effect k j b I) as [Ef Er]. cbn [left_base_members].
  destruct (left_base_member rt (k, norm j) b) as [b1 r]. cbn [fst snd] in Ef, Er. eapply kept_step; [exact N1'|exact Ef|].
  destruct r; [|now apply kept_shut|now apply kept_shut]. apply IH; [assumption|]. intros k' x' I'. apply Src. now right.
Qed.
End Base.

Lemma ordered_keys rt n l key j : orders rt -> NoDup (map fst l) -> In (lit key, j) l -> In (lit key) (map fst (rtOrder rt n (put_members (norm_members l)))).
Proof.
  intros O N I. apply in_map_iff. exists (lit key, norm j). split; [reflexivity|]. eapply Permutation_in; [apply O|]. now apply normed_in.
Qed.

Lemma base_left rt n j b : orders rt -> plain_json j -> tidy j -> leaves_base (rtZone rt) j b (fst (left_base rt n j b)).
Proof.
  intros O P Y. unfold left_base. destruct (json_map rt j) as [l'|] eqn:E.
  - apply members_norm in E as (l & M & ->); [|assumption]. right. exists l. split; [assumption|].
    assert (plain_json (JObj l) /\ tidy (JObj l)) as [Pl Yl].
    { destruct M as [-> |[-> ->]]; [auto|]. split; [constructor; constructor|]. constructor; [split; constructor|constructor]. }
    pose proof (plain_obj_nodup _ Pl) as N.
    assert (kept rt l (rtOrder rt n (put_members (norm_members l))) (clear_j b) (fst (left_base_members rt (rtOrder rt n (put_members (norm_members l))) (clear_j b)))) as K.
    { apply base_members_left; try assumption.
      - eapply Permutation_NoDup; [apply Permutation_map, O|now apply normal_keys].
      - intros k x I. apply normed_out; [assumption|]. eapply Permutation_in; [apply Permutation_sym, O|exact I]. }
    set (c := fst (left_base_members _ _ _)) in *. clearbody c. destruct K as (M1 & (s1 & E1 & M2) & (s2 & E2 & M3) & M4 & M5 & M6 & M7 & M8 & M9).
    cbn [clear_j bFields bJ1 bJ2 bK1 bK2 bK3 bK4 bL1 bN1 app] in *. subst s1 s2. unfold leaves_many, leaves_one.
    assert (forall key j, In (lit key, j) l -> In (lit key) (map fst (rtOrder rt n (put_members (norm_members l))))) as Keys by (intros key x; now apply ordered_keys).
    repeat (split; [eapply near_may; [exact (Keys _)|exact (fun x => x)|eassumption]|]). eapply near_may; [exact (Keys _)|exact (fun x => x)|eassumption].
  - left. split; [|reflexivity]. intros l M. rewrite (proj2 (members_norm rt j _ P)) in E by eauto. discriminate.
Qed.
Lemma left_base_norm rt n j b : plain_json j -> left_base rt n (norm j) b = left_base rt n j b.
Proof.
  intros P. unfold left_base, json_map. rewrite !remarshal_plain by (try apply norm_plain; assumption). rewrite norm_norm by assumption. reflexivity.
Qed.

(* ---- files ---- *)

Lemma data_left rt a : orders rt -> Forall plain_json a -> Forall tidy a -> forall n f,
  exists a1 a2 bases, a = a1 ++ a2 /\ fst (left_data rt n (map norm a) f) = set_bases f (flBases f ++ map (RBase (flPacked f)) bases)
  /\ Forall2 (takes_data (rtZone rt)) a1 bases
  /\ match a2 with x :: _ => forall b, ~ takes_data (rtZone rt) x b | [] => True end
  /\ match snd (left_data rt n (map norm a) f) with Ok _ => True | _ => a2 <> [] end.
Proof.
  intros O. induction 1 as [|j a P F IH]; intros Y n f; cbn [map left_data].
  - exists [], [], []. split; [reflexivity|]. split; [cbn [map fst]; rewrite app_nil_r; destruct f; reflexivity|]. split; [constructor|]. split; exact I.
  - inversion Y as [|x y Yj Ya]; subst. unfold new_data_record. cbn [left_record]. rewrite left_base_norm by assumption.
    pose proof (fun c => unmarshal_base_spec rt n j new_base c O P Yj) as D. rewrite base_told in D. unfold told in D.
    destruct (left_base rt n j new_base) as [b [u|e|]]; cbn [fst snd] in *.
    + destruct (IH Ya (S n) (set_bases f (flBases f ++ [RBase (flPacked f) b]))) as (a1 & a2 & bases & -> & E & G & G2).
      exists (j :: a1), a2, (b :: bases). split; [reflexivity|]. split.
      * rewrite E. destruct f as [p0 h0 bs0 t0]. cbn [set_bases flBases flPacked flHeader flTrailer map]. rewrite <- app_assoc. reflexivity.
      * split; [|exact G2]. constructor; [|assumption]. exists new_base. split; [now apply blank_is|now apply D].
    + exists [], (j :: a), []. split; [reflexivity|]. split; [cbn [map]; rewrite app_nil_r; destruct f; reflexivity|]. split; [constructor|]. split; [|discriminate].
      intros c (b0 & B & T). apply blank_is in B. subst b0. apply D in T. discriminate T.
    + exists [], (j :: a), []. split; [reflexivity|]. split; [cbn [map]; rewrite app_nil_r; destruct f; reflexivity|]. split; [constructor|]. split; [|discriminate].
      intros c (b0 & B & T). apply blank_is in B. subst b0. apply D in T. discriminate T.
Qed.

Section Files.
Variables (rt : runtime) (l : list (bytes * json)).
Hypothesis O : orders rt.
Hypothesis P : plain_json (JObj l).
Hypothesis Y : tidy (JObj l).
Let zone := rtZone rt.

Let no_header L h := shut l L "header" (fun v => forall x, ~ takes_struct zone header_struct v h x).
Let no_data L := shut l L "data" (fun v => forall x, ~ takes_list (takes_data zone) v x).
Let no_trailer L t := shut l L "trailer" (fun v => forall x, ~ takes_struct zone trailer_struct v t x).

Lemma file_members_left L : NoDup (map fst L) -> (forall k x, In (k, x) L -> exists j, In (k, j) l /\ x = norm j) ->
  forall p q h bs r t, has_type header_struct h -> has_type trailer_struct t ->
  exists h' t' bases, fst (left_file_members rt L (mkFile p (RHeader q h) bs (RTrailer r t))) = mkFile p (RHeader q h') (bs ++ map (RBase p) bases) (RTrailer r t')
  /\ near l L "header" (no_data L \/ no_trailer L t) (fun v => leaves_struct zone header_struct v h h') (h' = h)
  /\ near l L "data" (no_header L h \/ no_data L \/ no_trailer L t) (fun v => some_of (takes_data zone) v bases) (bases = [])
  /\ near l L "trailer" (no_header L h \/ no_data L) (fun v => leaves_struct zone trailer_struct v t t') (t' = t).
Proof.
  assert (forall a b, a <> b -> lit a <> lit b) as Lit by (intros x y D E; apply D; now apply lit_inj).
  induction L as [|[k x] L IH]; intros N Src p q h bs r t Th Tt.
  - cbn [left_file_members fst]. exists h, t, []. cbn [map]. rewrite app_nil_r. split; [reflexivity|]. split; [now apply near_nil|]. split; now apply near_nil.
  - cbn [map fst] in N. inversion N as [|? ? Nk N']; subst. destruct (Src k x (or_introl eq_refl)) as (j & I & ->).
    assert (forall k x, In (k, x) L -> exists j, In (k, j) l /\ x = norm j) as Src' by (intros k' x' I'; apply Src; now right).
    specialize (IH N' Src'). pose proof (plain_member _ _ _ P I) as Pj. pose proof (tidy_member _ _ _ Y I) as Yj.
    cbn [left_file_members]. unfold left_file_member. destruct (bytes_eqb k (lit "header")) eqn:Eh.
    + apply bytes_eqb_eq in Eh. subst k. cbn [flHeader left_record]. pose proof (header_left rt j h Pj Yj Th) as D. pose proof (leaves_struct_type _ _ _ _ _ Th D) as Th1.
      pose proof (fun st => header_spec rt j h st Pj Yj Th) as Sp. rewrite struct_told in Sp.
      destruct (left_struct rt header_tags (norm j) h) as [h1 e]. cbn [fst snd] in D, Th1, Sp. cbn [set_header flPacked flBases flTrailer].
      destruct e; cbn [fst].
      * assert (no_header ((lit "header", norm j) :: L) h) as Nh by (apply shut_head; [assumption|]; intros y T; apply Sp in T; discriminate T).
        exists h1, t, []. cbn [map]. rewrite app_nil_r. split; [reflexivity|]. split; [now apply near_head|]. split; (apply near_shut; [now left|reflexivity]).
      * destruct (IH p q h1 bs r t Th1 Tt) as (h' & t' & bases & E & M1 & M2 & M3). exists h', t', bases. split; [exact E|].
        apply near_stop in M1; [|assumption]. subst h'. split; [now apply near_head|].
        assert (~ no_header L h1) as Nn by now apply shut_stop.
        split; (eapply near_skip; [now apply Lit| |eassumption]).
        -- intros [H|[H|H]]; [contradiction|right; left; now apply shut_skip|right; right; now apply shut_skip].
        -- intros [H|H]; [contradiction|right; now apply shut_skip].
    + destruct (bytes_eqb k (lit "trailer")) eqn:Et.
      * apply bytes_eqb_eq in Et. subst k. cbn [flTrailer left_record]. pose proof (trailer_left rt j t Pj Yj Tt) as D. pose proof (leaves_struct_type _ _ _ _ _ Tt D) as Tt1.
        pose proof (fun st => trailer_spec rt j t st Pj Yj Tt) as Sp. rewrite struct_told in Sp.
        destruct (left_struct rt trailer_tags (norm j) t) as [t1 e]. cbn [fst snd] in D, Tt1, Sp. cbn [set_trailer flPacked flBases flHeader].
        destruct e; cbn [fst].
        -- assert (no_trailer ((lit "trailer", norm j) :: L) t) as Nt by (apply shut_head; [assumption|]; intros y T; apply Sp in T; discriminate T).
           exists h, t1, []. cbn [map]. rewrite app_nil_r. split; [reflexivity|]. split; [apply near_shut; [now right|reflexivity]|].
           split; [apply near_shut; [right; now right|reflexivity]|now apply near_head].
        -- destruct (IH p q h bs r t1 Th Tt1) as (h' & t' & bases & E & M1 & M2 & M3). exists h', t', bases. split; [exact E|].
           apply near_stop in M3; [|assumption]. subst t'. assert (~ no_trailer L t1) as Nn by now apply shut_stop.
           split; [eapply near_skip; [now apply Lit| |eassumption]|split; [eapply near_skip; [now apply Lit| |eassumption]|now apply near_head]].
           ++ intros [H|H]; [left; now apply shut_skip|contradiction].
           ++ intros [H|[H|H]]; [left; now apply shut_skip|right; left; now apply shut_skip|contradiction].
      * destruct (bytes_eqb k (lit "data")) eqn:Ed.
        -- apply bytes_eqb_eq in Ed. subst k.
           set (f0 := mkFile p (RHeader q h) bs (RTrailer r t)).
           assert (let rr := match json_list rt (norm j) with Some x => left_data rt 1 x f0 | None => (f0, Err (ErrOther "Unable to parse input json file")) end in
             exists bases, fst rr = mkFile p (RHeader q h) (bs ++ map (RBase p) bases) (RTrailer r t)
             /\ (some_of (takes_data zone) j bases \/ (bases = [] /\ forall y, ~ takes_list (takes_data zone) j y))
             /\ match snd rr with Ok _ => some_of (takes_data zone) j bases | _ => forall y, ~ takes_list (takes_data zone) j y end) as (bases & E & D & X).
           { destruct (json_list rt (norm j)) as [x|] eqn:E.
             - apply json_list_norm in E as [(a & -> & ->)|[-> ->]]; [| |assumption].
               + inversion Pj; inversion Yj; subst. destruct (data_left rt a) with (n := 1%nat) (f := f0) as (a1 & a2 & bases & -> & E & F & M & X); try assumption.
                 assert (some_of (takes_data zone) (JArr (a1 ++ a2)) bases) as So by (left; exists a1, a2; auto).
                 exists bases. split; [exact E|]. split; [now left|]. destruct (snd _); [exact So| |]; (destruct a2 as [|y a2]; [contradiction|now apply refused_tail]).
               + exists []. cbn [left_data fst snd map]. rewrite app_nil_r. split; [reflexivity|]. split; [left; right; auto|right; auto].
             - assert (forall y, ~ takes_list (takes_data zone) j y) as Nl.
               { intros y [(a & -> & _)|[-> _]]; (rewrite (proj2 (json_list_norm rt _ _ Pj)) in E by eauto; discriminate E). }
               exists []. cbn [fst snd map]. rewrite app_nil_r. split; [reflexivity|]. split; [right; auto|exact Nl]. }
           destruct (match json_list rt (norm j) with Some x => _ | None => _ end) as [f1 [u|e|]]; cbn [fst snd] in E, X; subst f1; cbn [fst].
           ++ destruct (IH p q h (bs ++ map (RBase p) bases) r t Th Tt) as (h' & t' & bases' & E & M1 & M2 & M3). exists h', t', bases.
              apply near_stop in M2; [|assumption]. subst bases'. cbn [map] in E. rewrite app_nil_r in E. split; [exact E|].
              assert (~ no_data L) as Nn by now apply shut_stop.
              split; [eapply near_skip; [now apply Lit| |eassumption]|split; [now apply near_head|eapply near_skip; [now apply Lit| |eassumption]]].
              ** intros [H|H]; [contradiction|right; now apply shut_skip].
              ** intros [H|H]; [left; now apply shut_skip|contradiction].
           ++ assert (no_data ((lit "data", norm j) :: L)) as Nd by now apply shut_head.
              exists h, t, bases. split; [reflexivity|]. split; [apply near_shut; [now left|reflexivity]|]. split; [|apply near_shut; [now right|reflexivity]].
              destruct D as [D|[-> _]]; [now apply near_head|]. apply near_shut; [right; now left|reflexivity].
           ++ assert (no_data ((lit "data", norm j) :: L)) as Nd by now apply shut_head.
              exists h, t, bases. split; [reflexivity|]. split; [apply near_shut; [now left|reflexivity]|]. split; [|apply near_shut; [now right|reflexivity]].
              destruct D as [D|[-> _]]; [now apply near_head|]. apply near_shut; [right; now left|reflexivity].
        -- destruct (IH p q h bs r t Th Tt) as (h' & t' & bases & E & M1 & M2 & M3). exists h', t', bases. split; [exact E|].
           apply bytes_eqb_neq in Eh, Et, Ed.
           split; [eapply near_skip; [exact Eh| |eassumption]|split; (eapply near_skip; [eassumption| |eassumption])].
           ++ intros [H|H]; [left|right]; now apply shut_skip.
           ++ intros [H|[H|H]]; [left|right; left|right; right]; now apply shut_skip.
           ++ intros [H|H]; [left|right]; now apply shut_skip.
Qed.
End Files.

Lemma file_left rt j f : orders rt -> plain_json j -> tidy j -> framed f -> leaves_file (rtZone rt) j f (fst (left_file rt j f)).
Proof.
  intros O P Y (q & r & h & t & Eh & Et & Th & Tt). unfold left_file. destruct (json_map rt j) as [l'|] eqn:E.
  - apply members_norm in E as (l & M & ->); [|assumption]. right.
    assert (plain_json (JObj l) /\ tidy (JObj l)) as [Pl Yl].
    { destruct M as [-> |[-> ->]]; [auto|]. split; [constructor; constructor|]. constructor; [split; constructor|constructor]. }
    pose proof (plain_obj_nodup _ Pl) as N. destruct f as [p h0 bs t0]. cbn [flHeader flTrailer flPacked flBases] in *. subst h0 t0.
    destruct (file_members_left rt l O Pl Yl (rtOrder rt 0 (put_members (norm_members l)))) with (p := p) (q := q) (h := h) (bs := bs) (r := r) (t := t)
      as (h' & t' & bases & E & M1 & M2 & M3); try assumption.
    + eapply Permutation_NoDup; [apply Permutation_map, O|now apply normal_keys].
    + intros k x I. apply normed_out; [assumption|]. eapply Permutation_in; [apply Permutation_sym, O|exact I].
    + exists l, q, r, h, h', t, t', bases. split; [assumption|]. split; [reflexivity|]. split; [reflexivity|]. split; [exact E|]. cbv zeta.
      assert (forall key j, In (lit key, j) l -> In (lit key) (map fst (rtOrder rt 0 (put_members (norm_members l))))) as Keys by (intros key x; now apply ordered_keys).
      split; [eapply near_may; [exact (Keys _)| |eassumption]|split; (eapply near_may; [exact (Keys _)| |eassumption])].
      * intros [H|H]; [left|right]; eapply shut_refuses; exact H.
      * intros [H|[H|H]]; [left|right; left|right; right]; eapply shut_refuses; exact H.
      * intros [H|H]; [left|right]; eapply shut_refuses; exact H.
  - left. split; [|reflexivity]. intros l M. rewrite (proj2 (members_norm rt j _ P)) in E by eauto. discriminate.
Qed.

(* a file that is accepted is also of this kind, and an error has a cause *)
Lemma create_left rt j s w rest : orders rt -> plain_json j -> tidy j -> Forall white w -> spells j s -> (rest = [] \/ exists l, j = JObj l) ->
  match left_create rt (w ++ s ++ rest) with
  | (None, _) => forall p, ~ takes_format (rtZone rt) j p
  | (Some g, _) => exists p h t, takes_format (rtZone rt) j p
      /\ fresh header_struct ("RecordIdentifier", lit "HEADER") h /\ fresh trailer_struct ("RecordIdentifier", lit "TRAILER") t
      /\ leaves_file (rtZone rt) j (mkFile p (RHeader p h) [] (RTrailer p t)) g
  end.
Proof.
  intros O P Y W S A. unfold left_create.
  assert (decode (w ++ s ++ rest) = Some j) as -> by (destruct A as [-> |(l & ->)]; [apply decode_spelled; [assumption|assumption|exact I]|now apply decode_object]).
  pose proof (fun p => format_spec rt j p P Y) as F. destruct (decode_dummy rt j) as [h|].
  - pose proof (file_left rt j (new_file_p (dummy_packed h)) O P Y (new_framed _)) as L.
    destruct (left_file rt j (new_file_p (dummy_packed h))) as [g e]. cbn [fst] in L. exists (dummy_packed h), new_header, new_trailer.
    split; [apply F; eauto|]. split; [now apply header_is_fresh|]. split; [now apply trailer_is_fresh|exact L].
  - intros p T. apply F in T as (h & E & _). discriminate E.
Qed.

Lemma left_file_calm rt j f : snd (left_file rt j f) <> Panic.
Proof. pose proof (unmarshal_file_calm rt j f) as C1. rewrite file_told in C1. unfold told in C1. intros E. rewrite E in C1. contradiction. Qed.
Lemma create_calm rt text : snd (left_create rt text) <> Panic.
Proof.
  unfold left_create. destruct (decode text); [|discriminate]. destruct (decode_dummy rt j) as [h|]; [|discriminate].
  pose proof (left_file_calm rt j (new_file_p (dummy_packed h))) as C1. destruct (left_file rt j _) as [g e]. exact C1.
Qed.
Lemma new_told rt evs input : new_file_from_reader rt evs input =
  option_map (fun r => match r with (Some f, Ok _) => Ok f | (_, Err e) => Err e | _ => Panic end) (left_new rt evs input).
Proof.
  unfold new_file_from_reader, left_new. destruct input as [|c r]; [reflexivity|]. destruct (looks_like_json (c :: r)).
  - cbn [option_map]. f_equal. apply create_told.
  - destruct (read_from evs (c :: r)) as [[f|e|]|]; reflexivity.
Qed.

(* a file comes with an error only if the text is taken for JSON *)
Lemma new_left rt evs input g e : left_new rt evs input = Some (Some g, Err e) ->
  (exists a b, input = a ++ "{"%char :: b /\ (length a < 1024)%nat) /\ left_create rt input = (Some g, Err e).
Proof.
  unfold left_new. destruct input as [|c r]; [discriminate|]. destruct (looks_like_json (c :: r)) eqn:L.
  - intros [= H]. split; [|exact H]. unfold looks_like_json in L. apply existsb_exists in L as (x & I & E). apply byte_eqb_eq in E. subst x.
    apply in_split in I as (a & b & E). pose proof (firstn_skipn 1024 (c :: r)) as F. rewrite E in F. exists a, (b ++ skipn 1024 (c :: r)).
    split; [rewrite <- F at 1; rewrite <- app_assoc; reflexivity|]. pose proof (firstn_le_length 1024 (c :: r)) as Q. rewrite E, app_length in Q. cbn [List.length] in Q. lia.
  - destruct (read_from evs (c :: r)) as [[f|x|]|]; discriminate.
Qed.

Lemma file_agrees rt j f : unmarshal_file rt j f = match left_file rt j f with (g, Ok _) => Ok g | (_, Err e) => Err e | (_, Panic) => Panic end.
Proof. rewrite file_told. destruct (left_file rt j f) as [g [u|e|]]; reflexivity. Qed.
Lemma base_agrees rt n j b : unmarshal_base rt n j b = match left_base rt n j b with (c, Ok _) => Ok c | (_, Err e) => Err e | (_, Panic) => Panic end.
Proof. rewrite base_told. destruct (left_base rt n j b) as [c [u|e|]]; reflexivity. Qed.

Lemma shapeless_none j l : shapeless j -> ~ members j l.
Proof. intros [A B] [E|[E _]]; [exact (A l E)|contradiction]. Qed.
Lemma nothing_left rt j f : orders rt -> plain_json j -> tidy j -> framed f -> shapeless j -> fst (left_file rt j f) = f.
Proof.
  intros O P Y F S. destruct (file_left rt j f O P Y F) as [[_ E]|(l & q & r & h & h' & t & t' & bases & M & _)]; [exact E|]. destruct (shapeless_none _ _ S M).
Qed.
Lemma nothing_left_base rt n j b : orders rt -> plain_json j -> tidy j -> shapeless j -> fst (left_base rt n j b) = b.
Proof.
  intros O P Y S. destruct (base_left rt n j b O P Y) as [[_ E]|(l & M & _)]; [exact E|]. destruct (shapeless_none _ _ S M).
Qed.

Lemma header_reached rt l v f q h r t : orders rt -> plain_json (JObj l) -> tidy (JObj l) -> framed f -> In (lit "header", v) l ->
  flHeader f = RHeader q h -> flTrailer f = RTrailer r t ->
  (forall x, In (lit "data", x) l -> exists bases, takes_list (takes_data (rtZone rt)) x bases) ->
  (forall x, In (lit "trailer", x) l -> exists t', takes_struct (rtZone rt) trailer_struct x t t') ->
  exists h', flHeader (fst (left_file rt (JObj l) f)) = RHeader q h' /\ leaves_struct (rtZone rt) header_struct v h h'.
Proof.
  intros O P Y F I Eh Et Od Ot. destruct (file_left rt (JObj l) f O P Y F) as [[N _]|(l' & q0 & r0 & h0 & h' & t0 & t' & bases & M & Eh0 & Et0 & E & M1 & _)].
  - exfalso. apply (N l). now left.
  - destruct M as [M|[M _]]; [injection M as <-|discriminate]. pose proof (plain_obj_nodup _ P) as N.
    assert (q0 = q /\ h0 = h) as [-> ->] by (rewrite Eh in Eh0; injection Eh0; auto). assert (t0 = t) as -> by congruence. exists h'. split; [now rewrite E|].
    destruct M1 as [(w & Iw & L)|(_ & [A|[(x & Ix & B)|(x & Ix & B)]])].
    + assert (w = v) as <-; [|exact L]. assert ((lit "header", w) = (lit "header", v)) as X by (apply (NoDup_map_inj fst l); auto). congruence.
    + exfalso. apply A. apply in_map_iff. exists (lit "header", v). auto.
    + exfalso. destruct (Od x Ix) as (y & T). exact (B y T).
    + exfalso. destruct (Ot x Ix) as (y & T). exact (B y T).
Qed.
