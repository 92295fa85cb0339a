(* Facts about files described by JSON that leaves fields out *)
From Coq Require Import ZArith NArith Bool Ascii String List Permutation Lia.
Import ListNotations.
From Verif Require Import GoBase GoBaseFacts GoTime TimeFacts GoLayout Json Tables JsonTables Codec Records File Reader JsonFile
  SpecCodec SpecLayouts SpecRecords FieldFacts FieldProps RecordFacts SpecJson LayoutFacts JsonTextFacts JsonMapFacts JsonFacts JsonProps SpecSparse DateFacts.
Local Open Scope string_scope.
Local Open Scope Z_scope.
Local Open Scope list_scope.
Local Notation length := List.length.

(* ---- values ---- *)

Lemma stated_reads rt j v : stated j v -> forall old, kind_of old = kind_of v -> decode_field rt old j = Some v.
Proof.
  intros [z H|s H| |t s H] old K; destruct old; try discriminate K; cbn [decode_field].
  - rewrite parse_itoa by assumption. reflexivity.
  - reflexivity.
  - reflexivity.
  - rewrite (date_unmarshal _ t s H). reflexivity.
Qed.

Lemma stated_norm j v : stated j v -> norm j = j.
Proof. intros [z H|s H| |t s H]; reflexivity. Qed.
Lemma stated_not_null j v : stated j v -> j <> JNull.
Proof. intros [z H|s H| |t s H]; discriminate. Qed.

(* ---- keys ---- *)

Definition keys_okb (tags : list tag) : bool :=
  forallb (fun t => bytes_eqb (lit (tgKey t)) (json_key (tgField t))) tags
  && nodupb (map (fun t => string_of_list_ascii (to_upper (lit (tgKey t)))) tags).

Lemma keys_ok tags : keys_okb tags = true -> (forall t, In t tags -> lit (tgKey t) = json_key (tgField t))
  /\ NoDup (map (fun t => to_upper (lit (tgKey t))) tags).
Proof.
  unfold keys_okb. rewrite andb_true_iff. intros [H N]. split; [|now apply nodup_upper].
  rewrite forallb_forall in H. intros t I. apply bytes_eqb_eq. exact (H t I).
Qed.

Record readable (tags : list tag) (s : structure) (st0 : fields) : Prop := mkReadable {
  rd_keys : keys_okb tags = true;
  rd_ascii : forall t, In t tags -> forallb is_ascii (lit (tgKey t)) = true;
  rd_all : forall n, In n (map fst s) -> In n (map tgField tags);
  rd_names : NoDup (map fst s);
  rd_fields : forall t, In t tags -> exists v, lookup (tgField t) st0 = Some v;
  rd_type : has_type s st0 }.

Lemma tags_readable tags s st0 : tags_ok tags s st0 -> keys_okb tags = true -> has_type s st0 -> readable tags s st0.
Proof. intros K Y T. constructor; try assumption; try apply K. intros t I. destruct (tk_zero _ _ _ K t I) as (v & L & _). eauto. Qed.

(* the field a key stands for *)
Lemma find_key tags s st0 k t : readable tags s st0 -> Forall (fun c => code c < 128) k -> find_tag tags k = Some t -> key_is (tgField t) k.
Proof.
  intros R A F. apply find_tag_fold in F as [I F]. destruct (keys_ok _ (rd_keys _ _ _ R)) as [Y _]. unfold key_is. rewrite <- (Y t I).
  rewrite <- (upper_ascii_fold k A), F. apply upper_ascii_fold. apply ascii_codes. apply (rd_ascii _ _ _ R). exact I.
Qed.
Lemma key_find tags s st0 k n : readable tags s st0 -> Forall (fun c => code c < 128) k -> In n (map fst s) -> key_is n k ->
  exists t, find_tag tags k = Some t /\ tgField t = n.
Proof.
  intros R A I K. pose proof (rd_all _ _ _ R n I) as It. apply in_map_iff in It as (t & <- & It).
  destruct (keys_ok _ (rd_keys _ _ _ R)) as [Y N]. unfold key_is in K. rewrite <- (Y t It) in K.
  assert (fold_name k = fold_name (lit (tgKey t))) as E.
  { rewrite (upper_ascii_fold k A), K. symmetry. apply upper_ascii_fold. apply ascii_codes. apply (rd_ascii _ _ _ R). exact It. }
  destruct (find_tag tags k) as [t'|] eqn:F; [|exfalso; exact (find_tag_none _ _ _ F It E)].
  exists t'. split; [reflexivity|]. apply find_tag_fold in F as [I' F]. f_equal.
  apply (NoDup_map_inj (fun t => to_upper (lit (tgKey t))) tags); try assumption.
  rewrite <- (upper_ascii_fold (lit (tgKey t'))), <- (upper_ascii_fold (lit (tgKey t))) by (apply ascii_codes; apply (rd_ascii _ _ _ R); assumption).
  congruence.
Qed.

(* ---- structs ---- *)

(* a member that sets its field to the value it has in [st], or leaves it alone *)
Definition fair_member (rt : runtime) (tags : list tag) (st : fields) (m : bytes * json) : Prop :=
  find_tag tags (fst m) = None \/
  exists t v, find_tag tags (fst m) = Some t /\ lookup (tgField t) st = Some v /\
  ((snd m = JNull /\ kind_of v <> KTime) \/ forall old, kind_of old = kind_of v -> decode_field rt old (snd m) = Some v).

Lemma set_same n v st : lookup n st = Some v -> forall m, lookup m (set_field n v st) = lookup m st.
Proof. intros L m. rewrite lookup_set_field. destruct (String.eqb_spec m n) as [->|]; [|reflexivity]. rewrite L. reflexivity. Qed.

Lemma decode_fair rt tags st l : Forall (fair_member rt tags st) l -> forall st0, types st0 = types st ->
  exists st', decode_members rt tags l st0 = Some st' /\ types st' = types st /\
  forall n, lookup n st' = lookup n st \/
    (lookup n st' = lookup n st0 /\ forall m t, In m l -> find_tag tags (fst m) = Some t -> snd m <> JNull -> tgField t <> n).
Proof.
  induction 1 as [|[k j] l [F|(t & v & F & L & G)] _ IH]; intros st0 T; cbn [decode_members fst snd] in *.
  - exists st0. split; [reflexivity|]. split; [assumption|]. intros n. right. split; [reflexivity|]. intros m t [].
  - rewrite F. destruct (IH st0 T) as (st' & D & T' & H). exists st'. split; [assumption|]. split; [assumption|].
    intros n. destruct (H n) as [E|[E N]]; [now left|]. right. split; [assumption|]. intros m t [<-|I] Fm; [|eapply N; eassumption].
    cbn [fst] in Fm. congruence.
  - rewrite F. assert (exists old, lookup (tgField t) st0 = Some old /\ kind_of old = kind_of v) as (old & Lo & K).
    { pose proof (lookup_types (tgField t) st0) as E. rewrite T, lookup_types, L in E. destruct (lookup (tgField t) st0) as [old|]; [|discriminate].
      exists old. split; [reflexivity|]. cbn in E. congruence. }
    rewrite Lo. destruct G as [[-> Nt]|G].
    + assert (decode_field rt old JNull = Some old) as -> by (destruct old; try reflexivity; cbn in K; congruence).
      destruct (IH (set_field (tgField t) old st0)) as (st' & D & T' & H).
      { rewrite set_field_types; [assumption|]. apply can_assign_spec. exists old. auto. }
      exists st'. split; [assumption|]. split; [assumption|]. intros n. destruct (H n) as [E|[E N]]; [now left|]. right.
      rewrite (set_same _ _ _ Lo) in E. split; [assumption|]. intros m t' [<-|I] Fm Nn; [cbn in Nn; congruence|eapply N; eassumption].
    + rewrite (G old K). destruct (IH (set_field (tgField t) v st0)) as (st' & D & T' & H).
      { rewrite set_field_types; [assumption|]. apply can_assign_spec. exists old. split; [assumption|congruence]. }
      exists st'. split; [assumption|]. split; [assumption|]. intros n. destruct (H n) as [E|[E N]]; [now left|].
      rewrite lookup_set_field in E. destruct (String.eqb_spec n (tgField t)) as [En|Ne].
      * left. rewrite E, Lo, En, L. reflexivity.
      * right. split; [assumption|]. intros m t' [<-|I] Fm; [|eapply N; eassumption].
        cbn [fst] in Fm. rewrite F in Fm. injection Fm as <-. congruence.
Qed.

Lemma key_same_member l n k j k' j' : clear_keys l -> In (k, j) l -> In (k', j') l -> key_is n k -> key_is n k' -> k = k' /\ j = j'.
Proof.
  intros [_ N] I I' K K'. assert ((k, j) = (k', j')) as E; [|injection E; auto].
  apply (NoDup_map_inj (fun m : bytes * json => to_upper (fst m)) l); try assumption. cbn [fst]. unfold key_is in *. congruence.
Qed.

Definition is_no_date (t : time) : bool :=
  (tYear t =? 1) && (tMonth t =? 1) && (tDay t =? 1) && (tHour t =? 0) && (tMin t =? 0) && (tSec t =? 0) && (tNsec t =? 0)
  && match tOff t with None => true | _ => false end.
Lemma is_no_date_eq t : is_no_date t = true -> t = no_date.
Proof.
  unfold is_no_date. rewrite !andb_true_iff, !Z.eqb_eq. destruct t as [y m d h mi s n [o|]]; cbn; intros H; [destruct H; discriminate|].
  destruct H as [[[[[[[-> ->] ->] ->] ->] ->] ->] _]. reflexivity.
Qed.

(* the values of a fresh struct *)
Definition fresh_okb (id : string * bytes) (st0 : fields) : bool :=
  forallb (fun f => if String.eqb (fst f) (fst id) then match snd f with VStr s => bytes_eqb s (snd id) | _ => false end
    else match snd f with
         | VInt z => z =? 0
         | VStr s => match s with [] => true | _ => false end
         | VTime t => is_no_date t
         end) st0.

Lemma fresh_ok id st0 : fresh_okb id st0 = true -> forall n v w, left_out id n v -> lookup n st0 = Some w -> kind_of w = kind_of v -> w = v.
Proof.
  unfold fresh_okb. rewrite forallb_forall. intros H n v w O L K. specialize (H _ (lookup_In _ _ _ L)). cbn [fst snd] in H.
  destruct O as [E|E|E|E].
  - rewrite (proj2 (String.eqb_eq _ _) E) in H. destruct w; try discriminate. apply bytes_eqb_eq in H. congruence.
  - rewrite (proj2 (String.eqb_neq _ _) E) in H. destruct w; try discriminate. apply Z.eqb_eq in H. congruence.
  - rewrite (proj2 (String.eqb_neq _ _) E) in H. destruct w as [|[|]|]; try discriminate. reflexivity.
  - rewrite (proj2 (String.eqb_neq _ _) E) in H. destruct w as [| |t]; try discriminate. apply is_no_date_eq in H. congruence.
Qed.

Lemma described_reads rt tags s st0 id l st : readable tags s st0 -> fresh_okb id st0 = true ->
  describes s id l st -> decode_members rt tags l st0 = Some st.
Proof.
  intros R Fr (C & T & Dn).
  assert (types st0 = types st) as Ty by (apply (has_type_types s); [apply R|assumption]).
  assert (forall n v, left_out id n v -> lookup n st = Some v -> lookup n st0 = Some v) as Z.
  { intros n v O L. pose proof (lookup_types n st0) as E. rewrite Ty, lookup_types, L in E. destruct (lookup n st0) as [w|] eqn:Lw; [|discriminate].
    f_equal. eapply fresh_ok; try eassumption. cbn in E. congruence. }
  assert (NoDup (map fst st)) as Nn by (rewrite (has_type_names s st T); exact (rd_names _ _ _ R)).
  assert (forall k j, In (k, j) l -> Forall (fun c => code c < 128) k) as A.
  { intros k j I. destruct C as [A _]. rewrite Forall_forall in A. exact (A _ I). }
  destruct (decode_fair rt tags st l) with (st0 := st0) as (st' & D & T' & F).
  - apply Forall_forall. intros [k j] I. unfold fair_member. cbn [fst snd]. destruct (find_tag tags k) as [t|] eqn:Ft; [|now left]. right.
    pose proof (find_key _ _ _ _ _ R (A k j I) Ft) as K. destruct (find_tag_fold _ _ _ Ft) as [It _].
    assert (exists v, lookup (tgField t) st = Some v) as (v & L).
    { destruct (rd_fields _ _ _ R t It) as (w & Lw). pose proof (lookup_types (tgField t) st) as E. rewrite <- Ty, lookup_types, Lw in E.
      destruct (lookup (tgField t) st) as [v|]; [eauto|discriminate]. }
    exists t, v. split; [reflexivity|]. split; [assumption|].
    destruct (Dn (tgField t) v) as [(k' & j' & I' & K' & S)|[N _]]; [exact (lookup_In _ _ _ L)| |exfalso; exact (N k j I K)].
    destruct (key_same_member _ _ _ _ _ _ C I I' K K') as [<- <-].
    destruct S as [S|(-> & Kt & _)]; [right; apply stated_reads; assumption|left; auto].
  - exact Ty.
  - rewrite D. f_equal. apply fields_ext.
    + rewrite <- types_names, T', types_names. reflexivity.
    + rewrite <- types_names, T', types_names. exact Nn.
    + intros n. destruct (F n) as [E|[E N]]; [exact E|]. destruct (lookup n st) as [v|] eqn:L.
      * rewrite E. destruct (Dn n v) as [(k & j & I & K & [S|(-> & _ & O)])|[_ O]]; [exact (lookup_In _ _ _ L)| | |].
        -- exfalso. destruct (key_find tags s st0 k n R (A k j I)) as (t & Ft & En); [|assumption|].
           { rewrite <- (has_type_names s st T). eapply lookup_Some_In_fst. eassumption. }
           exact (N (k, j) t I Ft (stated_not_null _ _ S) En).
        -- exact (Z n v O L).
        -- exact (Z n v O L).
      * rewrite E. pose proof (lookup_types n st0) as E0. rewrite Ty, lookup_types, L in E0. destruct (lookup n st0); [discriminate|reflexivity].
Qed.

(* the objects of a file *)
Lemma header_readable : readable header_tags header_struct new_header.
Proof. apply tags_readable; [apply header_tags_ok|vm_compute; reflexivity|apply new_header_type]. Qed.
Lemma trailer_readable : readable trailer_tags trailer_struct new_trailer.
Proof. apply tags_readable; [apply trailer_tags_ok|vm_compute; reflexivity|apply new_trailer_type]. Qed.
Lemma base_readable : readable base_tags base_struct (new_fields base_struct).
Proof. apply tags_readable; [apply base_tags_ok|vm_compute; reflexivity|apply new_base_type]. Qed.
Lemma seg_readable k : readable (seg_tags k) (seg_struct k) (sFields (new_segment k)).
Proof. apply tags_readable; [apply seg_tags_ok|destruct k; vm_compute; reflexivity|apply new_segment_type]. Qed.
Lemma header_fresh : fresh_okb ("RecordIdentifier", lit "HEADER") new_header = true.
Proof. vm_compute. reflexivity. Qed.
Lemma trailer_fresh : fresh_okb ("RecordIdentifier", lit "TRAILER") new_trailer = true.
Proof. vm_compute. reflexivity. Qed.
Lemma base_fresh : fresh_okb no_id (new_fields base_struct) = true.
Proof. vm_compute. reflexivity. Qed.
Lemma seg_fresh k : fresh_okb (segment_id k) (sFields (new_segment k)) = true.
Proof. destruct k; vm_compute; reflexivity. Qed.

Lemma header_reads rt l st : describes header_struct ("RecordIdentifier", lit "HEADER") l st -> decode_members rt header_tags l new_header = Some st.
Proof. apply described_reads; [apply header_readable|apply header_fresh]. Qed.
Lemma trailer_reads rt l st : describes trailer_struct ("RecordIdentifier", lit "TRAILER") l st -> decode_members rt trailer_tags l new_trailer = Some st.
Proof. apply described_reads; [apply trailer_readable|apply trailer_fresh]. Qed.
Lemma base_reads rt l st : describes base_struct no_id l st -> decode_members rt base_tags l (new_fields base_struct) = Some st.
Proof. apply described_reads; [apply base_readable|apply base_fresh]. Qed.
Lemma seg_reads rt k l st : describes (seg_struct k) (segment_id k) l st -> decode_members rt (seg_tags k) l (sFields (new_segment k)) = Some st.
Proof. apply described_reads; [apply seg_readable|apply seg_fresh]. Qed.

(* ---- descriptions and the order of keys ---- *)

Lemma clear_perm l l' : Permutation l l' -> clear_keys l -> clear_keys l'.
Proof.
  intros P [A N]. split; [eapply Permutation_Forall; eassumption|]. eapply Permutation_NoDup; [|exact N]. apply Permutation_map. exact P.
Qed.
Lemma clear_norm l : clear_keys l -> clear_keys (norm_members l).
Proof.
  intros [A N]. unfold norm_members. split.
  - rewrite Forall_map. exact A.
  - rewrite map_map. exact N.
Qed.
Lemma clear_nodup l : clear_keys l -> NoDup (map fst l).
Proof. intros [_ N]. rewrite <- map_map in N. eapply NoDup_map_inv. exact N. Qed.

Lemma describes_perm s id l l' st : Permutation l l' -> describes s id l st -> describes s id l' st.
Proof.
  intros P (C & T & D). split; [eapply clear_perm; eassumption|]. split; [assumption|]. intros n v H.
  destruct (D n v H) as [(k & j & I & R)|[N O]].
  - left. exists k, j. split; [eapply Permutation_in; eassumption|assumption].
  - right. split; [|assumption]. intros k j I. apply (N k j). eapply Permutation_in; [apply Permutation_sym; eassumption|assumption].
Qed.

Lemma describes_normed s id l st : describes s id l st -> describes s id (norm_members l) st.
Proof.
  intros (C & T & D). split; [now apply clear_norm|]. split; [assumption|]. intros n v H. unfold norm_members.
  destruct (D n v H) as [(k & j & I & K & S)|[N O]].
  - left. exists k, j. split; [|auto]. apply in_map_iff. exists (k, j). split; [|assumption]. cbn [fst snd]. f_equal.
    destruct S as [S|(-> & _)]; [eapply stated_norm; eassumption|reflexivity].
  - right. split; [|assumption]. intros k j I. apply in_map_iff in I as ([k' j'] & E & I). cbn in E. injection E as <- _. exact (N _ _ I).
Qed.

Lemma norm_object l : norm (JObj l) = JObj (put_members (norm_members l)).
Proof. reflexivity. Qed.

Lemma normed_perm l : NoDup (map fst l) -> Permutation (norm_members l) (put_members (norm_members l)).
Proof. intros N. apply put_members_perm. now apply norm_members_nodup. Qed.

Lemma describes_norm s id l st : describes s id l st -> describes s id (put_members (norm_members l)) st.
Proof. intros D. eapply describes_perm; [|apply describes_normed; exact D]. apply normed_perm. apply clear_nodup. apply D. Qed.

Lemma segment_norm k j s : describes_segment k j s -> describes_segment k (norm j) s.
Proof.
  intros (K & V & l & -> & D). split; [assumption|]. split; [assumption|]. rewrite norm_object. eexists. split; [reflexivity|].
  now apply describes_norm.
Qed.

(* ---- the members of a map, one key after another ---- *)

Definition pick (key : bytes) (l : list (bytes * json)) : list (bytes * json) := filter (fun m => bytes_eqb (fst m) key) l.
Definition drop (key : bytes) (l : list (bytes * json)) : list (bytes * json) := filter (fun m => negb (bytes_eqb (fst m) key)) l.
Fixpoint arrange (keys : list bytes) (l : list (bytes * json)) : list (bytes * json) :=
  match keys with [] => l | k :: r => pick k l ++ arrange r (drop k l) end.

Lemma pick_perm k l : Permutation l (pick k l ++ drop k l).
Proof.
  unfold pick, drop. induction l as [|m l IH]; [constructor|]. cbn [filter]. destruct (bytes_eqb (fst m) k); cbn [negb app].
  - now constructor.
  - apply Permutation_cons_app. exact IH.
Qed.
Lemma arrange_perm keys : forall l, Permutation l (arrange keys l).
Proof.
  induction keys as [|k r IH]; intros l; [reflexivity|]. cbn [arrange]. etransitivity; [apply (pick_perm k)|]. apply Permutation_app_head. apply IH.
Qed.
Lemma pick_drop k k' l : k <> k' -> pick k (drop k' l) = pick k l.
Proof.
  intros N. unfold pick, drop. induction l as [|m l IH]; [reflexivity|]. cbn [filter]. destruct (bytes_eqb (fst m) k') eqn:E'; cbn [negb filter].
  - apply bytes_eqb_eq in E'. assert (bytes_eqb (fst m) k = false) as -> by (apply bytes_eqb_neq; congruence). exact IH.
  - destruct (bytes_eqb (fst m) k); rewrite IH; reflexivity.
Qed.
Lemma pick_absent key l : absent key l -> pick (lit key) l = [].
Proof.
  unfold absent, pick. induction l as [|m l IH]; intros A; [reflexivity|]. cbn [filter map] in *.
  assert (bytes_eqb (fst m) (lit key) = false) as -> by (apply bytes_eqb_neq; intros E; apply A; now left). apply IH. intros I. apply A. now right.
Qed.
Lemma pick_in key j l : NoDup (map fst l) -> In (key, j) l -> pick key l = [(key, j)].
Proof.
  unfold pick. induction l as [|m l IH]; intros N I; [contradiction|]. cbn [map] in N. inversion N as [|x y Nx Ny]; subst. cbn [filter].
  destruct I as [->|I].
  - cbn [fst]. rewrite bytes_eqb_refl. f_equal. cbn [fst] in Nx. clear - Nx. induction l as [|m l IH]; [reflexivity|]. cbn [filter map] in *.
    assert (bytes_eqb (fst m) key = false) as -> by (apply bytes_eqb_neq; intros E; apply Nx; now left). apply IH. intros I. apply Nx. now right.
  - assert (bytes_eqb (fst m) key = false) as -> by (apply bytes_eqb_neq; intros E; apply Nx; rewrite E; apply in_map_iff; exists (key, j); auto).
    now apply IH.
Qed.
Lemma in_drop k l m : In m (drop k l) -> In m l /\ fst m <> k.
Proof. unfold drop. intros I. apply filter_In in I as [I E]. split; [assumption|]. apply bytes_eqb_neq. now apply negb_true_iff. Qed.

(* ---- descriptions of records and their normal forms ---- *)

Section Normal.
Variable l : list (bytes * json).
Hypothesis N : NoDup (map fst l).
Let l' := put_members (norm_members l).

Lemma normal_in key j : In (key, j) l -> In (key, norm j) l'.
Proof.
  intros I. eapply Permutation_in; [apply normed_perm; exact N|]. unfold norm_members. apply in_map_iff. exists (key, j). auto.
Qed.
Lemma normal_absent key : absent key l -> absent key l'.
Proof.
  unfold absent. intros A I. apply A. eapply Permutation_in in I; [|apply Permutation_map, Permutation_sym, normed_perm; exact N].
  unfold norm_members in I. rewrite map_keys in I. exact I.
Qed.
Lemma normal_keys : NoDup (map fst l').
Proof. eapply Permutation_NoDup; [apply Permutation_map, normed_perm; exact N|]. now apply norm_members_nodup. Qed.

Lemma object_norm key s id st : describes_object l key s id st -> describes_object l' key s id st.
Proof.
  intros [(o & I & D)|[[A|I] D]].
  - left. exists (put_members (norm_members o)). split; [exact (normal_in _ _ I)|now apply describes_norm].
  - right. split; [left; now apply normal_absent|assumption].
  - right. split; [right; exact (normal_in _ _ I)|assumption].
Qed.
Lemma many_norm key k segs : describes_many l key k segs -> describes_many l' key k segs.
Proof.
  intros [(a & I & F)|[[A|I] E]].
  - left. exists (map norm a). split; [exact (normal_in _ _ I)|]. clear I. induction F; constructor; [now apply segment_norm|assumption].
  - right. split; [left; now apply normal_absent|assumption].
  - right. split; [right; exact (normal_in _ _ I)|assumption].
Qed.
Lemma one_norm key k o : describes_one l key k o -> describes_one l' key k o.
Proof.
  intros [(j & s & I & E & D)|[A E]].
  - left. exists (norm j), s. split; [exact (normal_in _ _ I)|]. split; [assumption|now apply segment_norm].
  - right. split; [now apply normal_absent|assumption].
Qed.
End Normal.

Lemma plain_obj_nodup l : plain_json (JObj l) -> NoDup (map fst l).
Proof. inversion 1; assumption. Qed.
Lemma plain_member l k j : plain_json (JObj l) -> In (k, j) l -> plain_json j.
Proof. inversion 1 as [| | | | |l0 Nd F]; subst. intros I. rewrite Forall_forall in F. apply (F _ I). Qed.
Lemma plain_item a j : plain_json (JArr a) -> In j a -> plain_json j.
Proof. inversion 1 as [| | | |l0 F|]; subst. intros I. rewrite Forall_forall in F. apply (F _ I). Qed.

Lemma base_norm j b : plain_json j -> describes_base j b -> describes_base (norm j) b.
Proof.
  intros P (l & -> & D0 & D1 & D2 & D3 & D4 & D5 & D6 & D7 & D8). pose proof (plain_obj_nodup _ P) as N.
  rewrite norm_object. eexists. split; [reflexivity|].
  split; [now apply object_norm|]. split; [now apply many_norm|]. split; [now apply many_norm|].
  repeat (split; [now apply one_norm|]). now apply one_norm.
Qed.

(* ---- reading described records ---- *)

Lemma segment_reads rt k j s b : describes_segment k j s -> unmarshal_segment rt (lit (seg_name k)) j b = Ok (put_segment s b).
Proof.
  intros (K & V & l & -> & D). unfold unmarshal_segment. rewrite kind_of_seg_name. cbn [decode_struct]. rewrite (seg_reads rt k l _ D).
  unfold base_add_segment. assert (mkSegment k (sFields s) = s) as -> by (destruct s; cbn in *; congruence). rewrite V. reflexivity.
Qed.
Lemma segments_reads rt k a segs : Forall2 (describes_segment k) a segs -> forall b,
  unmarshal_segments rt (lit (seg_name k)) a b = Ok (put_all segs b).
Proof.
  induction 1 as [|j s a segs D F IH]; intros b; [reflexivity|]. cbn [unmarshal_segments]. rewrite (segment_reads rt k j s b D). rewrite IH. reflexivity.
Qed.
Lemma described_kinds k a segs : Forall2 (describes_segment k) a segs -> Forall (fun s => sKind s = k) segs.
Proof. induction 1 as [|j s a segs (K & _) F IH]; constructor; assumption. Qed.

Lemma normal_list rt a : Forall plain_json a -> json_list rt (JArr a) = Some (map norm a).
Proof.
  intros P. unfold json_list. rewrite remarshal_arr, (traverse_some _ norm); [reflexivity|]. revert P. apply Forall_impl. apply remarshal_plain.
Qed.
Lemma segments_norm k a segs : Forall2 (describes_segment k) a segs -> Forall2 (describes_segment k) (map norm a) segs.
Proof. induction 1; constructor; [now apply segment_norm|assumption]. Qed.

Lemma many_reads rt l k segs : (k = J1 \/ k = J2) -> plain_json (JObj l) -> describes_many l (seg_name k) k segs ->
  Forall (fun s => sKind s = k) segs /\
  forall b, run_steps (unmarshal_base_member rt) (pick (lit (seg_name k)) l) b = Ok (put_all segs b).
Proof.
  intros K P D. pose proof (plain_obj_nodup _ P) as N.
  assert (forall j b, unmarshal_base_member rt (lit (seg_name k), j) b =
    match json_list rt j with Some l => unmarshal_segments rt (lit (seg_name k)) l b | None => Err (ErrOther "unable to parse segment") end) as U
    by (intros; destruct K as [-> | ->]; reflexivity).
  destruct D as [(a & I & F)|[[A|I] ->]].
  - split; [exact (described_kinds _ _ _ F)|]. intros b. rewrite (pick_in _ _ _ N I). cbn [run_steps]. rewrite U.
    rewrite normal_list by (pose proof (plain_member _ _ _ P I) as Pa; inversion Pa; assumption).
    rewrite (segments_reads rt k _ segs) by now apply segments_norm. reflexivity.
  - split; [constructor|]. intros b. rewrite pick_absent by assumption. reflexivity.
  - split; [constructor|]. intros b. rewrite (pick_in _ _ _ N I). cbn [run_steps]. rewrite U. reflexivity.
Qed.

Lemma one_reads rt l k o : k <> J1 -> k <> J2 -> NoDup (map fst l) -> describes_one l (seg_name k) k o ->
  (forall s, o = Some s -> sKind s = k) /\
  forall b, run_steps (unmarshal_base_member rt) (pick (lit (seg_name k)) l) b = Ok (put_all (opt_to_list o) b).
Proof.
  intros K1 K2 N D.
  assert (forall j b, unmarshal_base_member rt (lit (seg_name k), j) b = unmarshal_segment rt (lit (seg_name k)) j b) as U
    by (intros; destruct k; try congruence; reflexivity).
  destruct D as [(j & s & I & -> & D)|[A ->]].
  - split; [intros s' [= <-]; apply D|]. intros b. rewrite (pick_in _ _ _ N I). cbn [run_steps]. rewrite U, (segment_reads rt k j s b D). reflexivity.
  - split; [discriminate|]. intros b. rewrite pick_absent by assumption. reflexivity.
Qed.

Lemma some_injective {A} (a b : A) : Some a = Some b -> a = b.
Proof. intros [= E]. exact E. Qed.

Lemma base_object_reads rt l b : NoDup (map fst l) -> describes_object l "base" base_struct no_id (bFields b) ->
  run_steps (unmarshal_base_member rt) (pick (lit "base") l) new_base = Ok (set_bFields new_base (bFields b)).
Proof.
  intros N [(o & I & D)|[A D]].
  - rewrite (pick_in _ _ _ N I). cbn [run_steps]. unfold unmarshal_base_member. rewrite bytes_eqb_refl. cbn [decode_struct].
    rewrite (base_reads rt _ _ D). reflexivity.
  - pose proof (base_reads rt _ _ D) as E. cbn [decode_members] in E. apply some_injective in E.
    destruct A as [A|I].
    + rewrite pick_absent by assumption. cbn [run_steps]. rewrite <- E. reflexivity.
    + rewrite (pick_in _ _ _ N I). cbn [run_steps]. unfold unmarshal_base_member. rewrite bytes_eqb_refl. cbn [decode_struct]. rewrite E. reflexivity.
Qed.

Definition base_keys : list bytes := map lit ["base"; "j1"; "j2"; "k1"; "k2"; "k3"; "k4"; "l1"; "n1"].

Lemma other_members rt l b : (forall m, In m l -> ~ In (fst m) base_keys) -> run_steps (unmarshal_base_member rt) l b = Ok b.
Proof.
  induction l as [|m l IH]; intros H; [reflexivity|]. cbn [run_steps].
  assert (unmarshal_base_member rt m b = Ok b) as ->; [|apply IH; intros; apply H; now right].
  specialize (H m (or_introl eq_refl)). destruct m as [key j]. cbn [fst] in H. unfold unmarshal_base_member.
  assert (forall t, In (lit t) base_keys -> bytes_eqb key (lit t) = false) as F by (intros t I; apply bytes_eqb_neq; congruence).
  rewrite !F by (unfold base_keys; apply in_map; cbn; tauto). cbn [orb]. unfold unmarshal_segment.
  destruct (kind_of_name key) as [k|] eqn:K; [|reflexivity]. exfalso. apply H. rewrite (kind_of_name_spec _ _ K).
  unfold base_keys. apply in_map. destruct k; cbn; tauto.
Qed.


Lemma described_base rt n j b : orders rt -> plain_json j -> describes_base j b -> unmarshal_base rt n j new_base = Ok b.
Proof.
  intros O Pj D. unfold unmarshal_base, json_map. rewrite remarshal_plain by assumption.
  pose proof (base_norm _ _ Pj D) as Dn. pose proof (norm_plain _ Pj) as Pn.
  destruct Dn as (l & E & D0 & D1 & D2 & D3 & D4 & D5 & D6 & D7 & D8). rewrite E in *. clear E D Pj j.
  change (clear_j new_base) with new_base. pose proof (plain_obj_nodup _ Pn) as N.
  eapply (base_members_perm rt (arrange base_keys l)).
  - transitivity l; [apply Permutation_sym, arrange_perm|apply O].
  - eapply Permutation_NoDup; [apply Permutation_map, (arrange_perm base_keys)|exact N].
  - rewrite unmarshal_base_steps. unfold base_keys. cbn [map arrange].
    assert (forall k k' l, k <> k' -> pick (lit k) (drop (lit k') l) = pick (lit k) l) as PD
      by (intros k k' x Hk; apply pick_drop; intros Hl; apply Hk; now apply lit_inj).
    rewrite !PD by discriminate.
    erewrite run_steps_app by (apply base_object_reads; [exact N|exact D0]).
    destruct (many_reads rt l J1 (bJ1 b)) as [F1 S1]; [now left|assumption|assumption|].
    destruct (many_reads rt l J2 (bJ2 b)) as [F2 S2]; [now right|assumption|assumption|].
    destruct (one_reads rt l K1 (bK1 b)) as [F3 S3]; [discriminate|discriminate|assumption|assumption|].
    destruct (one_reads rt l K2 (bK2 b)) as [F4 S4]; [discriminate|discriminate|assumption|assumption|].
    destruct (one_reads rt l K3 (bK3 b)) as [F5 S5]; [discriminate|discriminate|assumption|assumption|].
    destruct (one_reads rt l K4 (bK4 b)) as [F6 S6]; [discriminate|discriminate|assumption|assumption|].
    destruct (one_reads rt l L1 (bL1 b)) as [F7 S7]; [discriminate|discriminate|assumption|assumption|].
    destruct (one_reads rt l N1 (bN1 b)) as [F8 S8]; [discriminate|discriminate|assumption|assumption|].
    cbn [seg_name] in *.
    erewrite run_steps_app by apply S1. erewrite run_steps_app by apply S2. erewrite run_steps_app by apply S3.
    erewrite run_steps_app by apply S4. erewrite run_steps_app by apply S5. erewrite run_steps_app by apply S6.
    erewrite run_steps_app by apply S7. erewrite run_steps_app by apply S8.
    rewrite other_members.
    + f_equal. clear - F1 F2 F3 F4 F5 F6 F7 F8. destruct b as [f l1 l2 c d e g h i]. cbn [bFields bJ1 bJ2 bK1 bK2 bK3 bK4 bL1 bN1] in *.
      unfold new_base, set_bFields. cbn [bFields bJ1 bJ2 bK1 bK2 bK3 bK4 bL1 bN1]. rewrite put_j1, put_j2 by assumption. cbn [app].
      rewrite put_k1, put_k2, put_k3, put_k4, put_l1, put_n1 by assumption. reflexivity.
    + intros m I. repeat (apply in_drop in I as [I ?]). unfold base_keys. cbn [map]. intros J. repeat destruct J as [J|J]; try (symmetry in J; contradiction). contradiction.
Qed.

(* ---- files ---- *)

Definition file_keys : list bytes := map lit ["header"; "data"; "trailer"].

Lemma other_file_members rt l f : (forall m, In m l -> ~ In (fst m) file_keys) -> run_steps (decode_file_member rt) l f = Ok f.
Proof.
  induction l as [|m l IH]; intros H; [reflexivity|]. cbn [run_steps].
  assert (decode_file_member rt m f = Ok f) as ->; [|apply IH; intros; apply H; now right].
  specialize (H m (or_introl eq_refl)). destruct m as [key j]. cbn [fst] in H. unfold decode_file_member.
  assert (forall t, In (lit t) file_keys -> bytes_eqb key (lit t) = false) as F by (intros t I; apply bytes_eqb_neq; congruence).
  rewrite !F by (unfold file_keys; apply in_map; cbn; tauto). reflexivity.
Qed.

Lemma header_object_reads rt l p h bs t : NoDup (map fst l) ->
  describes_object l "header" header_struct ("RecordIdentifier", lit "HEADER") h ->
  run_steps (decode_file_member rt) (pick (lit "header") l) (mkFile p (RHeader p new_header) bs t) = Ok (mkFile p (RHeader p h) bs t).
Proof.
  intros N [(o & I & D)|[A D]].
  - rewrite (pick_in _ _ _ N I). cbn [run_steps]. unfold decode_file_member. rewrite bytes_eqb_refl. cbn [flHeader decode_record decode_struct].
    rewrite (header_reads rt _ _ D). reflexivity.
  - pose proof (header_reads rt _ _ D) as E. cbn [decode_members] in E. apply some_injective in E. rewrite E.
    destruct A as [A|I].
    + rewrite pick_absent by assumption. reflexivity.
    + rewrite (pick_in _ _ _ N I). reflexivity.
Qed.
Lemma trailer_object_reads rt l p h bs t : NoDup (map fst l) ->
  describes_object l "trailer" trailer_struct ("RecordIdentifier", lit "TRAILER") t ->
  run_steps (decode_file_member rt) (pick (lit "trailer") l) (mkFile p h bs (RTrailer p new_trailer)) = Ok (mkFile p h bs (RTrailer p t)).
Proof.
  intros N [(o & I & D)|[A D]].
  - rewrite (pick_in _ _ _ N I). cbn [run_steps]. unfold decode_file_member. change (bytes_eqb (lit "trailer") (lit "header")) with false.
    rewrite bytes_eqb_refl. cbn [flTrailer decode_record decode_struct].
    rewrite (trailer_reads rt _ _ D). reflexivity.
  - pose proof (trailer_reads rt _ _ D) as E. cbn [decode_members] in E. apply some_injective in E. rewrite E.
    destruct A as [A|I].
    + rewrite pick_absent by assumption. reflexivity.
    + rewrite (pick_in _ _ _ N I). reflexivity.
Qed.

Lemma data_reads rt p a bases : orders rt -> Forall plain_json a -> Forall2 describes_base a bases ->
  forall n f, flPacked f = p -> decode_data rt n a f = Ok (set_bases f (flBases f ++ map (RBase p) bases)).
Proof.
  intros O P D. induction D as [|j b a bases D _ IH]; intros n f Pf; cbn [map decode_data].
  - rewrite app_nil_r. destruct f; reflexivity.
  - inversion P; subst. cbn [decode_record new_data_record]. rewrite (described_base rt n j b) by assumption.
    rewrite IH by (try assumption; reflexivity). unfold set_bases. cbn. rewrite <- app_assoc. reflexivity.
Qed.

Lemma file_norm j f : plain_json j -> describes_file j f -> describes_file (norm j) f.
Proof.
  intros P (l & h & bases & t & -> & E & D0 & D1 & D2). pose proof (plain_obj_nodup _ P) as N.
  rewrite norm_object. exists (put_members (norm_members l)), h, bases, t. split; [reflexivity|]. split; [assumption|].
  split; [now apply object_norm|]. split; [|now apply object_norm]. destruct D1 as [(a & I & F)|[[A|I] Eb]].
  - left. exists (map norm a). split; [exact (normal_in _ N _ _ I)|]. pose proof (plain_member _ _ _ P I) as Pa. inversion Pa as [| | | |l0 Pl|]; subst.
    clear - F Pl. induction F; constructor; inversion Pl; subst; [now apply base_norm|auto].
  - right. split; [left; now apply normal_absent|assumption].
  - right. split; [right; exact (normal_in _ N _ _ I)|assumption].
Qed.

Lemma described_file rt j f : orders rt -> plain_json j -> describes_file j f -> unmarshal_file rt j (new_file_p (flPacked f)) = Ok f.
Proof.
  intros O Pj D. unfold unmarshal_file, json_map. rewrite remarshal_plain by assumption.
  pose proof (file_norm _ _ Pj D) as Dn. pose proof (norm_plain _ Pj) as Pn.
  destruct Dn as (l & h & bases & t & E & Ef & D0 & D1 & D2). rewrite E in *. clear E D Pj j. pose proof (plain_obj_nodup _ Pn) as N.
  remember (flPacked f) as p. clear Heqp. subst f.
  eapply (file_members_perm rt (arrange file_keys l)).
  - transitivity l; [apply Permutation_sym, arrange_perm|apply O].
  - eapply Permutation_NoDup; [apply Permutation_map, (arrange_perm file_keys)|exact N].
  - rewrite file_steps. unfold file_keys. cbn [map arrange].
    assert (forall k k' l, k <> k' -> pick (lit k) (drop (lit k') l) = pick (lit k) l) as PD
      by (intros k k' x Hk; apply pick_drop; intros Hl; apply Hk; now apply lit_inj).
    rewrite !PD by discriminate. unfold new_file_p.
    erewrite run_steps_app by (apply header_object_reads; [exact N|exact D0]).
    assert (run_steps (decode_file_member rt) (pick (lit "data") l) (mkFile p (RHeader p h) [] (RTrailer p new_trailer))
      = Ok (mkFile p (RHeader p h) (map (RBase p) bases) (RTrailer p new_trailer))) as Sd.
    { destruct D1 as [(a & I & F)|[[A|I] ->]].
      - rewrite (pick_in _ _ _ N I). cbn [run_steps]. unfold decode_file_member. change (bytes_eqb (lit "data") (lit "header")) with false.
        change (bytes_eqb (lit "data") (lit "trailer")) with false. rewrite bytes_eqb_refl. cbv iota.
        pose proof (plain_member _ _ _ Pn I) as Pa. inversion Pa as [| | | |l0 Pl|]; subst. rewrite normal_list by assumption.
        rewrite (data_reads rt p (map norm a) bases); [reflexivity|assumption| | |reflexivity].
        + rewrite Forall_map. revert Pl. apply Forall_impl. apply norm_plain.
        + clear - F Pl. induction F; constructor; inversion Pl; subst; [now apply base_norm|auto].
      - rewrite pick_absent by assumption. reflexivity.
      - rewrite (pick_in _ _ _ N I). reflexivity. }
    erewrite run_steps_app by exact Sd. erewrite run_steps_app by (apply trailer_object_reads; [exact N|exact D2]).
    apply other_file_members. intros m I. repeat (apply in_drop in I as [I ?]). unfold file_keys. cbn [map]. intros J.
    repeat destruct J as [J|J]; try (symmetry in J; contradiction). contradiction.
Qed.

(* ---- the format of a described file ---- *)

Definition info_struct : structure := [("BlockDescriptorWord", KInt); ("RecordDescriptorWord", KInt); ("RecordIdentifier", KStr)].
Lemma info_readable : readable header_info_tags info_struct header_info0.
Proof. apply tags_readable; [apply tags_okb_ok; vm_compute; reflexivity|vm_compute; reflexivity|reflexivity]. Qed.

Lemma info_reads rt l st bdw rdw : describes header_struct ("RecordIdentifier", lit "HEADER") l st ->
  holds st "BlockDescriptorWord" (VInt bdw) -> holds st "RecordDescriptorWord" (VInt rdw) ->
  exists id, decode_members rt header_info_tags l header_info0 =
    Some [("BlockDescriptorWord", VInt bdw); ("RecordDescriptorWord", VInt rdw); ("RecordIdentifier", VStr id)].
Proof.
  intros (C & T & D) B R.
  assert (forall n v, n <> "RecordIdentifier" -> left_out ("RecordIdentifier", lit "HEADER") n v -> left_out ("RecordIdentifier", []) n v) as Lo.
  { intros n v Nn [E|E|E|E]; [contradiction| | |]; constructor; exact E. }
  assert (forall n z, holds st n (VInt z) -> n <> "RecordIdentifier" ->
    (exists k j, In (k, j) l /\ key_is n k /\ (stated j (VInt z) \/ (j = JNull /\ kind_of (VInt z) <> KTime /\ left_out ("RecordIdentifier", []) n (VInt z))))
    \/ ((forall k j, In (k, j) l -> ~ key_is n k) /\ left_out ("RecordIdentifier", []) n (VInt z))) as G.
  { intros n z Hn Nn. destruct (D n _ Hn) as [(k & j & I & K & [S|(E & Kt & O)])|[Nk O]].
    - left. exists k, j. auto.
    - left. exists k, j. split; [assumption|]. split; [assumption|]. right. auto.
    - right. auto. }
  destruct (header_types st T) as (id & H). apply lookup_In in H.
  assert (exists id', describes info_struct ("RecordIdentifier", []) l
    [("BlockDescriptorWord", VInt bdw); ("RecordDescriptorWord", VInt rdw); ("RecordIdentifier", VStr id')]) as (id' & Di).
  { destruct (D _ _ H) as [(k & j & I & K & [S|(E & Kt & O)])|[Nk O]].
    - exists id. split; [assumption|]. split; [reflexivity|]. intros n v [[= <- <-]|[[= <- <-]|[[= <- <-]|[]]]]; [now apply G|now apply G|].
      left. exists k, j. auto.
    - exists []. split; [assumption|]. split; [reflexivity|]. intros n v [[= <- <-]|[[= <- <-]|[[= <- <-]|[]]]]; [now apply G|now apply G|].
      left. exists k, j. split; [assumption|]. split; [assumption|]. right. split; [assumption|]. split; [discriminate|]. now apply (LeftId ("RecordIdentifier", [])).
    - exists []. split; [assumption|]. split; [reflexivity|]. intros n v [[= <- <-]|[[= <- <-]|[[= <- <-]|[]]]]; [now apply G|now apply G|].
      right. split; [assumption|]. now apply (LeftId ("RecordIdentifier", [])). }
  exists id'. apply (described_reads rt _ info_struct _ ("RecordIdentifier", [])); [apply info_readable|reflexivity|exact Di].
Qed.

Lemma described_format rt j f : plain_keys j -> describes_file j f -> format_kept f ->
  exists h, decode_dummy rt j = Some h /\ dummy_packed h = flPacked f.
Proof.
  intros (l0 & E0 & C & Hk) (l & h & bases & t & E & Ef & D & _) (h' & bdw & rdw & Eh & B & R & K).
  rewrite E0 in E. injection E as <-. subst j.
  assert (h' = h) as -> by (rewrite Ef in Eh; cbn in Eh; congruence).
  destruct D as [(o & I & D)|[A D]].
  - destruct (info_reads rt o h bdw rdw D B R) as (id & Di).
    exists (Some [("BlockDescriptorWord", VInt bdw); ("RecordDescriptorWord", VInt rdw); ("RecordIdentifier", VStr id)]). split.
    + cbn [decode_dummy]. rewrite dummy_filter.
      assert (In (lit "header", JObj o) (filter is_header_key l0)) as X by (apply filter_In; split; [exact I|reflexivity]).
      destruct (one_header l0 (clear_fold l0 C)) as [Ez|(m & Ez)]; rewrite Ez in X |- *; [destruct X|]. destruct X as [->|[]].
      cbn [decode_dummy_members]. change (find_tag dummy_tags (lit "header")) with (Some (mkTag "Header" "header" false)). cbv iota.
      cbn [decode_struct]. rewrite Di. reflexivity.
    + unfold dummy_packed. change (Z.of_nat UnpackedRecordLength) with 426. cbn. destruct (flPacked f) eqn:Pf.
      * destruct (proj1 K eq_refl) as [Nr Pb]. rewrite (proj2 (Z.eqb_neq _ _) Nr). now apply Z.ltb_lt.
      * destruct (Z.eqb_spec rdw 426) as [|Nr]; [reflexivity|]. apply Z.ltb_ge. destruct (Z_le_gt_dec bdw 0); [assumption|].
        assert (false = true) by (apply K; split; [assumption|lia]). discriminate.
  - exists None. split.
    + apply dummy_no_header; [assumption|]. intros k j I U. pose proof (Hk k j I U) as ->. destruct A as [A|In0].
      * exfalso. apply A. apply in_map_iff. exists (lit "header", j). auto.
      * assert ((lit "header", j) = (lit "header", JNull)) as Ej; [|congruence].
        apply (NoDup_map_inj fst l0); try assumption; [exact (clear_nodup _ C)|reflexivity].
    + cbn. destruct (flPacked f) eqn:Pf; [|reflexivity]. destruct (proj1 K eq_refl) as [_ Pb]. exfalso.
      destruct D as (_ & _ & D). destruct (D _ _ B) as [(k & j & [] & _)|[_ O]]. inversion O as [Ee|Ee Hz| |]; subst; lia.
Qed.

Lemma described_text rt j s w rest f : orders rt -> plain_json j -> plain_keys j -> describes_file j f -> format_kept f ->
  Forall white w -> spells j s -> file_from_json rt (w ++ s ++ rest) = Ok f.
Proof.
  intros O P Pk D K W Sp. destruct (described_format rt j f Pk D K) as (h & Ed & Ep). pose proof Pk as (l & -> & _).
  unfold file_from_json. rewrite (decode_object l s w rest) by assumption. rewrite Ed, Ep. now apply described_file.
Qed.

Lemma described_read rt evs j s w rest f : orders rt -> plain_json j -> plain_keys j -> describes_file j f -> format_kept f ->
  Forall white w -> (length w < 1024)%nat -> spells j s -> new_file_from_reader rt evs (w ++ s ++ rest) = Some (Ok f).
Proof.
  intros O P Pk D K W L Sp. pose proof Pk as (l & -> & _). rewrite (new_file_text rt evs w s rest l) by assumption. f_equal.
  now apply (described_text rt (JObj l)).
Qed.

Definition any_host : runtime := mkRuntime (fun _ => None) (fun _ t => t) (fun _ l => l).
Lemma described_once j f g : plain_json j -> describes_file j f -> describes_file j g -> flPacked f = flPacked g -> f = g.
Proof.
  intros P Df Dg E. assert (orders any_host) as O by (intros n l; apply Permutation_refl).
  pose proof (described_file any_host j f O P Df) as A. pose proof (described_file any_host j g O P Dg) as B. congruence.
Qed.

(* ---- several members with one key ---- *)

Lemma put_member_in k v l : sorted l -> forall k' v', In (k', v') (put_member k v l) <-> (k' = k /\ v' = v) \/ (k' <> k /\ In (k', v') l).
Proof.
  intros S k' v'. destruct (list_eq_dec ascii_dec k' k) as [->|N].
  - assert (In (k, v) (put_member k v l)) as I.
    { clear S. induction l as [|[k1 v1] l IH]; cbn [put_member]; [now left|]. destruct (bytes_cmp k k1); [now left|now left|right; exact IH]. }
    split.
    + intros J. left. split; [reflexivity|]. pose proof (sorted_nodup _ (put_sorted k v l S)) as ND.
      assert (forall (a : list (bytes * json)) x y, NoDup (map fst a) -> In (k, x) a -> In (k, y) a -> x = y) as U.
      { clear. intros a x y. induction a as [|[q w] a IH]; [intros _ []|]. cbn [map fst]. intros ND. inversion ND as [|? ? N1 N2]; subst.
        intros [E|Ix] [E'|Iy].
        - congruence.
        - injection E as -> ->. elim N1. now apply (in_map fst _ _ Iy).
        - injection E' as -> ->. elim N1. now apply (in_map fst _ _ Ix).
        - now apply IH. }
      exact (U _ _ _ ND J I).
    + intros [[_ ->]|[N _]]; [exact I|congruence].
  - split.
    + intros I. right. split; [assumption|]. destruct (put_in _ _ _ _ I) as [E|J]; [congruence|assumption].
    + intros [[E _]|[_ I]]; [congruence|]. clear S. induction l as [|[k1 v1] l IH]; [destruct I|]. cbn [put_member].
      destruct (bytes_cmp k k1) eqn:C.
      * apply cmp_eq in C. subst k1. destruct I as [E|I]; [congruence|now right].
      * now right.
      * destruct I as [E|I]; [now left|right; now apply IH].
Qed.

Lemma last_cons {A} (m : bytes * A) l k v : last_of (m :: l) k v <-> last_of l k v \/ (m = (k, v) /\ ~ In k (map fst l)).
Proof.
  split.
  - intros ([|x l1] & l2 & E & N); cbn in E; injection E as -> ->; [right; auto|left; exists l1, l2; auto].
  - intros [(l1 & l2 & -> & N)|[-> N]]; [exists (m :: l1), l2; auto|exists [], l; auto].
Qed.
Lemma last_in {A} (l : list (bytes * A)) k v : last_of l k v -> In k (map fst l).
Proof. intros (l1 & l2 & -> & _). rewrite map_app. apply in_or_app. right. now left. Qed.
Lemma last_member {A} (l : list (bytes * A)) k v : last_of l k v -> In (k, v) l.
Proof. intros (l1 & l2 & -> & _). apply in_or_app. right. now left. Qed.

Lemma put_fold_in l : forall acc, sorted acc -> forall k v,
  In (k, v) (fold_left (fun acc m => put_member (fst m) (snd m) acc) l acc) <-> last_of l k v \/ (~ In k (map fst l) /\ In (k, v) acc).
Proof.
  induction l as [|[k1 v1] l IH]; intros acc S k v; cbn [fold_left fst snd map].
  - split; [auto|]. intros [([|? ?] & l2 & E & _)|[_ I]]; [discriminate|discriminate|assumption].
  - rewrite IH by (now apply put_sorted). rewrite put_member_in by assumption. rewrite last_cons.
    destruct (in_dec (list_eq_dec ascii_dec) k (map fst l)) as [I|N]; cbn [In].
    + tauto.
    + split.
      * intros [L|[_ [[-> ->]|[D J]]]]; [tauto|left; right; auto|right; split; [intros [E|J']; [congruence|contradiction]|assumption]].
      * intros [[L|[E _]]|[D J]]; [tauto|injection E as -> ->; right; auto|right; split; [assumption|]; right; split; [intros ->; tauto|assumption]].
Qed.
Lemma put_members_in l k v : In (k, v) (put_members l) <-> last_of l k v.
Proof. unfold put_members. rewrite put_fold_in by constructor. cbn. tauto. Qed.

Lemma put_members_last l l' : (forall k v, last_of l k v <-> last_of l' k v) -> put_members l = put_members l'.
Proof.
  intros H. apply sorted_unique; try apply put_members_sorted. apply NoDup_Permutation.
  - eapply NoDup_map_inv. apply sorted_nodup, put_members_sorted.
  - eapply NoDup_map_inv. apply sorted_nodup, put_members_sorted.
  - intros [k v]. rewrite !put_members_in. apply H.
Qed.

Lemma last_map {A B} (f : A -> B) (l : list (bytes * A)) k w :
  last_of (map (fun m => (fst m, f (snd m))) l) k w <-> exists v, last_of l k v /\ w = f v.
Proof.
  induction l as [|[k1 v1] l IH]; cbn [map fst snd].
  - split; [intros L; destruct (last_in _ _ _ L)|]. intros (v & L & _). destruct (last_in _ _ _ L).
  - rewrite last_cons, IH. rewrite map_map. cbn [fst]. change (map (fun x : bytes * A => fst x) l) with (map fst l). split.
    + intros [(v & L & ->)|[E N]]; [exists v; rewrite last_cons; auto|]. injection E as <- <-. exists v1. rewrite last_cons. auto.
    + intros (v & L & ->). rewrite last_cons in L. destruct L as [L|[E N]]; [left; eauto|]. injection E as -> ->. auto.
Qed.
Lemma last_nodup {A} (l : list (bytes * A)) k v : NoDup (map fst l) -> (last_of l k v <-> In (k, v) l).
Proof.
  intros N. split; [apply last_member|]. intros I. apply in_split in I as (l1 & l2 & ->). exists l1, l2. split; [reflexivity|].
  rewrite map_app in N. cbn [map fst] in N. apply NoDup_remove_2 in N. intros I. apply N. apply in_or_app. now right.
Qed.

Lemma settled_norm j : forall j', settled j j' -> norm j = norm j'.
Proof.
  induction j using json_induction; intros j' S; inversion S as [| | | |l0 l1 F|l0 m l1 N L F]; subst; try reflexivity.
  - cbn [norm]. f_equal. clear S. induction F as [|x y l0 m Hxy F IH]; [reflexivity|]. inversion H; subst. cbn [map]. f_equal; auto.
  - cbn [norm]. f_equal. rewrite Forall_forall in H.
    assert (map (fun q => (fst q, norm (snd q))) l1 = map (fun q => (fst q, norm (snd q))) m) as ->.
    { assert (forall q, In q m -> In q l) as I by (intros [k v] Iq; apply L in Iq; now apply last_member).
      clear - F H I. induction F as [|x y m l1 [E R] F IH]; [reflexivity|]. cbn [map]. f_equal.
      - rewrite E. f_equal. symmetry. apply (H x); [apply I; now left|assumption].
      - apply IH. intros q Iq. apply I. now right. }
    apply put_members_last. intros k w. rewrite !last_map. split; intros (v & Lv & ->); exists v; (split; [|reflexivity]).
    + apply last_nodup; [assumption|]. now apply L.
    + apply L. now apply last_nodup.
Qed.

Lemma loose_remarshal rt j : loose_json j -> remarshal rt j = Some (norm j).
Proof.
  induction j using json_induction; intros P; inversion P as [| |z Hz|s0 Hs|l0 Fl|l0 F]; subst; try reflexivity.
  - cbn [remarshal norm]. unfold renumber. rewrite exact_integer_itoa by assumption. reflexivity.
  - cbn [remarshal norm]. rewrite utf8_text_clean by assumption. reflexivity.
  - rewrite remarshal_arr. cbn [norm]. rewrite (traverse_some _ norm); [reflexivity|]. rewrite Forall_forall in *. intros x I. apply H; auto.
  - rewrite remarshal_obj. cbn [norm]. rewrite (traverse_some _ (fun m => (fst m, norm (snd m)))); [reflexivity|].
    rewrite Forall_forall in *. intros [k x] I. destruct (F _ I) as [U Px]. unfold remarshal_member. cbn [fst snd] in *.
    rewrite utf8_text_clean by assumption. pose proof (H _ I Px) as E. cbn [snd] in E. rewrite E. reflexivity.
Qed.
Lemma settled_loose j : forall j', settled j j' -> loose_json j -> loose_json j'.
Proof.
  induction j using json_induction; intros j' S P; inversion S as [| | | |l0 l1 F|l0 m l1 N L F]; subst; try assumption.
  - inversion P as [| | | |l0 Fl|]; subst. constructor. clear S P. induction F as [|x y l0 m Hxy F IH]; [constructor|].
    inversion H; inversion Fl; subst. constructor; auto.
  - inversion P as [| | | | |l0 Fl]; subst. constructor. rewrite Forall_forall in H, Fl.
    assert (forall q, In q m -> In q l) as I by (intros [k v] Iq; apply L in Iq; now apply last_member).
    clear - F H I Fl. induction F as [|x y m l1 [E R] F IH]; [constructor|]. constructor.
    + rewrite <- E. assert (In x l) as Ix by (apply I; now left). destruct (Fl x Ix) as [U Px]. split; [assumption|]. exact (H x Ix _ R Px).
    + apply IH. intros q Iq. apply I. now right.
Qed.

(* the reading of a file sees only the last of several members with one key *)
Lemma settled_read rt j j' f : loose_json j -> settled j j' -> unmarshal_file rt j f = unmarshal_file rt j' f.
Proof.
  intros P S. unfold unmarshal_file, json_map. rewrite (loose_remarshal rt j P), (loose_remarshal rt j' (settled_loose j j' S P)).
  rewrite (settled_norm j j' S). assert (match j with JNull => true | _ => false end = match j' with JNull => true | _ => false end) by (inversion S; reflexivity).
  destruct j, j'; try reflexivity; inversion S.
Qed.
Lemma settled_described rt j j' f : orders rt -> loose_json j -> settled j j' -> plain_json j' -> describes_file j' f ->
  unmarshal_file rt j (new_file_p (flPacked f)) = Ok f.
Proof. intros O P S P' D. rewrite (settled_read rt j j') by assumption. now apply described_file. Qed.

Lemma settled_self j : plain_json j -> settled j j.
Proof.
  induction j using json_induction; intros P; inversion P as [| |z Hz|s0 Hs|l0 Fl|l0 N F]; subst; try constructor.
  - clear P. induction l as [|x l IH]; [constructor|]. inversion H; inversion Fl; subst. constructor; auto.
  - apply (SettledObj l l l N).
    + intros k v. symmetry. now apply last_nodup.
    + clear P N. induction l as [|x l IH]; [constructor|]. inversion H; inversion F; subst. constructor; [split; [reflexivity|]; tauto|]. auto.
Qed.
Lemma settled_drop k v l : plain_json (JObj l) -> In k (map fst l) -> settled (JObj ((k, v) :: l)) (JObj l).
Proof.
  intros P I. pose proof (plain_obj_nodup _ P) as N. pose proof (settled_self _ P) as S. inversion S as [| | | | |l0 m l1 N' L F]; subst.
  apply (SettledObj _ m l N'); [|assumption]. intros k' v'. rewrite last_cons, <- L. split; [auto|]. intros [H|[E X]]; [assumption|].
  injection E as -> ->. contradiction.
Qed.
