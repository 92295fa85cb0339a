(* Facts about JsonFile.v: the order of keys, the format of a file, whole texts *)
From Coq Require Import ZArith NArith Bool Ascii String List Lia Permutation Sorted.
Import ListNotations.
From Verif Require Import GoBase GoBaseFacts GoTime TimeFacts GoLayout Json Tables JsonTables Codec Records File Reader JsonFile
  SpecCodec SpecLayouts SpecRecords RecordFacts SpecJson LayoutFacts JsonTextFacts JsonMapFacts JsonFacts.
Local Open Scope string_scope.
Local Open Scope Z_scope.
Local Open Scope list_scope.
Local Notation length := List.length.

(* ---- the order in which maps are visited ---- *)

Lemma remarshal_runtime rt rt' j : same_runtime rt rt' -> remarshal rt j = remarshal rt' j.
Proof.
  intros [E _]. induction j using json_induction; try reflexivity.
  - cbn [remarshal]. unfold renumber. rewrite E. reflexivity.
  - rewrite !remarshal_arr. f_equal. apply traverse_ext. assumption.
  - rewrite !remarshal_obj. f_equal. apply traverse_ext. eapply Forall_impl; [|exact H]. intros m Hm. unfold remarshal_member. now rewrite Hm.
Qed.

Lemma decode_struct_runtime rt rt' tags j st : same_runtime rt rt' -> decode_struct rt tags j st = decode_struct rt' tags j st.
Proof.
  intros [_ E]. destruct j; try reflexivity. cbn [decode_struct]. revert st. induction l as [|[k j] l IH]; intros st; [reflexivity|].
  cbn [decode_members]. destruct (find_tag tags k) as [t|]; [|apply IH]. destruct (lookup (tgField t) st) as [old|]; [|reflexivity].
  assert (decode_field rt old j = decode_field rt' old j) as -> by (unfold decode_field; rewrite E; reflexivity).
  destruct (decode_field rt' old j); [apply IH|reflexivity].
Qed.

Lemma json_map_runtime rt rt' j : same_runtime rt rt' -> json_map rt j = json_map rt' j.
Proof. intros S. unfold json_map. now rewrite (remarshal_runtime rt rt'). Qed.
Lemma json_list_runtime rt rt' j : same_runtime rt rt' -> json_list rt j = json_list rt' j.
Proof. intros S. unfold json_list. now rewrite (remarshal_runtime rt rt'). Qed.

Lemma base_members_runtime rt rt' l : same_runtime rt rt' -> forall b, unmarshal_base_members rt l b = unmarshal_base_members rt' l b.
Proof.
  intros S.
  assert (forall name j b, unmarshal_segment rt name j b = unmarshal_segment rt' name j b) as E1.
  { intros name j b. unfold unmarshal_segment. destruct (kind_of_name name); [|reflexivity]. now rewrite (decode_struct_runtime rt rt'). }
  assert (forall name js b, unmarshal_segments rt name js b = unmarshal_segments rt' name js b) as E2.
  { intros name js. induction js as [|j js IH]; intros b; [reflexivity|]. cbn [unmarshal_segments]. rewrite E1.
    destruct (unmarshal_segment rt' name j b); auto. }
  assert (forall m b, unmarshal_base_member rt m b = unmarshal_base_member rt' m b) as E3.
  { intros [k j] b. unfold unmarshal_base_member. rewrite (decode_struct_runtime rt rt'), (json_list_runtime rt rt'), E1 by assumption.
    destruct (json_list rt' j); [rewrite E2|]; reflexivity. }
  induction l as [|m l IH]; intros b; [reflexivity|]. cbn [unmarshal_base_members]. rewrite E3. destruct (unmarshal_base_member rt' m b); auto.
Qed.

Lemma decode_record_runtime rt rt' n n' j r r' : same_runtime rt rt' -> orders rt -> orders rt' ->
  decode_record rt n j r = Ok r' -> decode_record rt' n' j r = Ok r'.
Proof.
  intros S O O'. destruct r as [p st|p b|p st]; cbn [decode_record].
  - now rewrite (decode_struct_runtime rt rt').
  - unfold unmarshal_base. rewrite (json_map_runtime rt rt') by assumption. destruct (json_map rt' j) as [l|] eqn:El; [|discriminate].
    destruct (unmarshal_base_members rt (rtOrder rt n l) (clear_j b)) as [b'|e|] eqn:E; try discriminate. intros [= <-].
    rewrite (base_members_runtime rt rt') in E by assumption.
    erewrite base_members_perm; [reflexivity| | |exact E].
    + rewrite <- (O n l). apply O'.
    + eapply Permutation_NoDup; [apply Permutation_map, O|]. eapply json_map_nodup. exact El.
  - now rewrite (decode_struct_runtime rt rt').
Qed.

Lemma decode_data_runtime rt rt' l : same_runtime rt rt' -> orders rt -> orders rt' -> forall n n' f f',
  decode_data rt n l f = Ok f' -> decode_data rt' n' l f = Ok f'.
Proof.
  intros S O O'. induction l as [|j l IH]; intros n n' f f'; cbn [decode_data]; [auto|].
  destruct (decode_record rt n j (new_data_record (flPacked f))) as [r|e|] eqn:E; try discriminate. intros H.
  rewrite (decode_record_runtime rt rt' n n' j _ r) by assumption. eapply IH. exact H.
Qed.

Lemma file_member_runtime rt rt' m f f' : same_runtime rt rt' -> orders rt -> orders rt' ->
  decode_file_member rt m f = Ok f' -> decode_file_member rt' m f = Ok f'.
Proof.
  intros S O O'. destruct m as [k j]. unfold decode_file_member. rewrite (json_list_runtime rt rt') by assumption.
  destruct (bytes_eqb k (lit "header")).
  - destruct (decode_record rt 0 j (flHeader f)) as [r|e|] eqn:E; try discriminate. rewrite (decode_record_runtime rt rt' 0 0 j _ r) by assumption. auto.
  - destruct (bytes_eqb k (lit "trailer")).
    + destruct (decode_record rt 0 j (flTrailer f)) as [r|e|] eqn:E; try discriminate. rewrite (decode_record_runtime rt rt' 0 0 j _ r) by assumption. auto.
    + destruct (bytes_eqb k (lit "data")); [|auto]. destruct (json_list rt' j); [|auto]. apply decode_data_runtime; assumption.
Qed.

Lemma file_members_runtime rt rt' l : same_runtime rt rt' -> orders rt -> orders rt' -> forall f f',
  decode_file_members rt l f = Ok f' -> decode_file_members rt' l f = Ok f'.
Proof.
  intros S O O'. induction l as [|m l IH]; intros f f'; cbn [decode_file_members]; [auto|].
  destruct (decode_file_member rt m f) as [f1|e|] eqn:E; try discriminate. rewrite (file_member_runtime rt rt' m f f1) by assumption. apply IH.
Qed.

Lemma unmarshal_order rt rt' j j' f f' : same_runtime rt rt' -> orders rt -> orders rt' -> remarshal rt j = remarshal rt j' ->
  unmarshal_file rt j f = Ok f' -> unmarshal_file rt' j' f = Ok f'.
Proof.
  intros S O O' E. unfold unmarshal_file. rewrite <- (json_map_runtime rt rt' j') by assumption.
  assert (json_map rt j' = json_map rt j) as -> by (unfold json_map; now rewrite E).
  destruct (json_map rt j) as [l|] eqn:El; [|discriminate]. intros H.
  apply (file_members_runtime rt rt') in H; try assumption. eapply file_members_perm; [| |exact H].
  - rewrite <- (O 0%nat l). apply O'.
  - eapply Permutation_NoDup; [apply Permutation_map, O|]. eapply json_map_nodup. exact El.
Qed.

Lemma same_runtime_sym rt rt' : same_runtime rt rt' -> same_runtime rt' rt.
Proof. intros [A B]. split; congruence. Qed.

Lemma key_order rt rt' j j' f f' : same_runtime rt rt' -> orders rt -> orders rt' -> same_json j j' ->
  (unmarshal_file rt j f = Ok f' <-> unmarshal_file rt' j' f = Ok f').
Proof.
  intros S O O' J. pose proof (remarshal_same rt j j' J) as E. split.
  - apply unmarshal_order; assumption.
  - apply unmarshal_order; try assumption; [now apply same_runtime_sym|]. rewrite <- !(remarshal_runtime rt rt') by assumption. congruence.
Qed.

(* ---- struct members in any order ---- *)

Lemma upper_ascii_fold k : Forall (fun c => code c < 128) k -> fold_name k = to_upper k.
Proof.
  intros H. induction H as [|a k Ha H IH]; [reflexivity|]. cbn [fold_name to_upper map].
  change (code a) with (bval a) in Ha.
  destruct k as [|b k]; [reflexivity|].
  assert (forall x y l, 128 <= bval x -> bytes_eqb (a :: l) (x :: y) = false) as N by (intros x y l Hx; apply bytes_eqb_neq; intros [= -> _]; lia).
  cbn [map]. rewrite N by (vm_compute; congruence). destruct k as [|c k]; [f_equal; exact IH|].
  rewrite N by (vm_compute; congruence). f_equal. exact IH.
Qed.

Lemma find_tag_fold tags k t : find_tag tags k = Some t -> In t tags /\ fold_name k = fold_name (lit (tgKey t)).
Proof.
  unfold find_tag. destruct (find (fun t => bytes_eqb k (lit (tgKey t))) tags) as [t'|] eqn:E.
  - intros [= <-]. apply find_some in E as [I E]. apply bytes_eqb_eq in E. subst k. auto.
  - intros F. apply find_some in F as [I F]. apply bytes_eqb_eq in F. auto.
Qed.

Lemma find_tag_none tags k t : find_tag tags k = None -> In t tags -> fold_name k <> fold_name (lit (tgKey t)).
Proof.
  unfold find_tag. destruct (find (fun t => bytes_eqb k (lit (tgKey t))) tags) as [t'|]; [discriminate|]. intros F I E.
  apply (find_none _ _ F) in I. rewrite E, bytes_eqb_refl in I. discriminate.
Qed.

Definition member_step (rt : runtime) (tags : list tag) (m : bytes * json) (st : fields) : res fields :=
  match find_tag tags (fst m) with
  | Some t =>
      match lookup (tgField t) st with
      | Some old => match decode_field rt old (snd m) with Some v => Ok (set_field (tgField t) v st) | None => Panic end
      | None => Panic
      end
  | None => Ok st
  end.

Lemma members_steps rt tags l : forall st, decode_members rt tags l st =
  match run_steps (member_step rt tags) l st with Ok st' => Some st' | _ => None end.
Proof.
  induction l as [|[k j] l IH]; intros st; [reflexivity|]. cbn [decode_members run_steps]. unfold member_step at 1. cbn [fst snd].
  destruct (find_tag tags k) as [t|]; [|apply IH]. destruct (lookup (tgField t) st) as [old|]; [|reflexivity].
  destruct (decode_field rt old j); [apply IH|reflexivity].
Qed.

Lemma set_field_comm n v m w st : n <> m -> set_field n v (set_field m w st) = set_field m w (set_field n v st).
Proof.
  intros N. induction st as [|[k a] st IH]; [reflexivity|]. cbn [set_field].
  destruct (String.eqb_spec m k) as [Em|Em], (String.eqb_spec n k) as [En|En]; cbn [set_field].
  - congruence.
  - subst k. destruct (String.eqb_spec n m); [congruence|]. rewrite String.eqb_refl. reflexivity.
  - subst k. rewrite String.eqb_refl. destruct (String.eqb_spec m n); [congruence|]. reflexivity.
  - destruct (String.eqb_spec n k); [congruence|]. destruct (String.eqb_spec m k); [congruence|]. now rewrite IH.
Qed.

Lemma NoDup_map_inj {A B} (f : A -> B) l x y : NoDup (map f l) -> In x l -> In y l -> f x = f y -> x = y.
Proof.
  induction l as [|a l IH]; [intros _ []|]. cbn [map]; intros N [->|Ix] [->|Iy] E; try reflexivity; inversion N as [|? ? N1 N2]; subst.
  - exfalso. apply N1. rewrite E. apply in_map. assumption.
  - exfalso. apply N1. rewrite <- E. apply in_map. assumption.
  - now apply IH.
Qed.

Lemma member_steps_perm rt tags : NoDup (map tgField tags) -> forall a b, Permutation a b -> NoDup (map (fun m => fold_name (fst m)) a) ->
  forall st st', run_steps (member_step rt tags) a st = Ok st' -> run_steps (member_step rt tags) b st = Ok st'.
Proof.
  intros Nt. apply (run_steps_perm (fun m : bytes * json => fold_name (fst m))).
  intros x y s s1 s2 Nk. unfold member_step.
  destruct (find_tag tags (fst x)) as [tx|] eqn:Ex.
  - destruct (lookup (tgField tx) s) as [ox|] eqn:Lx; [|discriminate]. destruct (decode_field rt ox (snd x)) as [vx|] eqn:Dx; [|discriminate].
    intros [= <-]. destruct (find_tag tags (fst y)) as [ty|] eqn:Ey.
    + assert (tgField tx <> tgField ty) as Nf.
      { intros Ef. apply find_tag_fold in Ex as [Ix Fx], Ey as [Iy Fy].
        assert (tx = ty) by (eapply NoDup_map_inj; eassumption). subst. congruence. }
      rewrite lookup_set_field. destruct (String.eqb_spec (tgField ty) (tgField tx)); [congruence|].
      destruct (lookup (tgField ty) s) as [oy|] eqn:Ly; [|discriminate]. destruct (decode_field rt oy (snd y)) as [vy|] eqn:Dy; [|discriminate].
      intros [= <-]. exists (set_field (tgField ty) vy s). split; [reflexivity|].
      rewrite lookup_set_field. destruct (String.eqb_spec (tgField tx) (tgField ty)); [congruence|]. rewrite Lx, Dx. f_equal. now apply set_field_comm.
    + intros [= <-]. exists s. rewrite Lx, Dx. auto.
  - intros [= <-] Hy. exists s2. auto.
Qed.

Lemma decode_members_perm rt tags l l' st : NoDup (map tgField tags) -> Permutation l l' ->
  NoDup (map (fun m => fold_name (fst m)) l) -> decode_members rt tags l st = decode_members rt tags l' st.
Proof.
  intros Nt P N. rewrite !members_steps. pose proof (member_steps_perm rt tags Nt l l' P N st) as H.
  assert (NoDup (map (fun m => fold_name (fst m)) l')) as N' by (eapply Permutation_NoDup; [apply Permutation_map; exact P|assumption]).
  pose proof (member_steps_perm rt tags Nt l' l (Permutation_sym P) N' st) as H'.
  destruct (run_steps (member_step rt tags) l st) as [a|e|]; destruct (run_steps (member_step rt tags) l' st) as [b|e'|]; try reflexivity;
  try (specialize (H _ eq_refl); congruence); specialize (H' _ eq_refl); discriminate.
Qed.

(* ---- header members up to the order of keys inside them ---- *)

Definition no_times (st : fields) : Prop := forall n v, lookup n st = Some v -> kind_of v <> KTime.

Lemma decode_field_same rt old j j' : kind_of old <> KTime -> same_json j j' -> decode_field rt old j = decode_field rt old j'.
Proof. intros K S. destruct old; [| |cbn in K; congruence]; destruct S; reflexivity. Qed.

Lemma decode_field_kind rt old j v : decode_field rt old j = Some v -> kind_of v = kind_of old.
Proof.
  destruct old; cbn [decode_field].
  - destruct j; try discriminate; [intros [= <-]; reflexivity|]. destruct (parse_int 64 text) as [z' [e|]]; [discriminate|]. intros [= <-]. reflexivity.
  - destruct j; try discriminate; intros [= <-]; reflexivity.
  - destruct (time_unmarshal (rtZone rt) (print j)); [|discriminate]. intros [= <-]. reflexivity.
Qed.

Lemma decode_members_same rt tags l m : Forall2 (fun x y => fst x = fst y /\ same_json (snd x) (snd y)) l m ->
  forall st, no_times st -> decode_members rt tags l st = decode_members rt tags m st.
Proof.
  induction 1 as [|[k j] [k' j'] l m [E S] F IH]; intros st T; [reflexivity|]. cbn [fst snd] in *. subst k'. cbn [decode_members].
  destruct (find_tag tags k) as [t|]; [|now apply IH]. destruct (lookup (tgField t) st) as [old|] eqn:L; [|reflexivity].
  rewrite (decode_field_same rt old j j') by (eauto). destruct (decode_field rt old j') as [v|] eqn:D; [|reflexivity]. apply IH.
  intros n w. rewrite lookup_set_field. destruct (String.eqb_spec n (tgField t)) as [En|Ne].
  - rewrite L. intros [= <-]. rewrite (decode_field_kind _ _ _ _ D). eapply T. exact L.
  - apply T.
Qed.

Lemma no_times_info : no_times header_info0.
Proof.
  intros n v. unfold header_info0. cbn [lookup]. repeat (destruct (String.eqb n _); [intros [= <-]; discriminate|]). discriminate.
Qed.

Lemma clear_fold l : clear_keys l -> NoDup (map (fun m => fold_name (fst m)) l).
Proof.
  intros [A N]. erewrite map_ext_in; [exact N|]. intros m I. apply upper_ascii_fold. rewrite Forall_forall in A. apply A. exact I.
Qed.

Lemma info_fields : NoDup (map tgField header_info_tags).
Proof. apply nodupb_NoDup. reflexivity. Qed.

Lemma decode_info_same rt j j' : same_json j j' -> (forall h, j = JObj h -> clear_keys h) ->
  decode_struct rt header_info_tags j header_info0 = decode_struct rt header_info_tags j' header_info0.
Proof.
  intros S C. inversion S as [| | | |l l' F|l m l' N U F P]; subst; try reflexivity. cbn [decode_struct].
  rewrite (decode_members_same rt _ l m F) by apply no_times_info. apply decode_members_perm; [apply info_fields|assumption|].
  pose proof (clear_fold l (C l eq_refl)) as Nf.
  replace (map (fun m0 : bytes * json => fold_name (fst m0)) m) with (map (fun m0 : bytes * json => fold_name (fst m0)) l); [assumption|].
  rewrite <- !(map_map fst fold_name). f_equal. eapply Forall2_keys. exact F.
Qed.

(* ---- the format detected ---- *)

Definition is_header_key (m : bytes * json) : bool := match find_tag dummy_tags (fst m) with Some _ => true | None => false end.

Lemma dummy_filter rt l : forall h, decode_dummy_members rt l h = decode_dummy_members rt (filter is_header_key l) h.
Proof.
  induction l as [|[k j] l IH]; intros h; [reflexivity|]. cbn [filter]. unfold is_header_key at 1. cbn [fst].
  destruct (find_tag dummy_tags k) as [t|] eqn:E; cbn [decode_dummy_members]; rewrite E; [|apply IH].
  destruct j; try (destruct (decode_struct _ _ _ _); [apply IH|reflexivity]). apply IH.
Qed.

Lemma header_key_fold m : is_header_key m = true -> fold_name (fst m) = lit "HEADER".
Proof.
  unfold is_header_key. destruct (find_tag dummy_tags (fst m)) as [t|] eqn:E; [|discriminate]. intros _.
  apply find_tag_fold in E as [[<-|[]] E]. exact E.
Qed.

Lemma one_header l : NoDup (map (fun m => fold_name (fst m)) l) -> filter is_header_key l = [] \/ exists m, filter is_header_key l = [m].
Proof.
  intros N. assert (forall m, In m (filter is_header_key l) -> fold_name (fst m) = lit "HEADER") as H.
  { intros m I. apply filter_In in I as [_ I]. now apply header_key_fold. }
  assert (NoDup (map (fun m => fold_name (fst m)) (filter is_header_key l))) as N'.
  { clear H. induction l as [|m l IH]; [constructor|]. cbn [map] in N. inversion N as [|? ? N1 N2]; subst. cbn [filter].
    destruct (is_header_key m); [|now apply IH]. cbn [map]. constructor; [|now apply IH]. intros I. apply N1.
    apply in_map_iff in I as (x & E & I). apply filter_In in I as [I _]. rewrite <- E. now apply (in_map (fun m : bytes * json => fold_name (fst m))). }
  destruct (filter is_header_key l) as [|a [|b r]]; [now left|right; now exists a|]. exfalso.
  cbn [map] in N'. inversion N' as [|? ? N1 _]; subst. apply N1. left. rewrite !H by (cbn; auto). reflexivity.
Qed.

Lemma filter_two l m : Forall2 (fun x y => fst x = fst y /\ same_json (snd x) (snd y)) l m ->
  Forall2 (fun x y => fst x = fst y /\ same_json (snd x) (snd y)) (filter is_header_key l) (filter is_header_key m).
Proof.
  induction 1 as [|x y l m [E S] F IH]; [constructor|]. cbn [filter].
  assert (is_header_key x = is_header_key y) as -> by (unfold is_header_key; now rewrite E).
  destruct (is_header_key y); [constructor; auto|exact IH].
Qed.

Lemma filter_perm {A} (f : A -> bool) l l' : Permutation l l' -> Permutation (filter f l) (filter f l').
Proof.
  induction 1 as [|x l l' P IH|x y l|l1 l2 l3 P1 IH1 P2 IH2]; cbn [filter].
  - constructor.
  - destruct (f x); [now constructor|assumption].
  - destruct (f x), (f y); try reflexivity. apply perm_swap.
  - etransitivity; eassumption.
Qed.

Lemma decode_dummy_same rt j j' : same_json j j' -> clear_json j -> decode_dummy rt j = decode_dummy rt j'.
Proof.
  intros S C. inversion S as [| | | |l l' F|l m l' N U F P]; subst; try reflexivity. destruct C as [C Ch]. cbn [decode_dummy].
  rewrite (dummy_filter rt l), (dummy_filter rt l'). pose proof (clear_fold l C) as Nf.
  pose proof (filter_two l m F) as F'. pose proof (filter_perm is_header_key m l' P) as P'.
  destruct (one_header l Nf) as [E|([k v] & E)]; rewrite E in F' |- *.
  - destruct (filter is_header_key m) as [|? ?]; [|inversion F']. apply Permutation_nil in P'. rewrite P'. reflexivity.
  - destruct (filter is_header_key m) as [|[k' v'] [|? ?]]; [inversion F'| |inversion F' as [|? ? ? ? _ F0]; inversion F0].
    inversion F' as [|x y l0 m0 [Ek Sv] F0]; subst x y l0 m0.
    apply Permutation_length_1_inv in P'. rewrite P'. cbn [fst snd] in *. subst k'.
    assert (In (k, v) l) as I by (eapply proj1; apply (filter_In is_header_key); rewrite E; now left).
    cbn [decode_dummy_members]. destruct (find_tag dummy_tags k); [|reflexivity].
    assert (decode_struct rt header_info_tags v header_info0 = decode_struct rt header_info_tags v' header_info0) as D.
    { apply decode_info_same; [assumption|]. intros h ->. eapply Ch. exact I. }
    destruct Sv; try reflexivity; rewrite D; reflexivity.
Qed.

Lemma file_key_order rt rt' t t' j j' f : same_runtime rt rt' -> orders rt -> orders rt' ->
  decode t = Some j -> decode t' = Some j' -> same_json j j' -> clear_json j ->
  (file_from_json rt t = Ok f <-> file_from_json rt' t' = Ok f).
Proof.
  intros S O O' D D' J C. unfold file_from_json. rewrite D, D'.
  assert (decode_dummy rt' j' = decode_dummy rt j) as ->.
  { rewrite <- (decode_dummy_same rt' j j' J C). destruct j; try reflexivity. cbn [decode_dummy].
    clear - S. revert rt S. generalize (@None fields) as h. induction l as [|[k v] l IH]; intros h rt S; [reflexivity|]. cbn [decode_dummy_members].
    destruct (find_tag dummy_tags k); [|now apply IH].
    rewrite (decode_struct_runtime rt rt') by assumption. destruct v; try (destruct (decode_struct _ _ _ _); [now apply IH|reflexivity]). now apply IH. }
  destruct (decode_dummy rt j) as [h|]; [|tauto]. apply key_order; assumption.
Qed.

(* ---- the descriptor words of the header ---- *)

Lemma find_info k t : In t header_info_tags -> to_upper k = to_upper (lit (tgKey t)) -> Forall (fun c => code c < 128) k ->
  exists t', find_tag header_info_tags k = Some t' /\ tgField t' = tgField t.
Proof.
  intros I E A. destruct (find_tag header_info_tags k) as [t'|] eqn:F.
  - exists t'. split; [reflexivity|]. apply find_tag_fold in F as [I' F]. rewrite (upper_ascii_fold k A), E in F.
    cbn in I, I'. destruct I as [<-|[<-|[<-|[]]]], I' as [<-|[<-|[<-|[]]]]; try reflexivity; vm_compute in F; discriminate.
  - exfalso. apply (find_tag_none _ _ t F I). rewrite (upper_ascii_fold k A), E. cbn in I. destruct I as [<-|[<-|[<-|[]]]]; reflexivity.
Qed.

Lemma find_info_exact t : In t header_info_tags -> find_tag header_info_tags (lit (tgKey t)) = Some t.
Proof. cbn. intros [<-|[<-|[<-|[]]]]; reflexivity. Qed.

Lemma upper_neq_find k t : Forall (fun c => code c < 128) k -> find_tag header_info_tags k = Some t -> to_upper k = to_upper (lit (tgKey t)).
Proof.
  intros A F. apply find_tag_fold in F as [I F]. rewrite (upper_ascii_fold k A) in F. rewrite F. cbn in I.
  destruct I as [<-|[<-|[<-|[]]]]; reflexivity.
Qed.

Definition info_fields_of (bdw rdw : Z) (id : bytes) : fields :=
  [("BlockDescriptorWord", VInt bdw); ("RecordDescriptorWord", VInt rdw); ("RecordIdentifier", VStr id)].

Lemma member_unique h k j j' : NoDup (map (fun m : bytes * json => to_upper (fst m)) h) -> In (k, j) h ->
  forall k', In (k', j') h -> to_upper k' = to_upper k -> k' = k /\ j' = j.
Proof.
  intros N I k' I' E. assert ((k', j') = (k, j)) as [= -> ->]; [|auto].
  eapply (NoDup_map_inj (fun m => to_upper (fst m))); eassumption.
Qed.

Lemma decode_words rt h bdw rdw : header_words h bdw rdw ->
  exists id, decode_members rt header_info_tags h header_info0 = Some (info_fields_of bdw rdw id).
Proof.
  intros ([A N] & B & R & T).
  assert (exists id, (In (lit "recordIdentifier", JStr id) h \/
    (id = [] /\ Forall (fun m => to_upper (fst m) <> to_upper (lit "recordIdentifier")) h))) as (id & Tid).
  { destruct T as [(s & I)|F]; [exists s; now left|exists []; now right]. }
  exists id. set (st := info_fields_of bdw rdw id).
  pose (rest := filter (fun m => match find_tag header_info_tags (fst m) with Some _ => true | None => false end) h).
  assert (Forall (fun m => good_member rt header_info_tags st m \/ find_tag header_info_tags (fst m) = None) h) as G.
  { apply Forall_forall. intros [k j] I. cbn [fst]. destruct (find_tag header_info_tags k) as [t|] eqn:F; [left|now right].
    rewrite Forall_forall in A. pose proof (A _ I) as Ak. cbn [fst] in Ak. pose proof (upper_neq_find k t Ak F) as Eu.
    pose proof F as F0. apply find_tag_fold in F0 as [It _]. cbn in It.
    destruct It as [<-|[<-|[<-|[]]]]; cbn [tgKey tgField] in *.
    - exists (mkTag "BlockDescriptorWord" "blockDescriptorWord" false), (VInt bdw). split; [exact F|]. split; [reflexivity|]. intros old K. cbn [snd].
      destruct B as [[Ib Hb]|[-> Fb]].
      + destruct (member_unique h _ _ j N Ib k I Eu) as [-> ->]. destruct old; try discriminate K. cbn [decode_field]. rewrite parse_itoa by assumption. reflexivity.
      + exfalso. rewrite Forall_forall in Fb. exact (Fb _ I Eu).
    - exists (mkTag "RecordDescriptorWord" "recordDescriptorWord" false), (VInt rdw). split; [exact F|]. split; [reflexivity|]. intros old K. cbn [snd].
      destruct R as [[Ib Hb]|[-> Fb]].
      + destruct (member_unique h _ _ j N Ib k I Eu) as [-> ->]. destruct old; try discriminate K. cbn [decode_field]. rewrite parse_itoa by assumption. reflexivity.
      + exfalso. rewrite Forall_forall in Fb. exact (Fb _ I Eu).
    - exists (mkTag "RecordIdentifier" "recordIdentifier" false), (VStr id). split; [exact F|]. split; [reflexivity|]. intros old K. cbn [snd].
      destruct Tid as [Ib|[-> Fb]].
      + destruct (member_unique h _ _ j N Ib k I Eu) as [-> ->]. destruct old; try discriminate K. reflexivity.
      + exfalso. rewrite Forall_forall in Fb. exact (Fb _ I Eu). }
  assert (forall l st0, decode_members rt header_info_tags l st0 =
    decode_members rt header_info_tags (filter (fun m => match find_tag header_info_tags (fst m) with Some _ => true | None => false end) l) st0) as Fl.
  { induction l as [|[k j] l IH]; intros st0; [reflexivity|]. cbn [filter fst]. destruct (find_tag header_info_tags k) as [t|] eqn:F; cbn [decode_members]; rewrite F; [|apply IH].
    destruct (lookup (tgField t) st0); [|reflexivity]. destruct (decode_field rt v j); [apply IH|reflexivity]. }
  rewrite Fl. fold rest.
  destruct (decode_good rt header_info_tags st rest) with (st0 := header_info0) as (st' & D & Ty & Lk).
  - apply Forall_forall. intros m I. apply filter_In in I as [I E]. rewrite Forall_forall in G. destruct (G m I) as [X|X]; [exact X|]. rewrite X in E. discriminate.
  - reflexivity.
  - rewrite D. f_equal. apply fields_ext.
    + rewrite <- types_names, Ty, types_names. reflexivity.
    + rewrite <- types_names, Ty, types_names. apply nodupb_NoDup. reflexivity.
    + intros n. destruct (Lk n) as [E|[E Nn]]; [exact E|]. rewrite E.
      assert (forall t key, In t header_info_tags -> tgKey t = key -> tgField t = n -> Forall (fun m => to_upper (fst m) <> to_upper (lit key)) h) as Abs.
      { intros t key It Kt Ft. apply Forall_forall. intros m I Eu. rewrite Forall_forall in A. pose proof (A _ I) as Ak. subst key.
        destruct (find_info (fst m) t It Eu Ak) as (t' & F' & Ef). apply (Nn m t'); [|exact F'|congruence].
        apply filter_In. split; [exact I|]. rewrite F'. reflexivity. }
      unfold header_info0, st, info_fields_of. cbn [lookup].
      destruct (String.eqb_spec n "BlockDescriptorWord") as [Enb|_].
      { destruct B as [[Ib _]|[-> _]]; [|reflexivity]. exfalso. subst n.
        specialize (Abs (mkTag "BlockDescriptorWord" "blockDescriptorWord" false) _ ltac:(cbn; tauto) eq_refl eq_refl). rewrite Forall_forall in Abs. exact (Abs _ Ib eq_refl). }
      destruct (String.eqb_spec n "RecordDescriptorWord") as [Enb|_].
      { destruct R as [[Ib _]|[-> _]]; [|reflexivity]. exfalso. subst n.
        specialize (Abs (mkTag "RecordDescriptorWord" "recordDescriptorWord" false) _ ltac:(cbn; tauto) eq_refl eq_refl). rewrite Forall_forall in Abs. exact (Abs _ Ib eq_refl). }
      destruct (String.eqb_spec n "RecordIdentifier") as [Enb|_]; [|reflexivity].
      { destruct Tid as [Ib|[-> _]]; [|reflexivity]. exfalso. subst n.
        specialize (Abs (mkTag "RecordIdentifier" "recordIdentifier" false) _ ltac:(cbn; tauto) eq_refl eq_refl). rewrite Forall_forall in Abs. exact (Abs _ Ib eq_refl). }
Qed.

Lemma dummy_words rt l h bdw rdw : clear_keys l -> In (lit "header", JObj h) l -> header_words h bdw rdw ->
  exists st, decode_dummy rt (JObj l) = Some (Some st) /\ dummy_packed (Some st) = negb (rdw =? 426) && (0 <? bdw).
Proof.
  intros C I W. destruct (decode_words rt h bdw rdw W) as (id & D). exists (info_fields_of bdw rdw id). split.
  - cbn [decode_dummy]. rewrite dummy_filter. destruct (one_header l (clear_fold l C)) as [E|(m & E)].
    + exfalso. assert (In (lit "header", JObj h) (filter is_header_key l)) as X by (apply filter_In; split; [exact I|reflexivity]). rewrite E in X. destruct X.
    + assert (In (lit "header", JObj h) (filter is_header_key l)) as X by (apply filter_In; split; [exact I|reflexivity]). rewrite E in X |- *. destruct X as [->|[]].
      cbn [decode_dummy_members]. change (find_tag dummy_tags (lit "header")) with (Some (mkTag "Header" "header" false)). cbv iota.
      cbn [decode_struct]. rewrite D. reflexivity.
  - unfold dummy_packed, info_fields_of. change (Z.of_nat UnpackedRecordLength) with 426. cbn. destruct (rdw =? 426); reflexivity.
Qed.

Lemma dummy_no_header rt l : clear_keys l ->
  (forall k j, In (k, j) l -> to_upper k = lit "HEADER" -> j = JNull) ->
  decode_dummy rt (JObj l) = Some None.
Proof.
  intros C H. cbn [decode_dummy]. rewrite dummy_filter. destruct (one_header l (clear_fold l C)) as [E|([k j] & E)]; rewrite E; [reflexivity|].
  assert (In (k, j) (filter is_header_key l)) as I by (rewrite E; now left). apply filter_In in I as [I K].
  assert (j = JNull) as ->.
  { apply (H k j I). apply header_key_fold in K. cbn [fst] in K. destruct C as [A _]. rewrite Forall_forall in A. specialize (A _ I). cbn in A.
    rewrite upper_ascii_fold in K by assumption. exact K. }
  cbn [decode_dummy_members]. destruct (find_tag dummy_tags k); reflexivity.
Qed.

(* ---- texts ---- *)

Lemma file_from_words rt text l h bdw rdw : decode text = Some (JObj l) -> clear_keys l -> In (lit "header", JObj h) l ->
  header_words h bdw rdw -> file_from_json rt text = unmarshal_file rt (JObj l) (new_file_p (negb (rdw =? 426) && (0 <? bdw))).
Proof.
  intros D C I W. unfold file_from_json. rewrite D. destruct (dummy_words rt l h bdw rdw C I W) as (st & E & P). rewrite E, P. reflexivity.
Qed.

Lemma unmarshal_keeps_packed rt j f f' : unmarshal_file rt j f = Ok f' -> flPacked f' = flPacked f.
Proof.
  unfold unmarshal_file. destruct (json_map rt j) as [l|]; [|discriminate]. generalize (rtOrder rt 0 l). clear l. intros l. revert f.
  induction l as [|[k v] l IH]; intros f; cbn [decode_file_members]; [intros [= ->]; reflexivity|].
  destruct (decode_file_member rt (k, v) f) as [f1|e|] eqn:E; try discriminate. intros H. rewrite (IH _ H). clear H IH.
  unfold decode_file_member in E.
  destruct (bytes_eqb k (lit "header")). { destruct (decode_record rt 0 v (flHeader f)); try discriminate. injection E as <-. reflexivity. }
  destruct (bytes_eqb k (lit "trailer")). { destruct (decode_record rt 0 v (flTrailer f)); try discriminate. injection E as <-. reflexivity. }
  destruct (bytes_eqb k (lit "data")); [|injection E as <-; reflexivity].
  destruct (json_list rt v) as [d|]; [|discriminate]. destruct (decode_data_effect _ _ _ _ _ E) as (bs & -> & _). reflexivity.
Qed.

Lemma format_rule rt text l h bdw rdw f : decode text = Some (JObj l) -> clear_keys l -> In (lit "header", JObj h) l ->
  header_words h bdw rdw -> file_from_json rt text = Ok f -> (flPacked f = false <-> rdw = 426 \/ bdw <= 0).
Proof.
  intros D C I W. rewrite (file_from_words rt text l h bdw rdw) by assumption. intros H. rewrite (unmarshal_keeps_packed _ _ _ _ H).
  cbn [new_file_p flPacked]. destruct (Z.eqb_spec rdw 426), (Z.ltb_spec 0 bdw); cbn; split; intros; try reflexivity; try discriminate; try lia.
Qed.

Lemma format_no_header rt text l f : decode text = Some (JObj l) -> clear_keys l ->
  (forall k j, In (k, j) l -> to_upper k = lit "HEADER" -> j = JNull) -> file_from_json rt text = Ok f -> flPacked f = false.
Proof.
  intros D C H. unfold file_from_json. rewrite D, dummy_no_header by assumption. intros E. rewrite (unmarshal_keeps_packed _ _ _ _ E). reflexivity.
Qed.

(* the header of a file written as JSON *)

Lemma members_clear tags st : NoDup (map (fun t => to_upper (lit (tgKey t))) tags) ->
  Forall (fun t => Forall (fun c => code c < 128) (lit (tgKey t))) tags -> clear_keys (members_of tags st).
Proof.
  intros N A. split.
  - apply Forall_forall. intros m I. apply in_members in I as (t & v & I & _ & Im). rewrite (encode_field_in _ _ _ Im).
    rewrite Forall_forall in A. apply A. exact I.
  - clear A. induction tags as [|t tags IH]; cbn [members_of flat_map map] in *; [constructor|]. inversion N as [|? ? N1 N2]; subst.
    fold (members_of tags st). specialize (IH N2).
    destruct (lookup (tgField t) st) as [v|]; [|exact IH]. destruct (encode_field_single t v) as [->|(j & ->)]; [exact IH|].
    cbn [app map fst]. constructor; [|exact IH]. intros I. apply in_map_iff in I as (m & E & I). apply in_members in I as (t' & v' & I & _ & Im).
    rewrite (encode_field_in _ _ _ Im) in E. apply N1. rewrite <- E. exact (in_map (fun t => to_upper (lit (tgKey t))) _ _ I).
Qed.

Lemma ascii_codes s : forallb is_ascii s = true -> Forall (fun c => code c < 128) s.
Proof. intros H. apply forallb_Forall in H. eapply Forall_impl; [|exact H]. intros c Hc. unfold is_ascii in Hc. change (code c) with (bval c). lia. Qed.

Lemma nodup_upper l : nodupb (map (fun t => string_of_list_ascii (to_upper (lit (tgKey t)))) l) = true ->
  NoDup (map (fun t => to_upper (lit (tgKey t))) l).
Proof.
  intros H. apply nodupb_NoDup in H. induction l as [|t l IH]; cbn [map] in *; constructor; inversion H as [|? ? N1 N2]; subst; [|auto].
  intros I. apply N1. apply in_map_iff in I as (x & E & I). rewrite <- E. exact (in_map (fun t => string_of_list_ascii (to_upper (lit (tgKey t)))) _ _ I).
Qed.

Lemma header_members_clear st : clear_keys (members_of header_tags st).
Proof.
  apply members_clear.
  - apply nodup_upper. vm_compute. reflexivity.
  - apply Forall_forall. intros t I. apply ascii_codes. apply (tk_ascii _ _ _ header_tags_ok). exact I.
Qed.

Lemma clear_perm l l' : Permutation l l' -> clear_keys l -> clear_keys l'.
Proof.
  intros P [A N]. split; [eapply Permutation_Forall; eassumption|]. eapply Permutation_NoDup; [apply Permutation_map; exact P|assumption].
Qed.
Lemma clear_two l m : Forall2 (fun x y => fst x = fst y /\ same_json (snd x) (snd y)) l m -> clear_keys l -> clear_keys m.
Proof.
  intros F [A N]. pose proof (Forall2_keys _ _ _ F) as E. split.
  - rewrite <- (Forall_map fst (fun k => Forall (fun c => code c < 128) k)) in A |- *. rewrite <- E. exact A.
  - rewrite <- (map_map fst to_upper). rewrite <- E, map_map. exact N.
Qed.

Lemma number_member h tags st t z : NoDup (map (fun t => to_upper (lit (tgKey t))) tags) -> In t tags ->
  (forall m, In m h <-> In m (members_of tags st)) -> lookup (tgField t) st = Some (VInt z) -> Z.abs z <= 2 ^ 53 -> number_at h (tgKey t) z.
Proof.
  intros N I E L Z. destruct (encode_field t (VInt z)) as [|m r] eqn:F.
  - right. destruct (encode_field_none _ _ F) as (_ & Ze & _). cbn in Ze. split; [lia|]. apply Forall_forall. intros m Im Eu. apply E in Im.
    apply in_members in Im as (t' & v' & I' & L' & Im). rewrite (encode_field_in _ _ _ Im) in Eu.
    assert (t' = t) as -> by (eapply (NoDup_map_inj (fun t => to_upper (lit (tgKey t)))); eassumption).
    rewrite L in L'. injection L' as <-. rewrite F in Im. destruct Im.
  - left. split; [|assumption]. apply E. apply in_members. exists t, (VInt z). split; [assumption|]. split; [assumption|].
    unfold encode_field in *. destruct (tgOmit t && (z =? 0)); [discriminate|]. now left.
Qed.

Lemma text_member h tags st t s : In t tags -> tgOmit t = false ->
  (forall m, In m h <-> In m (members_of tags st)) -> lookup (tgField t) st = Some (VStr s) -> text_at h (tgKey t).
Proof.
  intros I O E L. left. exists (clean s). apply E. apply in_members. exists t, (VStr s). split; [assumption|]. split; [assumption|].
  unfold encode_field. rewrite O. now left.
Qed.

Lemma same_leaf tags st m : Forall2 (fun x y => fst x = fst y /\ same_json (snd x) (snd y)) (members_of tags st) m -> m = members_of tags st.
Proof.
  assert (forall x, In x (members_of tags st) -> forall j, same_json (snd x) j -> j = snd x) as H.
  { intros x I j S. apply in_members in I as (t & v & _ & _ & Im). unfold encode_field in Im.
    destruct v; repeat match type of Im with context [if ?b then _ else _] => destruct b end; try destruct Im as [<-|[]]; try destruct Im; cbn [snd] in *; now inversion S. }
  intros F. induction F as [|[k j] [k' j'] l m [E S] F IH]; [reflexivity|]. cbn [fst snd] in *. subst k'. f_equal.
  - f_equal. apply (H (k, j)); [now left|exact S].
  - apply IH. intros. apply H; [now right|assumption].
Qed.

Lemma header_types h : has_type header_struct h -> exists s, lookup "RecordIdentifier" h = Some (VStr s).
Proof.
  intros T. pose proof (lookup_types "RecordIdentifier" h) as E. unfold types in E. rewrite T in E.
  destruct (lookup "RecordIdentifier" h) as [[z|s|d]|]; try (vm_compute in E; discriminate). exists s. reflexivity.
Qed.

Lemma header_nodup h : has_type header_struct h -> NoDup (map fst h).
Proof. intros T. rewrite (has_type_names _ _ T). apply nodupb_NoDup. vm_compute. reflexivity. Qed.

Lemma encoded_words h h' bdw rdw : has_type header_struct h -> json_fields h ->
  holds h "BlockDescriptorWord" (VInt bdw) -> holds h "RecordDescriptorWord" (VInt rdw) ->
  Permutation (members_of header_tags h) h' -> header_words h' bdw rdw.
Proof.
  intros T J B R P. pose proof (header_nodup h T) as N.
  assert (NoDup (map (fun t => to_upper (lit (tgKey t))) header_tags)) as Nk by (apply nodup_upper; vm_compute; reflexivity).
  assert (forall m, In m h' <-> In m (members_of header_tags h)) as E by (intros m; split; apply Permutation_in; [symmetry|]; exact P).
  split; [eapply clear_perm; [exact P|apply header_members_clear]|]. split; [|split].
  - apply (number_member h' header_tags h (mkTag "BlockDescriptorWord" "blockDescriptorWord" true)); try assumption;
      [cbn; tauto|apply In_lookup; assumption|apply (J _ _ B)].
  - apply (number_member h' header_tags h (mkTag "RecordDescriptorWord" "recordDescriptorWord" false)); try assumption;
      [cbn; tauto|apply In_lookup; assumption|apply (J _ _ R)].
  - destruct (header_types h T) as (s & L). apply (text_member h' header_tags h (mkTag "RecordIdentifier" "recordIdentifier" false) s);
      try assumption; [cbn; tauto|reflexivity].
Qed.

Lemma clear_file_members isNil f : clear_keys (file_members isNil f).
Proof.
  split.
  - unfold file_members. do 3 (refine (Forall_cons _ _ _); [apply ascii_codes; reflexivity|]). apply Forall_nil.
  - replace (map (fun m => to_upper (fst m)) (file_members isNil f)) with (map lit ["HEADER"; "DATA"; "TRAILER"]) by reflexivity.
    apply NoDup_lits. reflexivity.
Qed.

Lemma same_obj_inv l j : same_json (JObj l) j -> exists m l', j = JObj l'
  /\ Forall2 (fun x y => fst x = fst y /\ same_json (snd x) (snd y)) l m /\ Permutation m l'.
Proof. intros S. inversion S as [| | | | |a m l' N U F P]; subst. exists m, l'. auto. Qed.

(* the JSON of a file, its keys in any order *)
Lemma shuffled_file isNil f j : json_file f -> format_kept f -> same_json (encode_file isNil f) j ->
  exists l h bdw rdw, j = JObj l /\ clear_keys l /\ In (lit "header", JObj h) l /\ header_words h bdw rdw
    /\ negb (rdw =? 426) && (0 <? bdw) = flPacked f.
Proof.
  intros J (h & bdw & rdw & Eh & B & R & K) S. rewrite encode_file_members in S. destruct J as ((h0 & Eh0 & Th & Jh) & _).
  rewrite Eh in Eh0. injection Eh0 as <-.
  destruct (same_obj_inv _ _ S) as (m & l' & -> & F & P).
  pose proof F as F0. unfold file_members in F0. inversion F0 as [|x [k v] l0 m0 [Ek Sv] F1 E1 E2]. cbn [fst snd] in Ek, Sv. clear F0 F1 E1. subst k.
  rewrite Eh in Sv. cbn [encode_record] in Sv. unfold encode_struct in Sv. fold (members_of header_tags h) in Sv.
  destruct (same_obj_inv _ _ Sv) as (mh & hh & -> & Fa & Pa). apply same_leaf in Fa. subst mh.
  exists l', hh, bdw, rdw. split; [reflexivity|]. split; [|split; [|split]].
  - eapply clear_perm; [exact P|]. eapply clear_two; [exact F|apply clear_file_members].
  - eapply Permutation_in; [exact P|]. rewrite <- E2. now left.
  - apply (encoded_words h); assumption.
  - destruct (Z.eqb_spec rdw 426), (Z.ltb_spec 0 bdw); cbn; destruct (flPacked f) eqn:Ep; try reflexivity; exfalso.
    + destruct (proj1 K eq_refl). lia.
    + destruct (proj1 K eq_refl). lia.
    + assert (false = true) by (apply K; lia). discriminate.
    + destruct (proj1 K eq_refl). lia.
Qed.

Lemma same_json_plain j : forall j', plain_json j -> same_json j j' -> plain_json j'.
Proof.
  induction j using json_induction; intros j' P S; inversion P as [| |z Hz|s0 Hs|l0 Fl|l0 N F]; subst; inversion S as [| | | |l1 l2 Fa|l1 m l2 Na Ua Fa Pa]; subst; try assumption; try (constructor; assumption).
  - constructor. clear P S. induction Fa as [|x y l m Hxy Fa IH]; constructor; inversion H; inversion Fl; subst; auto.
  - constructor.
    + eapply Permutation_NoDup; [apply Permutation_map; exact Pa|]. rewrite <- (Forall2_keys _ _ _ Fa). assumption.
    + eapply Permutation_Forall; [exact Pa|]. clear P S N Na Ua Pa. induction Fa as [|x y l m [Ek Hxy] Fa IH]; constructor; inversion H; inversion F; subst.
      * rewrite <- Ek. split; [tauto|]. apply H2; tauto.
      * apply IH; assumption.
Qed.

Lemma same_json_norm j j' : plain_json j -> same_json j j' -> norm j' = norm j.
Proof.
  intros P S. pose proof (same_json_plain j j' P S) as P'.
  pose (rt := mkRuntime (fun _ => None) (fun _ t => t) (fun _ l => l)).
  pose proof (remarshal_plain rt j P) as A. pose proof (remarshal_plain rt j' P') as B. rewrite (remarshal_same rt j j' S) in A. congruence.
Qed.

Lemma file_tree_round_trip rt isNil j f : orders rt -> json_file f -> same_json (encode_file isNil f) j ->
  unmarshal_file rt j (new_file_p (flPacked f)) = Ok f.
Proof.
  intros O J S. pose proof (file_plain isNil f J) as P. apply (file_round_trip rt isNil); try assumption.
  - eapply same_json_plain; eassumption.
  - apply same_json_norm; assumption.
Qed.

Lemma read_object l s w rest fuel : spells (JObj l) s -> Forall white w -> (length s <= fuel)%nat ->
  read_value fuel (w ++ s ++ rest) = Some (JObj l, rest).
Proof.
  intros Sp F L. inversion Sp as [| | | | | | |w' F'|l0 t St]; subst; (destruct fuel as [|fuel]; [cbn in L; lia|]); cbn [read_value]; rewrite skip_white by assumption;
    cbn [app]; rewrite skip_none by reflexivity; change (byte_eqb "{" "{") with true; cbv iota.
  - rewrite <- app_assoc, skip_white by assumption. reflexivity.
  - destruct (proj2 (proj2 read_spelled) l t St fuel rest ltac:(cbn in L; lia)) as (R & c & r & E & N). rewrite E, N, R. reflexivity.
Qed.

Lemma decode_object l s w rest : spells (JObj l) s -> Forall white w -> decode (w ++ s ++ rest) = Some (JObj l).
Proof. intros Sp W. unfold decode. rewrite (read_object l s); [reflexivity|assumption|assumption|len]. Qed.

Lemma file_text_round_trip rt isNil j s w rest f : orders rt -> json_file f -> format_kept f -> same_json (encode_file isNil f) j ->
  Forall white w -> spells j s -> file_from_json rt (w ++ s ++ rest) = Ok f.
Proof.
  intros O J K S W Sp. destruct (shuffled_file isNil f j J K S) as (l & h & bdw & rdw & -> & C & I & Hw & E).
  rewrite (file_from_words rt _ l h bdw rdw); [|apply decode_object; assumption|assumption|assumption|assumption].
  rewrite E. apply (file_tree_round_trip rt isNil); assumption.
Qed.

Lemma white_not_brace c : white c -> byte_eqb c "{" = false.
Proof. intros [->|[H|[H|H]]]; [reflexivity| | |]; apply byte_eqb_neq; intros ->; vm_compute in H; discriminate. Qed.

Lemma new_file_text rt evs w s rest l : spells (JObj l) s -> (length w < 1024)%nat ->
  new_file_from_reader rt evs (w ++ s ++ rest) = Some (file_from_json rt (w ++ s ++ rest)).
Proof.
  intros Sp L. assert (exists t, s = "{"%char :: t) as (t & ->) by (inversion Sp; subst; eauto).
  unfold new_file_from_reader. destruct (w ++ ("{"%char :: t) ++ rest) as [|c r] eqn:E; [destruct w; discriminate|]. rewrite <- E.
  assert (looks_like_json (w ++ ("{"%char :: t) ++ rest) = true) as ->; [|reflexivity].
  unfold looks_like_json. apply existsb_exists. exists "{"%char. split; [|reflexivity].
  rewrite firstn_app. apply in_or_app. right. destruct (1024 - length w)%nat eqn:En; [lia|]. now left.
Qed.

Lemma plain_same j : plain_json j -> same_json j j.
Proof.
  induction j using json_induction; intros P; inversion P as [| |z Hz|s0 Hs|l0 Fl|l0 N F]; subst; try constructor.
  - clear P. induction l as [|x l IH]; constructor; inversion H; inversion Fl; subst; auto.
  - apply SameObj with l; [assumption| | |reflexivity].
    + eapply Forall_impl; [|exact F]. intros x [Hx _]. exact Hx.
    + clear P N. induction l as [|x l IH]; constructor; inversion H; inversion F; subst; auto. split; [reflexivity|]. apply H2. tauto.
Qed.

Lemma file_printed rt isNil f rest : orders rt -> json_file f -> format_kept f ->
  file_from_json rt (print (encode_file isNil f) ++ rest) = Ok f.
Proof.
  intros O J K. pose proof (file_plain isNil f J) as P.
  apply (file_text_round_trip rt isNil (encode_file isNil f) _ []); try assumption; [now apply plain_same|constructor|now apply print_spells].
Qed.
