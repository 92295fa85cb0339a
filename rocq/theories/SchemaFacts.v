(* Facts about the published JSON objects *)
From Coq Require Import ZArith NArith Bool Ascii String List Permutation Lia.
Import ListNotations.
From Verif Require Check.
From Verif Require Import GoBase GoBaseFacts GoTime TimeFacts GoLayout Json Tables JsonTables Codec Records File Reader JsonFile
  SpecCodec SpecLayouts SpecRecords FieldFacts FieldProps RecordFacts SpecJson LayoutFacts JsonTextFacts JsonMapFacts JsonFacts JsonProps
  SpecSparse DateFacts SparseFacts SpecValidate ValidateFacts CounterProps Server SpecServer ServerFacts ServerProps SpecSchema.
Local Open Scope string_scope.
Local Open Scope Z_scope.
Local Open Scope list_scope.
Local Notation length := List.length.

(* ---- the objects ---- *)

Definition obj_tags (o : object) : list tag :=
  match o with OHeader => header_tags | OTrailer => trailer_tags | OBase => base_tags | OSegment k => seg_tags k end.
Definition obj_fresh (o : object) : fields :=
  match o with
  | OHeader => new_header | OTrailer => new_trailer | OBase => new_fields base_struct
  | OSegment k => sFields (new_segment k)
  end.

Lemma obj_json_eq o st : obj_json o st = JObj (members_of (obj_tags o) st).
Proof. reflexivity. Qed.
Lemma obj_tags_ok o : tags_ok (obj_tags o) (obj_struct o) (obj_fresh o).
Proof. destruct o; [apply header_tags_ok|apply trailer_tags_ok|apply base_tags_ok|apply seg_tags_ok]. Qed.
Lemma obj_readable o : readable (obj_tags o) (obj_struct o) (obj_fresh o).
Proof. destruct o; [apply header_readable|apply trailer_readable|apply base_readable|apply seg_readable]. Qed.

(* ---- tables ---- *)

Definition kind_eqb (k k' : kind) : bool := match k, k' with KInt, KInt | KStr, KStr | KTime, KTime => true | _, _ => false end.
Lemma kind_eqb_eq k k' : kind_eqb k k' = true -> k = k'.
Proof. destruct k, k'; (reflexivity || discriminate). Qed.
Definition inb (s : string) (l : list string) : bool := existsb (String.eqb s) l.
Lemma inb_In s l : inb s l = true <-> In s l.
Proof.
  unfold inb. rewrite existsb_exists. split.
  - intros (x & I & E). apply String.eqb_eq in E. congruence.
  - intros I. exists s. split; [assumption|apply String.eqb_refl].
Qed.

Definition fieldb (o : object) (p : property) : bool :=
  existsb (fun f => bytes_eqb (lit (pKey p)) (json_key (fst f)) && kind_eqb (type_kind (pType p)) (snd f)) (obj_struct o).
Definition publishedb (o : object) (n : string) : bool :=
  existsb (fun p => bytes_eqb (lit (pKey p)) (json_key n)) (obj_schema o).
Definition requiredb (o : object) (n : string) : bool :=
  existsb (fun p => bytes_eqb (lit (pKey p)) (json_key n) && pRequired p) (obj_schema o).

Definition schema_okb (o : object) : bool :=
  forallb (fun p => xorb (fieldb o p) (inb (pKey p) (unknown_properties o))
                    && Bool.eqb (fieldb o p) (existsb (fun f => bytes_eqb (lit (pKey p)) (json_key (fst f))) (obj_struct o))) (obj_schema o)
  && forallb (fun f => Bool.eqb (publishedb o (fst f)) (negb (inb (fst f) (unpublished_fields o)))) (obj_struct o)
  && forallb (fun p => forallb is_ascii (lit (pKey p))) (obj_schema o)
  && nodupb (map (fun p => string_of_list_ascii (to_upper (lit (pKey p)))) (obj_schema o))
  && nodupb (map (fun f => string_of_list_ascii (to_upper (json_key (fst f)))) (obj_struct o)).

Lemma schemas_ok o : schema_okb o = true.
Proof. destruct o as [| | |[]]; vm_compute; reflexivity. Qed.

Definition alwaysb (o : object) (n : string) : bool := inb n (also_written o) || (requiredb o n && negb (inb n (not_written o))).
Definition written_okb (o : object) : bool :=
  forallb (fun f => match snd f with
                    | KTime => true
                    | _ => forallb (fun t => negb (String.eqb (tgField t) (fst f)) || Bool.eqb (negb (tgOmit t)) (alwaysb o (fst f))) (obj_tags o)
                    end) (obj_struct o).
Lemma written_ok o : written_okb o = true.
Proof. destruct o as [| | |[]]; vm_compute; reflexivity. Qed.

Lemma nodup_texts {A} (f : A -> bytes) l : nodupb (map (fun x => string_of_list_ascii (f x)) l) = true -> NoDup (map f l).
Proof. intros H. apply nodupb_NoDup in H. rewrite <- map_map in H. eapply NoDup_map_inv. exact H. Qed.

Lemma schema_fields o : forall p, In p (obj_schema o) ->
  ((exists n, In (n, type_kind (pType p)) (obj_struct o) /\ lit (pKey p) = json_key n) <-> ~ In (pKey p) (unknown_properties o))
  /\ (forall n k, In (n, k) (obj_struct o) -> lit (pKey p) = json_key n -> k = type_kind (pType p)).
Proof.
  intros p I. pose proof (schemas_ok o) as H. unfold schema_okb in H. rewrite !andb_true_iff, !forallb_forall in H.
  destruct H as [[[[H _] _] _] N]. specialize (H p I). apply andb_prop in H as [H E]. apply Bool.eqb_prop in E.
  assert (fieldb o p = true -> exists n, In (n, type_kind (pType p)) (obj_struct o) /\ lit (pKey p) = json_key n) as F.
  { unfold fieldb. rewrite existsb_exists. intros ([n k] & If & Ef). cbn [fst snd] in Ef. apply andb_prop in Ef as [E1 E2].
    apply bytes_eqb_eq in E1. apply kind_eqb_eq in E2. exists n. subst k. auto. }
  assert (forall n k, In (n, k) (obj_struct o) -> lit (pKey p) = json_key n -> fieldb o p = true) as G.
  { intros n k If Ef. rewrite E. apply existsb_exists. exists (n, k). split; [assumption|]. cbn [fst]. rewrite Ef. apply bytes_eqb_refl. }
  split; [split|].
  - intros (n & If & Ef) U. apply inb_In in U. rewrite (G _ _ If Ef), U in H. discriminate.
  - intros U. apply F. destruct (fieldb o p); [reflexivity|]. destruct (inb (pKey p) (unknown_properties o)) eqn:X; [|discriminate].
    apply inb_In in X. contradiction.
  - intros n k If Ef. destruct (F (G n k If Ef)) as (n' & I' & E'). apply (nodup_texts (fun f => to_upper (json_key (fst f)))) in N.
    assert ((n, k) = (n', type_kind (pType p))) as X; [|congruence].
    apply (NoDup_map_inj (fun f => to_upper (json_key (fst f))) (obj_struct o)); try assumption. cbn [fst]. congruence.
Qed.

Lemma schema_publishes o n k : In (n, k) (obj_struct o) -> ((exists p, property_of o p n) <-> ~ In n (unpublished_fields o)).
Proof.
  intros I. pose proof (schemas_ok o) as H. unfold schema_okb in H. rewrite !andb_true_iff, !forallb_forall in H.
  destruct H as [[[[_ H] _] _] _]. specialize (H (n, k) I). cbn [fst] in H. apply Bool.eqb_prop in H.
  rewrite <- inb_In. destruct (inb n (unpublished_fields o)); cbn [negb] in H.
  - split; [|intros []; reflexivity]. intros (p & Ip & E) _. unfold publishedb in H.
    rewrite <- not_true_iff_false, existsb_exists in H. apply H. exists p. split; [assumption|]. rewrite E. apply bytes_eqb_refl.
  - split; [discriminate|]. intros _. unfold publishedb in H. apply existsb_exists in H as (p & Ip & E). exists p. split; [assumption|].
    now apply bytes_eqb_eq.
Qed.

Lemma schema_keys o : (forall p, In p (obj_schema o) -> forallb is_ascii (lit (pKey p)) = true)
  /\ NoDup (map (fun p => to_upper (lit (pKey p))) (obj_schema o)).
Proof.
  pose proof (schemas_ok o) as H. unfold schema_okb in H. rewrite !andb_true_iff in H. destruct H as [[[_ H] N] _].
  rewrite forallb_forall in H. split; [exact H|]. now apply nodup_texts.
Qed.
Lemma field_keys o : NoDup (map (fun f => to_upper (json_key (fst f))) (obj_struct o)).
Proof. pose proof (schemas_ok o) as H. unfold schema_okb in H. rewrite !andb_true_iff in H. now apply nodup_texts. Qed.

Lemma always_ok o n : alwaysb o n = true <-> always_written o n.
Proof.
  unfold alwaysb, always_written. rewrite orb_true_iff, andb_true_iff, inb_In, negb_true_iff, <- not_true_iff_false, inb_In.
  unfold requiredb. rewrite existsb_exists. split; (intros [H|[H H']]; [now left|right; split; [|assumption]]).
  - destruct H as (p & I & E). apply andb_prop in E as [E R]. apply bytes_eqb_eq in E. exists p. split; [split; assumption|assumption].
  - destruct H as (p & (I & E) & R). exists p. split; [assumption|]. rewrite E, R, bytes_eqb_refl. reflexivity.
Qed.

(* ---- members written ---- *)

Lemma tag_of o n k : In (n, k) (obj_struct o) -> exists t, In t (obj_tags o) /\ tgField t = n /\ lit (tgKey t) = json_key n.
Proof.
  intros I. pose proof (rd_all _ _ _ (obj_readable o) n (in_map fst _ _ I)) as It. apply in_map_iff in It as (t & E & It).
  destruct (keys_ok _ (rd_keys _ _ _ (obj_readable o))) as [Y _]. exists t. split; [assumption|]. split; [assumption|]. rewrite <- E. auto.
Qed.

Lemma tag_unique o t t' : In t (obj_tags o) -> In t' (obj_tags o) -> lit (tgKey t) = lit (tgKey t') -> t = t'.
Proof.
  intros I I' E. destruct (keys_ok _ (rd_keys _ _ _ (obj_readable o))) as [_ N].
  apply (NoDup_map_inj (fun t => to_upper (lit (tgKey t))) (obj_tags o)); try assumption. congruence.
Qed.

Lemma holds_kind o st n v : has_type (obj_struct o) st -> holds st n v -> In (n, kind_of v) (obj_struct o).
Proof. intros T H. rewrite <- T. apply (in_map (fun f => (fst f, kind_of (snd f)))) in H. exact H. Qed.
Lemma holds_lookup o st n v : has_type (obj_struct o) st -> (holds st n v <-> lookup n st = Some v).
Proof.
  intros T. split.
  - intros H. apply In_lookup; [|exact H]. rewrite (has_type_names _ _ T). apply (tk_names _ _ _ (obj_tags_ok o)).
  - intros H. exact (lookup_In _ _ _ H).
Qed.

(* the values written *)
Definition written_value (v : value) : json :=
  match v with VInt z => JNum (itoa z) | VStr s => JStr (clean s) | VTime t => JStr (time_json_text t) end.

Lemma encode_field_written t v : encode_field t v = [(lit (tgKey t), written_value v)] \/ (encode_field t v = [] /\ empty v /\ tgOmit t = true).
Proof.
  unfold encode_field, empty. destruct v as [z|s|d]; cbn [written_value].
  - destruct (tgOmit t); cbn [andb]; [|now left]. destruct (Z.eqb_spec z 0) as [->|]; [|now left]. right. auto.
  - destruct (tgOmit t); cbn [andb]; [|now left]. destruct s; [|now left]. right. auto.
  - now left.
Qed.
Lemma encode_field_empty t v : empty v -> tgOmit t = true -> encode_field t v = [].
Proof. intros [-> | ->] O; unfold encode_field; rewrite O; reflexivity. Qed.

Lemma object_members o st n v : has_type (obj_struct o) st -> holds st n v -> forall l, obj_json o st = JObj l ->
  (In (json_key n) (map fst l) <-> ~ empty v \/ always_written o n).
Proof.
  intros T H l El. rewrite obj_json_eq in El. injection El as <-. pose proof (holds_kind o st n v T H) as I. pose proof (proj1 (holds_lookup o st n v T) H) as L.
  destruct (tag_of o n _ I) as (t & It & En & Ek).
  pose proof (written_ok o) as W. unfold written_okb in W. rewrite forallb_forall in W. specialize (W _ I). cbn [fst snd] in W.
  assert (kind_of v <> KTime -> negb (tgOmit t) = alwaysb o n) as A.
  { intros Kt. destruct v as [z|s|d]; [| |now elim Kt]; cbn [kind_of] in W; rewrite forallb_forall in W; specialize (W t It);
      rewrite En, String.eqb_refl in W; cbn [negb orb] in W; now apply Bool.eqb_prop in W. }
  assert (In (json_key n) (map fst (members_of (obj_tags o) st)) <-> encode_field t v <> []) as ->.
  { split.
    - intros Im. apply in_map_iff in Im as (m & Em & Im). apply in_members in Im as (t' & v' & It' & L' & Im).
      rewrite (encode_field_in _ _ _ Im), <- Ek in Em. pose proof (tag_unique _ _ _ It' It Em). subst t'. rewrite En, L in L'. injection L' as <-.
      intros X. rewrite X in Im. destruct Im.
    - intros X. destruct (encode_field_written t v) as [E|[E _]]; [|contradiction]. apply in_map_iff. exists (lit (tgKey t), written_value v).
      split; [exact Ek|]. apply in_members. exists t, v. rewrite En, E. split; [assumption|]. split; [assumption|now left]. }
  destruct (encode_field_written t v) as [E|(E & Em & O)].
  - rewrite E. split; [intros _|discriminate].
    destruct v as [z|s|d].
    + destruct (Z.eq_dec z 0) as [->|Nz]; [|left; unfold empty; intros [X|X]; congruence]. right. apply always_ok. rewrite <- A by discriminate.
      destruct (tgOmit t) eqn:O; [|reflexivity]. rewrite encode_field_empty in E; [discriminate|now left|assumption].
    + destruct s as [|c s]; [|left; unfold empty; intros [X|X]; congruence]. right. apply always_ok. rewrite <- A by discriminate.
      destruct (tgOmit t) eqn:O; [|reflexivity]. rewrite encode_field_empty in E; [discriminate|now right|assumption].
    + left. unfold empty. intros [X|X]; discriminate.
  - rewrite E. split; [intros X; now elim X|]. intros [X|X]; [contradiction|]. apply always_ok in X.
    rewrite <- A, O in X; [discriminate|]. destruct Em as [-> | ->]; discriminate.
Qed.

Lemma format_zone_text o : (o = None \/ exists x, o = Some x /\ zone_minutes x) -> zone_text o (format_zone o).
Proof.
  intros [-> | (x & -> & m & -> & M)]; [constructor|]. rewrite (format_offset (60 * m) m eq_refl) by lia.
  destruct (Z.ltb_spec m 0).
  - replace (60 * m) with (- (60 * Z.abs m)) by lia. apply ZoneWest; [lia| |]; apply d2_decimal; euclid.
  - rewrite (Z.abs_eq m) by lia. apply ZoneEast; [lia| |]; apply d2_decimal; euclid.
Qed.

Lemma clock_time t : clock t -> calendar_time t.
Proof. intros (H & H1 & H2 & H3 & _). exact (conj H (conj H1 (conj H2 H3))). Qed.

Lemma stamp_written t : json_date t -> date_time_text t (format_rfc3339 t).
Proof.
  intros [C Z]. split; [now apply clock_time|]. pose proof C as (H & H1 & H2 & H3 & N). destruct (calendar_date_ranges _ _ _ H) as (Hy & Hm & Hd).
  rewrite format_stamp by assumption. exists (d4 (tYear t)), (d2 (tMonth t)), (d2 (tDay t)), (d2 (tHour t)), (d2 (tMin t)), (d2 (tSec t)), [], (format_zone (tOff t)).
  split; [unfold stamp_text; rewrite <- !app_assoc; reflexivity|].
  split; [apply d4_decimal; lia|]. repeat (split; [apply d2_decimal; lia|]).
  split; [rewrite N; constructor|now apply format_zone_text].
Qed.

Lemma stamp_date t s : date_time_text t s -> date_text_of t s.
Proof. intros (C & y & m & d & h & mi & sec & f & z & -> & H1 & H2 & H3 & H4 & H5 & H6 & H7 & H8). constructor; auto. Qed.

Lemma written_stated v : json_value v -> stated (written_value v) v.
Proof.
  destruct v as [z|s|t]; cbn [json_value written_value]; intros J.
  - now constructor.
  - rewrite utf8_text_clean by assumption. now constructor.
  - destruct J as [J Z]. unfold time_json_text. destruct (is_zero t) eqn:E; [rewrite (Z eq_refl); constructor|].
    constructor. apply stamp_date. now apply stamp_written.
Qed.

Lemma object_values o st l k j : has_type (obj_struct o) st -> json_fields st -> obj_json o st = JObj l -> In (k, j) l ->
  exists n v, holds st n v /\ k = json_key n /\ j = written_value v.
Proof.
  intros T J E I. rewrite obj_json_eq in E. injection E as <-. apply in_members in I as (t & v & It & L & Im).
  exists (tgField t), v. split; [now apply (holds_lookup o)|]. destruct (keys_ok _ (rd_keys _ _ _ (obj_readable o))) as [Y _].
  rewrite <- (Y t It). destruct (encode_field_written t v) as [E|[E _]]; rewrite E in Im; [|destruct Im].
  destruct Im as [Em|[]]. injection Em as <- <-. auto.
Qed.

(* ---- written objects that conform ---- *)

Lemma utoa_sign z r : 0 <= z -> utoa z <> "-"%char :: r.
Proof. intros H E. pose proof (utoa_digits z H) as D. rewrite E in D. discriminate D. Qed.
Lemma itoa_injective a b : itoa a = itoa b -> a = b.
Proof.
  unfold itoa. destruct (Z.ltb_spec a 0), (Z.ltb_spec b 0); intros E.
  - injection E as E. apply (f_equal dval) in E. rewrite !dval_utoa in E by lia. lia.
  - symmetry in E. now apply utoa_sign in E.
  - now apply utoa_sign in E.
  - apply (f_equal dval) in E. rewrite !dval_utoa in E by lia. assumption.
Qed.

Lemma stamp_nonempty t : ~ date_time_text t [].
Proof.
  intros (C & y & m & d & h & mi & sec & f & z & E & _). destruct y; discriminate E.
Qed.

Lemma object_stated o st l k j : has_type (obj_struct o) st -> json_fields st -> obj_json o st = JObj l -> In (k, j) l ->
  exists n v, holds st n v /\ k = json_key n /\ stated j v.
Proof.
  intros T J E I. destruct (object_values o st l k j T J E I) as (n & v & H & -> & ->). exists n, v.
  split; [assumption|]. split; [reflexivity|]. apply written_stated. apply (J n v). apply H.
Qed.

Lemma value_documented t v : json_value v -> kind_of v = type_kind t -> (value_ok t (written_value v) <-> documented t v).
Proof.
  intros J K. destruct t as [b| | |codes|codes], v as [z|s|d]; try discriminate K; cbn [value_ok documented written_value json_value] in *.
  - split.
    + intros (z' & E & B). injection E as E. apply itoa_injective in E. now subst.
    + intros B. eauto.
  - split; eauto.
  - split.
    + intros (d' & s & E & St) ->. injection E as <-. exact (stamp_nonempty _ St).
    + intros N. destruct J as [J Z]. exists d, (time_json_text d). split; [reflexivity|]. unfold time_json_text.
      destruct (is_zero d); [elim N; auto|]. now apply stamp_written.
  - rewrite utf8_text_clean by assumption. split; intros (c & I & E); exists c; (split; [assumption|congruence]).
  - split.
    + intros (z' & I & E). injection E as E. apply itoa_injective in E. now subst.
    + intros I. eauto.
Qed.

Definition required_okb (o : object) : bool :=
  forallb (fun p => negb (pRequired p) || negb (inb (pKey p) (unknown_properties o))) (obj_schema o)
  && forallb (fun n => requiredb o n && negb (inb n (also_written o))) (not_written o).
Lemma required_ok o : required_okb o = true.
Proof. destruct o as [| | |[]]; vm_compute; reflexivity. Qed.

Lemma required_known o p : In p (obj_schema o) -> pRequired p = true -> ~ In (pKey p) (unknown_properties o).
Proof.
  intros I R. pose proof (required_ok o) as H. unfold required_okb in H. rewrite andb_true_iff, !forallb_forall in H.
  destruct H as [H _]. specialize (H p I). rewrite R in H. cbn in H. intros X. apply inb_In in X. rewrite X in H. discriminate.
Qed.
Lemma not_written_required o n : In n (not_written o) -> (exists p, property_of o p n /\ pRequired p = true) /\ ~ always_written o n.
Proof.
  intros I. pose proof (required_ok o) as H. unfold required_okb in H. rewrite andb_true_iff, !forallb_forall in H.
  destruct H as [_ H]. specialize (H n I). apply andb_prop in H as [H N]. split.
  - unfold requiredb in H. apply existsb_exists in H as (p & Ip & E). apply andb_prop in E as [E R]. apply bytes_eqb_eq in E.
    exists p. split; [split; assumption|assumption].
  - intros [A|[_ A]]; [|contradiction]. apply inb_In in A. rewrite A in N. discriminate.
Qed.

Lemma empty_dec v : empty v \/ ~ empty v.
Proof.
  unfold empty. destruct v as [z|[|c s]|d]; [destruct (Z.eq_dec z 0) as [->|]|..]; try (left; tauto);
    right; intros [X|X]; congruence.
Qed.
Lemma always_dec o n : always_written o n \/ ~ always_written o n.
Proof. rewrite <- always_ok. destruct (alwaysb o n); [left|right]; congruence. Qed.

Lemma key_field o n n' k k' : In (n, k) (obj_struct o) -> In (n', k') (obj_struct o) -> json_key n = json_key n' -> n = n' /\ k = k'.
Proof.
  intros I I' E. assert ((n, k) = (n', k')) as X; [|injection X; auto].
  apply (NoDup_map_inj (fun f => to_upper (json_key (fst f))) (obj_struct o)); try assumption; [apply field_keys|]. cbn [fst]. congruence.
Qed.
Lemma field_value o st n k : has_type (obj_struct o) st -> In (n, k) (obj_struct o) -> exists v, holds st n v /\ kind_of v = k.
Proof.
  intros T I. rewrite <- T in I. apply in_map_iff in I as ([n' v] & E & I). cbn in E. injection E as <- <-. exists v. auto.
Qed.

Lemma object_conforms o st : has_type (obj_struct o) st -> json_fields st ->
  (conforms false (obj_schema o) (obj_json o st) <->
   (forall p n v, property_of o p n -> holds st n v -> documented (pType p) v \/ (empty v /\ ~ always_written o n))
   /\ (forall n v, In n (not_written o) -> holds st n v -> ~ empty v)).
Proof.
  intros T J. assert (forall p n v, property_of o p n -> holds st n v -> value_ok (pType p) (written_value v) <-> documented (pType p) v) as V.
  { intros p n v [Ip E] H. apply value_documented; [exact (J n v H)|]. destruct (schema_fields o p Ip) as [_ F]. eapply F; [|exact E].
    eapply holds_kind; eassumption. }
  assert (exists l, obj_json o st = JObj l) as (l & El) by (rewrite obj_json_eq; eauto).
  pose proof (fun n v H => object_members o st n v T H l El) as M.
  assert (forall n v j, holds st n v -> In (json_key n, j) l -> j = written_value v) as W.
  { intros n v j H I. destruct (object_values o st l _ _ T J El I) as (n' & v' & H' & E & ->).
    destruct (key_field o n n' (kind_of v) (kind_of v')) as [<- _]; try (eapply holds_kind; eassumption); [assumption|].
    apply (holds_lookup o) in H, H'; try assumption. congruence. }
  split.
  - intros (l' & El' & Rq & Vs & _). rewrite El in El'. injection El' as <-. split.
    + intros p n v [Ip E] H. destruct (empty_dec v) as [Em|Nm]; [destruct (always_dec o n) as [A|A]; [|now right]|]; left.
      * assert (In (json_key n) (map fst l)) as I by (apply (M n v H); now right). apply in_map_iff in I as ([k j] & Ek & I). cbn [fst] in Ek. subst k.
        apply (V p n v); [split; assumption|assumption|]. rewrite <- (W n v j H I). apply Vs; [assumption|]. rewrite E. exact I.
      * assert (In (json_key n) (map fst l)) as I by (apply (M n v H); now left). apply in_map_iff in I as ([k j] & Ek & I). cbn [fst] in Ek. subst k.
        apply (V p n v); [split; assumption|assumption|]. rewrite <- (W n v j H I). apply Vs; [assumption|]. rewrite E. exact I.
    + intros n v N H. destruct (not_written_required o n N) as [(p & [Ip E] & R) A]. destruct (Rq p Ip R) as (j & I). rewrite E in I.
      apply (in_map fst) in I. apply (M n v H) in I. tauto.
  - intros [Vs N]. exists l. split; [assumption|]. split; [|split; [|discriminate]].
    + intros p Ip R. destruct (schema_fields o p Ip) as [F _]. destruct (proj2 F (required_known o p Ip R)) as (n & I & E).
      destruct (field_value o st n _ T I) as (v & H & K). assert (In (json_key n) (map fst l)) as X.
      { apply (M n v H). destruct (in_dec string_dec n (not_written o)) as [Nn|Nn]; [left; exact (N n v Nn H)|]. right. right.
        split; [|assumption]. exists p. split; [split; assumption|assumption]. }
      apply in_map_iff in X as ([k j] & Ek & X). cbn [fst] in Ek. subst k. exists j. rewrite E. exact X.
    + intros p j Ip I. destruct (object_values o st l _ _ T J El I) as (n & v & H & E & ->). apply (V p n v); [split; assumption|assumption|].
      destruct (Vs p n v) as [D|[Em A]]; [split; assumption|assumption|assumption|]. exfalso.
      apply (in_map fst) in I. cbn [fst] in I. rewrite E in I. apply (M n v H) in I. tauto.
Qed.

(* ---- reading objects that conform ---- *)

Definition case_okb (o : object) : bool :=
  forallb (fun p => forallb (fun f => negb (bytes_eqb (to_upper (lit (pKey p))) (to_upper (json_key (fst f))))
    || bytes_eqb (lit (pKey p)) (json_key (fst f))) (obj_struct o)) (obj_schema o)
  && forallb (fun f => negb (String.eqb (fst f) (fst (obj_id o))) || kind_eqb (snd f) KStr) (obj_struct o).
Lemma case_ok o : case_okb o = true.
Proof. destruct o as [| | |[]]; vm_compute; reflexivity. Qed.

Lemma case_keys o p n k : In p (obj_schema o) -> In (n, k) (obj_struct o) -> key_is n (lit (pKey p)) -> lit (pKey p) = json_key n.
Proof.
  intros Ip I E. pose proof (case_ok o) as H. unfold case_okb in H. rewrite andb_true_iff, !forallb_forall in H. destruct H as [H _].
  specialize (H p Ip). rewrite forallb_forall in H. specialize (H _ I). cbn [fst] in H. unfold key_is in E. rewrite E, bytes_eqb_refl in H. now apply bytes_eqb_eq.
Qed.
Lemma id_text o k : In (fst (obj_id o), k) (obj_struct o) -> k = KStr.
Proof.
  intros I. pose proof (case_ok o) as H. unfold case_okb in H. rewrite andb_true_iff, !forallb_forall in H. destruct H as [_ H].
  specialize (H _ I). cbn [fst snd] in H. rewrite String.eqb_refl in H. now apply kind_eqb_eq.
Qed.

Lemma collect_fields (s : structure) (Q : string -> value -> Prop) : (forall n k, In (n, k) s -> exists v, kind_of v = k /\ Q n v) ->
  exists st, has_type s st /\ forall n v, holds st n v -> Q n v.
Proof.
  induction s as [|[n k] s IH]; intros H.
  - exists []. split; [reflexivity|]. intros n v [].
  - destruct IH as (st & T & Q'); [intros; apply H; now right|]. destruct (H n k) as (v & K & Qv); [now left|].
    exists ((n, v) :: st). split.
    + unfold has_type in *. cbn [types map fst snd]. subst k. f_equal. exact T.
    + intros n' v' [E|I]; [injection E as <- <-; assumption|exact (Q' _ _ I)].
Qed.

Lemma NoDup_map_on {A B} (f : A -> B) l : (forall x y, In x l -> In y l -> f x = f y -> x = y) -> NoDup l -> NoDup (map f l).
Proof.
  intros H N. induction N as [|x l Nx N IH]; cbn [map]; constructor.
  - intros I. apply in_map_iff in I as (y & E & I). apply Nx. rewrite (H x y); [assumption|now left|now right|congruence].
  - apply IH. intros a b Ia Ib. apply H; now right.
Qed.

Lemma conforming_keys o l : (forall k v, In (k, v) l -> exists p, In p (obj_schema o) /\ k = lit (pKey p)) -> NoDup (map fst l) -> clear_keys l.
Proof.
  intros C N. destruct (schema_keys o) as [A U]. split.
  - apply Forall_forall. intros [k v] I. destruct (C k v I) as (p & Ip & ->). cbn [fst]. apply ascii_codes. now apply A.
  - rewrite <- map_map. apply NoDup_map_on; [|assumption]. intros x y Ix Iy E. apply in_map_iff in Ix as ([kx vx] & <- & Ix), Iy as ([ky vy] & <- & Iy).
    cbn [fst] in *. destruct (C _ _ Ix) as (p & Ip & ->), (C _ _ Iy) as (q & Iq & ->). do 2 f_equal.
    apply (NoDup_map_inj (fun p => to_upper (lit (pKey p))) (obj_schema o)); assumption.
Qed.

Lemma value_states t j : value_ok t j -> plain_json j -> exists v, kind_of v = type_kind t /\ stated j v.
Proof.
  intros V P. destruct t as [b| | |codes|codes]; cbn [value_ok type_kind] in *.
  - destruct V as (z & -> & _). inversion P as [| |z' H E| | |]; subst. exists (VInt z'). split; [reflexivity|now constructor].
  - destruct V as (s & ->). inversion P; subst. exists (VStr s). split; [reflexivity|now constructor].
  - destruct V as (d & s & -> & St). exists (VTime d). split; [reflexivity|]. constructor. now apply stamp_date.
  - destruct V as (c & _ & ->). inversion P; subst. eexists. split; [|constructor; eassumption]. reflexivity.
  - destruct V as (z & _ & ->). inversion P as [| |z' H E| | |]; subst. exists (VInt z'). split; [reflexivity|now constructor].
Qed.

Lemma conforming_described o l : conforms true (obj_schema o) (JObj l) -> plain_json (JObj l) ->
  exists st, describes (obj_struct o) (obj_id o) l st.
Proof.
  intros (l' & E & _ & Vs & C) P. injection E as <-. specialize (C eq_refl). inversion P as [| | | | |l' N F]; subst.
  rewrite Forall_forall in F.
  destruct (collect_fields (obj_struct o) (fun n v => 
    (exists k j, In (k, j) l /\ key_is n k /\ (stated j v \/ (j = JNull /\ kind_of v <> KTime /\ left_out (obj_id o) n v)))
    \/ ((forall k j, In (k, j) l -> ~ key_is n k) /\ left_out (obj_id o) n v))) as (st & T & Q).
  - intros n kd I. destruct (find (fun m => bytes_eqb (to_upper (fst m)) (to_upper (json_key n))) l) as [[k j]|] eqn:Fd.
    + apply find_some in Fd as [Im E]. cbn [fst] in E. apply bytes_eqb_eq in E. destruct (C k j Im) as (p & Ip & ->).
      pose proof (case_keys o p n kd Ip I E) as Ek. destruct (schema_fields o p Ip) as [_ K]. specialize (K n kd I Ek).
      destruct (F _ Im) as [_ Pj]. cbn [snd] in Pj. destruct (value_states _ _ (Vs p j Ip Im) Pj) as (v & Kv & S).
      exists v. split; [congruence|]. left. exists (lit (pKey p)), j. split; [assumption|]. split; [exact E|now left].
    + assert (forall k j, In (k, j) l -> ~ key_is n k) as Nk.
      { intros k j Im E. apply (find_none _ _ Fd) in Im. cbn [fst] in Im. unfold key_is in E. rewrite E, bytes_eqb_refl in Im. discriminate. }
      destruct (string_dec n (fst (obj_id o))) as [E|Ne].
      * rewrite E in I. pose proof (id_text o kd I). subst kd. exists (VStr (snd (obj_id o))). split; [reflexivity|]. right.
        split; [assumption|now constructor].
      * destruct kd; [exists (VInt 0)|exists (VStr [])|exists (VTime no_date)]; (split; [reflexivity|]; right; split; [assumption|now constructor]).
  - exists st. split; [now apply (conforming_keys o)|]. split; assumption.
Qed.

(* ---- reading records and files that conform ---- *)

Lemma conforming_segment k x : conforms true (obj_schema (OSegment k)) x -> plain_json x ->
  (exists s, describes_segment k x s) \/ invalid_segment k x.
Proof.
  intros C P. assert (exists l, x = JObj l) as (l & ->) by (destruct C as (l & -> & _); eauto).
  destruct (conforming_described (OSegment k) l C P) as (st & D). cbn [obj_struct obj_id] in D.
  destruct (seg_validate (mkSegment k st)) eqn:V.
  - right. exists l, (mkSegment k st). cbn [sKind sFields]. rewrite V. repeat (split; [reflexivity || assumption|]). discriminate.
  - left. exists (mkSegment k st). split; [reflexivity|]. split; [assumption|]. exists l. split; [reflexivity|exact D].
Qed.

Lemma conforming_segments k a : Forall (conforms true (obj_schema (OSegment k))) a -> Forall plain_json a ->
  (exists segs, Forall2 (describes_segment k) a segs) \/ exists x, In x a /\ invalid_segment k x.
Proof.
  intros C P. induction C as [|x a Cx C IH]; [left; exists []; constructor|]. inversion P as [|? ? Px Pa]; subst.
  destruct (conforming_segment k x Cx Px) as [(s & D)|B]; [|right; exists x; split; [now left|assumption]].
  destruct (IH Pa) as [(segs & Ds)|(y & Iy & B)]; [left; exists (s :: segs); now constructor|right; exists y; split; [now right|assumption]].
Qed.

Lemma member_dec key (l : list (bytes * json)) : (exists v, In (lit key, v) l) \/ absent key l.
Proof.
  unfold absent. destruct (in_dec (list_eq_dec ascii_dec) (lit key) (map fst l)) as [I|N]; [left|right; assumption].
  apply in_map_iff in I as ([k v] & E & I). cbn [fst] in E. subst k. eauto.
Qed.

Definition in_record (r : list (bytes * json)) (k : segkind) (x : json) : Prop :=
  In (lit (seg_name k), x) r \/ exists xs, In (lit (seg_name k), JArr xs) r /\ In x xs.
Definition invalid_in (r : list (bytes * json)) : Prop := exists k x, in_record r k x /\ invalid_segment k x.

Lemma conforming_many l k : plain_json (JObj l) ->
  (forall v, In (lit (seg_name k), v) l -> array_of (conforms true (obj_schema (OSegment k))) v) ->
  (exists segs, describes_many l (seg_name k) k segs) \/ invalid_in l.
Proof.
  intros P C. destruct (member_dec (seg_name k) l) as [(v & I)|A]; [|left; exists []; right; auto].
  destruct (C v I) as (a & -> & F). pose proof (plain_member _ _ _ P I) as Pa. inversion Pa; subst.
  destruct (conforming_segments k a F) as [(segs & D)|(x & Ix & B)]; [assumption|left; exists segs; left; eauto|].
  right. exists k, x. split; [right; eauto|assumption].
Qed.
Lemma conforming_one l k : plain_json (JObj l) -> (forall v, In (lit (seg_name k), v) l -> conforms true (obj_schema (OSegment k)) v) ->
  (exists o, describes_one l (seg_name k) k o) \/ invalid_in l.
Proof.
  intros P C. destruct (member_dec (seg_name k) l) as [(v & I)|A]; [|left; exists None; right; auto].
  destruct (conforming_segment k v (C v I) (plain_member _ _ _ P I)) as [(s & D)|B]; [left; exists (Some s); left; eauto|].
  right. exists k, v. split; [now left|assumption].
Qed.

Lemma conforming_object o key l : plain_json (JObj l) -> (exists v, In (lit key, v) l) ->
  (forall v, In (lit key, v) l -> conforms true (obj_schema o) v) -> exists st, describes_object l key (obj_struct o) (obj_id o) st.
Proof.
  intros P (v & I) C. pose proof (C v I) as Cv. pose proof (plain_member _ _ _ P I) as Pv. destruct Cv as (m & -> & R).
  destruct (conforming_described o m) as (st & D); [exists m; split; [reflexivity|exact R]|assumption|].
  exists st. left. exists m. auto.
Qed.

Lemma conforming_record j : conforms_record true j -> plain_json j ->
  (exists b, describes_base j b) \/ exists r, j = JObj r /\ invalid_in r.
Proof.
  intros (l & -> & Hb & Cb & C1 & C2 & Cs) P.
  assert (invalid_in l -> (exists b, describes_base (JObj l) b) \/ exists r, JObj l = JObj r /\ invalid_in r) as Bad by (intros B; right; eauto).
  destruct (conforming_object OBase "base" l P Hb Cb) as (st & Db).
  destruct (conforming_many l J1 P C1) as [(s1 & D1)|B]; [|exact (Bad B)].
  destruct (conforming_many l J2 P C2) as [(s2 & D2)|B]; [|exact (Bad B)].
  destruct (conforming_one l K1 P (fun v => Cs K1 v ltac:(discriminate) ltac:(discriminate))) as [(o1 & E1)|B]; [|exact (Bad B)].
  destruct (conforming_one l K2 P (fun v => Cs K2 v ltac:(discriminate) ltac:(discriminate))) as [(o2 & E2)|B]; [|exact (Bad B)].
  destruct (conforming_one l K3 P (fun v => Cs K3 v ltac:(discriminate) ltac:(discriminate))) as [(o3 & E3)|B]; [|exact (Bad B)].
  destruct (conforming_one l K4 P (fun v => Cs K4 v ltac:(discriminate) ltac:(discriminate))) as [(o4 & E4)|B]; [|exact (Bad B)].
  destruct (conforming_one l L1 P (fun v => Cs L1 v ltac:(discriminate) ltac:(discriminate))) as [(o5 & E5)|B]; [|exact (Bad B)].
  destruct (conforming_one l N1 P (fun v => Cs N1 v ltac:(discriminate) ltac:(discriminate))) as [(o6 & E6)|B]; [|exact (Bad B)].
  left. exists (mkBase st s1 s2 o1 o2 o3 o4 o5 o6). exists l. split; [reflexivity|]. cbn [bFields bJ1 bJ2 bK1 bK2 bK3 bK4 bL1 bN1].
  exact (conj Db (conj D1 (conj D2 (conj E1 (conj E2 (conj E3 (conj E4 (conj E5 E6)))))))).
Qed.

Lemma conforming_records a : Forall (conforms_record true) a -> Forall plain_json a ->
  (exists bases, Forall2 describes_base a bases) \/ exists r, In (JObj r) a /\ invalid_in r.
Proof.
  intros C P. induction C as [|x a Cx C IH]; [left; exists []; constructor|]. inversion P as [|? ? Px Pa]; subst.
  destruct (conforming_record x Cx Px) as [(b & D)|(r & -> & B)]; [|right; exists r; split; [now left|assumption]].
  destruct (IH Pa) as [(bs & Ds)|(r & Ir & B)]; [left; exists (b :: bs); now constructor|right; exists r; split; [now right|assumption]].
Qed.

Lemma conforming_file p j : conforms_file true j -> plain_json j ->
  (exists f, flPacked f = p /\ describes_file j f) \/ exists k x, segment_in j k x /\ invalid_segment k x.
Proof.
  intros (l & -> & Hh & Ht & Ch & Cd & Ct) P.
  destruct (conforming_object OHeader "header" l P Hh Ch) as (h & Dh). destruct (conforming_object OTrailer "trailer" l P Ht Ct) as (t & Dt).
  assert ((exists bases, (exists a, In (lit "data", JArr a) l /\ Forall2 describes_base a bases)
      \/ ((absent "data" l \/ In (lit "data", JNull) l) /\ bases = [])) \/ exists k x, segment_in (JObj l) k x /\ invalid_segment k x) as [(bases & Db)|B];
    [|left; exists (mkFile p (RHeader p h) (map (RBase p) bases) (RTrailer p t)); split; [reflexivity|]|now right].
  - destruct (member_dec "data" l) as [(v & I)|A]; [|left; exists []; right; auto].
    destruct (Cd v I) as (a & -> & F). pose proof (plain_member _ _ _ P I) as Pa. inversion Pa; subst.
    destruct (conforming_records a F) as [(bs & D)|(r & Ir & k & x & X & B)]; [assumption|left; exists bs; left; eauto|].
    right. exists k, x. split; [|assumption]. exists l, a, r. repeat (split; [reflexivity || assumption|]). exact X.
  - exists l, h, bases, t. split; [reflexivity|]. split; [reflexivity|]. split; [exact Dh|]. split; [exact Db|exact Dt].
Qed.

(* ---- an invalid segment stops the reading of the file ---- *)

Lemma invalid_norm k x : invalid_segment k x -> invalid_segment k (norm x).
Proof.
  intros (l & s & -> & K & D & V). rewrite norm_object. eexists _, s. split; [reflexivity|]. split; [assumption|].
  split; [now apply describes_norm|assumption].
Qed.
Lemma invalid_unread rt k x b b' : invalid_segment k x -> unmarshal_segment rt (lit (seg_name k)) x b <> Ok b'.
Proof.
  intros (l & s & -> & K & D & V). unfold unmarshal_segment. rewrite kind_of_seg_name. cbn [decode_struct]. rewrite (seg_reads rt k l _ D).
  assert (mkSegment k (sFields s) = s) as -> by (destruct s; cbn in *; congruence). unfold base_add_segment.
  destruct (seg_validate s); [discriminate|congruence].
Qed.

Lemma steps_fail {A B} (step : A -> B -> res B) l m : In m l -> (forall b b', step m b <> Ok b') -> forall b b', run_steps step l b <> Ok b'.
Proof.
  intros I F. induction l as [|x l IH]; [destruct I|]. intros b b'. cbn [run_steps]. destruct I as [->|I].
  - specialize (F b). destruct (step m b); [elim (F a); reflexivity|discriminate|discriminate].
  - destruct (step x b); [now apply IH|discriminate|discriminate].
Qed.
Lemma segments_fail rt k a x : In x a -> invalid_segment k x -> forall b b', unmarshal_segments rt (lit (seg_name k)) a b <> Ok b'.
Proof.
  intros I F. induction a as [|y a IH]; [destruct I|]. intros b b'. cbn [unmarshal_segments]. destruct I as [->|I].
  - pose proof (fun b' => invalid_unread rt k x b b' F) as N. destruct (unmarshal_segment rt (lit (seg_name k)) x b); [elim (N a0); reflexivity|discriminate|discriminate].
  - destruct (unmarshal_segment rt (lit (seg_name k)) y b); [now apply IH|discriminate|discriminate].
Qed.

Lemma normed_member l k v : NoDup (map fst l) -> In (k, v) l -> In (k, norm v) (put_members (norm_members l)).
Proof.
  intros N I. eapply Permutation_in; [now apply normed_perm|]. unfold norm_members. apply in_map_iff. exists (k, v). auto.
Qed.

Definition is_many (k : segkind) : bool := match k with J1 | J2 => true | _ => false end.
Lemma seg_member rt k j b : unmarshal_base_member rt (lit (seg_name k), j) b =
  if is_many k then match json_list rt j with Some l => unmarshal_segments rt (lit (seg_name k)) l b | None => Err (ErrOther "unable to parse segment") end
  else unmarshal_segment rt (lit (seg_name k)) j b.
Proof. destruct k; reflexivity. Qed.

Lemma record_fails rt n r : orders rt -> plain_json (JObj r) -> invalid_in r -> forall b b', unmarshal_base rt n (JObj r) b <> Ok b'.
Proof.
  intros O P (k & x & X & B) b b'. unfold unmarshal_base, json_map. rewrite remarshal_plain by assumption. rewrite norm_object.
  rewrite unmarshal_base_steps. pose proof (plain_obj_nodup _ P) as N.
  assert (exists j, In (lit (seg_name k), j) r /\ forall b b', unmarshal_base_member rt (lit (seg_name k), norm j) b <> Ok b') as (j & I & F).
  { destruct X as [I|(xs & I & Ix)].
    - exists x. split; [assumption|]. intros c c'. rewrite seg_member. destruct (is_many k).
      + destruct B as (l & s & -> & _). pose proof (plain_member _ _ _ P I) as Px. unfold json_list.
        rewrite remarshal_plain by (now apply norm_plain). rewrite !norm_object. discriminate.
      + apply invalid_unread. now apply invalid_norm.
    - exists (JArr xs). split; [assumption|]. intros c c'. rewrite seg_member. cbn [norm]. pose proof (plain_member _ _ _ P I) as Px. destruct (is_many k).
      + rewrite normal_list.
        * apply (segments_fail rt k _ (norm (norm x))); [apply in_map, in_map, Ix|]. now apply invalid_norm, invalid_norm.
        * inversion Px as [| | | |l0 F|]; subst. rewrite Forall_map. revert F. apply Forall_impl. apply norm_plain.
      + unfold unmarshal_segment. rewrite kind_of_seg_name. discriminate. }
  eapply (steps_fail _ _ (lit (seg_name k), norm j)); [|exact F]. eapply Permutation_in; [apply O|]. now apply normed_member.
Qed.

Lemma invalid_in_norm r : plain_json (JObj r) -> invalid_in r -> exists r', norm (JObj r) = JObj r' /\ invalid_in r'.
Proof.
  intros P (k & x & X & B). pose proof (plain_obj_nodup _ P) as N. rewrite norm_object. eexists. split; [reflexivity|].
  exists k, (norm x). split; [|now apply invalid_norm]. destruct X as [I|(xs & I & Ix)].
  - left. now apply normed_member.
  - right. exists (map norm xs). split; [apply (normed_member _ _ _ N I)|now apply in_map].
Qed.

Lemma data_fails rt a x : orders rt -> plain_json x -> In x a -> (exists r, x = JObj r /\ invalid_in r) -> forall n f f', decode_data rt n a f <> Ok f'.
Proof.
  intros O P I (r & -> & B). induction a as [|y a IH]; [destruct I|]. intros n f f'. cbn [decode_data]. destruct I as [->|I].
  - unfold new_data_record. cbn [decode_record].
    match goal with |- context [unmarshal_base rt n (JObj r) ?b] => pose proof (record_fails rt n r O P B b) as F; destruct (unmarshal_base rt n (JObj r) b) as [b'| |] end;
      [elim (F b'); reflexivity|discriminate|discriminate].
  - destruct (decode_record rt n y (new_data_record (flPacked f))); [now apply IH|discriminate|discriminate].
Qed.

Lemma file_fails rt p j k x : orders rt -> plain_json j -> segment_in j k x -> invalid_segment k x ->
  forall f, unmarshal_file rt j (new_file_p p) <> Ok f.
Proof.
  intros O P (l & a & r & -> & I & Ir & X) B f. unfold unmarshal_file, json_map. rewrite remarshal_plain by assumption. rewrite norm_object, file_steps.
  pose proof (plain_obj_nodup _ P) as N. pose proof (plain_member _ _ _ P I) as Pa. inversion Pa as [| | | |l0 F|]; subst. rewrite Forall_forall in F.
  eapply (steps_fail _ _ (lit "data", norm (JArr a))); [eapply Permutation_in; [apply O|]; now apply normed_member|].
  intros g g'. unfold decode_file_member. change (bytes_eqb (lit "data") (lit "header")) with false.
  change (bytes_eqb (lit "data") (lit "trailer")) with false. rewrite bytes_eqb_refl. cbv iota. cbn [norm].
  rewrite normal_list by (apply Forall_forall; intros y Iy; apply in_map_iff in Iy as (z & <- & Iz); now apply norm_plain, F).
  destruct (invalid_in_norm r (F _ Ir)) as (r' & E & B'); [exists k, x; auto|].
  pose proof (norm_plain _ (F _ Ir)) as P'. destruct (invalid_in_norm r') as (r'' & E' & B''); [rewrite E in P'; assumption|assumption|].
  apply (data_fails rt _ (norm (norm (JObj r)))).
  - assumption.
  - now apply norm_plain.
  - apply in_map, in_map, Ir.
  - exists r''. rewrite E, E'. auto.
Qed.

Lemma conforming_read rt p j : orders rt -> plain_json j -> conforms_file true j ->
  (exists f, flPacked f = p /\ describes_file j f /\ unmarshal_file rt j (new_file_p p) = Ok f)
  \/ ((exists k x, segment_in j k x /\ invalid_segment k x) /\ forall f, unmarshal_file rt j (new_file_p p) <> Ok f).
Proof.
  intros O P C. destruct (conforming_file p j C P) as [(f & <- & D)|(k & x & X & B)].
  - left. exists f. split; [reflexivity|]. split; [assumption|]. now apply described_file.
  - right. split; [eauto|]. eapply file_fails; eassumption.
Qed.

(* ---- payment histories ---- *)

Definition good_time (t : time) : Prop := calendar_time t /\ match tOff t with None => True | Some o => -86400 < o < 86400 end.

Lemma date_times t s : date_text_of t s -> good_time t.
Proof.
  intros [y m d h mi sec f z C _ _ _ _ _ _ _ Z|y m d M _ _ _|y m d M _ _ _|y m d M _ _ _].
  - split; [assumption|]. apply zone_forms in Z. destruct Z as [|neg n Hn|]; [exact I| |exact I]. destruct neg; lia.
  - split; [apply clock_time; now apply midnight_clock|]. destruct M as (_ & _ & _ & _ & _ & ->). exact I.
  - split; [apply clock_time; now apply midnight_clock|]. destruct M as (_ & _ & _ & _ & _ & ->). exact I.
  - split; [apply clock_time; now apply midnight_clock|]. destruct M as (_ & _ & _ & _ & _ & ->). exact I.
Qed.
Lemma no_date_time : good_time no_date.
Proof. split; [|exact I]. apply Check.calendar_timeb_ok. reflexivity. Qed.

Lemma described_times s id l st : describes s id l st -> good_times st.
Proof.
  intros (_ & _ & D) n t H. change (good_time t). destruct (D n _ H) as [(k & j & _ & _ & [S|(_ & Nt & _)])|[_ O]].
  - inversion S; subst; [apply no_date_time|eapply date_times; eassumption].
  - now elim Nt.
  - inversion O; subst. apply no_date_time.
Qed.
Lemma json_times st : json_fields st -> good_times st.
Proof.
  intros J n t H. destruct (J n _ H) as [[C Z] _]. split; [now apply clock_time|].
  destruct Z as [->|(x & -> & m & -> & M)]; [exact I|lia].
Qed.

Lemma valid_history p b : has_type base_struct (bFields b) -> good_times (bFields b) -> base_validate p b = None ->
  forall s, holds (bFields b) "PaymentHistoryProfile" (VStr s) -> length s = 24%nat.
Proof. intros T G V s H. apply base_validate_spec in V as [_ R]; try assumption. unfold base_rules in R. now apply R. Qed.

Lemma valid_bases f : file_validate f = Ok tt -> forall r, In r (flBases f) -> record_validate r = None.
Proof.
  unfold file_validate. destruct (record_validate (flHeader f)); [discriminate|]. destruct (record_validate (flTrailer f)); [discriminate|].
  destruct (first_error record_validate (flBases f)) eqn:E; [discriminate|]. intros _. revert E. generalize (flBases f). intros l E.
  induction l as [|r l IH]; [intros ? []|]. cbn [first_error] in E. destruct (record_validate r) eqn:V; [discriminate|].
  intros r' [<-|I]; [assumption|exact (IH E _ I)].
Qed.

Definition history_property : property :=
  match find (fun p => String.eqb (pKey p) "paymentHistoryProfile") base_schema with Some p => p | None => mkProperty "" TText false end.
Lemma history_published : property_of OBase history_property "PaymentHistoryProfile" /\ pRequired history_property = true
  /\ exists codes, pType history_property = TCode codes /\ Forall (fun c => length (list_ascii_of_string c) = 1%nat) codes.
Proof.
  split; [|split; [reflexivity|]].
  - split; [|reflexivity]. refine (proj1 (find_some (fun p => String.eqb (pKey p) "paymentHistoryProfile") base_schema _)). reflexivity.
  - eexists. split; [reflexivity|]. repeat constructor.
Qed.
Lemma history_text st : has_type base_struct st -> exists s, holds st "PaymentHistoryProfile" (VStr s).
Proof.
  intros T. destruct (field_value OBase st "PaymentHistoryProfile" KStr T) as ([z|s|d] & H & K); try discriminate K; [|eauto].
  apply lookup_In. reflexivity.
Qed.

(* the data records of a file that conforms are not valid *)
Lemma conforming_base_invalid c p j b : conforms_record c j -> describes_base j b -> base_validate p b <> None.
Proof.
  intros (l & -> & (v & I) & Cb & _) (l' & E & Db & _) V. injection E as <-.
  assert (has_type base_struct (bFields b) /\ good_times (bFields b)) as [T G].
  { destruct Db as [(o & _ & D)|(_ & D)]; (split; [apply D|eapply described_times; exact D]). }
  destruct (history_text _ T) as (s & H). pose proof (valid_history p b T G V s H) as L.
  destruct Db as [(o & Io & D)|([A|In0] & D)].
  - specialize (Cb _ Io). destruct Cb as (o' & Eo & Rq & Vs & _). injection Eo as <-.
    destruct history_published as ([Ip Ek] & R & codes & Et & F). destruct (Rq _ Ip R) as (j & Ij). pose proof (Vs _ _ Ip Ij) as Vj.
    rewrite Et in Vj. destruct Vj as (cd & Ic & ->). rewrite Forall_forall in F. specialize (F _ Ic).
    destruct D as (Ck & _ & D). rewrite Ek in Ij.
    destruct (D _ _ H) as [(k & j & Ik & K & S)|[N _]]; [|elim (N _ _ Ij); reflexivity].
    destruct (key_same_member _ "PaymentHistoryProfile" _ _ _ _ Ck Ij Ik) as [<- <-]; [reflexivity|assumption|].
    destruct S as [S|(X & _)]; [|discriminate X]. inversion S; subst. congruence.
  - apply A. apply in_map_iff. exists (lit "base", v). auto.
  - specialize (Cb _ In0). destruct Cb as (? & X & _). discriminate X.
Qed.

Lemma conforming_file_invalid c j f : plain_json j -> conforms_file c j -> describes_file j f -> flBases f <> [] -> file_validate f <> Ok tt.
Proof.
  intros P (l & -> & _ & _ & _ & Cd & _) (l' & h & bases & t & E & Ef & _ & Db & _) N V. injection E as <-.
  pose proof (valid_bases f V) as Vb. rewrite Ef in N, Vb. cbn [flBases] in N, Vb. destruct bases as [|b bases]; [now elim N|].
  destruct Db as [(a & Ia & F)|[_ X]]; [|discriminate X]. destruct (Cd _ Ia) as (a' & Ea & Ca). injection Ea as <-.
  inversion F as [|x ? a' ? Dx _]; subst. inversion Ca as [|? ? Cx _]; subst.
  apply (conforming_base_invalid c (flPacked f) x b Cx Dx). exact (Vb (RBase (flPacked f) b) (or_introl eq_refl)).
Qed.

(* nor does the JSON of a valid file conform *)
Lemma written_base p b : json_base b -> base_validate p b = None -> ~ conforms false base_schema (obj_json OBase (bFields b)).
Proof.
  intros ([T Pl] & J & _) V C. apply (object_conforms OBase) in C as [C _]; [|exact T|assumption].
  destruct (history_text _ T) as (s & H). pose proof (valid_history p b T (json_times _ J) V s H) as L.
  destruct history_published as (Hp & R & codes & Et & F). destruct (C _ _ _ Hp H) as [D|[Em _]].
  - rewrite Et in D. destruct D as (c & Ic & ->). rewrite Forall_forall in F. specialize (F _ Ic). congruence.
  - destruct Em as [X|X]; [discriminate|]. injection X as ->. discriminate L.
Qed.

Lemma conforms_open c sc j : conforms c sc j -> conforms false sc j.
Proof. intros (l & E & R & V & _). exists l. repeat (split; [assumption|]). discriminate. Qed.

Lemma written_file_never c isNil f : json_file f -> file_validate f = Ok tt -> ~ conforms_file c (encode_file isNil f).
Proof.
  intros (_ & Jb & t & Et & Tt & _) V (l & E & _ & _ & _ & Cd & _). unfold encode_file in E. injection E as <-.
  pose proof (valid_bases f V) as Vb. pose proof (valid_some_data f _ t Et Tt V) as Nb.
  specialize (Cd _ (or_intror (or_introl eq_refl))). destruct (flBases f) as [|r bases].
  - contradiction.
  - destruct Cd as (a & X & F). injection X as <-. inversion F as [|? ? C _]; subst. inversion Jb as [|? ? (b & -> & J) _]; subst.
    destruct C as (l & El & _ & Cb & _). cbn [encode_record] in El. unfold encode_base in El. injection El as <-.
    apply (written_base (flPacked f) b J (Vb _ (or_introl eq_refl))). eapply conforms_open. apply Cb. now left.
Qed.

Lemma written_null_never c f : flBases f = [] -> ~ conforms_file c (encode_file true f).
Proof.
  intros B (l & E & _ & _ & _ & Cd & _). unfold encode_file in E. rewrite B in E. injection E as <-.
  destruct (Cd _ (or_intror (or_introl eq_refl))) as (a & X & _). discriminate X.
Qed.

(* ---- operations ---- *)

Lemma format_named rq w : asks_format rq w -> forall o, asks_form rq o -> names_form w o.
Proof. intros [[T <-]|[T <-]] o [o' T' N|o' T' N]; (assumption || contradiction). Qed.

Lemma published_answer op cpus rt rq rp : answer op cpus rt rq = Some rp -> (op = OpPrint -> exists o, asks_form rq o) ->
  exists status h b, rp = Reply status h b /\ In status (published_statuses op).
Proof.
  destruct op; cbn [answer published_statuses]; intros A F.
  - apply print_cases in A as [[_ [e ->]]|(f & _ & [[N _]|(nu & o & _ & _ & ->)])].
    + do 3 eexists. split; [reflexivity|]. right. now left.
    + destruct (F eq_refl) as (o & Ao). destruct (N o Ao).
    + do 3 eexists. split; [reflexivity|]. now left.
  - apply validator_cases in A as [[_ [e ->]]|(f & _ & [[_ ->]|[_ [e ->]]])]; do 3 eexists; (split; [reflexivity|]); cbn; tauto.
  - apply convert_cases in A as [[_ [e ->]]|(f & _ & [(_ & _ & e & ->)|[(_ & _ & e & ->)|(o & g & _ & _ & _ & _ & nu & _ & ->)]])];
      do 3 eexists; (split; [reflexivity|]); cbn; tauto.
Qed.

Lemma metro2_refused op cpus rt rq rp : op <> OpValidator -> asks_format rq (lit "metro2") -> (exists f, reads rt rq f) ->
  answer op cpus rt rq = Some rp -> exists h b, rp = Reply 501 h b.
Proof.
  intros Nv Q (f0 & R) A. assert (forall o, ~ asks_form rq o) as N.
  { intros o Ao. pose proof (format_named rq _ Q o Ao) as M. inversion M as [E|o' E]. destruct o'; discriminate. }
  destruct op; [|now elim Nv|]; cbn [answer] in A.
  - apply print_cases in A as [[X _]|(f & _ & [[_ [e ->]]|(nu & o & _ & Ao & _)])]; [destruct (X _ R)| |destruct (N o Ao)].
    unfold output_error. eauto.
  - apply convert_cases in A as [[X _]|(f & _ & [(_ & _ & e & ->)|[(_ & _ & e & ->)|(o & g & _ & Ao & _)]])];
      [destruct (X _ R)| | |destruct (N o Ao)]; unfold output_error, http_error; eauto.
Qed.

(* ---- published properties that are not read ---- *)

Lemma unknown_published o key : In key (unknown_properties o) -> exists p, In p (obj_schema o) /\ pKey p = key.
Proof.
  assert (forallb (fun key => existsb (fun p => String.eqb (pKey p) key) (obj_schema o)) (unknown_properties o) = true) as H
    by (destruct o as [| | |[]]; vm_compute; reflexivity).
  rewrite forallb_forall in H. intros I. specialize (H key I). apply existsb_exists in H as (p & Ip & E). apply String.eqb_eq in E. eauto.
Qed.

Lemma unknown_ignored o key v l st : In key (unknown_properties o) -> clear_keys ((lit key, v) :: l) ->
  (describes (obj_struct o) (obj_id o) ((lit key, v) :: l) st <-> describes (obj_struct o) (obj_id o) l st).
Proof.
  intros U C. destruct (unknown_published o key U) as (p & Ip & <-). destruct (schema_fields o p Ip) as [F _].
  assert (forall n w, has_type (obj_struct o) st -> holds st n w -> ~ key_is n (lit (pKey p))) as N.
  { intros n w T H E. pose proof (holds_kind o st n w T H) as I. pose proof (case_keys o p n _ Ip I E) as Ek.
    destruct (schema_fields o p Ip) as [_ K]. specialize (K n _ I Ek). apply (proj1 F); [|assumption]. exists n. rewrite <- K. auto. }
  split; intros (_ & T & D).
  - split; [|split; [assumption|]].
    + destruct C as [A U']. inversion A; subst. inversion U'; subst. split; assumption.
    + intros n w H. destruct (D n w H) as [(k & j & [E|I] & K & S)|[X O]].
      * injection E as <- <-. elim (N n w T H K).
      * left. eauto.
      * right. split; [|assumption]. intros k j I. apply (X k j). now right.
  - split; [assumption|]. split; [assumption|]. intros n w H. destruct (D n w H) as [(k & j & I & K & S)|[X O]].
    + left. exists k, j. split; [now right|auto].
    + right. split; [|assumption]. intros k j [E|I] K; [injection E as <- <-; exact (N n w T H K)|exact (X k j I K)].
Qed.

(* ---- fields that are not published ---- *)

Lemma unpublished_written o st n v : has_type (obj_struct o) st -> holds st n v -> In n (unpublished_fields o) ->
  ~ empty v \/ In n (also_written o) -> ~ conforms true (obj_schema o) (obj_json o st).
Proof.
  intros T H U W (l & El & _ & _ & C). assert (In (json_key n) (map fst l)) as I.
  { apply (object_members o st n v T H l El). destruct W as [W|W]; [now left|right; now left]. }
  apply in_map_iff in I as ([k j] & E & I). cbn [fst] in E. destruct (C eq_refl k j I) as (p & Ip & Ek).
  apply (proj1 (schema_publishes o n (kind_of v) (holds_kind o st n v T H))); [|assumption]. exists p. split; [assumption|congruence].
Qed.
