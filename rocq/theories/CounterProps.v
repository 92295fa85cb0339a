(* Generated trailers, and what File.Validate accepts *)
From Coq Require Import ZArith NArith Bool Ascii String List Lia.
Import ListNotations.
From Verif Require Import GoBase GoBaseFacts GoTime Tables Codec Records File
  SpecCodec SpecLayouts SpecRecords SpecFile SpecValidate SpecCounters
  TimeFacts FieldFacts RecordFacts RoundTrip FieldProps ValidateFacts CounterFacts.
Local Open Scope string_scope.
Local Open Scope Z_scope.
Local Open Scope list_scope.
Local Notation length := List.length.

Definition step (packed : bool) (acc : res fields) (r : record) : res fields :=
  match acc with
  | Ok st =>
      match r with
      | RBase p b => if Bool.eqb p packed then Ok (fold_left incr (base_counters b) st) else Panic
      | _ => Panic
      end
  | x => x
  end.

Lemma base_parts_typed b : base_ok b -> record_times (RBase true b) -> Forall part_typed (base_parts b).
Proof.
  intros [[T P] S] [G Gs]. unfold base_parts. constructor; [split; assumption|].
  rewrite Forall_map. rewrite Forall_forall in *. intros s Hs. split; [apply (S s Hs)|apply (Gs s Hs)].
Qed.

Lemma parts_typed packed l : data_ok packed l -> Forall part_typed (parts l).
Proof.
  induction 1 as [|r l [[b ->] [R G]] H IH]; [constructor|]. unfold parts. cbn [flat_map].
  apply Forall_app. split; [|exact IH]. apply base_parts_typed; assumption.
Qed.

Lemma fold_steps packed l : data_ok packed l -> forall st,
  fold_left (step packed) l (Ok st) = Ok (fold_left incr (flat_map part_counters (parts l)) st).
Proof.
  induction 1 as [|r l [[b ->] [R G]] H IH]; intros st; [reflexivity|]. cbn [fold_left step].
  rewrite eqb_reflx, IH. unfold parts. cbn [flat_map]. rewrite flat_map_app, fold_left_app.
  rewrite (base_counters_parts b) by (apply R). reflexivity.
Qed.

Definition start (n : Z) : fields :=
  set_field "BlockCount" (VInt (n + 2)) (set_field "TotalBaseRecords" (VInt n) (new_fields trailer_struct)).

Lemma start_types n : types (start n) = trailer_struct.
Proof. reflexivity. Qed.
Lemma trailer_names_nodup : NoDup (map fst trailer_struct).
Proof. apply nodupb_NoDup. vm_compute. reflexivity. Qed.

Lemma generate_information_spec packed l : data_ok packed l ->
  generate_information packed l = Ok (fold_left incr (flat_map part_counters (parts l)) (start (Z.of_nat (length l)))).
Proof. intros H. unfold generate_information. apply (fold_steps packed l H). Qed.

Lemma counter_names_int : Forall (fun n => In (n, KInt) trailer_struct) counter_names.
Proof. apply Forall_forall. intros n I. apply has_field_In. revert n I. apply Forall_forall.
  apply forallb_Forall. vm_compute. reflexivity. Qed.

Lemma information_types l n : types (fold_left incr (flat_map part_counters l) (start n)) = trailer_struct.
Proof.
  rewrite incr_all_types; [apply start_types|..].
  - rewrite <- types_names, start_types. exact trailer_names_nodup.
  - rewrite start_types. apply Forall_forall. intros m Hm. apply in_flat_map in Hm as (p & _ & Hm).
    apply part_counters_names in Hm. revert m Hm. apply Forall_forall. exact counter_names_int.
Qed.

Lemma counted_bases packed l : data_ok packed l ->
  counted (in_base (fun _ => True)) (parts l) (Z.of_nat (length l)).
Proof.
  induction 1 as [|r l [[b ->] [R G]] H IH]; [constructor|]. unfold parts. cbn [flat_map].
  replace (Z.of_nat (length (RBase packed b :: l))) with (1 + Z.of_nat (length l)) by (cbn [List.length]; lia).
  apply counted_app; [|exact IH]. unfold base_parts. change 1 with (0 + 1). apply counted_yes; [exists (bFields b); auto|].
  induction (segments_of b) as [|s sg IHs]; [constructor|]. cbn [map]. apply counted_no; [|exact IHs].
  intros (st & [=] & _).
Qed.

Lemma not_counted n l : mentions n counter_names = false -> occurrences n (flat_map part_counters l) = 0.
Proof.
  intros N. apply occurrences_absent. destruct (mentions n (flat_map part_counters l)) eqn:E; [|reflexivity].
  apply mentions_In in E. apply in_flat_map in E as (p & _ & E). apply part_counters_names in E.
  apply mentions_In in E. congruence.
Qed.

Lemma counters_counts n P : In (n, P) counters ->
  (n, P) = ("TotalBaseRecords", in_base (fun _ => True))
  \/ counts (n, P) /\ get_int n (start 5) = 0 /\ mentions n ["TotalBaseRecords"; "BlockCount"] = false
     /\ has_field trailer_struct n KInt = true.
Proof.
  intros I. unfold counters in I. rewrite in_app_iff in I. destruct I as [[I|[]]|I]; [left; congruence|].
  right. rewrite in_app_iff in I. destruct I as [I|I].
  - apply in_map_iff in I as (c & [= <- <-] & I). split; [apply status_counts; exact I|].
    revert c I. apply Forall_forall. unfold status_codes. repeat (constructor; [vm_compute; repeat split|]). constructor.
  - split; [apply (proj1 (Forall_forall _ _) others_count); exact I|].
    assert (In n (map fst (skipn 24 counters))) as J by (apply (in_map fst _ (n, P)); exact I).
    clear I. revert n J. apply Forall_forall. cbn [counters skipn map fst app status_codes].
    repeat (constructor; [vm_compute; repeat split|]). constructor.
Qed.

Definition skipped : list string := ["BlockDescriptorWord"; "RecordDescriptorWord"; "RecordIdentifier"].

Lemma value_eqb_eq a b : value_eqb a b = true -> a = b.
Proof.
  destruct a, b; cbn; try discriminate; [rewrite Z.eqb_eq|rewrite bytes_eqb_eq]; congruence.
Qed.

Lemma compare_information_spec info t : NoDup (map fst t) ->
  (forall n x, In (n, x) info -> mentions n skipped = false -> exists z, x = VInt z) ->
  (compare_information info t = None <->
   (forall n x, In (n, x) info -> mentions n skipped = false -> In (n, x) t)).
Proof.
  intros ND. induction info as [|[n x] info IH]; intros V.
  - split; [intros _ ? ? []|reflexivity].
  - cbn [compare_information].
    change (existsb (String.eqb n) ["BlockDescriptorWord"; "RecordDescriptorWord"; "RecordIdentifier"]) with (mentions n skipped).
    assert (forall m y, In (m, y) info -> mentions m skipped = false -> exists z, y = VInt z) as V'
      by (intros m y I; apply V; right; exact I).
    specialize (IH V').
    destruct (mentions n skipped) eqn:M.
    + rewrite IH. split; intros H m y; [intros [[= <- <-]|I] S; [congruence|eauto]|intros I; apply H; right; exact I].
    + destruct (V n x (or_introl eq_refl) M) as [z ->].
      destruct (lookup n t) as [w|] eqn:L.
      * destruct (value_eqb (VInt z) w) eqn:E.
        -- apply value_eqb_eq in E. subst w. rewrite IH. split; intros H m y.
           ++ intros [[= <- <-]|I] S; [apply lookup_In; exact L|eauto].
           ++ intros I; apply H; right; exact I.
        -- split; [discriminate|]. intros H. specialize (H n (VInt z) (or_introl eq_refl) M).
           apply (In_lookup _ _ _ ND) in H. rewrite L in H. injection H as ->. cbn in E. rewrite Z.eqb_refl in E. discriminate.
      * split; [discriminate|]. intros H. specialize (H n (VInt z) (or_introl eq_refl) M).
        apply (In_lookup _ _ _ ND) in H. congruence.
Qed.

Section Information.
Context (packed : bool) (l : list record) (D : data_ok packed l).
Let info := fold_left incr (flat_map part_counters (parts l)) (start (Z.of_nat (length l))).

Lemma info_type : has_type trailer_struct info.
Proof. apply information_types. Qed.
Lemma trailer_nodup t : has_type trailer_struct t -> NoDup (map fst t).
Proof. intros T. rewrite (has_type_names _ _ T). exact trailer_names_nodup. Qed.

Lemma info_holds n x : In (n, KInt) trailer_struct -> (holds info n (VInt x) <-> get_int n info = x).
Proof. intros I. symmetry. apply (get_int_iff _ _ info_type (trailer_nodup _ info_type) n x I). Qed.

Lemma info_value n : In n (map fst trailer_struct) ->
  get_int n info = get_int n (start (Z.of_nat (length l))) + occurrences n (flat_map part_counters (parts l)).
Proof.
  intros I. apply incr_all. rewrite <- types_names, start_types. exact I.
Qed.

Lemma get_start n k : mentions n ["TotalBaseRecords"; "BlockCount"] = false -> get_int n (start k) = get_int n (start 5).
Proof.
  intros H. cbn [mentions existsb] in H. apply orb_false_iff in H as [A H]. apply orb_false_iff in H as [B _].
  apply String.eqb_neq in A, B. unfold get_int, start. rewrite !lookup_set_field.
  apply String.eqb_neq in A, B. rewrite A, B. reflexivity.
Qed.

Lemma info_right : counters_right l info.
Proof.
  split.
  - intros n P I. destruct (counters_counts n P I) as [[= -> ->]|(C & S & N & F)].
    + exists (Z.of_nat (length l)). split; [apply (counted_bases packed); exact D|].
      apply info_holds; [field|]. rewrite info_value by (apply existsb_string_In; vm_compute; reflexivity).
      rewrite not_counted by (vm_compute; reflexivity). rewrite Z.add_0_r. reflexivity.
    + eexists. split; [apply (counted_parts (n, P)); [exact C|apply (parts_typed packed); exact D]|].
      apply has_field_In in F. apply info_holds; [exact F|]. cbn [fst].
      rewrite info_value by (apply (in_map fst _ _ F)). rewrite get_start by exact N. lia.
  - apply info_holds; [field|]. rewrite info_value by (apply existsb_string_In; vm_compute; reflexivity).
    rewrite not_counted by (vm_compute; reflexivity). rewrite Z.add_0_r. reflexivity.
Qed.

(* which fields of the trailer are counters *)
Lemma all_counters : Forall (fun p =>
    mentions (fst p) skipped = true \/ fst p = "BlockCount" \/ In (fst p) (map fst counters)) trailer_struct.
Proof.
  apply Forall_forall. intros p Hp.
  assert (mentions (fst p) (skipped ++ "BlockCount" :: map fst counters) = true) as M.
  { revert p Hp. apply Forall_forall. apply forallb_Forall. vm_compute. reflexivity. }
  rewrite mentions_app in M. apply orb_prop in M as [M|M]; [auto|].
  cbn [mentions existsb] in M. apply orb_prop in M as [M|M]; [apply String.eqb_eq in M; auto|].
  right; right. apply existsb_string_In. exact M.
Qed.

Lemma compare_right t : has_type trailer_struct t ->
  (compare_information info t = None <-> counters_right l t).
Proof.
  intros T. pose proof (trailer_nodup _ T) as ND. pose proof info_type as Ti.
  rewrite compare_information_spec; [|exact ND|].
  - split.
    + intros H. destruct info_right as [R B]. split.
      * intros n P I. destruct (R n P I) as (c & Hc & Hh). exists c. split; [exact Hc|]. apply H; [exact Hh|].
        assert (Forall (fun n => mentions n skipped = false) (map fst counters)) as F
          by (apply Forall_forall; intros m Hm; apply negb_true_iff; revert m Hm; apply forallb_forall; vm_compute; reflexivity).
        revert F. rewrite Forall_forall. intros F. apply F. apply (in_map fst _ _ I).
      * apply H; [exact B|vm_compute; reflexivity].
    + intros [R' B'] n x I S. destruct info_right as [R B].
      pose proof (typed_in _ _ _ _ Ti I) as F. pose proof (proj1 (Forall_forall _ _) all_counters _ F) as [G|[G|G]]; cbn [fst] in G.
      * congruence.
      * subst n. assert (x = VInt (Z.of_nat (length l) + 2)) as ->; [|exact B'].
        apply (In_lookup _ _ _ (trailer_nodup _ Ti)) in B, I. congruence.
      * apply in_map_iff in G as ([n' P] & En & G). cbn in En. subst n'.
        destruct (R n P G) as (c & Hc & Hh). destruct (R' n P G) as (c' & Hc' & Hh').
        rewrite (counted_unique _ _ _ _ Hc' Hc) in Hh'.
        assert (x = VInt c) as ->; [|exact Hh'].
        apply (In_lookup _ _ _ (trailer_nodup _ Ti)) in Hh, I. congruence.
  - intros n x I S. pose proof (typed_in _ _ _ _ Ti I) as F.
    destruct x as [z|s|u]; [eauto|exfalso..]; cbn [kind_of] in F;
      repeat (destruct F as [F|F]; [try discriminate; injection F as <-; vm_compute in S; discriminate|]); destruct F.
Qed.
End Information.

(* ---- the generated trailer ---- *)

Lemma generated f : data_ok (flPacked f) (flBases f) -> exists t,
  file_generate_trailer f = Ok (RTrailer (flPacked f) t)
  /\ has_type trailer_struct t
  /\ counters_right (flBases f) t
  /\ holds t "RecordDescriptorWord" (VInt (Z.of_nat (record_size (flPacked f))))
  /\ holds t "RecordIdentifier" (VStr (list_ascii_of_string "TRAILER")).
Proof.
  intros D. unfold file_generate_trailer. rewrite (generate_information_spec _ _ D).
  set (info := fold_left incr _ _).
  assert (has_type trailer_struct info) as Ti by apply info_type.
  assert (counters_right (flBases f) info) as [R B] by (apply (info_right (flPacked f)); exact D).
  set (size := Z.of_nat (if flPacked f then PackedRecordLength else UnpackedRecordLength)).
  pose proof (trailer_nodup _ Ti) as ND.
  set (t := set_field "RecordIdentifier" (VStr (lit "TRAILER")) (set_field "RecordDescriptorWord" (VInt size) info)).
  assert (has_type trailer_struct t) as Tt.
  { unfold has_type. transitivity (types info); [|exact Ti]. unfold t.
    assert (forall n k, In (n, k) trailer_struct -> exists w, lookup n info = Some w /\ kind_of w = k) as L.
    { intros n k I. rewrite <- Ti in I. apply in_map_iff in I as ([n' w] & [= -> <-] & I). exists w.
      split; [apply (In_lookup _ _ _ ND I)|reflexivity]. }
    destruct (L "RecordIdentifier" KStr) as (w1 & L1 & K1); [field|].
    destruct (L "RecordDescriptorWord" KInt) as (w2 & L2 & K2); [field|].
    fold (types (set_field "RecordIdentifier" (VStr (lit "TRAILER")) (set_field "RecordDescriptorWord" (VInt size) info))).
    rewrite !set_field_types; [reflexivity|..]; apply can_assign_spec.
    - exists w2. rewrite K2. auto.
    - exists w1. rewrite lookup_set_field. change (String.eqb "RecordIdentifier" "RecordDescriptorWord") with false.
      rewrite K1. auto. }
  pose proof (trailer_nodup _ Tt) as NDt.
  assert (forall n v, lookup n info = Some v -> mentions n skipped = false -> holds t n v) as Keep.
  { intros n v L S. apply lookup_In. unfold t. rewrite !lookup_set_field.
    cbn [mentions existsb skipped] in S. rewrite !orb_false_iff in S. destruct S as (_ & S1 & S2 & _). rewrite S1, S2. exact L. }
  exists t. split; [reflexivity|]. split; [exact Tt|]. split; [split|split].
  - intros n P I. destruct (R n P I) as (c & Hc & Hh). exists c. split; [exact Hc|].
    apply Keep; [apply (In_lookup _ _ _ ND); exact Hh|].
    assert (In n (map fst counters)) as J by (apply (in_map fst _ _ I)). clear -J.
    apply negb_true_iff. revert n J. apply forallb_forall. vm_compute. reflexivity.
  - apply Keep; [apply (In_lookup _ _ _ ND); exact B|reflexivity].
  - apply lookup_In. unfold t. rewrite !lookup_set_field. change (String.eqb "RecordDescriptorWord" "RecordIdentifier") with false.
    rewrite String.eqb_refl. cbv iota.
    assert (exists w, lookup "RecordDescriptorWord" info = Some w) as [w L].
    { apply In_fst_lookup. rewrite (has_type_names _ _ Ti). apply existsb_string_In. vm_compute. reflexivity. }
    rewrite L. unfold size, record_size. destruct (flPacked f); reflexivity.
  - apply lookup_In. unfold t. rewrite !lookup_set_field. rewrite String.eqb_refl.
    assert (exists w, lookup "RecordIdentifier" info = Some w) as [w L].
    { apply In_fst_lookup. rewrite (has_type_names _ _ Ti). apply existsb_string_In. vm_compute. reflexivity. }
    change (String.eqb "RecordIdentifier" "RecordDescriptorWord") with false. cbv iota. rewrite L. reflexivity.
Qed.

(* ---- Validate ---- *)

Lemma record_validate_spec r : record_ok r -> record_times r -> (record_validate r = None <-> record_valid r).
Proof.
  destruct r as [p h|p b|p t]; cbn [record_ok record_times record_validate record_valid].
  - intros T G. apply header_validate_spec; assumption.
  - intros [[T _] _] [G _]. apply base_validate_spec; assumption.
  - intros T _. apply trailer_validate_spec. exact T.
Qed.

Lemma first_error_none {A} (g : A -> option error) l : first_error g l = None <-> Forall (fun x => g x = None) l.
Proof.
  induction l as [|x l IH]; cbn [first_error]; [split; auto|]. destruct (g x) eqn:E.
  - split; [discriminate|]. intros H. inversion H. congruence.
  - rewrite IH. split; [auto|]. intros H. inversion H. assumption.
Qed.

Lemma file_data_ok f : file_ok f -> file_times f -> data_ok (flPacked f) (flBases f).
Proof.
  intros (_ & _ & B & _) (_ & G & _). unfold data_ok. rewrite Forall_forall in *. intros r I.
  destruct (B r I). auto.
Qed.

Lemma file_validate_spec f : file_ok f -> file_times f ->
  (file_validate f = Ok tt <->
   record_valid (flHeader f) /\ record_valid (flTrailer f) /\ Forall record_valid (flBases f)
   /\ counters_right (flBases f) (record_fields (flTrailer f))).
Proof.
  intros O G. pose proof (file_data_ok f O G) as D.
  destruct O as (_ & Oh & Ob & [t Et] & Ot). destruct G as (Gh & Gb & Gt).
  assert (has_type trailer_struct (record_fields (flTrailer f))) as T.
  { rewrite Et in Ot |- *. exact Ot. }
  unfold file_validate.
  rewrite <- (record_validate_spec _ Oh Gh), <- (record_validate_spec _ Ot Gt).
  assert (Forall record_valid (flBases f) <-> first_error record_validate (flBases f) = None) as ->.
  { rewrite first_error_none, !Forall_forall. split; intros H r I; apply (record_validate_spec r); auto;
      try (rewrite Forall_forall in Ob; destruct (Ob r I); assumption); rewrite Forall_forall in Gb; auto. }
  rewrite (generate_information_spec _ _ D). rewrite <- (compare_right _ _ D _ T).
  destruct (record_validate (flHeader f)); [split; [discriminate|intros [H _]; discriminate]|].
  destruct (record_validate (flTrailer f)); [split; [discriminate|intros (_ & H & _); discriminate]|].
  destruct (first_error record_validate (flBases f)); [split; [discriminate|intros (_ & _ & H & _); discriminate]|].
  destruct (compare_information _ _); [split; [discriminate|intros (_ & _ & _ & H); discriminate]|].
  tauto.
Qed.

(* a valid file has data records: TotalBaseRecords has to be given and right *)
Lemma valid_some_data f p t : flTrailer f = RTrailer p t -> has_type trailer_struct t -> file_validate f = Ok tt -> flBases f <> [].
Proof.
  intros Et T V B. unfold file_validate in V. rewrite Et, B in V. cbn [record_fields record_validate] in V.
  destruct (record_validate (flHeader f)); [discriminate|].
  destruct (trailer_validate p t) eqn:Vt; [discriminate|]. cbn [first_error] in V.
  assert (data_ok (flPacked f) []) as D by constructor. rewrite (generate_information_spec _ _ D) in V.
  destruct (compare_information _ t) eqn:C in V; [discriminate|]. apply (compare_right _ _ D _ T) in C as [R _].
  destruct (R "TotalBaseRecords" (in_base (fun _ => True)) (or_introl eq_refl)) as (c & Hc & Hh).
  rewrite (counted_unique _ _ _ _ Hc (counted_bases _ _ D)) in Hh.
  apply trailer_validate_spec in Vt; [|exact T].
  assert (exists d, In d (trailer_doc p) /\ dMust d = true /\ dName d = "TotalBaseRecords") as (d & I & M & N).
  { assert (existsb (fun d => dMust d && String.eqb (dName d) "TotalBaseRecords") (trailer_doc p) = true) as X
      by (destruct p; vm_compute; reflexivity).
    apply existsb_exists in X as (d & I & X). apply andb_prop in X as [X Y]. apply String.eqb_eq in Y. eauto. }
  specialize (Vt d (VInt 0) I M). rewrite N in Vt. specialize (Vt Hh). cbn in Vt. congruence.
Qed.

(* it never panics on a file of one format *)
Lemma file_validate_no_panic f : file_ok f -> file_times f -> file_validate f <> Panic.
Proof.
  intros O G. pose proof (file_data_ok f O G) as D. unfold file_validate.
  destruct (record_validate (flHeader f)); [discriminate|]. destruct (record_validate (flTrailer f)); [discriminate|].
  destruct (first_error _ _); [discriminate|]. rewrite (generate_information_spec _ _ D).
  destruct (compare_information _ _); discriminate.
Qed.

(* ---- a generated trailer makes the file valid ---- *)

Lemma trailer_complete packed n t : has_type trailer_struct t -> (0 < n)%nat ->
  holds t "TotalBaseRecords" (VInt (Z.of_nat n)) -> holds t "BlockCount" (VInt (Z.of_nat n + 2)) ->
  holds t "RecordDescriptorWord" (VInt (Z.of_nat (record_size packed))) ->
  holds t "RecordIdentifier" (VStr (list_ascii_of_string "TRAILER")) ->
  complete (trailer_doc packed) t.
Proof.
  intros T N A B C E d v Id M H. pose proof (trailer_nodup _ T) as ND.
  assert (In (dName d) ["RecordDescriptorWord"; "RecordIdentifier"; "TotalBaseRecords"; "BlockCount"]) as I.
  { apply existsb_string_In.
    assert (forallb (fun d => implb (dMust d) (existsb (String.eqb (dName d))
      ["RecordDescriptorWord"; "RecordIdentifier"; "TotalBaseRecords"; "BlockCount"])) (trailer_doc packed) = true) as F
      by (destruct packed; vm_compute; reflexivity).
    rewrite forallb_forall in F. specialize (F d Id). rewrite M in F. exact F. }
  apply (In_lookup _ _ _ ND) in A, B, C, E, H.
  destruct I as [I|[I|[I|[I|[]]]]]; rewrite <- I in H.
  - rewrite C in H. injection H as <-. cbn. destruct packed; cbn; lia.
  - rewrite E in H. injection H as <-. discriminate.
  - rewrite A in H. injection H as <-. cbn. lia.
  - rewrite B in H. injection H as <-. cbn. lia.
Qed.

Lemma set_trailer_spec f t : trailer_validate (flPacked f) t = None ->
  file_set_record f (RTrailer (flPacked f) t) = (set_trailer f (RTrailer (flPacked f) t), None).
Proof. intros H. unfold file_set_record. cbn [record_validate]. rewrite H. destruct f as [[] h b tr]; reflexivity. Qed.

Lemma generate_then_validate f : file_ok f -> file_times f -> flBases f <> [] ->
  record_valid (flHeader f) -> Forall record_valid (flBases f) ->
  exists t, file_generate_trailer f = Ok t
    /\ file_set_record f t = (set_trailer f t, None)
    /\ file_validate (set_trailer f t) = Ok tt.
Proof.
  intros O G N Vh Vb. pose proof (file_data_ok f O G) as D.
  destruct (generated f D) as (t & E & T & R & W & I).
  assert (complete (trailer_doc (flPacked f)) t) as C.
  { destruct R as [R B]. destruct (R "TotalBaseRecords" (in_base (fun _ => True)) (or_introl eq_refl)) as (c & Hc & Hh).
    rewrite (counted_unique _ _ _ _ Hc (counted_bases _ _ D)) in Hh.
    apply (trailer_complete _ (length (flBases f))); auto. destruct (flBases f); [contradiction|cbn; lia]. }
  exists (RTrailer (flPacked f) t). split; [exact E|].
  split; [apply set_trailer_spec; apply trailer_validate_spec; assumption|].
  assert (file_ok (set_trailer f (RTrailer (flPacked f) t))) as O'.
  { destruct O as (H1 & H2 & H3 & H4 & H5). destruct f; cbn in *. repeat split; auto. exists t. reflexivity. }
  apply file_validate_spec; [exact O'|..].
  - destruct G as (H1 & H2 & H3). destruct f; cbn in *. repeat split; auto.
  - destruct f as [p h bs tr]; cbn [set_trailer flHeader flTrailer flBases record_fields record_valid flPacked] in *.
    auto.
Qed.

(* ---- sums ---- *)

Lemma counter_value l t n P c : has_type trailer_struct t -> counters_right l t -> In (n, P) counters ->
  holds t n (VInt c) -> counted P (parts l) c.
Proof.
  intros T [R _] I H. destruct (R n P I) as (c' & Hc & Hh). pose proof (trailer_nodup _ T) as ND.
  apply (In_lookup _ _ _ ND) in H, Hh. rewrite H in Hh. injection Hh as <-. exact Hc.
Qed.

Lemma in_any_sum c l a x y z : counted (in_any c) l a -> counted (in_base c) l x ->
  counted (in_consumer J1 c) l y -> counted (in_consumer J2 c) l z -> a = x + y + z.
Proof.
  intros Ha Hx Hy Hz.
  assert (exists m, counted (fun p => in_consumer J1 c p \/ in_consumer J2 c p) l m /\ m = y + z) as (m & Hm & ->).
  { clear Ha Hx. revert y z Hy Hz. induction l as [|p l IH]; intros y z Hy Hz.
    - inversion Hy; inversion Hz; subst. exists 0. split; [constructor|reflexivity].
    - inversion Hy as [|? ? y' Py Hy'|? ? y' Py Hy']; inversion Hz as [|? ? z' Pz Hz'|? ? z' Pz Hz']; subst;
        destruct (IH _ _ Hy' Hz') as (m & Hm & E); subst m.
      + destruct Py as (st & -> & _). destruct Pz as (st' & [=] & _).
      + exists (y' + z + 1). split; [apply counted_yes; auto|lia].
      + exists (y + z' + 1). split; [apply counted_yes; auto|lia].
      + exists (y + z). split; [apply counted_no; [tauto|auto]|lia]. }
  rewrite <- Z.add_assoc.
  apply (counted_sum (in_any c) (in_base c) (fun p => in_consumer J1 c p \/ in_consumer J2 c p) l); auto.
  - intros p. unfold in_any. tauto.
  - intros p [(st & -> & _) [(st' & [=] & _)|(st' & [=] & _)]].
Qed.

Fixpoint sum_over (t : fields) (l : list string) : Z :=
  match l with [] => 0 | n :: l' => get_int n t + sum_over t l' end.

Lemma counted_exists_sum t ps : forall codes,
  NoDup codes ->
  (forall c, In c codes -> counted (in_base (says "AccountStatus" c)) ps (get_int (status_total c) t)) ->
  (forall st, In (PBase st) ps -> NoDup (map fst st)) ->
  counted (in_base (fun st => exists c, In c codes /\ says "AccountStatus" c st)) ps (sum_over t (map status_total codes)).
Proof.
  intros codes N. induction N as [|c codes Nc N IH]; intros H ND.
  - cbn. clear H ND. induction ps as [|p ps IH]; [constructor|]. apply counted_no; [|exact IH].
    intros (st & _ & (c & [] & _)).
  - cbn [map sum_over]. specialize (IH (fun d I => H d (or_intror I)) ND).
    pose proof (H c (or_introl eq_refl)) as Hc.
    revert Hc IH ND. generalize (get_int (status_total c) t) as a. generalize (sum_over t (map status_total codes)) as b. clear H.
    induction ps as [|p ps IHp]; intros b a Ha Hb ND.
    + inversion Ha; inversion Hb; subst. constructor.
    + assert (forall st, In (PBase st) ps -> NoDup (map fst st)) as ND' by (intros st I; apply ND; right; exact I).
      inversion Ha as [|? ? a' Pa Ha'|? ? a' Pa Ha']; inversion Hb as [|? ? b' Pb Hb'|? ? b' Pb Hb']; subst.
      * exfalso. destruct Pa as (st & -> & Sa). destruct Pb as (st' & [= <-] & (d & Id & Sb)).
        specialize (ND st (or_introl eq_refl)). unfold says in *.
        apply (In_lookup _ _ _ ND) in Sa, Sb. rewrite Sa in Sb. injection Sb as E.
        assert (c = d) as -> by (rewrite <- (string_of_list_ascii_of_string c), E; apply string_of_list_ascii_of_string).
        contradiction.
      * replace (a' + 1 + b) with (a' + b + 1) by lia. apply counted_yes; [|apply IHp; assumption].
        destruct Pa as (st & -> & Sa). exists st. split; [reflexivity|]. exists c. split; [left; reflexivity|exact Sa].
      * replace (a + (b' + 1)) with (a + b' + 1) by lia. apply counted_yes; [|apply IHp; assumption].
        destruct Pb as (st & -> & (d & Id & Sb)). exists st. split; [reflexivity|]. exists d. split; [right; exact Id|exact Sb].
      * apply counted_no; [|apply IHp; assumption].
        intros (st & -> & (d & [<-|Id] & Sd)); [apply Pa; exists st; auto|apply Pb; exists st; split; [reflexivity|eauto]].
Qed.

Lemma counted_ext {A} (P Q : A -> Prop) l n : (forall x, In x l -> (P x <-> Q x)) -> counted P l n -> counted Q l n.
Proof.
  intros E H. induction H as [|x l n Px H IH|x l n Px H IH].
  - constructor.
  - apply counted_yes; [apply E; [left; reflexivity|exact Px]|]. apply IH. intros y I. apply E. right. exact I.
  - apply counted_no; [intros Q'; apply Px, E; [left; reflexivity|exact Q']|]. apply IH. intros y I. apply E. right. exact I.
Qed.

Lemma parts_base packed l st : data_ok packed l -> In (PBase st) (parts l) ->
  exists b, In (RBase packed b) l /\ st = bFields b.
Proof.
  intros D I. unfold parts in I. apply in_flat_map in I as (r & Ir & I).
  pose proof (proj1 (Forall_forall _ _) D r Ir) as ([b ->] & _). exists b. split; [exact Ir|].
  destruct I as [[= ->]|I]; [reflexivity|]. apply in_map_iff in I as (s & [=] & _).
Qed.

Lemma status_sum packed l t : data_ok packed l -> Forall record_valid l ->
  has_type trailer_struct t -> counters_right l t ->
  sum_over t (map status_total status_codes) = Z.of_nat (length l).
Proof.
  intros D V T R. pose proof (trailer_nodup _ T) as ND.
  assert (forall c, In c status_codes ->
    counted (in_base (says "AccountStatus" c)) (parts l) (get_int (status_total c) t)) as H.
  { intros c I. destruct R as [R _]. destruct (R (status_total c) (in_base (says "AccountStatus" c))) as (k & Hk & Hh).
    { unfold counters. rewrite !in_app_iff. right. left. apply (in_map (fun c => (status_total c, in_base (says "AccountStatus" c)))). exact I. }
    unfold get_int. rewrite (In_lookup _ _ _ ND Hh). exact Hk. }
  assert (forall st, In (PBase st) (parts l) -> has_type base_struct st) as Tb.
  { intros st I. destruct (parts_base _ _ _ D I) as (b & Ib & ->).
    pose proof (proj1 (Forall_forall _ _) D _ Ib) as (_ & O & _). apply O. }
  pose proof (counted_exists_sum t (parts l) status_codes ltac:(apply nodupb_NoDup; vm_compute; reflexivity) H
    (fun st I => base_nodup _ (Tb st I))) as S.
  refine (counted_unique _ _ _ _ _ (counted_bases packed l D)).
  revert S. apply counted_ext. intros p I. split; [intros (st & -> & _); exists st; auto|].
  intros (st & -> & _). exists st. split; [reflexivity|].
  destruct (parts_base _ _ _ D I) as (b & Ib & ->).
  pose proof (proj1 (Forall_forall _ _) V _ Ib) as [_ (_ & _ & _ & _ & _ & _ & [[(c & Ic & Hc) _]|[(c & Ic & Hc) _]] & _)];
    exists c; (split; [|exact Hc]); apply existsb_string_In; revert c Ic Hc;
    [apply (proj1 (Forall_forall (fun c => _ -> existsb (String.eqb c) status_codes = true) rated_statuses))
    |apply (proj1 (Forall_forall (fun c => _ -> existsb (String.eqb c) status_codes = true) plain_statuses))];
    repeat constructor.
Qed.

Lemma adds_up_sum t : has_type trailer_struct t -> forall l, Forall (fun n => In (n, KInt) trailer_struct) l ->
  adds_up t l (sum_over t l).
Proof.
  intros T l F. induction F as [|n l I F IH]; [constructor|]. cbn [sum_over]. constructor; [|exact IH].
  apply (get_int_iff _ _ T (trailer_nodup _ T) n _ I). reflexivity.
Qed.

Lemma adds_up_unique t : has_type trailer_struct t -> forall l a b, adds_up t l a -> adds_up t l b -> a = b.
Proof.
  intros T l a b H. revert b. induction H as [|n l c z Hc H IH]; intros b Hb; inversion Hb; subst; [reflexivity|].
  pose proof (trailer_nodup _ T) as ND. apply (In_lookup _ _ _ ND) in Hc, H2. rewrite Hc in H2. injection H2 as <-.
  f_equal. auto.
Qed.

Lemma status_names_int : Forall (fun n => In (n, KInt) trailer_struct) (map status_total status_codes).
Proof.
  apply Forall_forall. intros n I. apply has_field_In. revert n I. apply forallb_forall. vm_compute. reflexivity.
Qed.

(* three totals that make up a fourth *)
Lemma three_totals l t c nb n1 n2 na : has_type trailer_struct t -> counters_right l t ->
  In (na, in_any c) counters -> In (nb, in_base c) counters ->
  In (n1, in_consumer J1 c) counters -> In (n2, in_consumer J2 c) counters ->
  exists z, holds t na (VInt z) /\ adds_up t [nb; n1; n2] z.
Proof.
  intros T R Ia Ib I1 I2. pose proof R as [R' _].
  destruct (R' _ _ Ia) as (a & Ca & Ha), (R' _ _ Ib) as (b & Cb & Hb), (R' _ _ I1) as (x & Cx & Hx), (R' _ _ I2) as (y & Cy & Hy).
  exists a. split; [exact Ha|]. rewrite (in_any_sum _ _ _ _ _ _ Ca Cb Cx Cy).
  replace (b + x + y) with (b + (x + (y + 0))) by lia. repeat constructor; assumption.
Qed.

Lemma generated_sums f : data_ok (flPacked f) (flBases f) -> exists t,
  file_generate_trailer f = Ok (RTrailer (flPacked f) t)
  /\ (exists z, holds t "TotalSocialNumbersAllSegments" (VInt z) /\
        adds_up t ["TotalSocialNumbersBaseSegments"; "TotalSocialNumbersJ1Segments"; "TotalSocialNumbersJ2Segments"] z)
  /\ (exists z, holds t "TotalDatesBirthAllSegments" (VInt z) /\
        adds_up t ["TotalDatesBirthBaseSegments"; "TotalDatesBirthJ1Segments"; "TotalDatesBirthJ2Segments"] z)
  /\ (Forall record_valid (flBases f) ->
      adds_up t (map status_total status_codes) (Z.of_nat (length (flBases f)))
      /\ holds t "TotalBaseRecords" (VInt (Z.of_nat (length (flBases f))))).
Proof.
  intros D. destruct (generated f D) as (t & E & T & R & _). exists t. split; [exact E|].
  split; [|split].
  - apply (three_totals (flBases f) t has_ssn); auto; unfold counters; cbn [map app status_codes In]; tauto.
  - apply (three_totals (flBases f) t has_birth); auto; unfold counters; cbn [map app status_codes In]; tauto.
  - intros V. split.
    + rewrite <- (status_sum _ _ _ D V T R). apply adds_up_sum; [exact T|exact status_names_int].
    + destruct R as [R _]. destruct (R "TotalBaseRecords" (in_base (fun _ => True)) (or_introl eq_refl)) as (c & Hc & Hh).
      rewrite (counted_unique _ _ _ _ Hc (counted_bases _ _ D)) in Hh. exact Hh.
Qed.

Lemma number_fields n : In (n, KInt) trailer_struct ->
  n = "RecordDescriptorWord" \/ n = "BlockCount" \/ exists P, In (n, P) counters.
Proof.
  intros I. destruct (proj1 (Forall_forall _ _) all_counters _ I) as [H|[H|H]]; cbn [fst] in H.
  - left. cbn [mentions existsb skipped] in H. rewrite !orb_true_iff, !String.eqb_eq in H.
    destruct H as [->|[->|[->|H]]]; [|reflexivity| |discriminate].
    + exfalso. repeat (destruct I as [I|I]; [discriminate|]). destruct I.
    + exfalso. repeat (destruct I as [I|I]; [discriminate|]). destruct I.
  - auto.
  - right; right. apply in_map_iff in H as ([m P] & E & H). cbn in E. subst m. eauto.
Qed.
