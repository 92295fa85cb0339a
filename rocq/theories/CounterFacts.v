(* The counting code of the model counts what the specification says *)
From Coq Require Import ZArith NArith Bool Ascii String List Lia.
Import ListNotations.
From Verif Require Import GoBase GoBaseFacts GoTime Tables Codec Records File
  SpecCodec SpecLayouts SpecRecords SpecFile SpecValidate SpecCounters
  TimeFacts FieldFacts RecordFacts RoundTrip FieldProps ValidateFacts.
Local Open Scope string_scope.
Local Open Scope Z_scope.
Local Open Scope list_scope.
Local Notation length := List.length.

(* ---- counting ---- *)

Lemma counted_unique {A} (P : A -> Prop) l a b : counted P l a -> counted P l b -> a = b.
Proof.
  intros H. revert b. induction H; intros b Hb; inversion Hb; subst; try contradiction; try reflexivity.
  - f_equal. auto.
  - auto.
Qed.

Lemma counted_app {A} (P : A -> Prop) l l' a b :
  counted P l a -> counted P l' b -> counted P (l ++ l') (a + b).
Proof.
  intros H H'. induction H; cbn [app].
  - exact H'.
  - replace (n + 1 + b) with (n + b + 1) by lia. apply counted_yes; assumption.
  - apply counted_no; assumption.
Qed.

Lemma counted_sum {A} (P Q R : A -> Prop) l a b c :
  (forall x, P x <-> Q x \/ R x) -> (forall x, ~ (Q x /\ R x)) ->
  counted P l a -> counted Q l b -> counted R l c -> a = b + c.
Proof.
  intros E D H. revert b c. induction H as [|x l n Px H IH|x l n Px H IH]; intros b c Hb Hc.
  - inversion Hb; inversion Hc; subst. reflexivity.
  - inversion Hb as [|? ? b' Qx Hb'|? ? b' Qx Hb']; inversion Hc as [|? ? c' Rx Hc'|? ? c' Rx Hc']; subst.
    + destruct (D x). auto.
    + rewrite (IH _ _ Hb' Hc'). lia.
    + rewrite (IH _ _ Hb' Hc'). lia.
    + apply E in Px. tauto.
  - rewrite E in Px.
    inversion Hb as [|? ? b' Qx Hb'|? ? b' Qx Hb']; inversion Hc as [|? ? c' Rx Hc'|? ? c' Rx Hc']; subst; try tauto.
    apply (IH _ _ Hb' Hc').
Qed.

(* ---- names incremented for one part ---- *)

Definition seg_counters (k : segkind) (s : segment) : list string :=
  match k with
  | J1 => j_counters "TotalConsumerSegmentsJ1" "TotalSocialNumbersJ1Segments" "TotalDatesBirthJ1Segments" s
  | J2 => j_counters "TotalConsumerSegmentsJ2" "TotalSocialNumbersJ2Segments" "TotalDatesBirthJ2Segments" s
  | K1 => when (Nat.ltb 0 (length (get_str "OriginalCreditorName" (sFields s)))) ["TotalOriginalCreditorSegments"]
  | K2 => when (one_of_int (get_int "PurchasedIndicator" (sFields s)) [2; 1]) ["TotalPurchasedToSegments"]
  | K3 => when (get_int "AgencyIdentifier" (sFields s) =? 0) ["TotalMortgageInformationSegments"]
  | K4 => when (one_of_int (get_int "SpecializedPaymentIndicator" (sFields s)) [1; 2]) ["TotalPaymentInformationSegments"]
  | L1 => when (one_of_int (get_int "ChangeIndicator" (sFields s)) [1; 2; 3]) ["TotalChangeSegments"]
  | N1 => when (Nat.ltb 0 (length (get_str "EmployerName" (sFields s)))) ["TotalEmploymentSegments"]
  end.

Definition own_counters (st : fields) : list string :=
  when (is_valid_ssn (get_int "SocialSecurityNumber" st))
    ["TotalSocialNumbersAllSegments"; "TotalSocialNumbersBaseSegments"]
  ++ when (negb (is_zero (get_time "DateBirth" st)))
    ["TotalDatesBirthAllSegments"; "TotalDatesBirthBaseSegments"]
  ++ when (bytes_eqb (get_str "ECOACode" st) (lit "Z")) ["TotalECOACodeZ"]
  ++ when (0 <? get_int "TelephoneNumber" st) ["TotalTelephoneNumbersAllSegments"]
  ++ status_counter (get_str "AccountStatus" st).

Definition part_counters (p : part) : list string :=
  match p with
  | PBase st => own_counters st
  | PSeg k st => seg_counters k (mkSegment k st)
  end.

Lemma flat_map_placed k l : Forall (fun s => sKind s = k) l ->
  flat_map (seg_counters k) l = flat_map (fun s => part_counters (PSeg (sKind s) (sFields s))) l.
Proof.
  induction 1 as [|[k' st] l E H IH]; [reflexivity|]. cbn [flat_map]. rewrite IH. cbn in E. subst. reflexivity.
Qed.

Lemma opt_placed k (o : option segment) : (forall s, o = Some s -> sKind s = k) ->
  Forall (fun s => sKind s = k) (opt_to_list o).
Proof. destruct o; cbn; auto. Qed.

Lemma base_counters_parts b : segs_placed b -> base_counters b = flat_map part_counters (base_parts b).
Proof.
  intros (P1 & P2 & P3 & P4 & P5 & P6 & P7 & P8).
  apply opt_placed in P3, P4, P5, P6, P7, P8.
  unfold base_counters, base_parts. cbn [flat_map part_counters]. unfold own_counters.
  rewrite <- !app_assoc. do 5 f_equal.
  rewrite flat_map_concat_map, map_map, <- flat_map_concat_map.
  unfold segments_of. rewrite !flat_map_app.
  rewrite <- !flat_map_placed with (k := J1) by assumption.
  rewrite <- (flat_map_placed J2), <- (flat_map_placed K1), <- (flat_map_placed K2),
    <- (flat_map_placed K3), <- (flat_map_placed K4), <- (flat_map_placed L1), <- (flat_map_placed N1) by assumption.
  reflexivity.
Qed.

(* ---- a part increments a counter at most once, and when the condition holds ---- *)

Definition part_typed (p : part) : Prop :=
  match p with
  | PBase st => has_type base_struct st /\ good_times st
  | PSeg k st => has_type (seg_struct k) st /\ good_times st
  end.

Definition status_table : list (string * string) := map (fun c => (c, status_total c)) status_codes.

Lemma status_counter_cases x :
  (status_counter x = [] /\ forall c, In c status_codes -> x <> lit c)
  \/ exists c, In c status_codes /\ x = lit c /\ status_counter x = [status_total c].
Proof.
  destruct (existsb (fun c => bytes_eqb x (lit c)) status_codes) eqn:E.
  - right. apply existsb_exists in E as (c & I & E). apply bytes_eqb_eq in E. subst x.
    exists c. split; [exact I|]. split; [reflexivity|].
    revert c I. apply Forall_forall. repeat (constructor; [vm_compute; reflexivity|]). constructor.
  - left. assert (forall c, In c status_codes -> bytes_eqb x (lit c) = false) as N.
    { intros c I. destruct (bytes_eqb x (lit c)) eqn:F; [|reflexivity].
      assert (existsb (fun c => bytes_eqb x (lit c)) status_codes = true) as G
        by (apply existsb_exists; eauto). congruence. }
    split.
    + unfold status_counter. cbn [find fst].
      repeat (rewrite (N _) by (unfold status_codes; cbn [In]; tauto)). reflexivity.
    + intros c I ->. specialize (N c I). rewrite bytes_eqb_refl in N. discriminate.
Qed.

Definition mentions (n : string) (l : list string) : bool := existsb (String.eqb n) l.
Lemma mentions_app n a b : mentions n (a ++ b) = mentions n a || mentions n b.
Proof. apply existsb_app. Qed.
Lemma mentions_when n b l : mentions n (when b l) = b && mentions n l.
Proof. destruct b; [reflexivity|reflexivity]. Qed.
Lemma mentions_In n l : mentions n l = true <-> In n l.
Proof. apply existsb_string_In. Qed.

Lemma part_counters_nodup p : NoDup (part_counters p).
Proof.
  apply nodupb_NoDup. destruct p as [st|k st]; cbn [part_counters].
  - unfold own_counters.
    assert (exists o, status_counter (get_str "AccountStatus" st) = o
      /\ (o = [] \/ exists c, In c status_codes /\ o = [status_total c])) as (o & -> & O).
    { eexists. split; [reflexivity|]. destruct (status_counter_cases (get_str "AccountStatus" st)) as [[-> _]|(c & I & _ & ->)]; eauto. }
    destruct (is_valid_ssn _), (negb _), (bytes_eqb _ _), (0 <? _); cbn [when app];
      (destruct O as [-> |(c & I & ->)]; [vm_compute; reflexivity|]);
      revert c I; apply Forall_forall; repeat (constructor; [vm_compute; reflexivity|]); constructor.
  - destruct k; cbn [seg_counters];
      try (match goal with |- context [when ?b _] => destruct b end; reflexivity).
    all: unfold j_counters; cbn [sFields].
    all: destruct (bytes_eqb _ _), (seg_validate _); cbn [when app];
      try (destruct (is_valid_ssn _), (negb _), (0 <? _)); vm_compute; reflexivity.
Qed.

(* the conditions of the model *)
Section Conditions.
  Context (s : structure) (st : fields) (T : has_type s st) (ND : NoDup (map fst st)).

  Lemma says_iff n c : In (n, KStr) s -> (says n c st <-> bytes_eqb (get_str n st) (lit c) = true).
  Proof. intros F. unfold says. rewrite bytes_eqb_eq. symmetry. apply (get_str_iff _ _ T ND _ _ F). Qed.

  Lemma named_iff n : In (n, KStr) s -> (named n st <-> Nat.ltb 0 (length (get_str n st)) = true).
  Proof.
    intros F. rewrite Nat.ltb_lt. unfold named. split.
    - intros (x & Hx & N). apply (get_str_iff _ _ T ND _ _ F) in Hx. rewrite Hx. destruct x; [contradiction|cbn; lia].
    - intros L. exists (get_str n st). split; [apply (get_str_iff _ _ T ND _ _ F); reflexivity|].
      intros E. rewrite E in L. cbn in L. lia.
  Qed.

  Lemma int_iff n (P : Z -> Prop) : In (n, KInt) s -> ((exists z, holds st n (VInt z) /\ P z) <-> P (get_int n st)).
  Proof.
    intros F. split.
    - intros (z & Hz & HP). apply (get_int_iff _ _ T ND _ _ F) in Hz. rewrite Hz. exact HP.
    - intros HP. exists (get_int n st). split; [apply (get_int_iff _ _ T ND _ _ F); reflexivity|exact HP].
  Qed.

  Lemma ssn_iff : In ("SocialSecurityNumber", KInt) s ->
    (has_ssn st <-> is_valid_ssn (get_int "SocialSecurityNumber" st) = true).
  Proof.
    intros F. unfold has_ssn. rewrite (int_iff _ (fun z => 0 < z < 999999999) F). unfold is_valid_ssn.
    rewrite negb_true_iff, orb_false_iff, !Z.leb_gt. tauto.
  Qed.

  Lemma phone_iff : In ("TelephoneNumber", KInt) s ->
    (has_phone st <-> (0 <? get_int "TelephoneNumber" st) = true).
  Proof. intros F. unfold has_phone. rewrite (int_iff _ (fun z => 0 < z) F). rewrite Z.ltb_lt. tauto. Qed.

  Lemma birth_iff : In ("DateBirth", KTime) s -> good_times st ->
    (has_birth st <-> negb (is_zero (get_time "DateBirth" st)) = true).
  Proof.
    intros F G. unfold has_birth. rewrite negb_true_iff. split.
    - intros (t & Ht & Z). pose proof (G _ _ Ht) as [C B].
      pose proof Ht as Ht'. apply (get_time_iff _ _ T ND _ _ F) in Ht'. rewrite Ht'.
      destruct (is_zero t) eqn:E; [|reflexivity]. destruct Z. apply (proj1 (calendar_offset_zero t C B)). exact E.
    - intros E. exists (get_time "DateBirth" st).
      assert (holds st "DateBirth" (VTime (get_time "DateBirth" st))) as Ht
        by (apply (get_time_iff _ _ T ND _ _ F); reflexivity).
      split; [exact Ht|]. intros Z. pose proof (G _ _ Ht) as [C B].
      apply (proj2 (calendar_offset_zero _ C B)) in Z. congruence.
  Qed.
End Conditions.

Lemma in_base_base c st : in_base c (PBase st) <-> c st.
Proof. split; [intros (st' & [= <-] & H); exact H|intros H; exists st; auto]. Qed.
Lemma in_base_seg c k st : in_base c (PSeg k st) <-> False.
Proof. split; [intros (st' & [=] & H)|contradiction]. Qed.
Lemma in_seg_base c k st : in_seg k c (PBase st) <-> False.
Proof. split; [intros (st' & [=] & H)|contradiction]. Qed.
Lemma in_seg_seg c k k' st : in_seg k c (PSeg k' st) <-> k' = k /\ c st.
Proof. split; [intros (st' & [= -> <-] & H); auto|intros [-> H]; exists st; auto]. Qed.

Lemma mentions_status n x : ~ In n (map status_total status_codes) -> mentions n (status_counter x) = false.
Proof.
  intros N. destruct (status_counter_cases x) as [[-> _]|(c & I & _ & ->)]; [reflexivity|].
  cbn [mentions existsb]. rewrite orb_false_r. apply String.eqb_neq. intros ->. apply N. apply in_map. exact I.
Qed.

Lemma mentions_own_status c st : In c status_codes ->
  mentions (status_total c) (own_counters st) = bytes_eqb (get_str "AccountStatus" st) (lit c).
Proof.
  intros I. unfold own_counters. rewrite !mentions_app, !mentions_when.
  assert (mentions (status_total c) ["TotalSocialNumbersAllSegments"; "TotalSocialNumbersBaseSegments"] = false
    /\ mentions (status_total c) ["TotalDatesBirthAllSegments"; "TotalDatesBirthBaseSegments"] = false
    /\ mentions (status_total c) ["TotalECOACodeZ"] = false
    /\ mentions (status_total c) ["TotalTelephoneNumbersAllSegments"] = false) as (-> & -> & -> & ->).
  { revert c I. apply Forall_forall. repeat (constructor; [repeat split; vm_compute; reflexivity|]). constructor. }
  rewrite !andb_false_r. cbn [orb].
  destruct (status_counter_cases (get_str "AccountStatus" st)) as [[-> H]|(d & Id & -> & ->)].
  - specialize (H c I). cbn. symmetry. apply bytes_eqb_neq. exact H.
  - revert c I d Id. apply (proj1 (Forall_forall (fun c => forall d, In d status_codes ->
      mentions (status_total c) [status_total d] = bytes_eqb (lit d) (lit c)) status_codes)).
    unfold status_codes at 2.
    repeat (constructor; [apply Forall_forall; unfold status_codes;
      repeat (constructor; [vm_compute; reflexivity|]); constructor|]). constructor.
Qed.

(* counters a segment may increment *)
Definition seg_counter_names (k : segkind) : list string :=
  match k with
  | J1 => ["TotalECOACodeZ"; "TotalConsumerSegmentsJ1"; "TotalSocialNumbersAllSegments"; "TotalSocialNumbersJ1Segments";
           "TotalDatesBirthAllSegments"; "TotalDatesBirthJ1Segments"; "TotalTelephoneNumbersAllSegments"]
  | J2 => ["TotalECOACodeZ"; "TotalConsumerSegmentsJ2"; "TotalSocialNumbersAllSegments"; "TotalSocialNumbersJ2Segments";
           "TotalDatesBirthAllSegments"; "TotalDatesBirthJ2Segments"; "TotalTelephoneNumbersAllSegments"]
  | K1 => ["TotalOriginalCreditorSegments"]
  | K2 => ["TotalPurchasedToSegments"]
  | K3 => ["TotalMortgageInformationSegments"]
  | K4 => ["TotalPaymentInformationSegments"]
  | L1 => ["TotalChangeSegments"]
  | N1 => ["TotalEmploymentSegments"]
  end.

Lemma seg_counters_names k s n : In n (seg_counters k s) -> In n (seg_counter_names k).
Proof.
  destruct k; cbn [seg_counters seg_counter_names];
    try (match goal with |- In _ (when ?b _) -> _ => destruct b; cbn [when In]; tauto end).
  all: unfold j_counters; rewrite in_app_iff; intros [H|H];
    [revert H; destruct (bytes_eqb _ _); cbn [when In]; tauto|].
  all: destruct (seg_validate s); [destruct H|].
  all: rewrite !in_app_iff in H; revert H.
  all: destruct (is_valid_ssn _), (negb _), (0 <? _); cbn [when In]; tauto.
Qed.

Lemma mentions_seg_false n k st : mentions n (seg_counter_names k) = false ->
  mentions n (seg_counters k (mkSegment k st)) = false.
Proof.
  intros H. destruct (mentions n (seg_counters k (mkSegment k st))) eqn:E; [|reflexivity].
  apply mentions_In in E. apply seg_counters_names in E. apply mentions_In in E. congruence.
Qed.

Lemma reported_iff k st : has_type (seg_struct k) st -> good_times st ->
  (reported k st <-> match seg_validate (mkSegment k st) with None => true | Some _ => false end = true).
Proof.
  intros T G. unfold reported. rewrite <- (seg_validate_spec (mkSegment k st) T G).
  destruct (seg_validate _); intuition congruence.
Qed.

Definition counts (np : string * (part -> Prop)) : Prop :=
  forall p, part_typed p -> (snd np p <-> mentions (fst np) (part_counters p) = true).

Lemma status_counts c : In c status_codes -> counts (status_total c, in_base (says "AccountStatus" c)).
Proof.
  intros I [st|k st] [T G]; cbn [fst snd part_counters].
  - rewrite in_base_base, (mentions_own_status _ _ I).
    apply (says_iff _ _ T (base_nodup _ T)). field.
  - rewrite in_base_seg. rewrite mentions_seg_false; [split; [contradiction|discriminate]|].
    revert c I. apply Forall_forall. repeat (constructor; [destruct k; vm_compute; reflexivity|]). constructor.
Qed.

Lemma mentions_own n st : ~ In n (map status_total status_codes) ->
  mentions n (own_counters st) =
    is_valid_ssn (get_int "SocialSecurityNumber" st)
      && mentions n ["TotalSocialNumbersAllSegments"; "TotalSocialNumbersBaseSegments"]
    || negb (is_zero (get_time "DateBirth" st))
      && mentions n ["TotalDatesBirthAllSegments"; "TotalDatesBirthBaseSegments"]
    || bytes_eqb (get_str "ECOACode" st) (lit "Z") && mentions n ["TotalECOACodeZ"]
    || (0 <? get_int "TelephoneNumber" st) && mentions n ["TotalTelephoneNumbersAllSegments"].
Proof.
  intros N. unfold own_counters. rewrite !mentions_app, !mentions_when, (mentions_status _ _ N), orb_false_r, !orb_assoc.
  reflexivity.
Qed.

Lemma mentions_j n t s b sg :
  mentions n (j_counters t s b sg) =
    bytes_eqb (get_str "ECOACode" (sFields sg)) (lit "Z") && mentions n ["TotalECOACodeZ"]
    || match seg_validate sg with None => true | Some _ => false end
       && (mentions n [t]
           || is_valid_ssn (get_int "SocialSecurityNumber" (sFields sg)) && mentions n ["TotalSocialNumbersAllSegments"; s]
           || negb (is_zero (get_time "DateBirth" (sFields sg))) && mentions n ["TotalDatesBirthAllSegments"; b]
           || (0 <? get_int "TelephoneNumber" (sFields sg)) && mentions n ["TotalTelephoneNumbersAllSegments"]).
Proof.
  unfold j_counters. cbv zeta. rewrite mentions_app, mentions_when. f_equal.
  destruct (seg_validate sg); [reflexivity|]. rewrite !mentions_app, !mentions_when. cbn [andb].
  rewrite !orb_assoc. reflexivity.
Qed.

Ltac settle_names :=
  repeat match goal with
  | |- context [mentions ?n (?a :: ?l)] =>
      let b := eval vm_compute in (mentions n (a :: l)) in change (mentions n (a :: l)) with b
  end;
  rewrite ?andb_false_r, ?andb_true_r, ?orb_false_r, ?orb_false_l, ?orb_true_r.

Ltac settle_parts :=
  unfold in_any, in_consumer;
  rewrite ?in_base_base, ?in_base_seg, ?in_seg_base, ?in_seg_seg.

Lemma not_status n : existsb (String.eqb n) (map status_total status_codes) = false ->
  ~ In n (map status_total status_codes).
Proof. intros H I. apply existsb_string_In in I. congruence. Qed.

Ltac own T :=
  rewrite mentions_own by (apply not_status; vm_compute; reflexivity); settle_names; settle_parts;
  pose proof (base_nodup _ T).

Ltac other := rewrite mentions_seg_false by (vm_compute; reflexivity);
  settle_parts; split; [intros H; exfalso; repeat (destruct H as [H|H]);
    first [exact H | destruct H as [H _]; discriminate H]|discriminate].

Ltac counter :=
  intros [st|k st] [T G]; cbn [fst snd part_counters];
  [own T|destruct k; try other].

Lemma none_iff (P : Prop) : ~ P -> (P <-> false = true).
Proof. intros H. split; [contradiction|discriminate]. Qed.

Lemma seg_nodup' k st : has_type (seg_struct k) st -> NoDup (map fst st).
Proof. apply (seg_nodup (mkSegment k st)). Qed.

Ltac consumer T G :=
  cbn [seg_counters]; rewrite mentions_j; settle_names; settle_parts; cbn [sFields];
  rewrite ?andb_true_iff, <- ?(reported_iff _ _ T G).

Ltac fld := solve [field].

Lemma others_count : Forall counts (skipn 24 counters).
Proof.
  change (skipn 24 counters) with
  [ ("TotalConsumerSegmentsJ1", in_consumer J1 (fun _ => True));
    ("TotalConsumerSegmentsJ2", in_consumer J2 (fun _ => True));
    ("TotalECOACodeZ", fun p => in_base (says "ECOACode" "Z") p \/ in_seg J1 (says "ECOACode" "Z") p
                                \/ in_seg J2 (says "ECOACode" "Z") p);
    ("TotalEmploymentSegments", in_seg N1 (named "EmployerName"));
    ("TotalOriginalCreditorSegments", in_seg K1 (named "OriginalCreditorName"));
    ("TotalPurchasedToSegments", in_seg K2 (fun st => coded_number st "PurchasedIndicator" [1; 2]));
    ("TotalMortgageInformationSegments", in_seg K3 (fun st => holds st "AgencyIdentifier" (VInt 0)));
    ("TotalPaymentInformationSegments", in_seg K4 (fun st => coded_number st "SpecializedPaymentIndicator" [1; 2]));
    ("TotalChangeSegments", in_seg L1 (fun st => coded_number st "ChangeIndicator" [1; 2; 3]));
    ("TotalSocialNumbersAllSegments", in_any has_ssn);
    ("TotalSocialNumbersBaseSegments", in_base has_ssn);
    ("TotalSocialNumbersJ1Segments", in_consumer J1 has_ssn);
    ("TotalSocialNumbersJ2Segments", in_consumer J2 has_ssn);
    ("TotalDatesBirthAllSegments", in_any has_birth);
    ("TotalDatesBirthBaseSegments", in_base has_birth);
    ("TotalDatesBirthJ1Segments", in_consumer J1 has_birth);
    ("TotalDatesBirthJ2Segments", in_consumer J2 has_birth);
    ("TotalTelephoneNumbersAllSegments", in_any has_phone) ].
  repeat refine (Forall_cons _ _ _); try exact (Forall_nil _).
  - counter; [intuition discriminate|]. consumer T G. intuition.
  - counter; [intuition discriminate|]. consumer T G. intuition.
  - counter.
    + rewrite <- (says_iff _ _ T H "ECOACode" "Z") by field. intuition.
    + consumer T G. rewrite <- (says_iff _ _ T (seg_nodup' J1 _ T) "ECOACode" "Z") by field. intuition discriminate.
    + consumer T G. rewrite <- (says_iff _ _ T (seg_nodup' J2 _ T) "ECOACode" "Z") by field. intuition discriminate.
  - counter; [intuition discriminate|]. cbn [seg_counters]. rewrite mentions_when. settle_names. settle_parts. cbn [sFields].
    rewrite <- (named_iff _ _ T (seg_nodup' N1 _ T)) by field. intuition.
  - counter; [intuition discriminate|]. cbn [seg_counters]. rewrite mentions_when. settle_names. settle_parts. cbn [sFields].
    rewrite <- (named_iff _ _ T (seg_nodup' K1 _ T)) by field. intuition.
  - counter; [intuition discriminate|]. cbn [seg_counters]. rewrite mentions_when. settle_names. settle_parts. cbn [sFields].
    rewrite (coded_number_iff _ _ T (seg_nodup' K2 _ T) _ [2; 1]) by field. unfold coded_number. cbn [In].
    split; [intros [_ (z & [Hz|[Hz|[]]] & Hh)]; exists z; auto|].
    intros (z & [Hz|[Hz|[]]] & Hh); (split; [reflexivity|]); exists z; auto.
  - counter; [intuition discriminate|]. cbn [seg_counters]. rewrite mentions_when. settle_names. settle_parts. cbn [sFields].
    rewrite Z.eqb_eq. rewrite (get_int_iff _ _ T (seg_nodup' K3 _ T)) by field. intuition.
  - counter; [intuition discriminate|]. cbn [seg_counters]. rewrite mentions_when. settle_names. settle_parts. cbn [sFields].
    rewrite (coded_number_iff _ _ T (seg_nodup' K4 _ T)) by field. intuition.
  - counter; [intuition discriminate|]. cbn [seg_counters]. rewrite mentions_when. settle_names. settle_parts. cbn [sFields].
    rewrite (coded_number_iff _ _ T (seg_nodup' L1 _ T)) by field. intuition.
  - counter.
    + rewrite <- (ssn_iff _ _ T H) by field. intuition.
    + consumer T G. rewrite <- (ssn_iff _ _ T (seg_nodup' J1 _ T)) by field. intuition discriminate.
    + consumer T G. rewrite <- (ssn_iff _ _ T (seg_nodup' J2 _ T)) by field. intuition discriminate.
  - counter. rewrite <- (ssn_iff _ _ T H) by field. intuition.
  - counter; [intuition discriminate|]. consumer T G. rewrite <- (ssn_iff _ _ T (seg_nodup' J1 _ T)) by field. intuition.
  - counter; [intuition discriminate|]. consumer T G. rewrite <- (ssn_iff _ _ T (seg_nodup' J2 _ T)) by field. intuition.
  - counter.
    + rewrite <- (birth_iff _ _ T H) by (field || assumption). intuition.
    + consumer T G. rewrite <- (birth_iff _ _ T (seg_nodup' J1 _ T)) by (field || assumption). intuition discriminate.
    + consumer T G. rewrite <- (birth_iff _ _ T (seg_nodup' J2 _ T)) by (field || assumption). intuition discriminate.
  - counter. rewrite <- (birth_iff _ _ T H) by (field || assumption). intuition.
  - counter; [intuition discriminate|]. consumer T G. rewrite <- (birth_iff _ _ T (seg_nodup' J1 _ T)) by (field || assumption). intuition.
  - counter; [intuition discriminate|]. consumer T G. rewrite <- (birth_iff _ _ T (seg_nodup' J2 _ T)) by (field || assumption). intuition.
  - counter.
    + rewrite <- (phone_iff _ _ T H) by field. intuition.
    + consumer T G. rewrite <- (phone_iff _ _ T (seg_nodup' J1 _ T)) by field. intuition discriminate.
    + consumer T G. rewrite <- (phone_iff _ _ T (seg_nodup' J2 _ T)) by field. intuition discriminate.
Qed.

(* ---- from parts to files ---- *)

Fixpoint occurrences (n : string) (l : list string) : Z :=
  match l with [] => 0 | m :: l' => (if String.eqb n m then 1 else 0) + occurrences n l' end.

Lemma occurrences_app n a b : occurrences n (a ++ b) = occurrences n a + occurrences n b.
Proof. induction a as [|x a IH]; [reflexivity|]. cbn [app occurrences]. lia. Qed.

Lemma occurrences_absent n l : mentions n l = false -> occurrences n l = 0.
Proof.
  induction l as [|m l IH]; [reflexivity|]. cbn [mentions existsb occurrences]. intros H.
  apply orb_false_iff in H as [-> H]. rewrite (IH H). reflexivity.
Qed.

Lemma occurrences_once n l : NoDup l -> occurrences n l = if mentions n l then 1 else 0.
Proof.
  induction 1 as [|m l N ND IH]; [reflexivity|]. cbn [mentions existsb occurrences].
  destruct (String.eqb_spec n m) as [->|]; cbn [orb]; [|exact IH].
  rewrite occurrences_absent; [reflexivity|]. destruct (mentions m l) eqn:E; [|reflexivity].
  apply mentions_In in E. contradiction.
Qed.

Lemma counted_parts np l : counts np -> Forall part_typed l ->
  counted (snd np) l (occurrences (fst np) (flat_map part_counters l)).
Proof.
  intros C. induction 1 as [|p l T H IH]; [constructor|]. cbn [flat_map].
  rewrite occurrences_app, (occurrences_once _ _ (part_counters_nodup p)).
  pose proof (C p T) as E. destruct (mentions _ _).
  - rewrite Z.add_comm. apply counted_yes; [apply E; reflexivity|exact IH].
  - apply counted_no; [|exact IH]. intros H1. apply E in H1. discriminate.
Qed.

Lemma incr_field n m st : In n (map fst st) -> get_int n (incr st m) = get_int n st + (if String.eqb n m then 1 else 0).
Proof.
  intros I. unfold incr, get_int at 1. rewrite lookup_set_field.
  destruct (String.eqb_spec n m) as [->|].
  - apply In_fst_lookup in I as (v & L). rewrite L. reflexivity.
  - unfold get_int. destruct (lookup n st) as [[]|]; lia.
Qed.

Lemma incr_names m st : map fst (incr st m) = map fst st.
Proof. apply set_field_names. Qed.

Lemma incr_all l : forall n st, In n (map fst st) ->
  get_int n (fold_left incr l st) = get_int n st + occurrences n l.
Proof.
  induction l as [|m l IH]; intros n st I; [cbn; lia|]. cbn [fold_left occurrences].
  rewrite IH by (rewrite incr_names; exact I). rewrite incr_field by exact I. lia.
Qed.

Lemma incr_all_names l : forall st, map fst (fold_left incr l st) = map fst st.
Proof. induction l as [|m l IH]; intros st; [reflexivity|]. cbn [fold_left]. rewrite IH. apply incr_names. Qed.

(* counters are number fields *)
Lemma incr_types m st : In (m, KInt) (types st) -> NoDup (map fst st) -> types (incr st m) = types st.
Proof.
  intros I ND. unfold incr. apply set_field_types. apply can_assign_spec.
  rewrite <- types_names in ND. apply (In_lookup _ _ _ ND) in I. rewrite lookup_types in I.
  destruct (lookup m st) as [v|]; [|discriminate]. cbn in I. injection I as I. exists v. split; [reflexivity|]. rewrite I. reflexivity.
Qed.

Lemma incr_all_types l : forall st, NoDup (map fst st) -> Forall (fun m => In (m, KInt) (types st)) l ->
  types (fold_left incr l st) = types st.
Proof.
  induction l as [|m l IH]; intros st ND F; [reflexivity|]. inversion F; subst. cbn [fold_left].
  rewrite IH; [apply incr_types; assumption|rewrite incr_names; exact ND|rewrite incr_types; assumption].
Qed.

Definition counter_names : list string :=
  ["TotalSocialNumbersBaseSegments"; "TotalDatesBirthBaseSegments"] ++ map status_total status_codes
  ++ flat_map seg_counter_names all_kinds.

Lemma part_counters_names p n : In n (part_counters p) -> In n counter_names.
Proof.
  unfold counter_names. rewrite !in_app_iff. destruct p as [st|k st]; cbn [part_counters].
  - unfold own_counters. rewrite !in_app_iff. intros [H|[H|[H|[H|H]]]].
    5: { right; left. destruct (mentions n (map status_total status_codes)) eqn:E; [apply mentions_In; exact E|].
      assert (~ In n (map status_total status_codes)) as N by (apply not_status; exact E).
      apply mentions_In in H. rewrite mentions_status in H by exact N. discriminate. }
    all: revert H; destruct (_ : bool); cbn [when In]; try contradiction.
    all: intros H; repeat (destruct H as [<-|H]); try contradiction;
      first [left; cbn [In]; tauto | right; right; apply existsb_string_In; vm_compute; reflexivity].
  - intros H. apply seg_counters_names in H. right. right. apply in_flat_map. exists k. split; [|exact H].
    destruct k; cbn; tauto.
Qed.
