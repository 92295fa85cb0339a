(* Errors of Validate are true *)
From Coq Require Import ZArith NArith Bool Ascii String List Lia.
Import ListNotations.
From Verif Require Import GoBase GoBaseFacts GoTime Tables Codec Records File
  SpecCodec SpecLayouts SpecRecords SpecFile SpecValidate SpecCounters SpecReport
  TimeFacts FieldFacts RecordFacts RoundTrip FieldProps RegexFacts ValidateFacts CounterFacts CounterProps.
Local Open Scope string_scope.
Local Open Scope Z_scope.
Local Open Scope list_scope.
Local Notation length := List.length.

(* ---- the loop ---- *)

Lemma validate_fields_report {A} (r : A) l vs rn e : forall st,
  validate_fields r l vs rn st = Some e ->
  exists before n v after, st = before ++ (n, v) :: after
    /\ (needed l n = true /\ value_is_zero v = true /\ e = ErrFieldRequired n rn
        \/ needed l n && value_is_zero v = false /\ exists m, lookup n vs = Some m /\ m r = Some e)
    /\ (forall n' v', In (n', v') before -> needed l n' = true -> value_is_zero v' = false)
    /\ (forall n' m, In n' (map fst before) -> lookup n' vs = Some m -> m r = None).
Proof.
  induction st as [|[n v] st IH]; cbn [validate_fields]; [discriminate|].
  assert ((match lookup n l with
        | Some f => match fRequired f with required => value_is_zero v | _ => false end
        | None => false end) = needed l n && value_is_zero v) as ->.
  { unfold needed. destruct (lookup n l) as [f|]; [|reflexivity]. destruct (fRequired f); reflexivity. }
  destruct (needed l n && value_is_zero v) eqn:M.
  - intros [= <-]. apply andb_prop in M as [M1 M2]. exists [], n, v, st. split; [reflexivity|].
    split; [left; auto|]. split; intros ? ? [].
  - destruct (lookup n vs) as [m|] eqn:L.
    + destruct (m r) as [e'|] eqn:E.
      * intros [= <-]. exists [], n, v, st. split; [reflexivity|]. split; [right; eauto|]. split; intros ? ? [].
      * intros H. destruct (IH H) as (bf & n1 & v1 & af & -> & C & P & Q). exists ((n, v) :: bf), n1, v1, af.
        split; [reflexivity|]. split; [exact C|]. split.
        -- intros n' v' [[= <- <-]|I] Nd; [rewrite Nd in M; exact M|eauto].
        -- intros n' m' [<-|I] L'; [cbn [fst] in L'; congruence|eauto].
    + intros H. destruct (IH H) as (bf & n1 & v1 & af & -> & C & P & Q). exists ((n, v) :: bf), n1, v1, af.
      split; [reflexivity|]. split; [exact C|]. split.
      -- intros n' v' [[= <- <-]|I] Nd; [rewrite Nd in M; exact M|eauto].
      -- intros n' m' [<-|I] L'; [cbn [fst] in L'; congruence|eauto].
Qed.

(* ---- presence of a field ---- *)

Lemma absent_iff doc l s st n v : musts doc l s = true -> has_type s st -> good_times st -> NoDup (map fst st) ->
  In (n, v) st -> (absent doc st n <-> needed l n && value_is_zero v = true).
Proof.
  unfold musts. rewrite forallb_forall. intros M T G ND I. pose proof (M _ (typed_in _ _ _ _ T I)) as E.
  cbn [fst] in E. apply eqb_prop in E.
  assert (value_is_zero v = true <-> ~ present v) as Z.
  { pose proof (zero_value v) as Zv. rewrite <- Zv; [destruct (value_is_zero v); intuition congruence|].
    intros t ->. apply (G _ _ I). }
  rewrite andb_true_iff, Z, E. unfold absent. split.
  - intros (d & w & Hd & Hm & <- & Hw & P). apply (In_lookup _ _ _ ND) in Hw, I. assert (w = v) by congruence. subst w.
    split; [|exact P]. apply existsb_exists. exists d. rewrite String.eqb_refl, Hm. auto.
  - intros [Hx P]. apply existsb_exists in Hx as (d & Hd & Hx). apply andb_prop in Hx as [H1 H2].
    apply String.eqb_eq in H1. exists d, v. auto.
Qed.

(* ---- methods and rules ---- *)

(* a method says nothing exactly when the rule is kept, and otherwise names the field *)
Definition speaks {A} (r : A) (called : string -> string) (vm : string * (A -> option error)) (nr : string * Prop) : Prop :=
  fst vm = fst nr /\ (snd vm r = None <-> snd nr)
  /\ (forall e, snd vm r = Some e -> exists label, e = ErrInvalidValueOfField label (called (fst vm)) /\ names label (fst vm)).

Lemma Forall2_l {A B} (R : A -> B -> Prop) l l' x : Forall2 R l l' -> In x l -> exists y, In y l' /\ R x y.
Proof. induction 1; intros []; [subst; eauto with datatypes|]. destruct IHForall2 as (y' & ? & ?); eauto with datatypes. Qed.
Lemma Forall2_r {A B} (R : A -> B -> Prop) l l' y : Forall2 R l l' -> In y l' -> exists x, In x l /\ R x y.
Proof. induction 1; intros []; [subst; eauto with datatypes|]. destruct IHForall2 as (y' & ? & ?); eauto with datatypes. Qed.

Lemma validate_reports {A} (r : A) doc l s st vs rules title called e :
  musts doc l s = true -> has_type s st -> good_times st -> NoDup (map fst st) ->
  NoDup (map fst vs) -> Forall2 (speaks r called) vs rules ->
  validate_fields r l vs title st = Some e -> reports doc rules st title called e.
Proof.
  intros M T G ND NV F H. apply validate_fields_report in H as (bf & n & v & af & E & C & P & Q).
  assert (In (n, v) st) as I by (rewrite E; apply in_elt).
  assert (forall m, In m (map fst bf) -> exists w, In (m, w) bf /\ In (m, w) st) as Bf.
  { intros m Hm. apply in_map_iff in Hm as ([m' w] & <- & Hm). exists w. split; [exact Hm|]. rewrite E. apply in_or_app. auto. }
  exists bf, n, v, af. split; [exact E|]. split.
  - destruct C as [(C1 & C2 & ->)|(C1 & m & Lm & Em)].
    + constructor. apply (absent_iff doc l s st n v M T G ND I). rewrite C1, C2. reflexivity.
    + apply lookup_In in Lm. destruct (Forall2_l _ _ _ _ F Lm) as ([n' R] & IR & S1 & S2 & S3). cbn [fst snd] in *. subst n'.
      destruct (S3 e Em) as (label & -> & Nm). constructor; [|exists R; split; [exact IR|]|exact Nm].
      * rewrite (absent_iff doc l s st n v M T G ND I), C1. discriminate.
      * rewrite <- S2, Em. discriminate.
  - intros m Hm. destruct (Bf m Hm) as (w & Iw & Iw'). split.
    + rewrite (absent_iff doc l s st m w M T G ND Iw'). intros X. apply andb_prop in X as [X1 X2].
      rewrite (P m w Iw X1) in X2. discriminate.
    + intros (R & IR & NR). destruct (Forall2_r _ _ _ _ F IR) as ([n' mm] & Im & S1 & S2 & S3). cbn [fst snd] in *. subst n'.
      apply NR. rewrite <- S2. apply (Q m mm Hm). apply In_lookup; assumption.
Qed.

(* ---- single methods ---- *)

Lemma speaks_if {A} (r : A) called n m label (b : bool) R : m r = (if b then None else invalid label (called n)) ->
  names label n -> (b = true <-> R) -> speaks r called (n, m) (n, R).
Proof.
  intros E Nm B. split; [reflexivity|]. cbn [fst snd]. rewrite E. split.
  - rewrite <- B. apply if_none.
  - intros e. destruct b; [discriminate|]. intros [= <-]. eauto.
Qed.
Lemma speaks_unless {A} (r : A) called n m label (b : bool) R : m r = (if b then invalid label (called n) else None) ->
  names label n -> (b = false <-> R) -> speaks r called (n, m) (n, R).
Proof.
  intros E Nm B. split; [reflexivity|]. cbn [fst snd]. rewrite E, <- B. split.
  - unfold invalid. destruct b; split; congruence.
  - intros e. destruct b; [|discriminate]. intros [= <-]. eauto.
Qed.
Lemma speaks_eq {A} (r : A) called n m R : (m r = None <-> R) ->
  (m r = None \/ exists label, m r = Some (ErrInvalidValueOfField label (called n)) /\ names label n) ->
  speaks r called (n, m) (n, R).
Proof.
  intros B C. split; [reflexivity|]. cbn [fst snd]. split; [exact B|]. intros e E.
  destruct C as [C|(l & C & Nm)]; [congruence|]. exists l. split; [congruence|exact Nm].
Qed.


Lemma speaks_filled s st (T : has_type s st) (ND : NoDup (map fst st)) called n z m mt label :
  In (n, KInt) s -> In (m, KStr) s ->
  mt st = (if (get_int n st =? z) && negb (valid_filled_string (get_str m st)) then invalid label (called m) else None) ->
  names label m ->
  speaks st called (m, mt) (m, forall x, holds st n (VInt z) -> holds st m (VStr x) -> filled x).
Proof.
  intros I1 I2 E Nm. apply speaks_eq; rewrite E.
  - apply (filled_when _ _ T ND); assumption.
  - destruct (_ && _); [right|left; reflexivity]. exists label. auto.
Qed.

(* a consumer without number and date of birth, unless the ECOA code says so *)
Lemma speaks_identity s st (T : has_type s st) (ND : NoDup (map fst st)) (G : good_times st) called n m label (b : bool) R :
  In ("SocialSecurityNumber", KInt) s -> In ("DateBirth", KTime) s ->
  m st = (if no_ssn_no_birth st then if b then None else invalid label (called n) else None) ->
  names label n -> (b = true <-> R) -> speaks st called (n, m) (n, identified st \/ R).
Proof.
  intros I1 I2 E Nm B. pose proof (identified_iff _ _ T ND I1 I2 G) as Id. apply speaks_eq; rewrite E.
  - rewrite <- Id, <- B. unfold invalid. destruct (no_ssn_no_birth st), b; intuition congruence.
  - destruct (no_ssn_no_birth st); [|auto]. destruct b; [auto|]. right. exists label. auto.
Qed.

Definition seg_called (k : segkind) (n : string) : string := if about_identity n then "base segment" else seg_title k.

Lemma seg_speaks s : seg_typed s -> good_times (sFields s) ->
  Forall2 (speaks (sFields s) (seg_called (sKind s))) (seg_validators (sKind s)) (seg_field_rules (sKind s) (sFields s)).
Proof.
  intros T G. pose proof (seg_nodup s T) as ND. unfold seg_typed in T.
  set (st := sFields s) in *. destruct (sKind s); cbn [seg_validators seg_struct seg_field_rules] in *;
    unfold j1_validators, j2_validators, k1_validators, k2_validators, k3_validators, k4_validators, l1_validators;
    repeat (apply Forall2_cons || apply Forall2_nil).
  - eapply speaks_if; [reflexivity|vm_compute; reflexivity|]. apply (coded_iff _ _ T ND); [field|codes].
  - apply speaks_eq; unfold validate_telephone; rewrite phone_any; tauto.
  - eapply speaks_unless; [reflexivity|vm_compute; reflexivity|]. apply (identified_iff _ _ T ND); [field|field|assumption].
  - eapply speaks_unless; [reflexivity|vm_compute; reflexivity|]. apply (identified_iff _ _ T ND); [field|field|assumption].
  - eapply speaks_if; [reflexivity|vm_compute; reflexivity|]. apply (coded_iff _ _ T ND); [field|codes].
  - apply speaks_eq; unfold validate_telephone; rewrite phone_any; tauto.
  - eapply speaks_if; [reflexivity|vm_compute; reflexivity|]. apply (coded_iff _ _ T ND); [field|codes].
  - eapply speaks_if; [reflexivity|vm_compute; reflexivity|]. apply (coded_iff _ _ T ND); [field|codes].
  - eapply (speaks_identity _ _ T ND G); [field|field|reflexivity|vm_compute; reflexivity|].
    rewrite bytes_eqb_eq, upper_w. rewrite <- (coded_iff _ _ T ND "ECOACode" ["W"; "w"] ["W"; "w"]) by (field || codes).
    rewrite one_of_spec. cbn. split; [intros [H|H]; eauto|intros (c & [<-|[<-|[]]] & H); auto].
  - eapply (speaks_identity _ _ T ND G); [field|field|reflexivity|vm_compute; reflexivity|].
    rewrite bytes_eqb_eq, upper_w. rewrite <- (coded_iff _ _ T ND "ECOACode" ["W"; "w"] ["W"; "w"]) by (field || codes).
    rewrite one_of_spec. cbn. split; [intros [H|H]; eauto|intros (c & [<-|[<-|[]]] & H); auto].
  - eapply (speaks_if _ _ _ _ "creditor classification"); [cbv beta; reflexivity|vm_compute; reflexivity|]. rewrite (coded_number_iff _ _ T ND) by field.
    unfold coded_number. split.
    + intros (z & Hz & H). exists z. split; [exact H|]. cbn in Hz. lia.
    + intros (z & H & Hz). exists z. split; [|exact H]. cbn. lia.
  - eapply speaks_if; [reflexivity|vm_compute; reflexivity|]. apply (coded_number_iff _ _ T ND). field.
  - eapply (speaks_filled _ _ T ND); [field|field|reflexivity|vm_compute; reflexivity].
  - eapply speaks_if; [reflexivity|vm_compute; reflexivity|]. apply (coded_number_iff _ _ T ND). field.
  - eapply (speaks_filled _ _ T ND); [field|field|reflexivity|vm_compute; reflexivity].
  - eapply speaks_if; [reflexivity|vm_compute; reflexivity|]. apply (coded_number_iff _ _ T ND). field.
  - eapply speaks_if; [reflexivity|vm_compute; reflexivity|]. apply (coded_number_iff _ _ T ND). field.
  - eapply (speaks_filled _ _ T ND); [field|field|reflexivity|vm_compute; reflexivity].
  - eapply (speaks_filled _ _ T ND); [field|field|reflexivity|vm_compute; reflexivity].
Qed.

Lemma seg_reports s e : seg_typed s -> good_times (sFields s) -> seg_validate s = Some e -> reported_seg s e.
Proof.
  intros T G H. unfold reported_seg, reports_identity. fold (seg_called (sKind s)).
  eapply validate_reports; [apply seg_musts|exact T|exact G|exact (seg_nodup s T)| |exact (seg_speaks s T G)|].
  - apply nodupb_NoDup. destruct (sKind s); vm_compute; reflexivity.
  - unfold seg_validate in H. rewrite <- H. destruct (sKind s); reflexivity.
Qed.

(* ---- base segment ---- *)

Definition base_called (packed : bool) (n : string) : string := if about_identity n then "base segment" else base_title packed.

Lemma base_speaks p st : has_type base_struct st -> good_times st ->
  Forall2 (speaks st (base_called p)) (base_validators p) (base_field_rules p st).
Proof.
  intros T G. pose proof (base_nodup _ T) as ND. unfold base_validators, base_field_rules.
  assert (base_rname p = base_title p) as Rn by (destruct p; reflexivity).
  repeat (apply Forall2_cons || apply Forall2_nil).
  - eapply (speaks_if _ _ _ _ "correction indicator"); [rewrite Rn; reflexivity|vm_compute; reflexivity|].
    apply (coded_number_iff _ _ T ND). field.
  - eapply (speaks_unless _ _ _ _ "identification number"); [rewrite Rn; reflexivity|vm_compute; reflexivity|].
    split.
    + intros H s Hs Hf. apply filled_iff in Hf. apply (get_str_iff _ _ T ND "IdentificationNumber") in Hs; [|field]. congruence.
    + intros H. destruct (valid_filled_string _) eqn:E; [|reflexivity]. exfalso. apply filled_iff in E. revert E. apply H.
      apply (get_str_iff _ _ T ND "IdentificationNumber"); [field|reflexivity].
  - eapply (speaks_if _ _ _ _ "portfolio type"); [rewrite Rn; reflexivity|vm_compute; reflexivity|].
    apply (coded_iff _ _ T ND); [field|codes].
  - apply (speaks_if _ _ _ _ "terms duration"
      (one_of (get_str "TermsDuration" st) ["LOC"; "001"; "REV"] || match snd (atoi (get_str "TermsDuration" st)) with None => true | _ => false end));
      [|vm_compute; reflexivity|].
    + unfold validate_terms_duration. rewrite Rn. destruct (one_of _ _); [reflexivity|]. destruct (atoi _) as [? [|]]; reflexivity.
    + assert (forall s, holds st "TermsDuration" (VStr s) <-> get_str "TermsDuration" st = s) as K.
      { intros s. symmetry. apply (get_str_iff _ _ T ND). field. }
      rewrite orb_true_iff, one_of_spec.
      assert (match snd (atoi (get_str "TermsDuration" st)) with None => true | _ => false end = true
        <-> whole_number (get_str "TermsDuration" st)) as ->.
      { rewrite <- whole_number_iff. destruct (snd _); intuition congruence. }
      split.
      * intros H s Hs. apply K in Hs. subst s. destruct H as [(c & [<-|[<-|[<-|[]]]] & E)|H]; rewrite ?E; auto.
        right. right. apply whole_number_iff. reflexivity.
      * intros H. destruct (H _ (proj2 (K _) eq_refl)) as [E|[E|E]]; rewrite ?E; auto; left; eexists; (split; [|reflexivity]); cbn; auto.
  - eapply (speaks_if _ _ _ _ "terms frequency"); [rewrite Rn; reflexivity|vm_compute; reflexivity|].
    apply (coded_iff _ _ T ND); [field|codes].
  - apply (speaks_if _ _ _ _ "payment rating"
      (if one_of (get_str "AccountStatus" st) rated_statuses
       then one_of (get_str "PaymentRating" st) ["0"; "1"; "2"; "3"; "4"; "5"; "6"; "G"; "L"]
       else bytes_eqb (get_str "PaymentRating" st) [])); [|vm_compute; reflexivity|].
    + unfold validate_payment_rating. rewrite Rn. fold rated_statuses. destruct (one_of _ rated_statuses); reflexivity.
    + rewrite <- (coded_iff _ _ T ND "AccountStatus" rated_statuses rated_statuses),
        <- (coded_iff _ _ T ND "PaymentRating" ["0"; "1"; "2"; "3"; "4"; "5"; "6"; "G"; "L"] ["0"; "1"; "2"; "3"; "4"; "5"; "6"; "G"; "L"]),
        <- (get_str_iff _ _ T ND "PaymentRating") by (field || codes).
      rewrite <- bytes_eqb_eq. destruct (one_of _ rated_statuses); intuition congruence.
  - apply (speaks_if _ _ _ _ "payment history profile"
      (Nat.eqb (length (get_str "PaymentHistoryProfile" st)) 24
       && forallb (fun c => existsb (byte_eqb c) (payment_history_codes p)) (get_str "PaymentHistoryProfile" st)));
      [|vm_compute; reflexivity|].
    + unfold validate_payment_history. rewrite Rn. destruct (Nat.eqb _ _); reflexivity.
    + assert (forall s, holds st "PaymentHistoryProfile" (VStr s) <-> get_str "PaymentHistoryProfile" st = s) as K.
      { intros s. symmetry. apply (get_str_iff _ _ T ND). field. }
      assert (forall s, Forall (fun c => In c (history_codes p)) s
        <-> forallb (fun c => existsb (byte_eqb c) (payment_history_codes p)) s = true) as F.
      { intros s. rewrite forallb_Forall. split; apply Forall_impl; intros c; apply history_codes_iff. }
      rewrite andb_true_iff, Nat.eqb_eq, <- F. split.
      * intros H s Hs. apply K in Hs. subst s. exact H.
      * intros H. apply H. apply K. reflexivity.
  - eapply (speaks_if _ _ _ _ "interest type indicator"); [rewrite Rn; reflexivity|vm_compute; reflexivity|].
    apply (coded_iff _ _ T ND); [field|codes].
  - apply speaks_eq; unfold validate_telephone; rewrite phone_any; tauto.
  - eapply (speaks_identity _ _ T ND G); [field|field|reflexivity|vm_compute; reflexivity|].
    apply (coded_iff _ _ T ND); [field|codes].
  - eapply (speaks_identity _ _ T ND G); [field|field|reflexivity|vm_compute; reflexivity|].
    apply (coded_iff _ _ T ND); [field|codes].
  - eapply (speaks_if _ _ _ _ "account status"); [rewrite Rn; reflexivity|vm_compute; reflexivity|].
    apply (coded_iff _ _ T ND); [field|codes].
  - eapply (speaks_if _ _ _ _ "account type"); [rewrite Rn; reflexivity|vm_compute; reflexivity|].
    apply (coded_iff _ _ T ND); [field|codes].
  - eapply (speaks_if _ _ _ _ "special comment"); [rewrite Rn; reflexivity|vm_compute; reflexivity|].
    apply (coded_iff _ _ T ND); [field|codes].
Qed.

Lemma record_reports r e : record_ok r -> record_times r -> record_validate r = Some e -> reported_record r e.
Proof.
  destruct r as [p h|p b|p t]; cbn [record_ok record_times record_validate reported_record].
  - intros T G H. eapply (validate_reports h _ _ _ _ [] []); [apply header_musts|exact T|exact G|exact (header_nodup _ T)|constructor|constructor|].
    rewrite <- H. destruct p; reflexivity.
  - intros [[T _] _] [G _] H. unfold reports_identity. fold (base_called p).
    eapply validate_reports; [apply base_musts|exact T|exact G|exact (base_nodup _ T)| |exact (base_speaks p _ T G)|].
    + apply nodupb_NoDup. destruct p; vm_compute; reflexivity.
    + rewrite <- H. unfold base_validate. destruct p; reflexivity.
  - intros T _ H. eapply (validate_reports t _ _ _ _ [] []); [apply trailer_musts|exact T| |exact (trailer_nodup _ T)|constructor|constructor|].
    + intros n u Hu. apply (typed_in _ _ _ _ T) in Hu. cbn in Hu.
      repeat (destruct Hu as [Hu|Hu]; [discriminate|]). contradiction.
    + rewrite <- H. destruct p; reflexivity.
Qed.

(* ---- the rules field by field are the rules ---- *)

Lemma Forall_pairs (l : list (string * Prop)) : Forall (fun p => snd p) l <-> fold_right (fun p P => snd p /\ P) True l.
Proof.
  induction l as [|p l IH]; cbn; [split; auto|]. rewrite <- IH. split; [intros H; inversion H; auto|intros []; constructor; auto].
Qed.

Lemma seg_rules_fields k st : Forall (fun p => snd p) (seg_field_rules k st) <-> seg_rules k st.
Proof.
  rewrite Forall_pairs. destruct k; cbn [seg_field_rules fold_right snd seg_rules]; tauto.
Qed.

Lemma base_rules_fields p st : has_type base_struct st ->
  (Forall (fun p => snd p) (base_field_rules p st) <-> base_rules p st).
Proof.
  intros T. pose proof (base_nodup _ T) as ND. rewrite Forall_pairs. unfold base_field_rules, base_rules. cbn [fold_right snd].
  assert (coded st "AccountStatus" (rated_statuses ++ plain_statuses)
    <-> coded st "AccountStatus" rated_statuses \/ coded st "AccountStatus" plain_statuses) as ->.
  { unfold coded. split.
    - intros (c & Hc & H). apply in_app_iff in Hc as [Hc|Hc]; eauto.
    - intros [(c & Hc & H)|(c & Hc & H)]; exists c; rewrite in_app_iff; auto. }
  assert (coded st "AccountStatus" rated_statuses -> coded st "AccountStatus" plain_statuses -> False) as Dj.
  { intros (c & Hc & Hh) (d & Hd & Hh'). apply (In_lookup _ _ _ ND) in Hh, Hh'. rewrite Hh in Hh'. injection Hh' as E.
    unfold rated_statuses, plain_statuses in *. cbn [In] in *.
    repeat (destruct Hc as [<-|Hc]; [repeat (destruct Hd as [<-|Hd]; [discriminate E|]); contradiction|]). contradiction. }
  tauto.
Qed.

(* ---- the file ---- *)

Lemma first_error_some {A} (g : A -> option error) e : forall l, first_error g l = Some e ->
  exists before x after, l = before ++ x :: after /\ g x = Some e /\ Forall (fun y => g y = None) before.
Proof.
  induction l as [|x l IH]; cbn [first_error]; [discriminate|]. destruct (g x) eqn:E.
  - intros [= ->]. exists [], x, l. auto.
  - intros H. destruct (IH H) as (b & y & a & -> & Hy & F). exists (x :: b), y, a. auto.
Qed.

Lemma compare_information_some info t e : compare_information info t = Some e ->
  exists n v, In (n, v) info /\ mentions n skipped = false /\ e = ErrInvalidValueOfField n "trailer record"
    /\ forall w, lookup n t = Some w -> value_eqb v w = false.
Proof.
  induction info as [|[n v] info IH]; cbn [compare_information]; [discriminate|].
  change (existsb (String.eqb n) ["BlockDescriptorWord"; "RecordDescriptorWord"; "RecordIdentifier"]) with (mentions n skipped).
  destruct (mentions n skipped) eqn:M.
  - intros H. destruct (IH H) as (n' & v' & I & R). exists n', v'. split; [right; exact I|exact R].
  - destruct (lookup n t) as [w|] eqn:L.
    + destruct (value_eqb v w) eqn:E.
      * intros H. destruct (IH H) as (n' & v' & I & R). exists n', v'. split; [right; exact I|exact R].
      * intros [= <-]. exists n, v. split; [left; reflexivity|]. repeat split; [exact M|]. intros w'. congruence.
    + intros [= <-]. exists n, v. split; [left; reflexivity|]. repeat split; [exact M|]. intros w'. congruence.
Qed.

Lemma miscounted_report packed l t e : data_ok packed l -> has_type trailer_struct t ->
  compare_information (fold_left incr (flat_map part_counters (parts l)) (start (Z.of_nat (length l)))) t = Some e ->
  exists n, e = ErrInvalidValueOfField n "trailer record" /\ miscounted l t n.
Proof.
  intros D T H. pose proof (trailer_nodup _ T) as ND. pose proof (info_type l) as Ti.
  destruct (info_right packed l D) as [R B]. apply compare_information_some in H as (n & v & I & M & -> & W).
  exists n. split; [reflexivity|].
  assert (forall z, v = VInt z -> ~ holds t n (VInt z)) as No.
  { intros z -> Hz. apply (In_lookup _ _ _ ND) in Hz. apply W in Hz. cbn in Hz. rewrite Z.eqb_refl in Hz. discriminate. }
  pose proof (typed_in _ _ _ _ Ti I) as F. pose proof (proj1 (Forall_forall _ _) all_counters _ F) as [G|[G|G]]; cbn [fst] in G.
  - congruence.
  - subst n. right. split; [reflexivity|]. apply No. apply (In_lookup _ _ _ (trailer_nodup _ Ti)) in B, I. congruence.
  - left. apply in_map_iff in G as ([n' P] & En & G). cbn in En. subst n'. exists P. split; [exact G|].
    intros (c & Hc & Hh). destruct (R n P G) as (c' & Hc' & Hh'). rewrite (counted_unique _ _ _ _ Hc' Hc) in Hh'.
    revert Hh. apply No. apply (In_lookup _ _ _ (trailer_nodup _ Ti)) in Hh', I. congruence.
Qed.

Lemma file_reports f e : file_ok f -> file_times f -> file_validate f = Err e ->
  reported_record (flHeader f) e
  \/ record_valid (flHeader f) /\ reported_record (flTrailer f) e
  \/ record_valid (flHeader f) /\ record_valid (flTrailer f) /\
     (exists before r after, flBases f = before ++ r :: after /\ Forall record_valid before /\ reported_record r e)
  \/ record_valid (flHeader f) /\ record_valid (flTrailer f) /\ Forall record_valid (flBases f) /\
     (exists n, e = ErrInvalidValueOfField n "trailer record" /\ miscounted (flBases f) (record_fields (flTrailer f)) n).
Proof.
  intros O G H. pose proof (file_data_ok f O G) as D.
  destruct O as (_ & Oh & Ob & [t Et] & Ot). destruct G as (Gh & Gb & Gt).
  assert (forall r, In r (flBases f) -> record_ok r /\ record_times r) as OG.
  { intros r I. rewrite Forall_forall in Ob, Gb. destruct (Ob r I). auto. }
  unfold file_validate in H.
  destruct (record_validate (flHeader f)) as [x|] eqn:Vh; [injection H as ->; left; apply record_reports; assumption|].
  apply (record_validate_spec _ Oh Gh) in Vh. right.
  destruct (record_validate (flTrailer f)) as [x|] eqn:Vt;
    [injection H as ->; left; split; [exact Vh|]; apply record_reports; assumption|].
  apply (record_validate_spec _ Ot Gt) in Vt. right.
  destruct (first_error record_validate (flBases f)) as [x|] eqn:Vb.
  - injection H as ->. left. split; [exact Vh|]. split; [exact Vt|].
    apply first_error_some in Vb as (bf & r & af & E & Vr & F). exists bf, r, af. split; [exact E|]. split.
    + rewrite Forall_forall in *. intros y I. destruct (OG y) as [O1 G1]; [rewrite E; apply in_or_app; auto|].
      apply record_validate_spec; auto.
    + destruct (OG r) as [O1 G1]; [rewrite E; apply in_elt|]. apply record_reports; assumption.
  - right. split; [exact Vh|]. split; [exact Vt|].
    assert (Forall record_valid (flBases f)) as Fv.
    { apply first_error_none in Vb. rewrite Forall_forall in *. intros y I. destruct (OG y I). apply record_validate_spec; auto. }
    split; [exact Fv|]. rewrite (generate_information_spec _ _ D) in H.
    destruct (compare_information _ _) as [x|] eqn:C; [|discriminate]. injection H as ->.
    apply (miscounted_report _ _ _ _ D) in C; [exact C|]. rewrite Et in Ot |- *. exact Ot.
Qed.

(* character base segments are always called so *)
Lemma character_reports b e : record_ok (RBase false b) -> record_times (RBase false b) -> record_validate (RBase false b) = Some e ->
  reports_titled (base_doc false) (base_field_rules false (bFields b)) (bFields b) (base_title false) e.
Proof.
  intros O G H. destruct (record_reports _ _ O G H) as (bf & n & v & af & E & T & Q). exists bf, n, v, af.
  split; [exact E|]. split; [|exact Q]. destruct T as [A|label A B N]; [constructor; exact A|].
  assert ((if about_identity n then "base segment" else base_title false) = base_title false) as -> by (destruct (about_identity n); reflexivity).
  apply (tells_broken _ _ _ (base_title false) (fun _ => base_title false)); assumption.
Qed.
