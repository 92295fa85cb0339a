(* The validators of the model and the documented rules *)
From Coq Require Import ZArith NArith Bool Ascii String List Lia.
Import ListNotations.
From Verif Require Import GoBase GoBaseFacts GoTime Regex Tables Codec Records
  SpecCodec SpecLayouts SpecRecords SpecValidate TimeFacts FieldFacts RecordFacts RoundTrip FieldProps RegexFacts.
Local Open Scope string_scope.
Local Open Scope Z_scope.
Local Open Scope list_scope.
Local Notation length := List.length.

(* ---- the loop ---- *)

Definition needed (l : layout) (n : string) : bool :=
  match lookup n l with Some f => is_required (fRequired f) | None => false end.

Lemma validate_fields_spec {A} (r : A) l vs rn st :
  validate_fields r l vs rn st = None <->
  (forall n v, In (n, v) st -> needed l n = true -> value_is_zero v = false)
  /\ (forall n m, In n (map fst st) -> lookup n vs = Some m -> m r = None).
Proof.
  induction st as [|[n v] st IH]; cbn [validate_fields].
  - split; [intros _; split; [intros ? ? []|intros ? ? []]|reflexivity].
  - assert ((match lookup n l with
        | Some f => match fRequired f with required => value_is_zero v | _ => false end
        | None => false end) = needed l n && value_is_zero v) as ->.
    { unfold needed. destruct (lookup n l) as [f|]; [|reflexivity]. destruct (fRequired f); reflexivity. }
    destruct (needed l n && value_is_zero v) eqn:M.
    + split; [discriminate|]. intros [H _]. apply andb_prop in M as [M1 M2].
      rewrite (H n v (or_introl eq_refl) M1) in M2. discriminate.
    + destruct (match lookup n vs with Some m => m r | None => None end) eqn:E.
      * split; [discriminate|]. intros [_ H]. destruct (lookup n vs) as [m|] eqn:L; [|discriminate].
        rewrite (H n m (or_introl eq_refl) L) in E. discriminate.
      * rewrite IH. split; intros [H1 H2]; split.
        -- intros n' v' [[= <- <-]|I] Nd; [rewrite Nd in M; exact M|eauto].
        -- intros n' m [<-|I] L; [cbn [fst] in L; rewrite L in E; exact E|eauto].
        -- intros n' v' I. apply H1. right. exact I.
        -- intros n' m I. apply H2. right. exact I.
Qed.

(* ---- presence ---- *)

Lemma day_number_minus y m d : calendar_date y m d -> day_number y m d = -1 -> y = 0 /\ m = 12 /\ d = 31.
Proof.
  intros H E. pose proof (calendar_date_ranges _ _ _ H) as (Hy & Hm & Hd).
  unfold day_number in E.
  pose proof (days_before_nonneg m y) as N. pose proof (days_before_le m y Hm) as L.
  assert (y = 0) as ->.
  { destruct (Z.eq_dec y 0) as [->|]; [reflexivity|]. exfalso. Z.to_euclidean_division_equations; lia. }
  change (365 * (0 - 1) + (0 - 1) / 4 - (0 - 1) / 100 + (0 - 1) / 400) with (-366) in E.
  rewrite calendar_date_spec in H. destruct H as (_ & _ & V). unfold valid_day in V.
  rewrite andb_true_iff, !Z.leb_le in V.
  assert (m = 1 \/ m = 2 \/ m = 3 \/ m = 4 \/ m = 5 \/ m = 6 \/ m = 7 \/ m = 8 \/ m = 9 \/ m = 10
        \/ m = 11 \/ m = 12) as C by lia.
  destruct C as [->|[->|[->|[->|[->|[->|[->|[->|[->|[->|[->| ->]]]]]]]]]]];
    match type of E with context [days_before ?k ?y] =>
      let v := eval vm_compute in (days_before k y) in change (days_before k y) with v in E;
      let w := eval vm_compute in (days_in k y) in change (days_in k y) with w in V
    end; lia.
Qed.


Definition musts (doc : list doc_field) (l : layout) (s : structure) : bool :=
  forallb (fun p => Bool.eqb (needed l (fst p))
    (existsb (fun d => String.eqb (dName d) (fst p) && dMust d) doc)) s.

Lemma calendar_offset_zero t : calendar_time t ->
  match tOff t with None => True | Some o => -86400 < o < 86400 end ->
  (is_zero t = true <-> shows_zero t).
Proof.
  intros (Cd & Hh & Hm & Hs) Ho. unfold is_zero, shows_zero, abs_sec.
  rewrite andb_true_iff, !Z.eqb_eq.
  set (D := day_number (tYear t) (tMonth t) (tDay t)).
  assert (D = 0 <-> tYear t = 1 /\ tMonth t = 1 /\ tDay t = 1) as D0.
  { split; [intros; apply day_number_zero; auto|]. intros (A & B & C). unfold D. rewrite A, B, C. reflexivity. }
  destruct (tOff t) as [o|] eqn:Eo.
  - assert (D = -1 <-> tYear t = 0 /\ tMonth t = 12 /\ tDay t = 31) as D1.
    { split; [intros; apply day_number_minus; auto|]. intros (A & B & C). unfold D. rewrite A, B, C. reflexivity. }
    split.
    + intros [E N]. split; [exact N|]. assert (D = 0 \/ D = -1) as [Z|Z] by lia; [left|right]; intuition lia.
    + intros [N [(A & B & C & E)|(A & B & C & E)]]; split; auto.
      * assert (D = 0) as -> by (apply D0; auto). lia.
      * assert (D = -1) as -> by (apply D1; auto). lia.
  - split.
    + intros [E N]. split; [exact N|]. assert (D = 0) as Z by lia. apply D0 in Z as (A & B & C).
      assert (tHour t = 0 /\ tMin t = 0 /\ tSec t = 0) as (A' & B' & C') by lia.
      destruct t; cbn in *. subst. reflexivity.
    + intros [N E]. split; [|exact N]. unfold D. rewrite E. reflexivity.
Qed.

Lemma zero_value v : (forall t, v = VTime t -> calendar_time t) ->
  (value_is_zero v = false <-> present v).
Proof.
  intros H. destruct v as [z|s|t]; cbn.
  - rewrite Z.eqb_neq. tauto.
  - destruct s; split; congruence.
  - specialize (H t eq_refl). unfold struct_is_zero.
    destruct (tOff t) as [o|] eqn:E.
    + rewrite andb_false_r. split; [|reflexivity]. intros _ ->. discriminate.
    + rewrite andb_true_r. pose proof (calendar_offset_zero t H) as K. rewrite E in K. specialize (K I).
      unfold shows_zero in K. rewrite E in K. destruct (is_zero t).
      * destruct K as [K _]. destruct (K eq_refl) as [_ ->]. split; [discriminate|congruence].
      * split; [|reflexivity]. intros _ ->. destruct K as [_ K]. specialize (K (conj eq_refl eq_refl)). discriminate.
Qed.

Lemma typed_in s st n v : has_type s st -> In (n, v) st -> In (n, kind_of v) s.
Proof. intros <- H. apply in_map_iff. exists (n, v). auto. Qed.

Lemma presence doc l s st : musts doc l s = true -> has_type s st -> good_times st ->
  ((forall n v, In (n, v) st -> needed l n = true -> value_is_zero v = false) <-> complete doc st).
Proof.
  unfold musts. rewrite forallb_forall. intros M T G. split.
  - intros H d v Hd Hm Hv. pose proof (M _ (typed_in _ _ _ _ T Hv)) as E. cbn [fst] in E. apply eqb_prop in E.
    apply zero_value; [intros t ->; apply (G _ _ Hv)|]. apply (H (dName d) v Hv). rewrite E. apply existsb_exists.
    exists d. rewrite String.eqb_refl, Hm. auto.
  - intros H n v Hv Nd. pose proof (M _ (typed_in _ _ _ _ T Hv)) as E. cbn [fst] in E. apply eqb_prop in E.
    rewrite Nd in E. symmetry in E. apply existsb_exists in E as (d & Hd & E). apply andb_prop in E as [E1 E2].
    apply String.eqb_eq in E1. subst n.
    apply zero_value; [intros t ->; apply (G _ _ Hv)|]. eapply H; eauto.
Qed.

Definition has_field (s : structure) (n : string) (k : kind) : bool :=
  existsb (fun p => String.eqb (fst p) n && kind_eqb (snd p) k) s.
Lemma has_field_In s n k : has_field s n k = true -> In (n, k) s.
Proof.
  intros H. apply existsb_exists in H as ([n' k'] & I & E). apply andb_prop in E as [E1 E2]. cbn in E1, E2.
  apply String.eqb_eq in E1. subst n'. destruct k, k'; try discriminate; exact I.
Qed.

Definition same_codes (a b : list string) : bool :=
  forallb (fun c => existsb (String.eqb c) b) a && forallb (fun c => existsb (String.eqb c) a) b.
Lemma same_codes_In a b : same_codes a b = true -> forall c, In c a <-> In c b.
Proof.
  intros H. apply andb_prop in H as [H1 H2]. rewrite forallb_forall in H1, H2. intros c. split; intros I.
  - apply H1 in I. apply existsb_exists in I as (d & Hd & E). apply String.eqb_eq in E. subst. exact Hd.
  - apply H2 in I. apply existsb_exists in I as (d & Hd & E). apply String.eqb_eq in E. subst. exact Hd.
Qed.

Ltac field := apply has_field_In; vm_compute; reflexivity.
Ltac codes := apply same_codes_In; vm_compute; reflexivity.

(* ---- single rules; st has the fields of the structure ---- *)

Section Rules.
Context (s : structure) (st : fields) (T : has_type s st) (ND : NoDup (map fst st)).

Lemma get_str_iff n x : In (n, KStr) s -> (get_str n st = x <-> holds st n (VStr x)).
Proof.
  intros I. rewrite <- T in I. apply in_map_iff in I as ([n' v] & E & I). cbn in E. injection E as -> Kv.
  destruct v; try discriminate. unfold get_str, holds. rewrite (In_lookup _ _ _ ND I). split; [intros <-; exact I|].
  intros H. apply (In_lookup _ _ _ ND) in H. rewrite (In_lookup _ _ _ ND I) in H. congruence.
Qed.

Lemma get_int_iff n x : In (n, KInt) s -> (get_int n st = x <-> holds st n (VInt x)).
Proof.
  intros I. rewrite <- T in I. apply in_map_iff in I as ([n' v] & E & I). cbn in E. injection E as -> Kv.
  destruct v; try discriminate. unfold get_int, holds. rewrite (In_lookup _ _ _ ND I). split; [intros <-; exact I|].
  intros H. apply (In_lookup _ _ _ ND) in H. rewrite (In_lookup _ _ _ ND I) in H. congruence.
Qed.

Lemma get_time_iff n x : In (n, KTime) s -> (get_time n st = x <-> holds st n (VTime x)).
Proof.
  intros I. rewrite <- T in I. apply in_map_iff in I as ([n' v] & E & I). cbn in E. injection E as -> Kv.
  destruct v; try discriminate. unfold get_time, holds. rewrite (In_lookup _ _ _ ND I). split; [intros <-; exact I|].
  intros H. apply (In_lookup _ _ _ ND) in H. rewrite (In_lookup _ _ _ ND I) in H. congruence.
Qed.

Lemma coded_iff n l l' : In (n, KStr) s -> (forall c, In c l <-> In c l') ->
  (one_of (get_str n st) l = true <-> coded st n l').
Proof.
  intros I E. rewrite one_of_spec. unfold coded. split; intros (c & Hc & H); exists c; rewrite E in * || rewrite <- E in *;
    (split; [assumption|]); apply (get_str_iff n); auto.
Qed.

Lemma coded_number_iff n l : In (n, KInt) s ->
  (one_of_int (get_int n st) l = true <-> coded_number st n l).
Proof.
  intros I. unfold one_of_int, coded_number. rewrite existsb_exists. split.
  - intros (z & Hz & E). apply Z.eqb_eq in E. exists z. split; [exact Hz|]. apply (get_int_iff n); auto.
  - intros (z & Hz & E). exists z. split; [exact Hz|]. apply (get_int_iff n) in E; auto. subst. apply Z.eqb_refl.
Qed.

Lemma filled_iff x : valid_filled_string x = true <-> filled x.
Proof.
  unfold valid_filled_string, filled. rewrite !orb_true_iff, !all_char_spec. split.
  - intros [[H|H]|H]; exists (length x); auto.
  - intros (n & [->|[->| ->]]); rewrite repeat_length; auto.
Qed.

(* when the number field says z, the text field must be filled *)
Lemma filled_when n z m rn f : In (n, KInt) s -> In (m, KStr) s ->
  ((if (get_int n st =? z) && negb (valid_filled_string (get_str m st)) then invalid f rn else None) = None
   <-> (forall x, holds st n (VInt z) -> holds st m (VStr x) -> filled x)).
Proof.
  intros In1 In2. split.
  - intros H x Hz Hx. apply filled_iff. apply (get_int_iff n) in Hz; auto. apply (get_str_iff m) in Hx; auto.
    rewrite Hz, Hx, Z.eqb_refl in H. destruct (valid_filled_string x); [reflexivity|discriminate].
  - intros H. destruct (Z.eqb_spec (get_int n st) z) as [E|]; [|reflexivity].
    apply (get_int_iff n) in E; auto. specialize (H (get_str m st) E).
    rewrite (proj2 (filled_iff _)); [reflexivity|]. apply H. apply (get_str_iff m); auto.
Qed.

Lemma identified_iff : In ("SocialSecurityNumber", KInt) s -> In ("DateBirth", KTime) s -> good_times st ->
  (no_ssn_no_birth st = false <-> identified st).
Proof.
  intros I1 I2 G. unfold no_ssn_no_birth, identified. rewrite andb_false_iff, Z.eqb_neq.
  assert (holds st "DateBirth" (VTime (get_time "DateBirth" st))) as Ht by (apply (get_time_iff "DateBirth"); auto).
  destruct (G _ _ Ht) as [C O]. pose proof (calendar_offset_zero _ C O) as K.
  assert (is_zero (get_time "DateBirth" st) = false <-> ~ shows_zero (get_time "DateBirth" st)) as K'.
  { rewrite <- K. destruct (is_zero _); intuition congruence. }
  rewrite K'. split.
  - intros [H|H]; [left|right; eauto]. exists (get_int "SocialSecurityNumber" st). split; [|exact H].
    apply (get_int_iff "SocialSecurityNumber"); auto.
  - intros [(z & Hz & N)|(t & Hb & N)].
    + left. apply (get_int_iff "SocialSecurityNumber") in Hz; auto. rewrite Hz. exact N.
    + right. apply (get_time_iff "DateBirth") in Hb; auto. rewrite Hb. exact N.
Qed.

End Rules.

Lemma if_none (b : bool) f rn : (if b then None else invalid f rn) = None <-> b = true.
Proof. unfold invalid. destruct b; split; intros H; congruence. Qed.

(* ---- segments ---- *)

Lemma seg_musts k : musts (seg_doc k) (seg_layout k) (seg_struct k) = true.
Proof. destruct k; vm_compute; reflexivity. Qed.
Lemma base_musts p : musts (base_doc p) (base_layout p) base_struct = true.
Proof. destruct p; vm_compute; reflexivity. Qed.
Lemma header_musts p : musts (header_doc p) (header_layout p) header_struct = true.
Proof. destruct p; vm_compute; reflexivity. Qed.
Lemma trailer_musts p : musts (trailer_doc p) (trailer_layout p) trailer_struct = true.
Proof. destruct p; vm_compute; reflexivity. Qed.

(* all the methods are called *)
Lemma methods {A} (r : A) (vs : validators A) s st : has_type s st ->
  nodupb (map fst vs) = true -> forallb (fun p => existsb (String.eqb (fst p)) (map fst s)) vs = true ->
  ((forall n m, In n (map fst st) -> lookup n vs = Some m -> m r = None)
   <-> Forall (fun p => snd p r = None) vs).
Proof.
  intros T N F. apply nodupb_NoDup in N. rewrite forallb_forall in F. rewrite Forall_forall. split.
  - intros H [n m] I. cbn. apply (H n m); [|apply In_lookup; auto]. rewrite (has_type_names _ _ T).
    specialize (F _ I). apply existsb_exists in F as (x & Hx & E). apply String.eqb_eq in E. cbn in E. subst. exact Hx.
  - intros H n m _ L. apply lookup_In in L. apply (H _ L).
Qed.

Lemma methods_all {A} (r : A) (vs : validators A) :
  Forall (fun p => snd p r = None) vs <-> fold_right (fun p P => snd p r = None /\ P) True vs.
Proof.
  induction vs as [|p vs IH]; cbn; [split; auto|]. rewrite <- IH. split.
  - intros H. inversion H; auto.
  - intros [H1 H2]. constructor; auto.
Qed.

Lemma upper_w x : to_upper x = lit "W" <-> x = lit "W" \/ x = lit "w".
Proof.
  split.
  - destruct x as [|c [|c' x]]; cbn; try discriminate. intros [= H].
    destruct c as [[] [] [] [] [] [] [] []]; vm_compute in H; try discriminate; auto.
  - intros [->| ->]; reflexivity.
Qed.

Lemma seg_validate_spec s : seg_typed s -> good_times (sFields s) ->
  (seg_validate s = None <-> complete (seg_doc (sKind s)) (sFields s) /\ seg_rules (sKind s) (sFields s)).
Proof.
  intros T G. pose proof (seg_nodup s T) as ND. unfold seg_validate.
  rewrite validate_fields_spec, (presence (seg_doc (sKind s)) _ _ _ (seg_musts (sKind s)) T G).
  apply and_iff_compat_l.
  rewrite (methods _ _ _ _ T) by (destruct (sKind s); reflexivity). rewrite methods_all.
  unfold seg_typed in T. destruct (sKind s) eqn:K; cbn [seg_validators seg_struct] in *;
    cbn [fold_right snd j1_validators j2_validators k1_validators k2_validators k3_validators k4_validators l1_validators seg_rules].
  - unfold validate_generation_code, validate_telephone, j1_validate_ssn. rewrite phone_any, if_none.
    rewrite (coded_iff _ _ T ND "GenerationCode" _ generation_codes)
      by (field || codes).
    rewrite <- (identified_iff _ _ T ND) by (field || assumption).
    destruct (no_ssn_no_birth (sFields s)); unfold invalid; intuition congruence.
  - unfold validate_generation_code, validate_telephone, j2_validate_ssn, j2_validate_address_indicator,
      j2_validate_residence_code. rewrite phone_any, !if_none.
    rewrite (coded_iff _ _ T ND "GenerationCode" _ generation_codes),
      (coded_iff _ _ T ND "AddressIndicator" _ [""; " "; "C"; "Y"; "N"; "M"; "S"; "B"; "U"; "D"; "P"]),
      (coded_iff _ _ T ND "ResidenceCode" _ [""; " "; "O"; "R"])
      by (field || codes).
    rewrite <- (identified_iff _ _ T ND) by (field || assumption).
    assert (coded (sFields s) "ECOACode" ["W"; "w"] <-> bytes_eqb (to_upper (get_str "ECOACode" (sFields s))) (lit "W") = true) as ->.
    { rewrite bytes_eqb_eq, upper_w. rewrite <- (coded_iff _ _ T ND "ECOACode" ["W"; "w"] ["W"; "w"]) by (field || codes).
      rewrite one_of_spec. cbn. split; [intros (c & [<-|[<-|[]]] & H); auto|]. intros [H|H]; eauto. }
    destruct (no_ssn_no_birth (sFields s)), (bytes_eqb _ _); unfold invalid; intuition congruence.
  - rewrite if_none. rewrite (coded_number_iff _ _ T ND) by field.
    unfold coded_number. split.
    + intros [(z & Hz & H) _]. exists z. split; [exact H|]. cbn in Hz. lia.
    + intros (z & H & Hz). split; [|exact I]. exists z. split; [|exact H]. cbn. lia.
  - rewrite if_none. rewrite (coded_number_iff _ _ T ND) by field.
    rewrite (filled_when _ _ T ND) by field. tauto.
  - rewrite if_none. rewrite (coded_number_iff _ _ T ND) by field.
    rewrite (filled_when _ _ T ND) by field. tauto.
  - rewrite if_none. rewrite (coded_number_iff _ _ T ND) by field. tauto.
  - rewrite if_none. rewrite (coded_number_iff _ _ T ND) by field.
    rewrite (filled_when _ _ T ND "ChangeIndicator" 2), (filled_when _ _ T ND "ChangeIndicator" 1) by field. tauto.
  - tauto.
Qed.

(* ---- header and trailer ---- *)

Lemma no_methods {A} (r : A) (st : fields) : (forall n m, In n (map fst st) -> lookup n ([] : validators A) = Some m -> m r = None) <-> True.
Proof. split; [auto|]. intros _ n m _ [=]. Qed.

Lemma header_validate_spec (p : bool) h : has_type header_struct h -> good_times h ->
  (header_validate p h = None <-> complete (header_doc p) h).
Proof.
  intros T G. unfold header_validate.
  rewrite validate_fields_spec, (presence _ _ _ _ (header_musts p) T G), no_methods. tauto.
Qed.

Lemma trailer_validate_spec (p : bool) h : has_type trailer_struct h ->
  (trailer_validate p h = None <-> complete (trailer_doc p) h).
Proof.
  intros T. unfold trailer_validate.
  assert (good_times h) as G.
  { intros n t H. apply (typed_in _ _ _ _ T) in H. cbn in H.
    repeat (destruct H as [H|H]; [discriminate|]). contradiction. }
  rewrite validate_fields_spec, (presence _ _ _ _ (trailer_musts p) T G), no_methods. tauto.
Qed.

(* ---- base segment ---- *)

Lemma whole_number_iff x : snd (atoi x) = None <-> whole_number x.
Proof.
  unfold atoi, parse_int, whole_number. change (64 - 1) with 63.
  assert (forall ds, Forall (fun c => In c digits) ds <-> forallb is_digit ds = true) as D by (intros; apply forall_digits).
  assert (forall ds, forallb is_digit ds = true -> dval ds = decimal ds) as V by (intros; symmetry; apply decimal_dval).
  split.
  - destruct x as [|c r]; [discriminate|].
    destruct (byte_eqb c "+"%char) eqn:P; [apply byte_eqb_eq in P; subst c|
      destruct (byte_eqb c "-"%char) eqn:M; [apply byte_eqb_eq in M; subst c|]].
    + destruct r as [|d r]; [discriminate|]. destruct (forallb is_digit (d :: r)) eqn:F; [|discriminate].
      cbn [negb andb]. destruct (Z.leb_spec (2 ^ 63) (dval (d :: r))); [discriminate|]. intros _.
      exists ["+"%char], (d :: r). rewrite V in * by assumption. rewrite D. intuition congruence.
    + destruct r as [|d r]; [discriminate|]. destruct (forallb is_digit (d :: r)) eqn:F; [|discriminate].
      cbn [negb andb]. destruct (Z.ltb_spec (2 ^ 63) (dval (d :: r))); [discriminate|]. intros _.
      exists ["-"%char], (d :: r). rewrite V in * by assumption. rewrite D. intuition congruence.
    + destruct (forallb is_digit (c :: r)) eqn:F; [|discriminate].
      cbn [negb andb]. destruct (Z.leb_spec (2 ^ 63) (dval (c :: r))); [discriminate|]. intros _.
      exists [], (c :: r). rewrite V in * by assumption. rewrite D. intuition congruence.
  - intros (sign & ds & -> & N & F & [[[->| ->] L]|[-> L]]); apply D in F; cbn [app].
    + destruct ds as [|d r]; [congruence|]. assert (is_digit d = true) as Hd by (cbn in F; apply andb_prop in F; tauto).
      destruct (digit_not_sign d Hd) as [-> ->]. rewrite F. cbn [negb andb]. rewrite V by assumption.
      destruct (Z.leb_spec (2 ^ 63) (decimal (d :: r))); [lia|]. reflexivity.
    + rewrite byte_eqb_refl. destruct ds as [|d r]; [congruence|]. rewrite F. cbn [negb andb]. rewrite V by assumption.
      destruct (Z.leb_spec (2 ^ 63) (decimal (d :: r))); [lia|]. reflexivity.
    + change (byte_eqb "-"%char "+"%char) with false. rewrite byte_eqb_refl. cbv iota.
      destruct ds as [|d r]; [congruence|]. rewrite F. cbn [negb andb]. rewrite V by assumption.
      destruct (Z.ltb_spec (2 ^ 63) (decimal (d :: r))); [lia|]. reflexivity.
Qed.

Lemma history_codes_iff p c : existsb (byte_eqb c) (payment_history_codes p) = true <-> In c (history_codes p).
Proof.
  rewrite existsb_exists. split.
  - intros (x & Hx & E). apply byte_eqb_eq in E. subst x. destruct p; cbn in *; tauto.
  - intros H. exists c. rewrite byte_eqb_refl. split; [|reflexivity]. destruct p; cbn in *; tauto.
Qed.

Lemma base_validate_spec (p : bool) b : has_type base_struct (bFields b) -> good_times (bFields b) ->
  (base_validate p b = None <-> complete (base_doc p) (bFields b) /\ base_rules p (bFields b)).
Proof.
  intros T G. pose proof (base_nodup _ T) as ND. unfold base_validate.
  rewrite validate_fields_spec, (presence _ _ _ _ (base_musts p) T G).
  apply and_iff_compat_l. set (st := bFields b) in *.
  rewrite (methods _ _ _ _ T) by (destruct p; reflexivity). rewrite methods_all.
  unfold base_validators. cbn [fold_right snd]. unfold base_rules.
  unfold validate_terms_duration, validate_telephone, base_validate_ssn, validate_payment_rating, validate_payment_history.
  rewrite phone_any, !if_none.
  rewrite (coded_number_iff _ _ T ND "CorrectionIndicator") by field.
  rewrite (coded_iff _ _ T ND "PortfolioType" _ ["C"; "I"; "L"; "M"; "O"; "R"]),
    (coded_iff _ _ T ND "TermsFrequency" _ [""; "D"; "P"; "W"; "B"; "E"; "M"; "L"; "Q"; "T"; "S"; "Y"]),
    (coded_iff _ _ T ND "InterestTypeIndicator" _ [""; "F"; "V"]),
    (coded_iff _ _ T ND "AccountType" _ account_types),
    (coded_iff _ _ T ND "SpecialComment" _ special_comments)
    by (field || codes).
  assert ((if valid_filled_string (get_str "IdentificationNumber" st)
           then invalid "identification number" (base_rname p) else None) = None
    <-> (forall s, holds st "IdentificationNumber" (VStr s) -> ~ filled s)) as ->.
  { split.
    - intros H s Hs Hf. apply filled_iff in Hf. apply (get_str_iff _ _ T ND "IdentificationNumber") in Hs; [|field].
      rewrite Hs, Hf in H. discriminate.
    - intros H. destruct (valid_filled_string _) eqn:E; [|reflexivity]. exfalso. apply filled_iff in E. revert E. apply H.
      apply (get_str_iff _ _ T ND "IdentificationNumber"); [field|reflexivity]. }
  assert ((if one_of (get_str "TermsDuration" st) ["LOC"; "001"; "REV"] then None
     else let (_, o) := atoi (get_str "TermsDuration" st) in
          match o with Some _ => invalid "terms duration" (base_rname p) | None => None end) = None
    <-> (forall s, holds st "TermsDuration" (VStr s) ->
        s = list_ascii_of_string "LOC" \/ s = list_ascii_of_string "REV" \/ whole_number s)) as ->.
  { assert (forall s, holds st "TermsDuration" (VStr s) <-> get_str "TermsDuration" st = s) as K.
    { intros s. symmetry. apply (get_str_iff _ _ T ND). field. }
    assert ((if one_of (get_str "TermsDuration" st) ["LOC"; "001"; "REV"] then None
     else let (_, o) := atoi (get_str "TermsDuration" st) in
          match o with Some _ => invalid "terms duration" (base_rname p) | None => None end) = None
      <-> one_of (get_str "TermsDuration" st) ["LOC"; "001"; "REV"] = true \/ snd (atoi (get_str "TermsDuration" st)) = None) as ->.
    { destruct (one_of _ _); [intuition congruence|]. destruct (atoi _) as [? [|]]; cbn; unfold invalid; intuition congruence. }
    rewrite one_of_spec, whole_number_iff. split.
    - intros H s Hs. apply K in Hs. subst s. destruct H as [(c & [<-|[<-|[<-|[]]]] & E)|H]; rewrite ?E; auto.
      right. right. apply whole_number_iff. reflexivity.
    - intros H. destruct (H _ (proj2 (K _) eq_refl)) as [E|[E|E]]; rewrite ?E; auto; left; eexists; (split; [|reflexivity]); cbn; auto. }
  assert ((if one_of (get_str "AccountStatus" st) ["05"; "13"; "65"; "88"; "89"; "94"; "95"]
     then if one_of (get_str "PaymentRating" st) ["0"; "1"; "2"; "3"; "4"; "5"; "6"; "G"; "L"] then None
          else invalid "payment rating" (base_rname p)
     else if bytes_eqb (get_str "PaymentRating" st) [] then None else invalid "payment rating" (base_rname p)) = None
    /\ one_of (get_str "AccountStatus" st)
            ["DF"; "DA"; "11"; "61"; "62"; "63"; "64"; "71"; "78"; "80"; "82"; "83"; "84"; "93";
             "96"; "97"; "05"; "13"; "65"; "88"; "89"; "94"; "95"] = true
    <-> (coded st "AccountStatus" rated_statuses
        /\ coded st "PaymentRating" ["0"; "1"; "2"; "3"; "4"; "5"; "6"; "G"; "L"]
      \/ coded st "AccountStatus" plain_statuses /\ holds st "PaymentRating" (VStr []))) as Rt.
  { rewrite <- (coded_iff _ _ T ND "AccountStatus" rated_statuses rated_statuses), <- (coded_iff _ _ T ND "AccountStatus" plain_statuses plain_statuses),
      <- (coded_iff _ _ T ND "PaymentRating" ["0"; "1"; "2"; "3"; "4"; "5"; "6"; "G"; "L"] ["0"; "1"; "2"; "3"; "4"; "5"; "6"; "G"; "L"]),
      <- (get_str_iff _ _ T ND "PaymentRating") by (field || codes).
    set (a := get_str "AccountStatus" st). set (q := get_str "PaymentRating" st).
    change (one_of a ["05"; "13"; "65"; "88"; "89"; "94"; "95"]) with (one_of a rated_statuses).
    assert (one_of a ["DF"; "DA"; "11"; "61"; "62"; "63"; "64"; "71"; "78"; "80"; "82"; "83"; "84"; "93";
             "96"; "97"; "05"; "13"; "65"; "88"; "89"; "94"; "95"] = true <-> one_of a rated_statuses = true \/ one_of a plain_statuses = true) as ->.
    { rewrite !one_of_spec. unfold rated_statuses, plain_statuses. split.
      - intros (c & Hc & E). cbn [In] in Hc.
        assert (In c ["05"; "13"; "65"; "88"; "89"; "94"; "95"] \/ In c ["11"; "61"; "62"; "63"; "64"; "71"; "78"; "80"; "82"; "83"; "84"; "93"; "96"; "97"; "DA"; "DF"]) as [H|H]
          by (cbn [In]; tauto); eauto.
      - intros [(c & Hc & E)|(c & Hc & E)]; exists c; (split; [|exact E]); cbn [In] in *; tauto. }
    assert (one_of a rated_statuses = true -> one_of a plain_statuses = true -> False) as Dj.
    { rewrite !one_of_spec. intros (c & Hc & ->) (d & Hd & E). unfold rated_statuses, plain_statuses in *. cbn [In] in *.
      repeat (destruct Hc as [<-|Hc]; [repeat (destruct Hd as [<-|Hd]; [discriminate E|]); contradiction|]). contradiction. }
    rewrite <- (bytes_eqb_eq q []). unfold invalid.
    destruct (one_of a rated_statuses), (one_of a plain_statuses), (one_of q _), (bytes_eqb q []);
      try (exfalso; apply Dj; reflexivity); intuition congruence. }
  assert ((if negb (Nat.eqb (length (get_str "PaymentHistoryProfile" st)) 24)
     then invalid "payment history profile" (base_rname p)
     else if forallb (fun c => existsb (byte_eqb c) (payment_history_codes p)) (get_str "PaymentHistoryProfile" st)
          then None else invalid "payment history profile" (base_rname p)) = None
    <-> (forall s, holds st "PaymentHistoryProfile" (VStr s) ->
        length s = 24%nat /\ Forall (fun c => In c (history_codes p)) s)) as ->.
  { assert (forall s, holds st "PaymentHistoryProfile" (VStr s) <-> get_str "PaymentHistoryProfile" st = s) as K.
    { intros s. symmetry. apply (get_str_iff _ _ T ND). field. }
    assert (forall s, Forall (fun c => In c (history_codes p)) s
      <-> forallb (fun c => existsb (byte_eqb c) (payment_history_codes p)) s = true) as F.
    { intros s. rewrite forallb_Forall. split; apply Forall_impl; intros c; apply history_codes_iff. }
    unfold invalid. destruct (Nat.eqb_spec (length (get_str "PaymentHistoryProfile" st)) 24) as [E|E]; cbn [negb].
    - split.
      + intros H s Hs. apply K in Hs. subst s. split; [exact E|]. apply F. destruct (forallb _ _); congruence.
      + intros H. destruct (H _ (proj2 (K _) eq_refl)) as [_ H2]. apply F in H2. rewrite H2. reflexivity.
    - split; [discriminate|]. intros H. destruct (H _ (proj2 (K _) eq_refl)). contradiction. }
  assert (forall f, (if no_ssn_no_birth st then if one_of (get_str "ECOACode" st) ["2"; "5"] then None
      else invalid f "base segment" else None) = None <-> identified st \/ coded st "ECOACode" ["2"; "5"]) as Id.
  { intros f. rewrite <- (identified_iff _ _ T ND), <- (coded_iff _ _ T ND "ECOACode" ["2"; "5"] ["2"; "5"])
      by (field || codes || assumption).
    destruct (no_ssn_no_birth st), (one_of (get_str "ECOACode" st) ["2"; "5"]); unfold invalid; clear Rt; intuition congruence. }
  rewrite !Id, <- Rt. tauto.
Qed.
