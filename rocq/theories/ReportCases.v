(* Errors and their texts: the errors of Validate are among those the texts tell
   apart, the answer of the server, and concrete cases *)
From Coq Require Import ZArith NArith Bool Ascii String List Lia.
Import ListNotations.
From Verif Require Import GoBase GoBaseFacts GoTime Tables Codec Records File Reader Server Errors
  SpecCodec SpecLayouts SpecRecords SpecFile SpecValidate SpecCounters SpecReport SpecServer
  FieldFacts RecordFacts RoundTrip ValidateFacts CounterFacts CounterProps ServerProps ReportFacts ErrorFacts Check Samples FileCases ServerCases.
Local Open Scope string_scope.
Local Open Scope Z_scope.
Local Open Scope list_scope.
Local Notation length := List.length.

(* ---- what Validate returns has a text and a title ---- *)

Definition told (e : error) : Prop :=
  exists n r, In r titles /\ (e = ErrFieldRequired n r \/ e = ErrInvalidValueOfField n r).

Lemma titledb r : existsb (String.eqb r) titles = true -> In r titles.
Proof. intros H. apply existsb_exists in H as (x & I & E). apply String.eqb_eq in E. subst. exact I. Qed.

Lemma told_titled e : told e -> well_titled e /\ exists t, error_text e = Some t.
Proof. intros (n & r & I & [->| ->]); (split; [exact I|]); cbn [error_text]; eauto. Qed.

Lemma validate_told {A} (r : A) l vs title e : forall st,
  In title titles -> (forall n m, In (n, m) vs -> m r = Some e -> told e) ->
  validate_fields r l vs title st = Some e -> told e.
Proof.
  intros st I M H. apply validate_fields_report in H as (bf & n & v & af & _ & [(_ & _ & ->)|(_ & m & Lm & Em)] & _).
  - exists n, title. auto.
  - apply lookup_In in Lm. eapply M; eauto.
Qed.

Lemma invalid_told n r e : In r titles -> invalid n r = Some e -> told e.
Proof. intros I [= <-]. exists n, r. auto. Qed.

Ltac told_method :=
  repeat match goal with
    | H : context [is_phone_number _ _] |- _ => rewrite RegexFacts.phone_any in H
    | H : (if ?b then _ else _) = Some _ |- _ => destruct b
    | H : (let (_, _) := ?x in _) = Some _ |- _ => destruct x
    | H : match ?x with Some _ => _ | None => _ end = Some _ |- _ => destruct x
    | H : None = Some _ |- _ => discriminate H
    end;
  try (eapply invalid_told; [|eassumption]; apply titledb; vm_compute; reflexivity).

Lemma base_methods_told (p : bool) e st n m : In (n, m) (base_validators p) -> m st = Some e -> told e.
Proof.
  intros I. unfold base_validators in I. cbn [In] in I.
  unfold validate_terms_duration, validate_telephone, base_validate_ssn, validate_payment_rating, validate_payment_history in I.
  repeat (destruct I as [I|I]; [injection I as _ <-; cbv beta zeta; intros H; destruct p; told_method|]). destruct I.
Qed.

Lemma record_told r e : record_validate r = Some e -> told e.
Proof.
  destruct r as [p h|p b|p t]; cbn [record_validate]; apply validate_told.
  - apply titledb. destruct p; vm_compute; reflexivity.
  - intros n m [].
  - apply titledb. destruct p; vm_compute; reflexivity.
  - intros n m I. apply (base_methods_told p e _ n m I).
  - apply titledb. destruct p; vm_compute; reflexivity.
  - intros n m [].
Qed.

Lemma seg_told s e : seg_validate s = Some e -> told e.
Proof.
  unfold seg_validate. apply validate_told.
  - apply titledb. destruct (sKind s); vm_compute; reflexivity.
  - intros n m I. destruct (sKind s); cbn [seg_validators] in I;
      unfold j1_validators, j2_validators, k1_validators, k2_validators, k3_validators, k4_validators, l1_validators,
        validate_generation_code, validate_telephone, j1_validate_ssn, j2_validate_ssn, j2_validate_address_indicator,
        j2_validate_residence_code in I; cbn [In] in I;
      repeat (destruct I as [I|I]; [injection I as _ <-; cbv beta zeta; intros H; told_method|]); destruct I.
Qed.

Lemma generate_no_error packed l e : generate_information packed l <> Err e.
Proof.
  unfold generate_information.
  assert (forall acc, acc <> Err e -> fold_left (fun acc r =>
    match acc with
    | Ok st =>
        match r with
        | RBase p b => if Bool.eqb p packed then Ok (fold_left incr (base_counters b) st) else Panic
        | _ => Panic
        end
    | x => x
    end) l acc <> Err e) as H.
  { induction l as [|r l IH]; intros acc N; [exact N|]. cbn [fold_left]. apply IH.
    destruct acc as [st|x|]; [|congruence|discriminate]. destruct r as [| |]; try discriminate. destruct (Bool.eqb _ _); discriminate. }
  apply H. discriminate.
Qed.

Lemma file_told f e : file_validate f = Err e -> told e.
Proof.
  unfold file_validate. destruct (record_validate (flHeader f)) eqn:V1; [intros [= <-]; eapply record_told; eassumption|].
  destruct (record_validate (flTrailer f)) eqn:V2; [intros [= <-]; eapply record_told; eassumption|].
  destruct (first_error record_validate (flBases f)) as [x|] eqn:V3.
  - intros [= <-]. apply first_error_some in V3 as (_ & r & _ & _ & V & _). eapply record_told; eassumption.
  - destruct (generate_information _ _) as [info|x|] eqn:Gi; [|intros _; destruct (generate_no_error _ _ _ Gi)|discriminate].
    destruct (compare_information _ _) as [x|] eqn:C; [|discriminate]. intros [= <-].
    apply compare_information_some in C as (n & v & _ & _ & -> & _). exists n, "trailer record".
    split; [apply titledb; vm_compute; reflexivity|auto].
Qed.

Lemma file_text_told f e : file_validate f = Err e -> well_titled e /\ exists t, error_text e = Some t.
Proof. intros H. apply told_titled. eapply file_told. exact H. Qed.
Lemma seg_text_told s e : seg_validate s = Some e -> well_titled e /\ exists t, error_text e = Some t.
Proof. intros H. apply told_titled. eapply seg_told. exact H. Qed.

(* ---- the answer of the validator ---- *)

Lemma validator_says rt rq h b : serve_validator rt rq = Some (Reply 501 h b) ->
  exists f e t, reads rt rq f /\ file_validate f = Err e /\ b = BodyError e
    /\ well_titled e /\ error_text e = Some t.
Proof.
  intros H. unfold serve_validator in H. apply with_file_spec in H as [(f & R & E)|[_ [e E]]]; [|discriminate E].
  destruct (file_validate f) as [u|e|] eqn:V; try discriminate E. injection E as Eh Eb. subst b.
  destruct (file_text_told f e V) as (W & t & Ht). exists f, e, t. auto.
Qed.

(* ---- reports under another name ---- *)

Lemma tells_title doc rules st title n e : tells doc rules st title (fun _ => title) n e ->
  forall l r, e = ErrInvalidValueOfField l r -> r = title.
Proof. intros [|l' ? ? ?] l r; [discriminate|]. intros [= _ <-]. reflexivity. Qed.

Definition unknown_j1 : segment := mkSegment J1 (set_field "SocialSecurityNumber" (VInt 0)
  (set_field "DateBirth" (VTime no_date) (sFields sample_j1))).
Definition unknown_base : base := with_field "ECOACode" (VStr (lit "1")) (with_field "SocialSecurityNumber" (VInt 0)
  (with_field "DateBirth" (VTime no_date) (sample_base 0 1300))).

Lemma unknown_refuted :
  seg_typed unknown_j1 /\ good_times (sFields unknown_j1) /\
  seg_validate unknown_j1 = Some (ErrInvalidValueOfField "social security number" "base segment") /\
  ~ reports_titled (seg_doc J1) (seg_field_rules J1 (sFields unknown_j1)) (sFields unknown_j1) (seg_title J1)
      (ErrInvalidValueOfField "social security number" "base segment") /\
  record_ok (RBase true unknown_base) /\ record_times (RBase true unknown_base) /\
  record_validate (RBase true unknown_base) = Some (ErrInvalidValueOfField "social security number" "base segment") /\
  ~ reports_titled (base_doc true) (base_field_rules true (bFields unknown_base)) (bFields unknown_base) (base_title true)
      (ErrInvalidValueOfField "social security number" "base segment").
Proof.
  split; [apply has_typeb_ok; vm_compute; reflexivity|]. split; [apply good_timesb_ok; vm_compute; reflexivity|].
  split; [vm_compute; reflexivity|].
  split; [intros (bf & n & v & af & _ & H & _); apply tells_title with (l := "social security number") (r := "base segment") in H; [discriminate H|reflexivity]|].
  assert (data_ok true [RBase true unknown_base]) as D by (apply data_okb_ok; vm_compute; reflexivity).
  inversion D as [|? ? (_ & O & G) _]; subst.
  split; [exact O|]. split; [exact G|]. split; [vm_compute; reflexivity|].
  intros (bf & n & v & af & _ & H & _). apply tells_title with (l := "social security number") (r := "base segment") in H; [discriminate H|reflexivity].
Qed.

(* ---- cases ---- *)

(* a segment with two faults: the first is reported *)
Definition two_faults : segment := mkSegment L1 (set_field "ChangeIndicator" (VInt 2)
  (set_field "NewConsumerAccountNumber" (VStr (lit "99X")) (set_field "NewIdentificationNumber" (VStr (lit "7")) (sFields sample_l1)))).
Definition wrong_counter : file := set_trailer fresh_file (RTrailer false (set_field "TotalTelephoneNumbersAllSegments" (VInt 3) fresh_fields)).

Lemma report_cases :
  seg_validate two_faults = Some (ErrInvalidValueOfField "new consumer account number" "l1 segment")
  /\ seg_typed two_faults /\ good_times (sFields two_faults)
  /\ file_validate wrong_counter = Err (ErrInvalidValueOfField "TotalTelephoneNumbersAllSegments" "trailer record")
  /\ file_ok wrong_counter /\ file_times wrong_counter
  /\ error_text (ErrInvalidValueOfField "TotalTelephoneNumbersAllSegments" "trailer record")
     = Some (lit "total_telephone_numbers_all_segments in trailer record has an invalid value")
  /\ error_text (ErrInvalidValueOfField "new consumer account number" "l1 segment")
     = Some (lit "new consumer account number in l1 segment has an invalid value")
  /\ error_text (ErrFieldRequired "ECOACode" "base segment") = Some (lit "ecoa_code in base segment is a required field").
Proof.
  split; [vm_compute; reflexivity|]. split; [apply has_typeb_ok; vm_compute; reflexivity|].
  split; [apply good_timesb_ok; vm_compute; reflexivity|]. split; [vm_compute; reflexivity|].
  assert (file_okb wrong_counter = true) as O by (vm_compute; reflexivity). apply file_okb_ok in O as [O1 O2].
  split; [exact O1|]. split; [exact O2|]. vm_compute. repeat split.
Qed.

Lemma words_case : exists ws, list_ascii_of_string "TotalTelephoneNumbersAllSegments" = List.concat ws /\ Forall word ws.
Proof.
  exists (map list_ascii_of_string ["Total"; "Telephone"; "Numbers"; "All"; "Segments"]). split; [reflexivity|].
  assert (forall w, match w with c :: x :: r => cap c && low x && forallb low r | _ => false end = true -> word w) as W.
  { intros [|c [|x r]]; try discriminate. intros H. apply andb_prop in H as [H H3]. apply andb_prop in H as [H1 H2].
    exists c, x, r. split; [reflexivity|]. split; [apply cap_capital; exact H1|]. constructor; [apply low_small; exact H2|].
    apply forallb_Forall in H3. revert H3. apply Forall_impl. intros d. apply low_small. }
  repeat (constructor; [apply W; vm_compute; reflexivity|]). constructor.
Qed.
