(* Properties C84, C85: the texts of errors, and what the errors of Validate say *)
From Coq Require Import ZArith NArith Bool Ascii String List Lia.
Import ListNotations.
From Verif Require Import GoBase GoTime Tables Codec Records File Server Errors
  SpecCodec SpecLayouts SpecRecords SpecFile SpecValidate SpecCounters SpecReport SpecServer
  ReportFacts ErrorFacts ReportCases Samples.
Local Open Scope string_scope.
Local Open Scope Z_scope.
Local Open Scope list_scope.
Local Notation length := List.length.

(* C84: the name of a field in a text has the letters of the name, in small letters *)
Theorem C84_letters : forall s,
  plain (to_snake_case s) = letters s /\ map small_letter (to_snake_case s) = to_snake_case s.
Proof. exact (fun s => conj (snake_letters s) (snake_small s)). Qed.
Print Assumptions C84_letters.

(* a name made of words is written with underscores between the words *)
Theorem C84_words : forall s ws, list_ascii_of_string s = List.concat ws -> Forall word ws ->
  to_snake_case s = underscored ws.
Proof. exact snake_words. Qed.
Print Assumptions C84_words.

Example C84_words_case : exists ws,
  list_ascii_of_string "TotalTelephoneNumbersAllSegments" = List.concat ws /\ Forall word ws.
Proof. exact words_case. Qed.

(* errors with the same text are the same complaint about the same field of the same
   record *)
Theorem C84_text : forall e e' t, well_titled e -> well_titled e' ->
  error_text e = Some t -> error_text e' = Some t -> same_complaint e e'.
Proof. exact text_tells. Qed.
Print Assumptions C84_text.

(* the errors of Validate are among these *)
Theorem C84_file : forall f e, file_validate f = Err e -> well_titled e /\ exists t, error_text e = Some t.
Proof. exact file_text_told. Qed.
Print Assumptions C84_file.
Theorem C84_segment : forall s e, seg_validate s = Some e -> well_titled e /\ exists t, error_text e = Some t.
Proof. exact seg_text_told. Qed.
Print Assumptions C84_segment.

(* the validator answers 501 with the error of the file *)
Theorem C84_validator : forall rt rq h b, serve_validator rt rq = Some (Reply 501 h b) ->
  exists f e t, reads rt rq f /\ file_validate f = Err e /\ b = BodyError e
    /\ well_titled e /\ error_text e = Some t.
Proof. exact validator_says. Qed.
Print Assumptions C84_validator.

Example C84_case :
  error_text (ErrInvalidValueOfField "TotalTelephoneNumbersAllSegments" "trailer record")
    = Some (lit "total_telephone_numbers_all_segments in trailer record has an invalid value")
  /\ error_text (ErrInvalidValueOfField "new consumer account number" "l1 segment")
    = Some (lit "new consumer account number in l1 segment has an invalid value")
  /\ error_text (ErrFieldRequired "ECOACode" "base segment") = Some (lit "ecoa_code in base segment is a required field").
Proof. exact (proj2 (proj2 (proj2 (proj2 (proj2 (proj2 report_cases)))))). Qed.

(* C85: an error of Validate names the first field with a fault, says which fault it
   is, and names the record.  The name is wrong for the number and the date of birth
   of a consumer segment or packed base segment *)
Theorem C85_refuted : exists s e r e',
  seg_typed s /\ good_times (sFields s) /\ seg_validate s = Some e
  /\ ~ reports_titled (seg_doc (sKind s)) (seg_field_rules (sKind s) (sFields s)) (sFields s) (seg_title (sKind s)) e
  /\ record_ok (RBase true r) /\ record_times (RBase true r) /\ record_validate (RBase true r) = Some e'
  /\ ~ reports_titled (base_doc true) (base_field_rules true (bFields r)) (bFields r) (base_title true) e'.
Proof.
  exact (ex_intro _ unknown_j1 (ex_intro _ _ (ex_intro _ unknown_base (ex_intro _ _ unknown_refuted)))).
Qed.
Print Assumptions C85_refuted.

(* everything else is as claimed; these two fields are said to be of the base segment *)
Theorem C85_segment_partial : forall s e, seg_typed s -> good_times (sFields s) ->
  seg_validate s = Some e -> reported_seg s e.
Proof. exact seg_reports. Qed.
Print Assumptions C85_segment_partial.
Theorem C85_record_partial : forall r e, record_ok r -> record_times r ->
  record_validate r = Some e -> reported_record r e.
Proof. exact record_reports. Qed.
Print Assumptions C85_record_partial.

Theorem C85_character : forall b e, record_ok (RBase false b) -> record_times (RBase false b) ->
  record_validate (RBase false b) = Some e ->
  reports_titled (base_doc false) (base_field_rules false (bFields b)) (bFields b) (base_title false) e.
Proof. exact character_reports. Qed.
Print Assumptions C85_character.

(* the error of a file is that of the first invalid record, in the order header,
   trailer, data; when all are valid it names a counter that is wrong *)
Theorem C85_file_partial : forall f e, file_ok f -> file_times f -> file_validate f = Err e ->
  reported_record (flHeader f) e
  \/ record_valid (flHeader f) /\ reported_record (flTrailer f) e
  \/ record_valid (flHeader f) /\ record_valid (flTrailer f) /\
     (exists before r after, flBases f = before ++ r :: after /\ Forall record_valid before /\ reported_record r e)
  \/ record_valid (flHeader f) /\ record_valid (flTrailer f) /\ Forall record_valid (flBases f) /\
     (exists n, e = ErrInvalidValueOfField n "trailer record" /\ miscounted (flBases f) (record_fields (flTrailer f)) n).
Proof. exact file_reports. Qed.
Print Assumptions C85_file_partial.

(* the rules for single fields are the documented rules *)
Theorem C85_segment_rules : forall k st, Forall (fun p => snd p) (seg_field_rules k st) <-> seg_rules k st.
Proof. exact seg_rules_fields. Qed.
Print Assumptions C85_segment_rules.
Theorem C85_base_rules : forall p st, has_type base_struct st ->
  (Forall (fun p => snd p) (base_field_rules p st) <-> base_rules p st).
Proof. exact base_rules_fields. Qed.
Print Assumptions C85_base_rules.

Example C85_case :
  seg_validate two_faults = Some (ErrInvalidValueOfField "new consumer account number" "l1 segment")
  /\ seg_typed two_faults /\ good_times (sFields two_faults)
  /\ file_validate wrong_counter = Err (ErrInvalidValueOfField "TotalTelephoneNumbersAllSegments" "trailer record")
  /\ file_ok wrong_counter /\ file_times wrong_counter.
Proof.
  destruct report_cases as (A & B & C & D & E & F & _). exact (conj A (conj B (conj C (conj D (conj E F))))).
Qed.
