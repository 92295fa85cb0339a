(* Examples for requests and commands *)
From Coq Require Import ZArith NArith Bool Ascii String List Lia.
Import ListNotations.
From Verif Require Import GoBase GoTime Tables Codec Records File Reader Json JsonFile Server
  SpecCodec SpecLayouts SpecRecords SpecFile SpecFiles SpecReader SpecValidate SpecCounters SpecApi SpecJson SpecServer
  GoBaseFacts CounterProps ApiFacts Check Samples ApiCase FileRoundTrip FileCases ReaderFacts ReaderCases
  JsonTextFacts JsonFacts JsonProps JsonReader JsonCases ServerFacts ServerProps.
Local Open Scope string_scope.
Local Open Scope Z_scope.
Local Open Scope list_scope.
Local Notation length := List.length.

Definition source_of (input : bytes) : source := mkSource input (byte_reads (S (length input))).

Definition options := list (string * string).
Definition option_value (l : options) (n : string) : bytes :=
  match find (fun p => String.eqb n (fst p)) l with Some p => lit (snd p) | None => [] end.

(* a request with the file in the body and options in the query *)
Definition body_request (ct : string) (l : options) (input : bytes) : request :=
  mkRequest (lit ct) None (source_of input) (option_value l) (option_value l).
(* a request with a form file, options in the form *)
Definition form_request (ct : string) (l : options) (input : bytes) : request :=
  mkRequest (lit ct) (Some (source_of input)) (source_of (lit "--x")) (fun _ => []) (option_value l).

Lemma not_multipart t : has_prefix (lower_text t) (lit "multipart/") = false -> ~ multipart t.
Proof. intros E M. apply multipart_spec in M. congruence. Qed.

Lemma body_sent ct l input : has_prefix (lower_text (lit ct)) (lit "multipart/") = false ->
  forall src, sent (body_request ct l input) src <-> src = source_of input.
Proof.
  intros E src. split.
  - intros [s M _|_]; [apply not_multipart in E; contradiction|reflexivity].
  - intros ->. apply (sent_body (body_request ct l input)). apply not_multipart. exact E.
Qed.

Lemma form_sent ct l input : has_prefix (lower_text (lit ct)) (lit "multipart/") = true ->
  forall src, sent (form_request ct l input) src <-> src = source_of input.
Proof.
  intros E src. apply multipart_spec in E. split.
  - intros [s _ F|N]; [injection F as <-; reflexivity|contradiction].
  - intros ->. apply sent_form; [exact E|reflexivity].
Qed.

Lemma source_ends input : patient (srReads (source_of input)) /\ (length (srInput (source_of input)) < useful (srReads (source_of input)))%nat.
Proof. split; [apply byte_reads_patient|]. cbn [srInput srReads source_of]. rewrite byte_reads_useful. apply Nat.lt_succ_diag_r. Qed.

(* three answers of the validator *)
Definition mixed_case : request := form_request "MultiPart/form-data; boundary=x" [] (file_text true fixed_file).
Definition json_request (l : options) (f : file) : request :=
  body_request "application/json" l (print (encode_file true f)).

Lemma text_reads rt ct l f : has_prefix (lower_text (lit ct)) (lit "multipart/") = false ->
  new_file_from_reader rt (byte_reads (S (length (file_text true f)))) (file_text true f) = Some (Ok f) ->
  reads rt (body_request ct l (file_text true f)) f.
Proof. intros E R. exists (source_of (file_text true f)). split; [apply body_sent; [exact E|reflexivity]|exact R]. Qed.

Lemma fixed_text_read rt : new_file_from_reader rt (byte_reads (S (length (file_text true fixed_file)))) (file_text true fixed_file) = Some (Ok fixed_file).
Proof.
  rewrite <- (concurrent_text fixed_file true 1). apply (raw_read rt FixedFile); [apply fixed_file_streams|apply byte_reads_patient|rewrite byte_reads_useful; apply Nat.lt_succ_diag_r|].
  apply no_braceb. vm_compute. reflexivity.
Qed.

Lemma mixed_reads rt : reads rt mixed_case fixed_file.
Proof.
  exists (source_of (file_text true fixed_file)). split; [apply form_sent; [vm_compute; reflexivity|reflexivity]|apply fixed_text_read].
Qed.

Lemma json_reads l f : json_file f -> format_kept f -> reads plain_host (json_request l f) f.
Proof.
  intros J K. exists (source_of (print (encode_file true f))). split; [apply body_sent; [vm_compute; reflexivity|reflexivity]|].
  cbn [srInput srReads source_of].
  pose proof (new_file_text plain_host (byte_reads (S (length (print (encode_file true f))))) [] (print (encode_file true f)) [])
    as H. cbn [app] in H. rewrite app_nil_r in H. erewrite H.
  - f_equal. rewrite <- (app_nil_r (print _)). apply file_printed; [apply plain_host_orders|exact J|exact K].
  - apply (print_spells _ (file_plain true f J)).
  - cbn. lia.
Qed.

(* a file without data records *)
Definition no_data : file := mkFile false (RHeader false (sample_header 0 426)) [] (flTrailer fixed_file).

Definition status_of (r : option reply) : option Z :=
  match r with Some (Reply s _ _) => Some s | _ => None end.

Lemma three_answers :
  status_of (serve_validator plain_host (body_request "text/plain" [] (file_text true new_account_file))) = Some 200
  /\ status_of (serve_validator plain_host mixed_case) = Some 501
  /\ status_of (serve_validator plain_host (body_request "text/plain" [] [])) = Some 400
  /\ status_of (serve_validator plain_host (mkRequest (lit "multipart/mixed") None (source_of []) (fun _ => []) (fun _ => []))) = Some 400.
Proof. vm_compute. repeat split. Qed.

Lemma print_answers :
  status_of (serve_print 8 plain_host (body_request "text/plain" [("format", "metro")] (file_text true fixed_file))) = Some 200
  /\ status_of (serve_print 8 plain_host (body_request "text/plain" [("format", "xml")] (file_text true fixed_file))) = Some 501
  /\ status_of (serve_print 8 plain_host (body_request "text/plain" [("format", "xml")] (lit "nonsense"))) = Some 400.
Proof. vm_compute. repeat split. Qed.

Lemma convert_answers :
  status_of (serve_convert 8 plain_host (body_request "text/plain" [("generate", "TRUE")] (file_text true no_data))) = Some 501
  /\ status_of (serve_convert 8 plain_host (body_request "text/plain" [] (file_text true no_data))) = Some 200
  /\ status_of (serve_convert 8 plain_host (body_request "text/plain" [("type", "packed"); ("format", "xml")] (file_text true no_data))) = Some 501
  /\ status_of (serve_convert 8 plain_host (body_request "text/plain" [] [])) = Some 400.
Proof. vm_compute. repeat split. Qed.

Lemma no_data_answers :
  (exists t, serve_print 8 plain_host (body_request "text/plain" [] (file_text true no_data)) = Some (Reply 200 [] (BodyText t))
     /\ t = print_text false JsonOutput no_data true)
  /\ (exists t, serve_convert 8 plain_host (body_request "text/plain" [("type", "packed")] (file_text true no_data))
        = Some (Reply 200 attachment (BodyText t)) /\ t = convert_text true tab JsonOutput (change_type (lit "packed") no_data) true)
  /\ asks_null (body_request "text/plain" [] (file_text true no_data)) no_data no_data false.
Proof.
  split; [eexists; split; [vm_compute; reflexivity|vm_compute; reflexivity]|].
  split; [eexists; split; [vm_compute; reflexivity|vm_compute; reflexivity]|].
  exists (source_of (file_text true no_data)). split; [apply body_sent; [vm_compute; reflexivity|reflexivity]|].
  change false with (read_nil (file_text true no_data) no_data || negb (Bool.eqb (flPacked no_data) (flPacked no_data))).
  apply nil_null.
Qed.

(* a request for a new trailer *)
Definition generate_request : request :=
  body_request "text/plain" [("generate", "True"); ("format", "metro")] (file_text true fixed_file).

Lemma generate_request_case rt : reads rt generate_request fixed_file /\ asks_form generate_request MetroOutput
  /\ asks_trailer generate_request /\ flBases fixed_file <> [] /\ record_validate (flHeader fixed_file) = None
  /\ Forall (fun r => record_validate r = None) (flBases fixed_file) /\ file_validate fixed_file <> Ok tt.
Proof.
  split; [apply text_reads; [vm_compute; reflexivity|apply fixed_text_read]|].
  split; [apply asks_value; [discriminate|apply (names_word MetroOutput)]|].
  split; [apply true_spec; vm_compute; reflexivity|].
  split; [discriminate|]. split; [vm_compute; reflexivity|]. split; [repeat constructor; vm_compute; reflexivity|].
  vm_compute. discriminate.
Qed.

(* a valid file that a change of type makes invalid *)
Definition packing_request : request :=
  body_request "text/plain" [("generate", "true"); ("format", "metro"); ("type", "packed")] (file_text true new_account_file).

Lemma ok_injective {A} (a b : A) : Ok a = Ok b -> a = b.
Proof. intros [= ->]. reflexivity. Qed.

Lemma set_trailer_same f : set_trailer f (flTrailer f) = f.
Proof. destruct f. reflexivity. Qed.

Lemma packing_case : exists cpus rt rq f g t, reads rt rq f /\ asks_trailer rq /\ file_validate f = Ok tt
  /\ converted (asks_trailer rq) (rqForm rq "type") f g /\ file_validate g <> Ok tt
  /\ serve_convert cpus rt rq = Some (Reply 200 attachment (BodyText t)) /\ t = file_text true g.
Proof.
  exists 8, plain_host, packing_request, new_account_file.
  assert (reads plain_host packing_request new_account_file) as R.
  { exists (source_of (file_text true new_account_file)). split; [apply body_sent; [vm_compute; reflexivity|reflexivity]|].
    vm_compute. reflexivity. }
  assert (asks_trailer packing_request) as T by (apply true_spec; vm_compute; reflexivity).
  assert (asks_form packing_request MetroOutput) as A by (apply asks_value; [discriminate|apply (names_word MetroOutput)]).
  assert (file_validate new_account_file = Ok tt) as V by (vm_compute; reflexivity).
  destruct (convert_generates 8 plain_host packing_request new_account_file MetroOutput R A T) as (f1 & g & W & _ & Rt & (nu & _ & E) & _).
  - discriminate.
  - vm_compute. reflexivity.
  - repeat constructor.
  - exists g, (file_text true g). split; [exact R|]. split; [exact T|]. split; [exact V|].
    split; [exists f1; split; [auto|split; [contradiction|exact Rt]]|]. split; [|split; [exact E|reflexivity]].
    assert (f1 = new_account_file) as ->.
    { destruct W as (t & G & _ & ->).
      assert (file_generate_trailer new_account_file = Ok (flTrailer new_account_file)) as G' by (vm_compute; reflexivity).
      rewrite G in G'. apply ok_injective in G'. rewrite G'. apply set_trailer_same. }
    assert (retyped (rqForm packing_request "type") new_account_file (change_type (type_name true) new_account_file)) as Rt'.
    { apply change_type_spec. apply file_okb_ok. vm_compute. reflexivity. }
    rewrite (retyped_unique _ _ _ _ Rt Rt'). vm_compute. discriminate.
Qed.

(* a print answer has no content type of its own *)
Lemma untyped_print : exists cpus rt rq b, serve_print cpus rt rq = Some (Reply 200 [] (BodyText b)) /\ asks_form rq JsonOutput.
Proof.
  exists 8, plain_host, mixed_case, (print_text (read_nil (request_input mixed_case) fixed_file) JsonOutput fixed_file (get_is_newline mixed_case)).
  assert (asks_form mixed_case JsonOutput) as A by (apply asks_value; [discriminate|apply names_default]).
  split; [|exact A]. apply print_delivers; [apply mixed_reads|exact A|apply breaks_spec|apply (null_asked_print plain_host), mixed_reads].
Qed.

(* answers that come back *)
Lemma comes_back_case : comes_back MetroOutput fixed_file true /\ comes_back JsonOutput fixed_file true
  /\ comes_back JsonOutput packed_file true
  /\ delivers (source_of (print_text true MetroOutput fixed_file true)) (print_text true MetroOutput fixed_file true).
Proof.
  split; [exists FixedFile; split; [apply fixed_file_streams|apply no_braceb; vm_compute; reflexivity]|].
  split; [exact (conj fixed_file_json fixed_file_kept)|]. split; [exact (conj packed_file_json packed_file_kept)|].
  split; [reflexivity|]. apply source_ends.
Qed.

Definition fresh_fields : fields := match file_generate_trailer fixed_file with Ok (RTrailer _ t) => t | _ => [] end.
Definition fresh_file : file := set_trailer fixed_file (RTrailer false fresh_fields).

Lemma fresh_file_in : file_in FixedFile fresh_file.
Proof.
  destruct fixed_file_in as (h & b & t & E & H & B & _ & _). exists h, b, fresh_fields.
  split; [unfold fresh_file; rewrite E; reflexivity|]. split; [exact H|]. split; [exact B|]. split; [|exact I].
  split; [apply trailer_fitsb_ok; vm_compute; reflexivity|]. split; [apply holds_str; vm_compute; reflexivity|].
  exists 426. split; [apply holdsb_ok; vm_compute; reflexivity|vm_compute; congruence].
Qed.

Lemma generate_comes_back : asks_breaks generate_request true /\ rqForm generate_request "type" <> type_name (negb (flPacked fixed_file))
  /\ forall g, converted (asks_trailer generate_request) (rqForm generate_request "type") fixed_file g -> comes_back MetroOutput g true.
Proof.
  assert (asks_trailer generate_request) as T by (apply true_spec; vm_compute; reflexivity).
  split; [change (asks_breaks generate_request (get_is_newline generate_request)); apply breaks_spec|]. split; [discriminate|].
  intros g (f1 & W & _ & Rt). specialize (W T).
  assert (f1 = fresh_file) as ->.
  { destruct W as (t & G & V & ->).
    assert (file_generate_trailer fixed_file = Ok (RTrailer false fresh_fields)) as G' by (vm_compute; reflexivity).
    rewrite G in G'. apply ok_injective in G'. rewrite G'. reflexivity. }
  assert (g = fresh_file) as ->.
  { apply (retyped_same (rqForm generate_request "type")); [apply file_okb_ok; vm_compute; reflexivity|discriminate|exact Rt]. }
  exists FixedFile. split; [apply file_in_streams; [apply fresh_file_in|mark]|apply no_braceb; vm_compute; reflexivity].
Qed.

(* commands *)
Definition print_flags (format : string) (f : file) : flags :=
  mkFlags (Some (source_of (file_text true f))) (lit format) [] false false true.
Definition convert_flags (format type : string) (generate : bool) (f : file) : flags :=
  mkFlags (Some (source_of (file_text true f))) (lit format) (lit type) generate true true.

Lemma commands_case : cli_print 8 plain_host (print_flags "metro" fixed_file) = Some (Wrote (file_text false fixed_file))
  /\ (exists e, cli_print 8 plain_host (print_flags "xml" fixed_file) = Some (Failed e))
  /\ (exists t, cli_convert 8 plain_host (convert_flags "metro" "packed" true fixed_file) = Some (Wrote t) /\ t <> [])
  /\ (exists e, cli_convert 8 plain_host (convert_flags "metro" "" true no_data) = Some (Failed e)).
Proof.
  split; [vm_compute; reflexivity|]. split; [eexists; reflexivity|].
  split; [eexists; split; [vm_compute; reflexivity|discriminate]|]. eexists. vm_compute. reflexivity.
Qed.
