(* Properties of what client and server exchange: C68, C96 *)
From Coq Require Import ZArith NArith Bool Ascii String List Lia.
Import ListNotations.
From Verif Require Import GoBase GoTime Tables Codec Records File Reader Json JsonFile Server Client
  SpecCodec SpecLayouts SpecRecords SpecFile SpecFiles SpecReader SpecApi SpecJson SpecServer SpecClient SpecWire
  Samples FileCases ReaderCases JsonReader JsonCases ServerCases ClientFacts ClientCases WireFacts.
Local Open Scope string_scope.
Local Open Scope Z_scope.
Local Open Scope list_scope.
Local Notation length := List.length.

(* C96: a call sends the format of the query if it was set, and with a file the
   form holds the file and exactly the fields that were set *)
Theorem C96_convert_partial : forall boundary c, let w := convert_request boundary c in
  wrMethod w = "POST" /\ wrPath w = "/convert" /\ query_holds w (ccFormat c)
  /\ body_holds boundary w (convert_field c) (ccFile c) "application/json".
Proof. exact convert_sent. Qed.
Print Assumptions C96_convert_partial.

Theorem C96_print_partial : forall boundary c, let w := print_request boundary c in
  wrMethod w = "POST" /\ wrPath w = "/print" /\ query_holds w (pcFormat c)
  /\ body_holds boundary w (print_field c) (pcFile c) "application/json".
Proof. exact print_sent. Qed.
Print Assumptions C96_print_partial.

Theorem C96_validator : forall boundary c, let w := validator_request boundary c in
  wrMethod w = "POST" /\ wrPath w = "/validator" /\ query_holds w None
  /\ body_holds boundary w no_field (vcFile c) "multipart/form-data".
Proof. exact validator_sent. Qed.
Print Assumptions C96_validator.

Theorem C96_health : forall boundary, let w := health_request boundary in
  wrMethod w = "GET" /\ wrPath w = "/health" /\ query_holds w None /\ body_holds boundary w no_field None "".
Proof. exact health_sent. Qed.
Print Assumptions C96_health.

(* without a file the fields that were set are not sent *)
Theorem C96_refuted : exists boundary c k v, convert_field c k v /\ wrForm (convert_request boundary c) = None.
Proof. exact fields_lost. Qed.
Print Assumptions C96_refuted.

Example C96_case : forall boundary, let u := mkUpload (lit "a.dat") (lit "text") in
  wrForm (convert_request boundary (mkConvertCall None (Some (lit "metro")) (Some (lit "packed")) (Some true) None (Some u)))
    = Some ([("format", lit "metro"); ("type", lit "packed"); ("generate", lit "true")], [("file", u)])
  /\ wrQuery (print_request boundary (mkPrintCall (Some (lit "a&b")) (Some (lit "json")) (Some u))) = lit "format=a%26b"
  /\ wrForm (print_request boundary (mkPrintCall (Some (lit "a&b")) (Some (lit "json")) (Some u))) = Some ([("format", lit "json")], [("file", u)])
  /\ wrForm (validator_request boundary (mkValidatorCall (Some (mkUpload (lit "a") [])))) = Some ([], []).
Proof. intros boundary. repeat split. Qed.

(* C68: errors of reading, of validating and of generating a trailer are plain
   text and say so; an unknown format is answered in JSON, and that and every
   other answer but those of convert is sent without a content type *)
Theorem C68_validator : forall rt rq rp, serve_validator rt rq = Some rp ->
  says_unread rt rq rp
  \/ (exists f e, reads rt rq f /\ file_validate f = Err e /\ rp = Reply 501 plain_text (BodyError e))
  \/ (exists f, reads rt rq f /\ file_validate f = Ok tt /\ rp = Reply 200 [] (BodyText (status_text "valid file"))).
Proof. exact validator_says. Qed.
Print Assumptions C68_validator.

Theorem C68_print : forall cpus rt rq rp, serve_print cpus rt rq = Some rp ->
  says_unread rt rq rp
  \/ ((exists f, reads rt rq f) /\ (forall o, ~ asks_form rq o) /\ says_format rp)
  \/ (exists f o b n, reads rt rq f /\ asks_form rq o /\ asks_breaks rq b /\ asks_null rq f f n
      /\ rp = Reply 200 [] (BodyText (print_text n o f b))).
Proof. exact print_says. Qed.
Print Assumptions C68_print.

Theorem C68_convert : forall cpus rt rq rp, serve_convert cpus rt rq = Some rp ->
  says_unread rt rq rp
  \/ (exists f e, reads rt rq f /\ asks_trailer rq /\ flBases f = [] /\ rp = Reply 501 plain_text (BodyError e))
  \/ ((exists f, reads rt rq f /\ (asks_trailer rq -> flBases f <> [])) /\ (forall o, ~ asks_form rq o) /\ says_format rp)
  \/ (exists f g o b n, reads rt rq f /\ asks_form rq o /\ asks_breaks rq b /\ converted (asks_trailer rq) (rqForm rq "type") f g
      /\ asks_null rq f g n /\ rp = Reply 200 attachment (BodyText (convert_text n tab o g b))).
Proof. exact convert_says. Qed.
Print Assumptions C68_convert.

(* other paths and methods *)
Theorem C68_routes : forall cpus rt method path rq,
  (~ In path ["/health"; "/print"; "/validator"; "/convert"] ->
   dispatch cpus rt method path rq = Some (Reply 404 plain_text (BodyText (list_ascii_of_string "404 page not found" ++ [ascii_of_nat 10]))))
  /\ (path = "/health" -> method <> "GET" -> dispatch cpus rt method path rq = Some (Reply 405 [] (BodyText [])))
  /\ (In path ["/print"; "/validator"; "/convert"] -> method <> "POST" ->
      dispatch cpus rt method path rq = Some (Reply 405 [] (BodyText [])))
  /\ (dispatch cpus rt "GET" "/health" rq = Some (Reply 200 [] (BodyText (status_text "alive"))))
  /\ (dispatch cpus rt "POST" "/print" rq = serve_print cpus rt rq)
  /\ (dispatch cpus rt "POST" "/validator" rq = serve_validator rt rq)
  /\ (dispatch cpus rt "POST" "/convert" rq = serve_convert cpus rt rq).
Proof. exact other_says. Qed.
Print Assumptions C68_routes.

Example C68_case :
  serve_print 8 plain_host (mkRequest (lit "multipart/form-data; boundary=x") None (source_of []) (fun _ => []) (fun _ => []))
    = Some (Reply 400 plain_text (BodyError (ErrOther "reading multipart request")))
  /\ dispatch 8 plain_host "POST" "/prints" mixed_case
    = Some (Reply 404 plain_text (BodyText (list_ascii_of_string "404 page not found" ++ [ascii_of_nat 10]))).
Proof. split; reflexivity. Qed.
