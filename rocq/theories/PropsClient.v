(* Properties of the client: C73-C75 *)
From Coq Require Import ZArith NArith Bool Ascii String List Lia.
Import ListNotations.
From Verif Require Import GoBase GoTime Tables Codec Records File Reader Json JsonFile Server Client
  SpecCodec SpecLayouts SpecRecords SpecFile SpecFiles SpecReader SpecApi SpecJson SpecServer SpecClient
  Samples FileCases ReaderCases JsonReader JsonCases ServerCases ClientFacts ClientCases.
Local Open Scope string_scope.
Local Open Scope Z_scope.
Local Open Scope list_scope.
Local Notation length := List.length.

(* C73: convert returns the text of the converted file; an error 400 means that no
   file was uploaded or none could be read, 501 that the format is unknown or that
   a trailer was wanted without data records; nothing else happens *)
Theorem C73_convert : forall cpus rt evs errText boundary c r, client_convert cpus rt evs errText boundary c = Some r ->
  (exists f g o b, uploaded rt evs (ccFile c) f /\ asks (ccFormat c) (ccFormat2 c) o /\ breaks_asked (ccNewline c) b
     /\ converted (ccGenerate c = Some true) (given (ccType c)) f g
     /\ exists n, uploads_null (ccFile c) f g n /\ r = Returned (convert_text n tab o g b))
  \/ (refused 400 true r /\ ~ exists f, uploaded rt evs (ccFile c) f)
  \/ (refused 501 true r /\ exists f, uploaded rt evs (ccFile c) f /\
       ((~ exists o, asks (ccFormat c) (ccFormat2 c) o) \/ (ccGenerate c = Some true /\ flBases f = []))).
Proof. exact convert_outcome. Qed.
Print Assumptions C73_convert.

(* and whenever there is such a converted file it is returned *)
Theorem C73_converted : forall cpus rt evs errText boundary c f g o b n, uploaded rt evs (ccFile c) f ->
  asks (ccFormat c) (ccFormat2 c) o -> breaks_asked (ccNewline c) b ->
  converted (ccGenerate c = Some true) (given (ccType c)) f g -> uploads_null (ccFile c) f g n ->
  client_convert cpus rt evs errText boundary c = Some (Returned (convert_text n tab o g b)).
Proof. exact convert_returned. Qed.
Print Assumptions C73_converted.

Theorem C73_print : forall cpus rt evs errText boundary c r, client_print cpus rt evs errText boundary c = Some r ->
  (exists f o n, uploaded rt evs (pcFile c) f /\ asks (pcFormat c) (pcFormat2 c) o /\ uploads_null (pcFile c) f f n
     /\ r = Returned (print_text n o f true))
  \/ (refused 400 true r /\ ~ exists f, uploaded rt evs (pcFile c) f)
  \/ (refused 501 false r /\ (exists f, uploaded rt evs (pcFile c) f) /\ ~ exists o, asks (pcFormat c) (pcFormat2 c) o).
Proof. exact print_outcome. Qed.
Print Assumptions C73_print.

Theorem C73_printed : forall cpus rt evs errText boundary c f o n, uploaded rt evs (pcFile c) f ->
  asks (pcFormat c) (pcFormat2 c) o -> uploads_null (pcFile c) f f n ->
  client_print cpus rt evs errText boundary c = Some (Returned (print_text n o f true)).
Proof. exact print_returned. Qed.
Print Assumptions C73_printed.

Theorem C73_validator : forall cpus rt evs errText boundary c r, client_validator cpus rt evs errText boundary c = Some r ->
  (exists f, uploaded rt evs (vcFile c) f /\ file_validate f = Ok tt /\ r = Returned (status_text "valid file"))
  \/ (refused 400 true r /\ ~ exists f, uploaded rt evs (vcFile c) f)
  \/ (refused 501 true r /\ exists f, uploaded rt evs (vcFile c) f /\ file_validate f <> Ok tt).
Proof. exact validator_outcome. Qed.
Print Assumptions C73_validator.

Theorem C73_health : forall cpus rt evs errText boundary,
  client_health cpus rt evs errText boundary = Some (Returned (status_text "alive")).
Proof. exact health_outcome. Qed.
Print Assumptions C73_health.

(* a status from 300 on is an error with the body of the answer, and any other
   body is the value *)
Theorem C73_statuses : forall errText models d status ct b,
  (300 <= status -> refused_with status (In status models) (body_bytes errText b) (receive errText models d (Reply status ct b)))
  /\ (status < 300 -> receive errText models d (Reply status ct b) = d (body_bytes errText b)).
Proof. exact receive_statuses. Qed.
Print Assumptions C73_statuses.

Example C73_statuses_case : forall errText,
  receive errText [400; 501] decode_string (Reply 300 [] (BodyText (lit "moved"))) = ApiError 300 (lit "moved") None
  /\ receive errText [400; 501] decode_string (Reply 299 [] (BodyText (lit "done"))) = Returned (lit "done").
Proof. intros errText. split; reflexivity. Qed.

(* every call comes back once the server gets the bytes that were uploaded *)
Theorem C73_answers : forall cpus rt evs errText boundary cc pc vc, patient evs ->
  (forall t, uploads (ccFile cc) t \/ uploads (pcFile pc) t \/ uploads (vcFile vc) t -> (length t < useful evs)%nat) ->
  (exists r, client_convert cpus rt evs errText boundary cc = Some r)
  /\ (exists r, client_print cpus rt evs errText boundary pc = Some r)
  /\ (exists r, client_validator cpus rt evs errText boundary vc = Some r).
Proof. exact calls_answer. Qed.
Print Assumptions C73_answers.

Example C73_convert_case : uploaded plain_host (upload_reads fixed_file) (ccFile convert_both) fixed_file
  /\ asks (ccFormat convert_both) (ccFormat2 convert_both) MetroOutput /\ breaks_asked (ccNewline convert_both) true
  /\ converted (ccGenerate convert_both = Some true) (given (ccType convert_both)) fixed_file fresh_file.
Proof. exact (conj (fixed_uploaded plain_host) (conj (proj1 convert_both_asks) (conj (proj1 (proj2 convert_both_asks)) fresh_converted))). Qed.
Example C73_print_case : uploaded plain_host (upload_reads fixed_file) (pcFile print_both) fixed_file
  /\ asks (pcFormat print_both) (pcFormat2 print_both) MetroOutput.
Proof. exact (conj (fixed_uploaded plain_host) print_both_asks). Qed.
Example C73_refused_case :
  let go c := status_or (client_convert 8 plain_host (upload_reads fixed_file) (fun _ => []) (lit "x") c) in
  go (mkConvertCall (Some (lit "metro")) None None None None None) = Some 400
  /\ go (mkConvertCall None None None None None (Some (mkUpload (lit "a") []))) = Some 400
  /\ go (mkConvertCall None None None None None (Some (mkUpload [] (file_text true fixed_file)))) = Some 400
  /\ go (mkConvertCall (Some (lit "xml")) (Some (lit "json")) None None None (Some (upload_of fixed_file))) = Some 501
  /\ status_or (client_validator 8 plain_host [] (fun _ => []) (lit "x") (mkValidatorCall None)) = Some 400
  /\ status_or (client_validator 8 plain_host (upload_reads fixed_file) (fun _ => []) (lit "x") (mkValidatorCall (Some (upload_of fixed_file)))) = Some 501.
Proof. exact refused_calls. Qed.
Example C73_answers_case : patient (upload_reads fixed_file)
  /\ (length (file_text true fixed_file) < useful (upload_reads fixed_file))%nat.
Proof. exact (source_ends (file_text true fixed_file)). Qed.

(* C74: the parameters of a query arrive as they were given, whatever bytes they
   and their names consist of *)
Theorem C74_query : forall vs, parse_query (encode_query vs) = map (fun p => (list_ascii_of_string (fst p), snd p)) vs.
Proof. exact query_arrives. Qed.
Print Assumptions C74_query.

Theorem C74_escaped : forall s, escaped s (query_escape s).
Proof. exact escape_spec. Qed.
Print Assumptions C74_escaped.

Example C74_case : encode_query odd_values = lit "a[b]=x%26y%3Dz%3B%2541%2B+~%5B%00%FF&=".
Proof. exact odd_query. Qed.

(* C75: what convert and print return can be uploaded again and is read as the
   file that was written *)
Theorem C75_convert : forall cpus rt evs errText boundary c f g o b t rt' evs' n, uploaded rt evs (ccFile c) f ->
  asks (ccFormat c) (ccFormat2 c) o -> breaks_asked (ccNewline c) b ->
  converted (ccGenerate c = Some true) (given (ccType c)) f g -> comes_back o g b ->
  client_convert cpus rt evs errText boundary c = Some (Returned t) ->
  orders rt' -> patient evs' -> (length t < useful evs')%nat -> n <> [] ->
  uploaded rt' evs' (Some (mkUpload n t)) g.
Proof. exact convert_uploads. Qed.
Print Assumptions C75_convert.

Theorem C75_print : forall cpus rt evs errText boundary c f o t rt' evs' n, uploaded rt evs (pcFile c) f ->
  asks (pcFormat c) (pcFormat2 c) o -> comes_back o f true ->
  client_print cpus rt evs errText boundary c = Some (Returned t) ->
  orders rt' -> patient evs' -> (length t < useful evs')%nat -> n <> [] ->
  uploaded rt' evs' (Some (mkUpload n t)) f.
Proof. exact print_uploads. Qed.
Print Assumptions C75_print.

Example C75_case : comes_back MetroOutput fresh_file true /\ comes_back MetroOutput fixed_file true.
Proof. exact (conj fresh_back (proj1 comes_back_case)). Qed.
