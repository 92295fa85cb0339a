(* Properties of the HTTP handlers and the command line: C52, C53, C64-C68 *)
From Coq Require Import ZArith NArith Bool Ascii String List Lia.
Import ListNotations.
From Verif Require Import GoBase GoTime Tables Codec Records File Reader Json JsonFile Server
  SpecCodec SpecLayouts SpecRecords SpecFile SpecFiles SpecReader SpecCounters SpecApi SpecJson SpecServer
  Check Samples ApiCase FileCases ReaderCases JsonReader JsonCases ServerFacts ServerProps ServerCases.
Local Open Scope string_scope.
Local Open Scope Z_scope.
Local Open Scope list_scope.
Local Notation length := List.length.

(* C52: validator answers 400 exactly when no file can be read from what was sent,
   501 exactly when the file is invalid, 200 exactly when it is valid *)
Theorem C52_validator : forall rt rq rp, serve_validator rt rq = Some rp ->
  exists status h b, rp = Reply status h b
  /\ (status = 400 <-> ~ exists f, reads rt rq f)
  /\ (status = 501 <-> exists f, reads rt rq f /\ file_validate f <> Ok tt)
  /\ (status = 200 <-> exists f, reads rt rq f /\ file_validate f = Ok tt).
Proof. exact validator_status. Qed.
Print Assumptions C52_validator.

(* print: 501 exactly when the format asked for is unknown *)
Theorem C52_print : forall cpus rt rq rp, serve_print cpus rt rq = Some rp ->
  exists status h b, rp = Reply status h b
  /\ (status = 400 <-> ~ exists f, reads rt rq f)
  /\ (status = 501 <-> (exists f, reads rt rq f) /\ ~ exists o, asks_form rq o)
  /\ (status = 200 <-> (exists f, reads rt rq f) /\ exists o, asks_form rq o).
Proof. exact print_status. Qed.
Print Assumptions C52_print.

(* convert: 501 also when a trailer is asked for and there are no data records *)
Theorem C52_convert : forall cpus rt rq rp, serve_convert cpus rt rq = Some rp ->
  exists status h b, rp = Reply status h b
  /\ (status = 400 <-> ~ exists f, reads rt rq f)
  /\ (status = 501 <-> exists f, reads rt rq f /\ (~ (exists o, asks_form rq o) \/ (asks_trailer rq /\ flBases f = [])))
  /\ (status = 200 <-> exists f, reads rt rq f /\ (exists o, asks_form rq o) /\ (asks_trailer rq -> flBases f <> [])).
Proof. exact convert_status. Qed.
Print Assumptions C52_convert.

(* there is an answer as soon as the sources deliver their bytes *)
Theorem C52_answers : forall rt rq k,
  (forall src, sent rq src -> patient (srReads src) /\ (length (srInput src) < useful (srReads src))%nat) ->
  exists rp, with_file rt rq k = Some rp.
Proof. exact answered. Qed.
Print Assumptions C52_answers.

Example C52_validator_case :
  status_of (serve_validator plain_host (body_request "text/plain" [] (file_text true new_account_file))) = Some 200
  /\ status_of (serve_validator plain_host mixed_case) = Some 501
  /\ status_of (serve_validator plain_host (body_request "text/plain" [] [])) = Some 400
  /\ status_of (serve_validator plain_host (mkRequest (lit "multipart/mixed") None (source_of []) (fun _ => []) (fun _ => []))) = Some 400.
Proof. exact three_answers. Qed.
Example C52_print_case :
  status_of (serve_print 8 plain_host (body_request "text/plain" [("format", "metro")] (file_text true fixed_file))) = Some 200
  /\ status_of (serve_print 8 plain_host (body_request "text/plain" [("format", "xml")] (file_text true fixed_file))) = Some 501
  /\ status_of (serve_print 8 plain_host (body_request "text/plain" [("format", "xml")] (lit "nonsense"))) = Some 400.
Proof. exact print_answers. Qed.
Example C52_convert_case :
  status_of (serve_convert 8 plain_host (body_request "text/plain" [("generate", "TRUE")] (file_text true no_data))) = Some 501
  /\ status_of (serve_convert 8 plain_host (body_request "text/plain" [] (file_text true no_data))) = Some 200
  /\ status_of (serve_convert 8 plain_host (body_request "text/plain" [("type", "packed"); ("format", "xml")] (file_text true no_data))) = Some 501
  /\ status_of (serve_convert 8 plain_host (body_request "text/plain" [] [])) = Some 400.
Proof. exact convert_answers. Qed.

(* C53: with a trailer asked for and valid header and data records (at least one),
   what convert delivers is the text of a valid file; missing: a change from
   character to packed when some payment history has code Z *)
Theorem C53_generates_partial : forall cpus rt rq f o b, reads rt rq f -> asks_form rq o -> asks_breaks rq b -> asks_trailer rq ->
  flBases f <> [] -> record_validate (flHeader f) = None -> Forall (fun r => record_validate r = None) (flBases f) ->
  (rqForm rq "type" = type_name (negb (flPacked f)) -> file_times f) ->
  (rqForm rq "type" = type_name true -> flPacked f = false -> no_new_accounts f) ->
  exists g n, converted (asks_trailer rq) (rqForm rq "type") f g /\ file_validate g = Ok tt /\ asks_null rq f g n
    /\ serve_convert cpus rt rq = Some (Reply 200 attachment (BodyText (convert_text n tab o g b))).
Proof. exact convert_generated. Qed.
Print Assumptions C53_generates_partial.

Example C53_case : forall rt, reads rt generate_request fixed_file /\ asks_form generate_request MetroOutput
  /\ asks_trailer generate_request /\ flBases fixed_file <> [] /\ record_validate (flHeader fixed_file) = None
  /\ Forall (fun r => record_validate r = None) (flBases fixed_file) /\ file_validate fixed_file <> Ok tt.
Proof. exact generate_request_case. Qed.

(* in full the claim is false: a valid character file with a new account is
   delivered as an invalid packed file, with status 200 *)
Theorem C53_refuted : exists cpus rt rq f g t, reads rt rq f /\ asks_trailer rq /\ file_validate f = Ok tt
  /\ converted (asks_trailer rq) (rqForm rq "type") f g /\ file_validate g <> Ok tt
  /\ serve_convert cpus rt rq = Some (Reply 200 attachment (BodyText t)) /\ t = file_text true g.
Proof. exact packing_case. Qed.
Print Assumptions C53_refuted.

(* C64: the print command writes the text of the file it reads, or fails for want
   of an input, a format or a file *)
Theorem C64_print : forall cpus rt fg d, cli_print cpus rt fg = Some d ->
  (exists src f o, fgInput fg = Some src /\ new_file_from_reader rt (srReads src) (srInput src) = Some (Ok f)
     /\ names_form (fgFormat fg) o
     /\ exists n, null_data (srInput src) f f n /\ d = Wrote (convert_text n (lit "  ") o f (fgNewline fg)))
  \/ (exists e, d = Failed e) /\
     (fgInput fg = None \/ (forall o, ~ names_form (fgFormat fg) o)
      \/ exists src e, fgInput fg = Some src /\ new_file_from_reader rt (srReads src) (srInput src) = Some (Err e)).
Proof. exact cli_print_spec. Qed.
Print Assumptions C64_print.

(* the convert command writes the text of the converted file *)
Theorem C64_convert : forall cpus rt fg d, cli_convert cpus rt fg = Some d ->
  (exists src f g o, fgInput fg = Some src /\ new_file_from_reader rt (srReads src) (srInput src) = Some (Ok f)
     /\ names_form (fgFormat fg) o /\ converted (fgGenerate fg = true) (fgType fg) f g
     /\ exists n, null_data (srInput src) f g n /\ d = Wrote (convert_text n (lit "  ") o g (fgNewline fg)))
  \/ (exists e, d = Failed e) /\
     (fgInput fg = None \/ (forall o, ~ names_form (fgFormat fg) o) \/ fgCreates fg = false
      \/ (exists src e, fgInput fg = Some src /\ new_file_from_reader rt (srReads src) (srInput src) = Some (Err e))
      \/ exists src f, fgInput fg = Some src /\ new_file_from_reader rt (srReads src) (srInput src) = Some (Ok f)
           /\ fgGenerate fg = true /\ flBases f = []).
Proof. exact cli_convert_spec. Qed.
Print Assumptions C64_convert.

(* the validator command succeeds exactly on a valid file *)
Theorem C64_validator : forall rt fg d, cli_validate rt fg = Some d ->
  (exists src f, fgInput fg = Some src /\ new_file_from_reader rt (srReads src) (srInput src) = Some (Ok f)
     /\ file_validate f = Ok tt /\ d = Wrote (lit "the file is valid " ++ [lf_char]))
  \/ (exists e, d = Failed e) /\
     (fgInput fg = None \/ exists src, fgInput fg = Some src /\
       forall f, new_file_from_reader rt (srReads src) (srInput src) = Some (Ok f) -> file_validate f <> Ok tt).
Proof. exact cli_validate_spec. Qed.
Print Assumptions C64_validator.

Example C64_case : cli_print 8 plain_host (print_flags "metro" fixed_file) = Some (Wrote (file_text false fixed_file))
  /\ (exists e, cli_print 8 plain_host (print_flags "xml" fixed_file) = Some (Failed e))
  /\ (exists t, cli_convert 8 plain_host (convert_flags "metro" "packed" true fixed_file) = Some (Wrote t) /\ t <> [])
  /\ (exists e, cli_convert 8 plain_host (convert_flags "metro" "" true no_data) = Some (Failed e)).
Proof. exact commands_case. Qed.

(* C65: print delivers the text of the file that was sent, in the format and with
   the line breaks asked for; the header says nothing about its type *)
Theorem C65_print : forall cpus rt rq f o b n, reads rt rq f -> asks_form rq o -> asks_breaks rq b -> asks_null rq f f n ->
  serve_print cpus rt rq = Some (Reply 200 [] (BodyText (print_text n o f b))).
Proof. exact print_delivers. Qed.
Print Assumptions C65_print.

(* convert delivers the text of the converted file as an attachment *)
Theorem C65_convert : forall cpus rt rq f g o b n, reads rt rq f -> asks_form rq o -> asks_breaks rq b ->
  converted (asks_trailer rq) (rqForm rq "type") f g -> asks_null rq f g n ->
  serve_convert cpus rt rq = Some (Reply 200 attachment (BodyText (convert_text n tab o g b))).
Proof. exact convert_delivers. Qed.
Print Assumptions C65_convert.

(* and there is a converted file, unless a trailer is asked for without data records *)
Theorem C65_converted : forall rt rq f, reads rt rq f -> (asks_trailer rq -> flBases f <> []) ->
  exists g, converted (asks_trailer rq) (rqForm rq "type") f g.
Proof. exact converted_exists. Qed.
Print Assumptions C65_converted.

(* with no data records the JSON of print has [] for a character file and null once
   it has become packed *)
Example C65_no_data :
  (exists t, serve_print 8 plain_host (body_request "text/plain" [] (file_text true no_data)) = Some (Reply 200 [] (BodyText t))
     /\ t = print_text false JsonOutput no_data true)
  /\ (exists t, serve_convert 8 plain_host (body_request "text/plain" [("type", "packed")] (file_text true no_data))
        = Some (Reply 200 attachment (BodyText t)) /\ t = convert_text true tab JsonOutput (change_type (lit "packed") no_data) true)
  /\ asks_null (body_request "text/plain" [] (file_text true no_data)) no_data no_data false.
Proof. exact no_data_answers. Qed.

Example C65_case : forall rt, reads rt generate_request fixed_file /\ asks_form generate_request MetroOutput
  /\ asks_breaks generate_request true.
Proof. exact (fun rt => conj (proj1 (generate_request_case rt)) (conj (proj1 (proj2 (generate_request_case rt))) (proj1 generate_comes_back))). Qed.

(* C68: answers do not always name their content type: it is set after the header
   was sent, so a JSON answer of print has none *)
Theorem C68_refuted : exists cpus rt rq b, serve_print cpus rt rq = Some (Reply 200 [] (BodyText b)) /\ asks_form rq JsonOutput.
Proof. exact untyped_print. Qed.
Print Assumptions C68_refuted.

(* C66: every appended segment of a file that was read, raw or JSON, is valid *)
Theorem C66_segments : forall rt evs input f, new_file_from_reader rt evs input = Some (Ok f) -> segments_valid f.
Proof. exact read_segments. Qed.
Print Assumptions C66_segments.

Example C66_case : forall rt, new_file_from_reader rt (byte_reads (S (length (file_text true fixed_file)))) (file_text true fixed_file)
  = Some (Ok fixed_file).
Proof. exact fixed_text_read. Qed.

(* C67: what print delivers can be sent again and is read as the same file *)
Theorem C67_print : forall cpus rt rq f o b rt' rq' src, reads rt rq f -> asks_form rq o -> asks_breaks rq b -> comes_back o f b ->
  orders rt' -> sent rq' src ->
  (forall h t, serve_print cpus rt rq = Some (Reply 200 h (BodyText t)) -> delivers src t) -> reads rt' rq' f.
Proof. exact print_returns. Qed.
Print Assumptions C67_print.

Theorem C67_convert : forall cpus rt rq f g o b rt' rq' src, reads rt rq f -> asks_form rq o -> asks_breaks rq b ->
  converted (asks_trailer rq) (rqForm rq "type") f g -> comes_back o g b -> orders rt' -> sent rq' src ->
  (forall h t, serve_convert cpus rt rq = Some (Reply 200 h (BodyText t)) -> delivers src t) -> reads rt' rq' g.
Proof. exact convert_returns. Qed.
Print Assumptions C67_convert.

(* a file converted with a new trailer passes the validator *)
Theorem C67_validator : forall cpus rt rq f o b rt' rq' src, reads rt rq f -> asks_form rq o -> asks_breaks rq b -> asks_trailer rq ->
  flBases f <> [] -> record_validate (flHeader f) = None -> Forall (fun r => record_validate r = None) (flBases f) ->
  (rqForm rq "type" = type_name (negb (flPacked f)) -> file_times f) ->
  (rqForm rq "type" = type_name true -> flPacked f = false -> no_new_accounts f) ->
  (forall g, converted (asks_trailer rq) (rqForm rq "type") f g -> comes_back o g b) -> orders rt' -> sent rq' src ->
  (forall h t, serve_convert cpus rt rq = Some (Reply 200 h (BodyText t)) -> delivers src t) ->
  exists h t, serve_validator rt' rq' = Some (Reply 200 h t).
Proof. exact convert_then_validate. Qed.
Print Assumptions C67_validator.

Example C67_case : comes_back MetroOutput fixed_file true /\ comes_back JsonOutput fixed_file true
  /\ comes_back JsonOutput packed_file true
  /\ delivers (source_of (print_text true MetroOutput fixed_file true)) (print_text true MetroOutput fixed_file true).
Proof. exact comes_back_case. Qed.
Example C67_convert_case : asks_breaks generate_request true /\ rqForm generate_request "type" <> type_name (negb (flPacked fixed_file))
  /\ forall g, converted (asks_trailer generate_request) (rqForm generate_request "type") fixed_file g -> comes_back MetroOutput g true.
Proof. exact generate_comes_back. Qed.
