(* The command line and the web server: C116 *)
From Coq Require Import ZArith NArith Bool Ascii String List.
Import ListNotations.
From Verif Require Import GoBase GoTime Tables Codec Records File Reader Json JsonFile Server SpecJson SpecServer
  Samples FileCases JsonCases SparseCases ServerCases SpecBoth BothFacts BothCases.
Local Open Scope string_scope.
Local Open Scope list_scope.

(* C116: given the same input and the same options, the command line and the web server
   give the same answer: both fail, or both succeed with the same output *)

(* the validators agree on every input *)
Theorem C116_validator : forall rt rq fg d rp, same_input rq fg -> cli_validate rt fg = Some d -> serve_validator rt rq = Some rp ->
  ((exists t, d = Wrote t) /\ exists h b, rp = Reply 200 h b) \/ both_fail d rp.
Proof. exact validators_agree. Qed.
Print Assumptions C116_validator.

(* print: the same records; missing: as JSON the bytes differ, being indented or not (C116_refuted) *)
Theorem C116_print_partial : forall cpus cpus' rt rq fg d rp, same_input rq fg -> same_form rq fg -> same_breaks rq fg ->
  cli_print cpus rt fg = Some d -> serve_print cpus' rt rq = Some rp ->
  (exists o t u, asks_form rq o /\ d = Wrote t /\ rp = Reply 200 [] (BodyText u) /\ printed_alike o t u) \/ both_fail d rp.
Proof. exact prints_agree. Qed.
Print Assumptions C116_print_partial.

(* convert, whose output can be created: the same records; missing: as JSON one is indented
   with blanks, the other with tabs (C116_convert_refuted) *)
Theorem C116_convert_partial : forall cpus cpus' rt rq fg d rp, same_input rq fg -> same_form rq fg -> same_breaks rq fg -> same_change rq fg ->
  fgCreates fg = true -> cli_convert cpus rt fg = Some d -> serve_convert cpus' rt rq = Some rp ->
  (exists o t u, asks_form rq o /\ d = Wrote t /\ rp = Reply 200 attachment (BodyText u) /\ converted_alike o t u) \/ both_fail d rp.
Proof. exact converts_agree. Qed.
Print Assumptions C116_convert_partial.

(* and these are spellings of the same JSON *)
Theorem C116_json : forall j, plain_json j -> forall indent n, Forall white indent -> spells j (print_indent indent n j) /\ spells j (print j).
Proof. exact same_json. Qed.
Print Assumptions C116_json.

Example C116_validator_case : cli_validate plain_host (told "json" "" false false) <> None /\ serve_validator plain_host (asked []) <> None.
Proof. exact both_validate_case. Qed.
Example C116_case : same_input (asked [("format", "metro"); ("generate", "TRUE"); ("type", "packed")]) (told "metro" "packed" true true)
  /\ same_form (asked [("format", "metro"); ("generate", "TRUE"); ("type", "packed")]) (told "metro" "packed" true true)
  /\ same_breaks (asked [("format", "metro"); ("generate", "TRUE"); ("type", "packed")]) (told "metro" "packed" true true)
  /\ same_change (asked [("format", "metro"); ("generate", "TRUE"); ("type", "packed")]) (told "metro" "packed" true true)
  /\ fgCreates (told "metro" "packed" true true) = true
  /\ (exists t, t <> [] /\ cli_convert 8 plain_host (told "metro" "packed" true true) = Some (Wrote t)
        /\ serve_convert 4 plain_host (asked [("format", "metro"); ("generate", "TRUE"); ("type", "packed")]) = Some (Reply 200 attachment (BodyText t))).
Proof. exact both_case. Qed.
Example C116_json_case : plain_json (JObj [(lit "a", JArr [JStr (lit "b"); JNull])]) /\ Forall white [ascii_of_nat 9].
Proof. split; [apply plain_jsonb_ok; vm_compute; reflexivity|]. constructor; [right; left; reflexivity|constructor]. Qed.

(* whatever the layout, and though the line breaks may differ, the same file is read from
   both outputs, if it can be read at all *)
Theorem C116_print_reread : forall cpus cpus' rt rq fg t h u b, same_input rq fg -> same_form rq fg -> asks_breaks rq b ->
  cli_print cpus rt fg = Some (Wrote t) -> serve_print cpus' rt rq = Some (Reply 200 h (BodyText u)) ->
  exists o f, asks_form rq o /\ reads rt rq f /\ forall rt' src src', orders rt' -> delivers src t -> delivers src' u ->
    comes_back o f (fgNewline fg) -> comes_back o f b ->
    new_file_from_reader rt' (srReads src) (srInput src) = Some (Ok f) /\ new_file_from_reader rt' (srReads src') (srInput src') = Some (Ok f).
Proof. exact prints_reread. Qed.
Print Assumptions C116_print_reread.
Theorem C116_convert_reread : forall cpus cpus' rt rq fg t h u b, same_input rq fg -> same_form rq fg -> asks_breaks rq b -> same_change rq fg ->
  cli_convert cpus rt fg = Some (Wrote t) -> serve_convert cpus' rt rq = Some (Reply 200 h (BodyText u)) ->
  exists o f g, asks_form rq o /\ reads rt rq f /\ converted (asks_trailer rq) (rqForm rq "type") f g
    /\ forall rt' src src', orders rt' -> delivers src t -> delivers src' u ->
    comes_back o g (fgNewline fg) -> comes_back o g b ->
    new_file_from_reader rt' (srReads src) (srInput src) = Some (Ok g) /\ new_file_from_reader rt' (srReads src') (srInput src') = Some (Ok g).
Proof. exact converts_reread. Qed.
Print Assumptions C116_convert_reread.

Example C116_reread_case : orders plain_host /\ comes_back MetroOutput fixed_file true /\ comes_back MetroOutput fixed_file false
  /\ comes_back JsonOutput fixed_file true /\ comes_back JsonOutput fixed_file false
  /\ (forall t, delivers (source_of t) t)
  /\ exists t h u, cli_print 8 plain_host (told "metro" "" false false) = Some (Wrote t)
       /\ serve_print 8 plain_host (asked [("format", "metro")]) = Some (Reply 200 h (BodyText u)).
Proof. exact reread_case. Qed.

(* the full claim is false: the same request for JSON gives other bytes *)
Theorem C116_refuted : exists cpus rt rq fg t h u, same_input rq fg /\ same_form rq fg /\ same_breaks rq fg
  /\ cli_print cpus rt fg = Some (Wrote t) /\ serve_print cpus rt rq = Some (Reply 200 h (BodyText u)) /\ t <> u.
Proof. exact json_differs. Qed.
Print Assumptions C116_refuted.
Theorem C116_convert_refuted : exists cpus rt rq fg t h u, same_input rq fg /\ same_form rq fg /\ same_breaks rq fg /\ same_change rq fg
  /\ cli_convert cpus rt fg = Some (Wrote t) /\ serve_convert cpus rt rq = Some (Reply 200 h (BodyText u)) /\ t <> u.
Proof. exact json_converted_differs. Qed.
Print Assumptions C116_convert_refuted.

(* and with the options left out, the one writes line breaks and the other does not *)
Theorem C116_default_refuted : exists cpus rt rq fg t h u, same_input rq fg /\ same_form rq fg /\ names_form (fgFormat fg) MetroOutput
  /\ rqForm rq "newline" = [] /\ fgNewline fg = false
  /\ cli_print cpus rt fg = Some (Wrote t) /\ serve_print cpus rt rq = Some (Reply 200 h (BodyText u)) /\ t <> u.
Proof. exact default_differs. Qed.
Print Assumptions C116_default_refuted.
