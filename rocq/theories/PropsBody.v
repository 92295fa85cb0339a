(* C110: bodies of requests of the client *)
From Coq Require Import ZArith NArith Bool Ascii String List Sorted.
Import ListNotations.
From Verif Require Import GoBase Json Server Client ClientHeaders ClientBody SpecCodec SpecJson SpecServer SpecBody SpecForm BodyFacts.
Local Open Scope string_scope.
Local Open Scope Z_scope.
Local Open Scope list_scope.
Local Notation length := List.length.

(* [sniff] is http.DetectContentType, [esc] the escaping of quotes; [opened] and [closed] are the
   texts of errors of files *)

(* The types of JSON and XML are told by their names. *)
Theorem C110_types : forall ct, (json_check ct = true <-> json_type ct) /\ (xml_check ct = true <-> xml_type ct).
Proof. exact (fun ct => conj (json_checked ct) (xml_checked ct)). Qed.
Print Assumptions C110_types.

Example C110_types_case : json_type (lit "application/json") /\ json_type (lit "x text/VND.a+b+json; y") /\ ~ json_type (lit "application/xml") /\ ~ json_type (lit "text/vnd.;+json")
  /\ ~ json_type (lit "text/vnd.+json") /\ xml_type (lit "text/xml") /\ ~ xml_type (lit "image/xml").
Proof. exact types_case. Qed.

(* partial, for bodies that are not empty: what is sent is what was given, under the type asked for, or else one by its kind *)
Theorem C110_partial : forall sniff esc opened closed boundary p ct b ct' n,
  prepare_body sniff esc opened closed boundary (Some p) ct [] [] = Sent (Some b) ct' n <-> labelled sniff p ct ct' /\ given p ct' b /\ b <> [] /\ n = None.
Proof. exact post_sent. Qed.
Print Assumptions C110_partial.

(* what is refused, and how *)
Theorem C110_refused : forall sniff esc opened closed boundary p ct e,
  prepare_body sniff esc opened closed boundary (Some p) ct [] [] = Refused e <-> exists ct', labelled sniff p ct ct' /\ complains p ct' e.
Proof. exact post_refused. Qed.
Print Assumptions C110_refused.

Example C110_case : forall sniff esc opened closed boundary,
  prepare_body sniff esc opened closed boundary (Some (PText (lit "hi"))) [] [] [] = Sent (Some (lit "hi")) (lit "text/plain; charset=utf-8") None
  /\ prepare_body sniff esc opened closed boundary (Some (PValue KStruct (inl (JObj [(lit "a", JNull)])) (inr []))) (lit "TEXT/vnd.x+JSON") [] []
     = Sent (Some (lit "{""a"":null}" ++ [chr 10])) (lit "TEXT/vnd.x+JSON") None
  /\ prepare_body sniff esc opened closed boundary None (lit "application/x-www-form-urlencoded") [(lit "b", [lit "2"; lit "3"]); (lit "a", [lit "x y"])] []
     = Sent (Some (lit "a=x+y&b=2&b=3")) (lit "application/x-www-form-urlencoded") (Some 13).
Proof. exact body_case. Qed.

(* A struct, map, pointer or list is sent as its JSON and a line break. *)
Theorem C110_json : forall sniff esc opened closed boundary k j x, plain_json j -> (k = KStruct \/ k = KMap \/ k = KPtr \/ k = KSlice) ->
  exists t, prepare_body sniff esc opened closed boundary (Some (PValue k (inl j) x)) [] [] []
            = Sent (Some (t ++ [chr 10])) (list_ascii_of_string "application/json; charset=utf-8") None /\ spells j t.
Proof. exact value_json. Qed.
Print Assumptions C110_json.

Example C110_json_case : plain_json (JArr [JNull; JBool true]).
Proof. exact (PArr _ (Forall_cons _ PNull (Forall_cons _ (PBool true) (Forall_nil _)))). Qed.

(* refuted: the type that is chosen fits the bytes; the text behind a pointer is said to be JSON *)
Theorem C110_label_refuted : forall sniff esc opened closed boundary, exists p b,
  prepare_body sniff esc opened closed boundary (Some p) [] [] [] = Sent (Some b) (lit "application/json; charset=utf-8") None /\ ~ exists j, spells j b.
Proof. exact label_wrong. Qed.
Print Assumptions C110_label_refuted.

(* refuted: every text and every value is sent; an empty text is refused under any type, and a number has none *)
Theorem C110_empty_refuted : forall sniff esc opened closed boundary ct, prepare_body sniff esc opened closed boundary (Some (PText [])) ct [] []
  = Refused (lit "invalid body type " ++ (match ct with [] => lit "text/plain; charset=utf-8" | _ => ct end) ++ [chr 10]).
Proof. exact empty_wrong. Qed.
Print Assumptions C110_empty_refuted.
Theorem C110_number_refuted : forall sniff esc opened closed boundary x,
  prepare_body sniff esc opened closed boundary (Some (PValue KOther (inl (JNum (lit "7"))) x)) [] [] [] = Refused (lit "invalid body type text/plain; charset=utf-8" ++ [chr 10]).
Proof. exact number_wrong. Qed.
Print Assumptions C110_number_refuted.

(* It panics for one value only: a pointer to a string that is nil. *)
Theorem C110_panics : forall sniff esc opened closed boundary p ct f files,
  prepare_body sniff esc opened closed boundary p ct f files = Panicked <-> p = Some (PTextAt None).
Proof. exact post_panics. Qed.
Print Assumptions C110_panics.

Example C110_panics_case : forall sniff esc opened closed boundary, prepare_body sniff esc opened closed boundary (Some (PTextAt None)) [] [] [] = Panicked.
Proof. exact nil_panics. Qed.

(* A body and a form are never sent together; a form that the type does not ask for is left out. *)
Theorem C110_both : forall sniff esc opened closed boundary p ct ct' b f files, labelled sniff p ct ct' -> given p ct' b -> b <> [] ->
  (files <> [] \/ f <> [] /\ (exists r, ct' = lit "multipart/form-data" ++ r) ->
     prepare_body sniff esc opened closed boundary (Some p) ct f files = Refused (lit "Cannot specify postBody and multipart form at the same time."))
  /\ (files = [] -> f <> [] -> (exists r, ct' = lit "application/x-www-form-urlencoded" ++ r) ->
     prepare_body sniff esc opened closed boundary (Some p) ct f files = Refused (lit "Cannot specify postBody and x-www-form-urlencoded form at the same time."))
  /\ (files = [] -> f = [] \/ (forall r, ct' <> lit "multipart/form-data" ++ r) /\ (forall r, ct' <> lit "application/x-www-form-urlencoded" ++ r) ->
     prepare_body sniff esc opened closed boundary (Some p) ct f files = Sent (Some b) ct' None).
Proof. exact post_and_form. Qed.
Print Assumptions C110_both.
(* What is wrong with a body is complained about first. *)
Theorem C110_first : forall sniff esc opened closed boundary p ct ct' f files e, labelled sniff p ct ct' -> complains p ct' e ->
  prepare_body sniff esc opened closed boundary (Some p) ct f files = Refused e.
Proof. exact post_complains. Qed.
Print Assumptions C110_first.

Example C110_both_case : forall sniff, labelled sniff (PText (lit "a")) (lit "multipart/form-data; x") (lit "multipart/form-data; x")
  /\ given (PText (lit "a")) (lit "multipart/form-data; x") (lit "a") /\ complains (PText []) (lit "a") (lit "invalid body type a" ++ [chr 10]).
Proof. exact both_case. Qed.

(* refuted: a form with the path of a file is sent with the file; it is refused, whatever the file is *)
Theorem C110_path_refuted : forall sniff esc opened closed boundary ct f files, has_path f -> has_prefix ct (lit "multipart/form-data") = true \/ files <> [] ->
  exists path, prepare_body sniff esc opened closed boundary None ct f files = Refused (add_file opened closed path).
Proof. exact path_refused. Qed.
Print Assumptions C110_path_refuted.

Example C110_path_case : forall sniff esc opened closed boundary, (forall path, opened path = None) ->
  prepare_body sniff esc opened closed boundary None (lit "multipart/form-data") [(lit "@file", [lit "a.txt"])] [] = Refused (closed (lit "a.txt")).
Proof. exact path_wrong. Qed.

(* A form without such keys has a part for each value and each file that is not empty; as in C100 no value may contain the boundary
   in a line of its own.  The Content-Length leaves out the end of the body. *)
Theorem C110_form : forall sniff esc opened closed boundary ct f files,
  ~ has_path f -> has_prefix ct (lit "multipart/form-data") = true /\ f <> [] \/ files <> [] -> (forall s, one_line (esc s)) ->
  (forall k vs v, In (k, vs) f -> In v vs -> ~ occurs (delimiter boundary) v) -> Forall (fun p => ~ occurs (delimiter boundary) (upBytes (snd p))) files ->
  exists b n l kf ps qs, prepare_body sniff esc opened closed boundary None ct f files = Sent (Some b) (lit "multipart/form-data; boundary=" ++ boundary) (Some n)
    /\ n + Z.of_nat (length boundary) + 8 = Z.of_nat (length b)
    /\ listed f l /\ kept files kf /\ form_says boundary b (ps ++ qs) /\ Forall2 (fun p => field_says (esc (fst p)) (snd p)) l ps
    /\ Forall2 (fun p => file_says (esc (list_ascii_of_string (fst p))) (esc (base_name (upName (snd p)))) (upBytes (snd p))) kf qs.
Proof. exact form_sent. Qed.
Print Assumptions C110_form.

Example C110_form_case : forall sniff esc opened closed boundary, (forall s, esc s = s) -> ~ has_path [(lit "a", [lit "1"; lit "2"])] /\ exists n,
  prepare_body sniff esc opened closed boundary None (lit "multipart/form-data") [(lit "a", [lit "1"; lit "2"])] [("f", mkUpload (lit "x") [])]
  = Sent (Some (lit "--" ++ boundary ++ crlf ++ lit "Content-Disposition: form-data; name=""a""" ++ crlf ++ crlf ++ lit "1" ++ crlf ++ lit "--" ++ boundary ++ crlf
                ++ lit "Content-Disposition: form-data; name=""a""" ++ crlf ++ crlf ++ lit "2" ++ crlf ++ lit "--" ++ boundary ++ lit "--" ++ crlf))
         (lit "multipart/form-data; boundary=" ++ boundary) (Some n).
Proof. exact form_case. Qed.

(* An encoded form arrives: all values of every key in their order, the keys sorted; its length is told. *)
Theorem C110_encoded : forall sniff esc opened closed boundary ct f, f <> [] -> has_prefix ct (lit "application/x-www-form-urlencoded") = true ->
  exists t, prepare_body sniff esc opened closed boundary None ct f [] = Sent (Some t) ct (Some (Z.of_nat (length t)))
    /\ (forall k, got k (parse_query t) = held k f) /\ StronglySorted (fun a b => before (fst a) (fst b)) (parse_query t).
Proof. exact form_encoded. Qed.
Print Assumptions C110_encoded.
