(* The headers of a request of the client (pkg/client/client.go:276-418 and
   api_metro2_files.go), where it goes, and the text of its body.  A request is
   the [wire] of Client.v together with these. *)
From Coq Require Import ZArith NArith Bool Ascii String List.
Import ListNotations.
From Verif Require Import GoBase GoTime GoLayout Tables Codec Records File Reader Json JsonFile Server Client.
Local Open Scope string_scope.
Local Open Scope Z_scope.
Local Open Scope list_scope.
Local Notation length := List.length.

(* ---- http.Header ---- *)

(* net/textproto validHeaderFieldByte; for client.go:404 and 415 *)
Definition token_char (c : byte) : bool :=
  in_range 48 57 c || in_range 65 90 c || in_range 97 122 c
  || existsb (byte_eqb c) ["!"; "#"; "$"; "%"; "&"; "'"; "*"; "+"; "-"; "."; "^"; "_"; "`"; "|"; "~"]%char.

(* net/textproto canonicalMIMEHeaderKey: the first letter and those behind a minus
   sign large, the others small; for client.go:404 and 415 *)
Fixpoint capitalize (upper : bool) (s : bytes) : bytes :=
  match s with
  | [] => []
  | c :: r => (if upper then upper_char c else lower_char c) :: capitalize (byte_eqb c "-") r
  end.

(* net/textproto CanonicalMIMEHeaderKey: names with other characters are kept;
   for client.go:404 and 415 *)
Definition canonical_key (s : bytes) : bytes := if forallb token_char s then capitalize true s else s.

(* http.Header, a map to lists of values; client.go:396 *)
Definition header := list (bytes * list bytes).

(* the values under a key as it is written; client.go:396-400 *)
Fixpoint header_values (h : header) (k : bytes) : list bytes :=
  match h with
  | [] => []
  | (k', vs) :: r => if bytes_eqb k' k then vs else header_values r k
  end.

(* append to the values of a key; client.go:404 and 415 *)
Fixpoint header_append (h : header) (k v : bytes) : header :=
  match h with
  | [] => [(k, [v])]
  | (k', vs) :: r => if bytes_eqb k' k then (k', vs ++ [v]) :: r else (k', vs) :: header_append r k v
  end.

(* http.Header.Add; client.go:404 and 415 *)
Definition header_add (h : header) (k v : bytes) : header := header_append h (canonical_key k) v.

(* ---- the body ---- *)

(* a line break of mime/multipart; client.go:307 *)
Definition crlf : bytes := [cr_char; lf_char].

(* mime/multipart Writer.CreatePart: what stands before the headers of a part;
   client.go:317 and 324 *)
Definition part_start (boundary : bytes) (first : bool) : bytes :=
  (if first then [] else crlf) ++ lit "--" ++ boundary ++ crlf.

(* Writer.WriteField; [esc] is mime/multipart's escaping of quotes; client.go:317 *)
Definition field_part (esc : bytes -> bytes) (p : string * bytes) : bytes :=
  lit "Content-Disposition: form-data; name=""" ++ esc (lit (fst p)) ++ lit """" ++ crlf ++ crlf ++ snd p.

(* path without slashes at its end; path/filepath Base, client.go:324 *)
Fixpoint trim_slashes (s : bytes) : bytes :=
  match s with
  | [] => []
  | c :: r => match trim_slashes r with [] => if byte_eqb c "/" then [] else [c] | t => c :: t end
  end.
(* what stands behind the last slash; path/filepath Base, client.go:324 *)
Fixpoint last_element (acc s : bytes) : bytes :=
  match s with
  | [] => rev acc
  | c :: r => if byte_eqb c "/" then last_element [] r else last_element (c :: acc) r
  end.
(* path/filepath Base, client.go:324 *)
Definition base_name (path : bytes) : bytes :=
  match path with
  | [] => lit "."
  | _ => match last_element [] (trim_slashes path) with [] => lit "/" | b => b end
  end.

(* Writer.CreateFormFile and the bytes; client.go:324-331 *)
Definition file_part (esc : bytes -> bytes) (p : string * upload) : bytes :=
  lit "Content-Disposition: form-data; name=""" ++ esc (lit (fst p)) ++ lit """; filename="""
  ++ esc (base_name (upName (snd p))) ++ lit """" ++ crlf
  ++ lit "Content-Type: application/octet-stream" ++ crlf ++ crlf ++ upBytes (snd p).

(* the parts one after the other; client.go:306-333 *)
Fixpoint join_parts (boundary : bytes) (first : bool) (parts : list bytes) : bytes :=
  match parts with
  | [] => []
  | p :: r => part_start boundary first ++ p ++ join_parts boundary false r
  end.

(* what has been written before the writer is closed; the fields in the order of
   a map: any; client.go:306-333 *)
Definition form_text (esc : bytes -> bytes) (boundary : bytes) (form : values) (files : list (string * upload)) : bytes :=
  join_parts boundary true (map (field_part esc) form ++ map (file_part esc) files).

(* Writer.Close; client.go:340 *)
Definition form_end (boundary : bytes) : bytes := crlf ++ lit "--" ++ boundary ++ lit "--" ++ crlf.

(* the body that is sent: none, or the form; client.go:306-341, 385-389 *)
Definition body_text (esc : bytes -> bytes) (boundary : bytes) (w : wire) : bytes :=
  match wrForm w with
  | Some (form, files) => form_text esc boundary form files ++ form_end boundary
  | None => []
  end.

(* ---- the headers ---- *)

(* strings.Join with a comma; client.go:100 *)
Fixpoint join_comma (l : list bytes) : bytes :=
  match l with
  | [] => []
  | [a] => a
  | a :: r => a ++ lit "," ++ join_comma r
  end.

(* client.go:91-101 *)
Definition select_accept (accepts : list bytes) : bytes :=
  match accepts with
  | [] => []
  | _ => if contains accepts (lit "application/json") then lit "application/json" else join_comma accepts
  end.

(* api_metro2_files.go:126-132 *)
Definition convert_accept : bytes := select_accept [lit "application/octet-stream"; lit "text/plain"].
(* api_metro2_files.go:275-281 *)
Definition health_accept : bytes := select_accept [lit "text/plain"].
(* api_metro2_files.go:399-405 *)
Definition print_accept : bytes := select_accept [lit "text/plain"; lit "application/json"].
(* api_metro2_files.go:535-541 *)
Definition validator_accept : bytes := select_accept [lit "text/plain"].

(* a header that is set when there is a value; api_metro2_files.go:121-123, 130-132 *)
Definition if_set (k : string) (v : bytes) : header := match v with [] => [] | _ => [(lit k, [v])] end.

(* the map of headers when the request is made, each with one value;
   api_metro2_files.go:121-132, client.go:336-339 (the length before the writer is
   closed) and 394-401 *)
Definition header_params (esc : bytes -> bytes) (boundary accept : bytes) (w : wire) : header :=
  if_set "Content-Type" (wrType w) ++ if_set "Accept" accept
  ++ match wrForm w with
     | Some (form, files) => [(lit "Content-Length", [itoa (Z.of_nat (length (form_text esc boundary form files)))])]
     | None => []
     end.

(* the fields of configuration.go:75-78; the headers in the order in which the loop
   of client.go:414 visits them, which Go leaves open *)
Record client_config := mkClientConfig {
  cgHost : bytes;
  cgScheme : bytes;
  cgDefault : list (bytes * bytes);
  cgAgent : bytes }.

(* NewConfiguration, configuration.go:86-100 *)
Definition new_client_config : client_config := mkClientConfig [] [] [] (lit "OpenAPI-Generator/1.0.0/go").

(* AddDefaultHeader, configuration.go:103-105: an assignment to a map *)
Definition add_default_header (cfg : client_config) (k v : bytes) : client_config :=
  mkClientConfig (cgHost cfg) (cgScheme cfg)
    (filter (fun p => negb (bytes_eqb (fst p) k)) (cgDefault cfg) ++ [(k, v)]) (cgAgent cfg).

(* client.go:394-417 *)
Definition request_headers (esc : bytes -> bytes) (cfg : client_config) (boundary accept : bytes) (w : wire) : header :=
  fold_left (fun h p => header_add h (fst p) (snd p)) (cgDefault cfg)
    (header_add (header_params esc boundary accept w) (lit "User-Agent") (cgAgent cfg)).

(* ---- where a request goes ---- *)

(* the parts of a url.URL that matter here; client.go:354 *)
Record target := mkTarget { tgScheme : bytes; tgHost : bytes; tgPath : bytes }.

(* client.go:360-367; [u] is the address of the call as url.Parse reads it *)
Definition request_target (cfg : client_config) (u : target) : target :=
  mkTarget (match cgScheme cfg with [] => tgScheme u | s => s end)
    (match cgHost cfg with [] => tgHost u | h => h end) (tgPath u).
