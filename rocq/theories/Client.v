(* The client of the HTTP interface (pkg/client/client.go, api_metro2_files.go)
   and the routes of the server (pkg/server/server.go:243-250).  The client is
   the one of NewConfiguration: the server at its root, no further header.
   net/http, net/url parsing of the base address, mime/multipart and the network
   between them are represented by what they hand over: [hand_over]. *)
From Coq Require Import ZArith NArith Bool Ascii String List.
Import ListNotations.
From Verif Require Import GoBase GoTime GoLayout Tables Codec Records File Reader Json JsonFile Server.
Local Open Scope string_scope.
Local Open Scope Z_scope.
Local Open Scope list_scope.
Local Notation length := List.length.

(* ---- url.Values and query strings (net/url) ---- *)

(* url.Values with one value each, in the order of Encode; client.go:281-282 *)
Definition values := list (string * bytes).

(* url.Values.Get, client.go:217 *)
Definition values_get (vs : values) (k : string) : bytes :=
  match find (fun p => String.eqb (fst p) k) vs with Some p => snd p | None => [] end.

(* net/url shouldEscape for a query component; for client.go:378 *)
Definition unreserved (c : byte) : bool :=
  in_range 48 57 c || in_range 65 90 c || in_range 97 122 c
  || byte_eqb c "-" || byte_eqb c "_" || byte_eqb c "." || byte_eqb c "~".

(* the digits of net/url's upperhex; for client.go:378 *)
Definition upper_hex (z : Z) : byte := if z <? 10 then zbyte (48 + z) else zbyte (55 + z).

(* url.QueryEscape; for client.go:378 *)
Definition query_escape (s : bytes) : bytes :=
  flat_map (fun c =>
    if unreserved c then [c]
    else if byte_eqb c " " then ["+"%char]
    else ["%"%char; upper_hex (bval c / 16); upper_hex (bval c mod 16)]) s.

(* url.QueryUnescape; None: an error; for pkg/server/server.go:86 and 88 *)
Fixpoint query_unescape (s : bytes) : option bytes :=
  match s with
  | [] => Some []
  | c :: r =>
      if byte_eqb c "%" then
        match r with
        | a :: b :: r' =>
            match hex_val a, hex_val b, query_unescape r' with
            | Some x, Some y, Some t => Some (zbyte (x * 16 + y) :: t)
            | _, _, _ => None
            end
        | _ => None
        end
      else match query_unescape r with
           | Some t => Some ((if byte_eqb c "+" then " "%char else c) :: t)
           | None => None
           end
  end.

(* queryDescape, client.go:40: %5B and %5D become brackets *)
Fixpoint descape (s : bytes) : bytes :=
  match s with
  | [] => []
  | a :: r =>
      match r with
      | b :: c :: r' =>
          if bytes_eqb [a; b; c] (lit "%5B") then "["%char :: descape r'
          else if bytes_eqb [a; b; c] (lit "%5D") then "]"%char :: descape r'
          else a :: descape r
      | _ => a :: descape r
      end
  end.

(* one parameter of the query: Encode, then client.go:378-382, which changes what
   stands before the equals sign; Encode leaves no other equals sign and no
   ampersand inside a parameter *)
Definition encode_pair (p : string * bytes) : bytes :=
  descape (query_escape (lit (fst p))) ++ "="%char :: query_escape (snd p).

(* client.go:369-382; url.Values.Encode joins with ampersands *)
Fixpoint encode_query (vs : values) : bytes :=
  match vs with
  | [] => []
  | [p] => encode_pair p
  | p :: r => encode_pair p ++ "&"%char :: encode_query r
  end.

(* strings.Cut; net/url parseQuery, for pkg/server/server.go:86 and 88 *)
Fixpoint cut_at (c : byte) (s : bytes) : bytes * option bytes :=
  match s with
  | [] => ([], None)
  | a :: r =>
      if byte_eqb a c then ([], Some r)
      else let (x, y) := cut_at c r in (a :: x, y)
  end.

(* url.ParseQuery on the pieces between ampersands, errors skipped as Query()
   and FormValue do; pkg/server/server.go:86 and 88 *)
Definition parse_pair (s : bytes) : list (bytes * bytes) :=
  match s with
  | [] => []
  | _ =>
      if existsb (fun c => byte_eqb c ";") s then []
      else let (k, v) := cut_at "=" s in
           match query_unescape k, query_unescape (match v with Some v => v | None => [] end) with
           | Some k, Some v => [(k, v)]
           | _, _ => []
           end
  end.
(* net/url parseQuery, for pkg/server/server.go:86 and 88 *)
Fixpoint split_at (c : byte) (s : bytes) : list bytes :=
  match s with
  | [] => [[]]
  | a :: r =>
      if byte_eqb a c then [] :: split_at c r
      else match split_at c r with
           | x :: xs => (a :: x) :: xs
           | [] => [[a]]
           end
  end.
(* pkg/server/server.go:86 and 88 *)
Definition parse_query (s : bytes) : list (bytes * bytes) := flat_map parse_pair (split_at "&" s).

(* url.Values.Get: the first value; pkg/server/server.go:86 and 88 *)
Definition first_value (vs : list (bytes * bytes)) (k : string) : bytes :=
  match find (fun p => bytes_eqb (fst p) (lit k)) vs with Some p => snd p | None => [] end.

(* ---- requests ---- *)

(* a file handed to the client: its name and the bytes io.ReadAll delivers;
   api_metro2_files.go:153-160 *)
Record upload := mkUpload { upName : bytes; upBytes : bytes }.

(* api_metro2_files.go:25-34, 319-325, 472-476: what the caller has set *)
Record convert_call := mkConvertCall {
  ccFormat : option bytes;         (* Format: the parameter of the query *)
  ccFormat2 : option bytes;        (* Format2: the field of the form *)
  ccType : option bytes;
  ccGenerate : option bool;
  ccNewline : option bool;
  ccFile : option upload }.
(* api_metro2_files.go:319-325 *)
Record print_call := mkPrintCall {
  pcFormat : option bytes;
  pcFormat2 : option bytes;
  pcFile : option upload }.
(* api_metro2_files.go:472-476 *)
Record validator_call := mkValidatorCall { vcFile : option upload }.

(* what is sent; a body, if there is one, is a multipart form; client.go:276-418 *)
Record wire := mkWire {
  wrMethod : string;
  wrPath : string;
  wrQuery : bytes;                 (* url.RawQuery *)
  wrType : bytes;                  (* Content-Type, empty when not set *)
  wrForm : option (values * list (string * upload)) }.

(* strconv.FormatBool; client.go:207 *)
Definition format_bool (b : bool) : bytes := if b then lit "true" else lit "false".

(* parameterAddToHeaderOrQuery, client.go:144-226, with a pointer to a string or
   to a bool *)
Definition add_text (k : string) (v : option bytes) : values :=
  match v with Some t => [(k, t)] | None => [] end.
(* client.go:144-226 *)
Definition add_bool (k : string) (v : option bool) : values :=
  match v with Some b => [(k, format_bool b)] | None => [] end.

(* client.go:104-111 *)
Definition contains (haystack : list bytes) (needle : bytes) : bool :=
  existsb (fun a => equal_fold a needle) haystack.

(* client.go:80-88 *)
Definition select_content_type (contentTypes : list bytes) : bytes :=
  match contentTypes with
  | [] => []
  | first :: _ => if contains contentTypes (lit "application/json") then lit "application/json" else first
  end.

(* mime/multipart Writer.FormDataContentType; [boundary] is random; client.go:336 *)
Definition form_data_type (boundary : bytes) : bytes := lit "multipart/form-data; boundary=" ++ boundary.

(* client.go:321-333: a file without bytes or without name is left out *)
Definition file_parts (files : list (string * upload)) : list (string * upload) :=
  filter (fun p => match upBytes (snd p), upName (snd p) with [], _ | _, [] => false | _, _ => true end) files.

(* client.go:276-418 without a post body; no key begins with an at sign, and no
   content type is that of an encoded form.  The Content-Length computed here is
   not used by net/http. *)
Definition prepare_request (boundary : bytes) (path method : string) (contentType : bytes)
    (query form : values) (files : list (string * upload)) : wire :=
  if (has_prefix contentType (lit "multipart/form-data") && negb (Nat.eqb (length form) 0)) || negb (Nat.eqb (length files) 0)
  then mkWire method path (encode_query query) (form_data_type boundary) (Some (form, file_parts files))
  else mkWire method path (encode_query query) contentType None.

(* api_metro2_files.go:145-160 *)
Definition form_file (f : option upload) : list (string * upload) :=
  match f with Some u => [("file", u)] | None => [] end.

(* api_metro2_files.go:94-161; the fields of the form in the order of a map:
   any, and there is one value for each *)
Definition convert_request (boundary : bytes) (c : convert_call) : wire :=
  prepare_request boundary "/convert" "POST"
    (select_content_type [lit "multipart/form-data"; lit "application/json"])
    (add_text "format" (ccFormat c))
    (add_text "format" (ccFormat2 c) ++ add_text "type" (ccType c)
     ++ add_bool "generate" (ccGenerate c) ++ add_bool "newline" (ccNewline c))
    (form_file (ccFile c)).

(* api_metro2_files.go:367-425 *)
Definition print_request (boundary : bytes) (c : print_call) : wire :=
  prepare_request boundary "/print" "POST"
    (select_content_type [lit "multipart/form-data"; lit "application/json"])
    (add_text "format" (pcFormat c))
    (add_text "format" (pcFormat2 c))
    (form_file (pcFile c)).

(* api_metro2_files.go:506-558 *)
Definition validator_request (boundary : bytes) (c : validator_call) : wire :=
  prepare_request boundary "/validator" "POST"
    (select_content_type [lit "multipart/form-data"]) [] [] (form_file (vcFile c)).

(* api_metro2_files.go:246-282 *)
Definition health_request (boundary : bytes) : wire :=
  prepare_request boundary "/health" "GET" (select_content_type []) [] [] [].

(* ---- between client and server ---- *)

(* what net/http and mime/multipart hand to a handler: FormValue sees the query
   before the fields of a multipart form (Request.ParseMultipartForm appends),
   FormFile the first file part of that name; a request without a body has an
   empty one.  [evs]: how reading the file part, or the body, proceeds;
   pkg/server/server.go:18-39 and 83-107 *)
Definition hand_over (evs : list read_event) (w : wire) : request :=
  let query := parse_query (wrQuery w) in
  let fields := match wrForm w with Some (form, _) => map (fun p => (lit (fst p), snd p)) form | None => [] end in
  mkRequest (wrType w)
    (match wrForm w with
     | Some (_, files) =>
         match find (fun p => String.eqb (fst p) "file") files with
         | Some p => Some (mkSource (upBytes (snd p)) evs)
         | None => None
         end
     | None => None
     end)
    (mkSource [] evs)
    (first_value query)
    (first_value (query ++ fields)).

(* server.go:243-250; gorilla/mux answers 405 when only the method is wrong and
   404 when no route has the path *)
Definition dispatch (cpus : Z) (rt : runtime) (method path : string) (rq : request) : option reply :=
  let route (m : string) (rp : option reply) := if String.eqb method m then rp else Some (Reply 405 [] (BodyText [])) in
  if String.eqb path "/health" then route "GET" (Some serve_health)
  else if String.eqb path "/print" then route "POST" (serve_print cpus rt rq)
  else if String.eqb path "/validator" then route "POST" (serve_validator rt rq)
  else if String.eqb path "/convert" then route "POST" (serve_convert cpus rt rq)
  else Some (Reply 404 [("Content-Type", "text/plain; charset=utf-8"); ("X-Content-Type-Options", "nosniff")]
               (BodyText (lit "404 page not found" ++ [lf_char]))).

(* client.go:239-261 and pkg/server/server.go:243-250 *)
Definition respond (cpus : Z) (rt : runtime) (evs : list read_event) (w : wire) : option reply :=
  dispatch cpus rt (wrMethod w) (wrPath w) (hand_over evs w).

(* the bytes of a body; [errText] is Error(); pkg/server/server.go:41-55, 71-81, 125 *)
Definition body_bytes (errText : error -> bytes) (b : body) : bytes :=
  match b with
  | BodyText t => t
  | BodyError e => errText e ++ [lf_char]
  | BodyJsonError e => print (JObj [(lit "error", JStr (errText e))]) ++ [lf_char]
  end.

(* ---- answers ---- *)

(* api_metro2_files.go:166-216 *)
Inductive outcome :=
| Returned (t : bytes)                                   (* a string, or a file with these bytes; no error *)
| NoFile                                                 (* a nil *os.File and no error *)
| ApiError (status : Z) (t : bytes) (model : option bytes)  (* GenericOpenAPIError with its body and its model *)
| Broken.                                                (* an error of the transport *)

(* decode, client.go:420-473, into a string or into a file; making the temporary
   file is taken to succeed *)
Definition decode_string (t : bytes) : outcome := Returned t.
(* client.go:440-451 *)
Definition decode_os_file (t : bytes) : outcome := match t with [] => NoFile | _ => Returned t end.

(* api_metro2_files.go:166-216, and likewise the others; [models]: the statuses
   with an error model *)
Definition receive (errText : error -> bytes) (models : list Z) (decode : bytes -> outcome) (rp : reply) : outcome :=
  match rp with
  | Crash => Broken
  | Reply status _ b =>
      let t := body_bytes errText b in
      if 300 <=? status
      then ApiError status t (if existsb (Z.eqb status) models then Some t else None)
      else decode t
  end.

Section Operations.
(* the server, how reading proceeds there, the text of errors, the boundary *)
Variables (cpus : Z) (rt : runtime) (evs : list read_event) (errText : error -> bytes) (boundary : bytes).

(* api_metro2_files.go:161-216 *)
Definition perform (w : wire) (models : list Z) (decode : bytes -> outcome) : option outcome :=
  match respond cpus rt evs w with
  | Some rp => Some (receive errText models decode rp)
  | None => None
  end.

(* api_metro2_files.go:94-217 *)
Definition client_convert (c : convert_call) : option outcome :=
  perform (convert_request boundary c) [400; 501] decode_os_file.
(* api_metro2_files.go:367-470 *)
Definition client_print (c : print_call) : option outcome :=
  perform (print_request boundary c) [400] decode_string.
(* api_metro2_files.go:506-614 *)
Definition client_validator (c : validator_call) : option outcome :=
  perform (validator_request boundary c) [400; 501] decode_string.
(* api_metro2_files.go:246-317 *)
Definition client_health : option outcome :=
  perform (health_request boundary) [] decode_string.
End Operations.
