(* The HTTP handlers (pkg/server/server.go) and the command line
   (cmd/metro2/main.go).  net/http, mime/multipart, gorilla/mux, cobra and the
   file system are not modelled: a request and a command line are what those
   hand over, a reply and a result what is handed to them. *)
From Coq Require Import ZArith NArith Bool Ascii String List.
Import ListNotations.
From Verif Require Import GoBase GoTime GoLayout Tables Codec Records File Reader Json JsonFile.
Local Open Scope string_scope.
Local Open Scope Z_scope.
Local Open Scope list_scope.
Local Notation length := List.length.

(* ---- requests and replies ---- *)

(* bytes to be read, and how reading delivers them (Reader.v);
   r.Body of server.go:34 or the file of server.go:21; os.File of cmd/metro2/main.go *)
Record source := mkSource { srInput : bytes; srReads : list read_event }.

(* *http.Request, server.go:18-39, 83-107, 194, 214 *)
Record request := mkRequest {
  rqType : bytes;                  (* r.Header.Get("Content-Type") *)
  rqFile : option source;          (* r.FormFile("file"); None: an error *)
  rqBody : source;                 (* r.Body *)
  rqQuery : string -> bytes;       (* r.URL.Query().Get, "" when absent *)
  rqForm : string -> bytes }.      (* r.FormValue, after the file was read;
   server.go:41-55, 71-81, 125, 230 *)

Inductive body :=
| BodyText (t : bytes)      (* this text *)
| BodyError (e : error)     (* http.Error: the message of this error *)
| BodyJsonError (e : error) (* an object with the message of this error under "error" *).

(* the header fields are those set before the status was written: fields set
   later are not sent (net/http ResponseWriter.Header); server.go:41-55, 71-81, 125, 225-230 *)
Inductive reply :=
| Reply (status : Z) (header : list (string * string)) (b : body)
| Crash.                    (* the handler panics; net/http drops the connection *)

(* ---- helpers ---- *)

(* strings.ToLower, as far as a comparison with ASCII letters can tell: besides
   A-Z two characters have an ASCII letter as their lower case, U+0130 and U+212A *)
Fixpoint lower_text (s : bytes) : bytes :=
  match s with
  | [] => []
  | a :: r =>
      match r with
      | b :: r1 =>
          if bytes_eqb [a; b] (map ascii_of_N [196; 176]%N) then "i"%char :: lower_text r1
          else match r1 with
               | c :: r2 =>
                   if bytes_eqb [a; b; c] (map ascii_of_N [226; 132; 170]%N) then "k"%char :: lower_text r2
                   else lower_char a :: lower_text r
               | [] => lower_char a :: lower_text r
               end
      | [] => [lower_char a]
      end
  end.

(* strings.HasPrefix; server.go:20 *)
Fixpoint has_prefix (s p : bytes) : bool :=
  match p, s with
  | [], _ => true
  | _, [] => false
  | x :: p', y :: s' => byte_eqb x y && has_prefix s' p'
  end.

(* strings.EqualFold with an ASCII text (the folding is that of encoding/json);
   server.go:103 and 195 *)
Definition equal_fold (s t : bytes) : bool := bytes_eqb (fold_name s) (fold_name t).

(* String, file_instance.go:258-266; [cpus] is runtime.NumCPU() *)
Definition file_string (cpus : Z) (f : file) (isNewLine : bool) : bytes := concurrent_string f isNewLine cpus.

(* utils/constants.go; utils/constants.go:23 *)
Definition MessageJsonFormat : bytes := lit "json".
(* utils/constants.go:25 *)
Definition MessageMetroFormat : bytes := lit "metro".
(* server.go:62 *)
Definition tab : bytes := [ascii_of_N 9].

(* server.go:18-39 *)
Definition parse_input (rt : runtime) (rq : request) : option (res file) :=
  if has_prefix (lower_text (rqType rq)) (lit "multipart/") then
    match rqFile rq with
    | None => Some (Err (ErrOther "reading multipart request"))
    | Some src => new_file_from_reader rt (srReads src) (srInput src)
    end
  else new_file_from_reader rt (srReads (rqBody rq)) (srInput (rqBody rq)).

(* net/http Error; server.go:125, 131, 154, 190, 198, 203 *)
Definition http_error (e : error) (code : Z) : reply :=
  Reply code [("Content-Type", "text/plain; charset=utf-8"); ("X-Content-Type-Options", "nosniff")] (BodyError e).

(* server.go:41-47; the content type is set too late *)
Definition output_error (code : Z) (e : error) : reply := Reply code [] (BodyJsonError e).

(* server.go:49-55; Encode ends with a line break *)
Definition output_success (output : string) : reply :=
  Reply 200 [] (BodyText (print (JObj [(lit "status", JStr (lit output))]) ++ [lf_char])).

(* whether the slice of data records of a file that was read is nil when there are
   none: Reader.Read makes an empty one (file.go:160), but the change to packed
   replaces it by nil (file.go:176, file_instance.go:464-473), and a file read from
   JSON has none (file.go:50-69, file_instance.go:369-399) *)
Definition read_nil (input : bytes) (f : file) : bool := looks_like_json input || flPacked f.

(* the same after SetType, file_instance.go:411-488: a change leaves nil *)
Definition retyped_nil (isNil : bool) (f g : file) : bool := isNil || negb (Bool.eqb (flPacked f) (flPacked g)).

(* what parseInputFromRequest reads; server.go:18-39 *)
Definition request_input (rq : request) : bytes :=
  if has_prefix (lower_text (rqType rq)) (lit "multipart/") then
    match rqFile rq with Some src => srInput src | None => [] end
  else srInput (rqBody rq).

(* server.go:57-69; [isNil] as in encode_file *)
Definition message_to_buf (cpus : Z) (isNil : bool) (format : bytes) (f : file) (newline : bool) : res bytes :=
  if bytes_eqb format MessageJsonFormat then Ok (print_indent tab 0 (encode_file isNil f))
  else if bytes_eqb format MessageMetroFormat then Ok (file_string cpus f newline)
  else Err (ErrOther "invalid format").

(* server.go:71-81 *)
Definition output_buffer (cpus : Z) (isNil : bool) (f : file) (format : bytes) (newline : bool) : reply :=
  if bytes_eqb format MessageJsonFormat then Reply 200 [] (BodyText (print (encode_file isNil f) ++ [lf_char]))
  else if bytes_eqb format MessageMetroFormat then Reply 200 [] (BodyText (file_string cpus f newline))
  else Reply 200 [] (BodyText []).

(* server.go:83-98 *)
Definition get_format (rq : request) : res bytes :=
  let format := if bytes_eqb (rqType rq) (lit "application/json") then rqQuery rq "format" else rqForm rq "format" in
  let format := match format with [] => MessageJsonFormat | _ => format end in
  if negb (bytes_eqb format MessageMetroFormat) && negb (bytes_eqb format MessageJsonFormat)
  then Err (ErrOther "invalid format") else Ok format.

(* server.go:100-107 *)
Definition get_is_newline (rq : request) : bool := negb (equal_fold (rqForm rq "newline") (lit "false")).

(* ---- handlers ---- *)

(* what every handler does first; server.go:123-127, 152-156, 188-192 *)
Definition with_file (rt : runtime) (rq : request) (k : file -> reply) : option reply :=
  match parse_input rt rq with
  | None => None
  | Some Panic => Some Crash
  | Some (Err e) => Some (http_error e 400)
  | Some (Ok f) => Some (k f)
  end.

(* server.go:118-136 *)
Definition serve_validator (rt : runtime) (rq : request) : option reply :=
  with_file rt rq (fun f =>
    match file_validate f with
    | Panic => Crash
    | Err e => http_error e 501
    | Ok _ => output_success "valid file"
    end).

(* server.go:147-172 *)
Definition serve_print (cpus : Z) (rt : runtime) (rq : request) : option reply :=
  with_file rt rq (fun f =>
    match get_format rq with
    | Panic => Crash
    | Err e => output_error 501 e
    | Ok format =>
        let newline := get_is_newline rq in
        let isNil := read_nil (request_input rq) f in
        match message_to_buf cpus isNil format f newline with
        | Panic => Crash
        | Err e => output_error 501 e
        | Ok _ => output_buffer cpus isNil f format newline
        end
    end).

(* GeneratorTrailer and SetRecord: server.go:194-206, main.go:206-215 *)
Definition generate_into (f : file) : res file :=
  match file_generate_trailer f with
  | Panic => Panic
  | Err e => Err e
  | Ok trailer =>
      match file_set_record f trailer with
      | (_, Some e) => Err e
      | (f', None) => Ok f'
      end
  end.

(* server.go:214-217, main.go:218-222: an error of SetType is ignored *)
Definition change_type (newType : bytes) (f : file) : file :=
  if bytes_eqb newType (lit "character") || bytes_eqb newType (lit "packed")
  then fst (file_set_type f newType) else f.

(* server.go:183-231 *)
Definition serve_convert (cpus : Z) (rt : runtime) (rq : request) : option reply :=
  with_file rt rq (fun f =>
    match (if equal_fold (rqForm rq "generate") (lit "true") then generate_into f else Ok f) with
    | Panic => Crash
    | Err e => http_error e 501
    | Ok f1 =>
        match get_format rq with
        | Panic => Crash
        | Err e => output_error 501 e
        | Ok format =>
            let f2 := change_type (rqForm rq "type") f1 in
            let isNil := retyped_nil (read_nil (request_input rq) f) f1 f2 in
            match message_to_buf cpus isNil format f2 (get_is_newline rq) with
            | Panic => Crash
            | Err e => output_error 501 e
            | Ok output =>
                Reply 200 [("Content-Type", "application/octet-stream");
                           ("Content-Disposition", "attachment; filename=converted_file");
                           ("Content-Transfer-Encoding", "binary");
                           ("Expires", "0")] (BodyText output)
            end
        end
    end).

(* server.go:239-241 *)
Definition serve_health : reply := output_success "alive".

(* ---- the command line ---- *)

(* the flags; cobra supplies the defaults, main.go:252-265 *)
Record flags := mkFlags {
  fgInput : option source;     (* createReader, main.go:26-48; None: an error *)
  fgFormat : bytes;
  fgType : bytes;              (* convert only *)
  fgGenerate : bool;           (* convert only *)
  fgNewline : bool;            (* print and convert *)
  fgCreates : bool }.          (* os.Create(args[0]) and writing succeed, convert only *)

(* what a command returns; cmd/metro2/main.go:87-248 *)
Inductive done :=
| Failed (e : error)
| Wrote (output : bytes)       (* to standard output (validator, print) or to the file (convert) *)
| Died.                        (* a panic *)

(* main.go:132-138 and :192-198 *)
Definition flag_format (format : bytes) : res bytes :=
  if negb (bytes_eqb format MessageJsonFormat) && negb (bytes_eqb format MessageMetroFormat) then
    match format with
    | [] => Ok MessageJsonFormat
    | _ => Err (ErrOther "don't support the format")
    end
  else Ok format.

(* main.go:146-161 and :224-238; json.Marshal, then json.Indent *)
Definition cli_output (cpus : Z) (isNil : bool) (format : bytes) (f : file) (newline : bool) : bytes :=
  if bytes_eqb format MessageJsonFormat then print_indent (lit "  ") 0 (encode_file isNil f)
  else if bytes_eqb format MessageMetroFormat then file_string cpus f newline
  else [].

(* main.go:87-113 *)
Definition cli_validate (rt : runtime) (fg : flags) : option done :=
  match fgInput fg with
  | None => Some (Failed (ErrOther "invalid input file"))
  | Some src =>
      match new_file_from_reader rt (srReads src) (srInput src) with
      | None => None
      | Some Panic => Some Died
      | Some (Err e) => Some (Failed e)
      | Some (Ok f) =>
          match file_validate f with
          | Panic => Some Died
          | Err e => Some (Failed e)
          | Ok _ => Some (Wrote (lit "the file is valid " ++ [lf_char]))
          end
      end
  end.

(* main.go:115-167 *)
Definition cli_print (cpus : Z) (rt : runtime) (fg : flags) : option done :=
  match fgInput fg with
  | None => Some (Failed (ErrOther "invalid input file"))
  | Some src =>
      match flag_format (fgFormat fg) with
      | Panic => Some Died
      | Err e => Some (Failed e)
      | Ok format =>
          match new_file_from_reader rt (srReads src) (srInput src) with
          | None => None
          | Some Panic => Some Died
          | Some (Err e) => Some (Failed e)
          | Some (Ok f) => Some (Wrote (cli_output cpus (read_nil (srInput src) f) format f (fgNewline fg)))
          end
      end
  end.

(* main.go:169-248 *)
Definition cli_convert (cpus : Z) (rt : runtime) (fg : flags) : option done :=
  match fgInput fg with
  | None => Some (Failed (ErrOther "invalid input file"))
  | Some src =>
      match flag_format (fgFormat fg) with
      | Panic => Some Died
      | Err e => Some (Failed e)
      | Ok format =>
          match new_file_from_reader rt (srReads src) (srInput src) with
          | None => None
          | Some Panic => Some Died
          | Some (Err e) => Some (Failed e)
          | Some (Ok f) =>
              match (if fgGenerate fg then generate_into f else Ok f) with
              | Panic => Some Died
              | Err e => Some (Failed e)
              | Ok f1 =>
                  let f2 := change_type (fgType fg) f1 in
                  let isNil := retyped_nil (read_nil (srInput src) f) f1 f2 in
                  let output := cli_output cpus isNil format f2 (fgNewline fg) in
                  if fgCreates fg then Some (Wrote output) else Some (Failed (ErrOther "os.Create"))
              end
          end
      end
  end.
