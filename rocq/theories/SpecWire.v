(* Specification: what the client sends, and what the server answers *)
From Coq Require Import ZArith NArith Bool Ascii String List.
Import ListNotations.
From Verif Require Import GoBase GoTime Tables Codec Records File Reader Json JsonFile Server Client SpecServer SpecClient.
Local Open Scope string_scope.
Local Open Scope Z_scope.
Local Open Scope list_scope.
Local Notation length := List.length.

(* ---- requests ---- *)

Definition bool_word (b : bool) : bytes := list_ascii_of_string (if b then "true" else "false").

(* the fields of the form: those that were set *)
Inductive convert_field (c : convert_call) : string -> bytes -> Prop :=
| convert_format t : ccFormat2 c = Some t -> convert_field c "format" t
| convert_type t : ccType c = Some t -> convert_field c "type" t
| convert_generate b : ccGenerate c = Some b -> convert_field c "generate" (bool_word b)
| convert_newline b : ccNewline c = Some b -> convert_field c "newline" (bool_word b).

Inductive print_field (c : print_call) : string -> bytes -> Prop :=
| print_format t : pcFormat2 c = Some t -> print_field c "format" t.

Definition no_field (_ : string) (_ : bytes) : Prop := False.

(* one field each, and exactly these *)
Definition holds_fields (form : values) (field : string -> bytes -> Prop) : Prop :=
  NoDup (map fst form) /\ forall k v, In (k, v) form <-> field k v.

(* the query holds the format if it was set, and nothing else *)
Definition query_holds (w : wire) (format : option bytes) : Prop :=
  parse_query (wrQuery w) = match format with Some t => [(list_ascii_of_string "format", t)] | None => [] end.

(* the file part: the file, if it has a name and text *)
Definition carries (files : list (string * upload)) (u : upload) : Prop :=
  (upName u <> [] /\ upBytes u <> [] /\ files = [("file", u)])
  \/ ((upName u = [] \/ upBytes u = []) /\ files = []).

(* with a file the body is a form with the fields and the file; without one there
   is no body, and the content type is [bare] *)
Definition body_holds (boundary : bytes) (w : wire) (field : string -> bytes -> Prop) (u : option upload) (bare : string) : Prop :=
  match u with
  | Some u =>
      wrType w = list_ascii_of_string "multipart/form-data; boundary=" ++ boundary
      /\ exists form files, wrForm w = Some (form, files) /\ holds_fields form field /\ carries files u
  | None => wrType w = list_ascii_of_string bare /\ wrForm w = None
  end.

(* ---- answers ---- *)

Definition plain_text : list (string * string) :=
  [("Content-Type", "text/plain; charset=utf-8"); ("X-Content-Type-Options", "nosniff")].

(* why no file could be read: there is none, or reading it failed *)
Inductive unread (rt : runtime) (rq : request) : error -> Prop :=
| unread_missing : multipart (rqType rq) -> rqFile rq = None -> unread rt rq (ErrOther "reading multipart request")
| unread_file src e : sent rq src -> new_file_from_reader rt (srReads src) (srInput src) = Some (Err e) -> unread rt rq e.

(* status 400 and the error of reading, as plain text *)
Definition says_unread (rt : runtime) (rq : request) (rp : reply) : Prop :=
  exists e, unread rt rq e /\ rp = Reply 400 plain_text (BodyError e).

(* status 501 and that the format is none, as JSON without a content type *)
Definition says_format (rp : reply) : Prop :=
  rp = Reply 501 [] (BodyJsonError (ErrOther "invalid format")).
