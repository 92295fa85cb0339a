(* Specification: what a call of the client asks for, and its outcome *)
From Coq Require Import ZArith NArith Bool Ascii String List.
Import ListNotations.
From Verif Require Import GoBase GoTime Tables Codec Records File Reader Json JsonFile Server Client
  SpecCodec SpecFiles SpecServer.
Local Open Scope string_scope.
Local Open Scope Z_scope.
Local Open Scope list_scope.
Local Notation length := List.length.

(* the text of the file that goes out; a file without name or text does not *)
Definition uploads (u : option upload) (t : bytes) : Prop :=
  exists n, u = Some (mkUpload n t) /\ n <> [] /\ t <> [].

(* f is the file that is uploaded, as the server reads it *)
Definition uploaded (rt : runtime) (evs : list read_event) (u : option upload) (f : file) : Prop :=
  exists t, uploads u t /\ new_file_from_reader rt evs t = Some (Ok f).

(* whether JSON has null for no data records, as in SpecServer *)
Definition uploads_null (u : option upload) (f g : file) (n : bool) : Prop :=
  exists t, uploads u t /\ null_data t f g n.

(* a text that was set, else nothing *)
Definition given (v : option bytes) : bytes := match v with Some t => t | None => [] end.

(* the format asked for: the one of the query counts before the one of the form *)
Inductive asked_format (query form : option bytes) : bytes -> Prop :=
| asked_query t : query = Some t -> asked_format query form t
| asked_form : query = None -> asked_format query form (given form).

Definition asks (query form : option bytes) (o : output_form) : Prop :=
  exists t, asked_format query form t /\ names_form t o.

(* line breaks are written unless refused *)
Definition breaks_asked (newline : option bool) (b : bool) : Prop := b = false <-> newline = Some false.

(* an answer of the server that is an error, as the client reports it: with the
   body, and with the body as the model if there is one *)
Definition refused (status : Z) (model : bool) (r : outcome) : Prop :=
  exists t, r = ApiError status t (if model then Some t else None).

(* an error with this status and body; the body is the model of the error for
   the statuses that have one *)
Definition refused_with (status : Z) (model : Prop) (t : bytes) (r : outcome) : Prop :=
  (model /\ r = ApiError status t (Some t)) \/ (~ model /\ r = ApiError status t None).

(* {"status":"..."} and a line break *)
Definition status_text (s : string) : bytes :=
  list_ascii_of_string ("{""status"":""" ++ s ++ """}") ++ [ascii_of_nat 10].

(* ---- queries ---- *)

(* a character of a parameter, as application/x-www-form-urlencoded *)
Inductive escaped_char : ascii -> bytes -> Prop :=
| escaped_same c : In c (list_ascii_of_string "-._~0123456789ABCDEFGHIJKLMNOPQRSTUVWXYZabcdefghijklmnopqrstuvwxyz") -> escaped_char c [c]
| escaped_space : escaped_char " " ["+"%char]
| escaped_hex c a b x y :
    ~ In c (list_ascii_of_string " -._~0123456789ABCDEFGHIJKLMNOPQRSTUVWXYZabcdefghijklmnopqrstuvwxyz") ->
    nth_error (list_ascii_of_string "0123456789ABCDEF") x = Some a -> nth_error (list_ascii_of_string "0123456789ABCDEF") y = Some b ->
    (nat_of_ascii c = x * 16 + y)%nat -> escaped_char c ["%"%char; a; b].

Definition escaped (s t : bytes) : Prop := exists ts, Forall2 escaped_char s ts /\ t = concat ts.
