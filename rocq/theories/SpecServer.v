(* Specification: what a request asks for, and files as they are read *)
From Coq Require Import ZArith NArith Bool Ascii String List.
Import ListNotations.
From Verif Require Import GoBase GoTime Tables Codec Records File Reader Json JsonFile Server
  SpecCodec SpecLayouts SpecRecords SpecFile SpecFiles SpecReader SpecApi SpecJson.
Local Open Scope string_scope.
Local Open Scope Z_scope.
Local Open Scope list_scope.
Local Notation length := List.length.

(* ---- words in upper or lower case ---- *)

(* the letter in either case; [special] are further spellings of some letters *)
Inductive spelled (special : list (byte * bytes)) : bytes -> bytes -> Prop :=
| spelled_end : spelled special [] []
| spelled_same c s w : spelled special s w -> spelled special (c :: s) (c :: w)
| spelled_upper c d s w : (97 <= nat_of_ascii d <= 122)%nat -> nat_of_ascii d = (nat_of_ascii c + 32)%nat ->
    spelled special s w -> spelled special (c :: s) (d :: w)
| spelled_special x d s w : In (d, x) special -> spelled special s w -> spelled special (x ++ s) (d :: w).

(* Unicode: the dotted capital I has i as its lower case; the long s and the
   Kelvin sign are other forms of s and k *)
Definition dotted_i : bytes := map ascii_of_nat [196; 176]%nat.
Definition long_s : bytes := map ascii_of_nat [197; 191]%nat.
Definition kelvin : bytes := map ascii_of_nat [226; 132; 170]%nat.

Definition says_word (w : string) (s : bytes) : Prop :=
  spelled [("s"%char, long_s); ("k"%char, kelvin)] s (list_ascii_of_string w).

Definition multipart (contentType : bytes) : Prop :=
  exists p r, contentType = p ++ r /\ spelled [("i"%char, dotted_i); ("k"%char, kelvin)] p (list_ascii_of_string "multipart/").

(* ---- requests ---- *)

(* the file that is sent: the form file of a multipart request, else the body *)
Inductive sent (rq : request) : source -> Prop :=
| sent_form src : multipart (rqType rq) -> rqFile rq = Some src -> sent rq src
| sent_body : ~ multipart (rqType rq) -> sent rq (rqBody rq).

Definition reads (rt : runtime) (rq : request) (f : file) : Prop :=
  exists src, sent rq src /\ new_file_from_reader rt (srReads src) (srInput src) = Some (Ok f).

Inductive output_form := JsonOutput | MetroOutput.

Definition form_word (o : output_form) : bytes :=
  list_ascii_of_string (match o with JsonOutput => "json" | MetroOutput => "metro" end).

(* a format by name; JSON when none is given *)
Inductive names_form : bytes -> output_form -> Prop :=
| names_default : names_form [] JsonOutput
| names_word o : names_form (form_word o) o.

(* the format a request asks for; a JSON body leaves only the query *)
Inductive asks_form (rq : request) : output_form -> Prop :=
| asks_query o : rqType rq = list_ascii_of_string "application/json" -> names_form (rqQuery rq "format") o -> asks_form rq o
| asks_value o : rqType rq <> list_ascii_of_string "application/json" -> names_form (rqForm rq "format") o -> asks_form rq o.

Definition asks_trailer (rq : request) : Prop := says_word "true" (rqForm rq "generate").

(* line breaks are written unless refused *)
Definition asks_breaks (rq : request) (b : bool) : Prop :=
  b = false <-> says_word "false" (rqForm rq "newline").

(* ---- conversion ---- *)

(* the file with a new trailer *)
Definition with_trailer (f f' : file) : Prop :=
  exists t, file_generate_trailer f = Ok t /\ record_validate t = None /\ f' = set_trailer f t.

(* the file in another format: "character", "packed", anything else changes nothing *)
Inductive retyped : bytes -> file -> file -> Prop :=
| retyped_to p f f' : same_contents f f' -> flPacked f' = p -> file_ok f' -> retyped (type_name p) f f'
| retyped_none n f : n <> type_name true -> n <> type_name false -> retyped n f f.

(* what is delivered for f when n names the type wanted *)
Definition converted (trailer : Prop) (n : bytes) (f g : file) : Prop :=
  exists f1, (trailer -> with_trailer f f1) /\ (~ trailer -> f1 = f) /\ retyped n f1 g.

(* ---- outputs ---- *)

(* when a file has no data records its JSON has null for them, and not an empty
   list, if it was read from JSON, is packed or was made from one of the other type:
   [f] was read from [input] and became [g] *)
Definition null_data (input : bytes) (f g : file) (n : bool) : Prop :=
  n = true <-> In "{"%char (firstn 1024 input) \/ flPacked f = true \/ flPacked g <> flPacked f.
Definition asks_null (rq : request) (f g : file) (n : bool) : Prop :=
  exists src, sent rq src /\ null_data (srInput src) f g n.

(* the text of a file: one line of JSON, or its records *)
Definition print_text (n : bool) (o : output_form) (f : file) (breaks : bool) : bytes :=
  match o with
  | JsonOutput => print (encode_file n f) ++ [ascii_of_nat 10]
  | MetroOutput => file_text breaks f
  end.

(* indented JSON, or its records *)
Definition convert_text (n : bool) (indent : bytes) (o : output_form) (f : file) (breaks : bool) : bytes :=
  match o with
  | JsonOutput => print_indent indent 0 (encode_file n f)
  | MetroOutput => file_text breaks f
  end.

(* the file can be read back from its text: it survives JSON, or it is one for
   the streaming reader and no brace makes it look like JSON *)
Definition comes_back (o : output_form) (f : file) (breaks : bool) : Prop :=
  match o with
  | JsonOutput => json_file f /\ format_kept f
  | MetroOutput => exists k, file_streams k f /\ ~ In "{"%char (firstn 1024 (file_text breaks f))
  end.

(* a source that delivers all of its bytes *)
Definition delivers (src : source) (t : bytes) : Prop :=
  srInput src = t /\ patient (srReads src) /\ (length t < useful (srReads src))%nat.

Definition attachment : list (string * string) :=
  [("Content-Type", "application/octet-stream"); ("Content-Disposition", "attachment; filename=converted_file");
   ("Content-Transfer-Encoding", "binary"); ("Expires", "0")].

(* ---- files as they are read ---- *)

Definition segments_valid (f : file) : Prop :=
  Forall (fun r => match r with RBase _ b => Forall (fun s => seg_validate s = None) (segments_of b) | _ => True end) (flBases f).
