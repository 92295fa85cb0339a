(* The body of a request of the client: detectContentType and setBody, files named by a
   path, and encoded forms in prepareRequest.  pkg/client/client.go:276-351, 475-493, 508-563 *)
From Coq Require Import ZArith NArith Bool Ascii String List.
Import ListNotations.
From Verif Require Import GoBase GoTime GoLayout Tables Codec Records File Reader Json JsonFile Server Client ClientHeaders.
Local Open Scope string_scope.
Local Open Scope Z_scope.
Local Open Scope list_scope.
Local Notation length := List.length.

(* ---- the regular expressions ---- *)

(* the letters of a word in either case; U+017F folds to s, and no other character to a letter
   of the two expressions; what stands behind the word; client.go:37-38 *)
Fixpoint take_word (w s : bytes) : option bytes :=
  match w, s with
  | [], _ => Some s
  | _, [] => None
  | d :: w', c :: r =>
      if byte_eqb (lower_char c) d then take_word w' r
      else match r with
           | c' :: r' => if byte_eqb d "s" && bytes_eqb [c; c'] (map ascii_of_N [197; 191]%N) then take_word w' r' else None
           | [] => None
           end
  end.
(* client.go:37-38 *)
Definition begins (w : string) (s : bytes) : bool := match take_word (lit w) s with Some _ => true | None => false end.
(* [^;]+\+ and json, one character of the former seen; client.go:37 *)
Fixpoint plus_json (s : bytes) : bool :=
  match s with
  | [] => false
  | c :: r => (byte_eqb c "+" && begins "json" r) || (negb (byte_eqb c ";") && plus_json r)
  end.
(* behind the slash; client.go:37 *)
Definition json_rest (s : bytes) : bool :=
  begins "json" s || match take_word (lit "vnd.") s with Some (c :: r) => negb (byte_eqb c ";") && plus_json r | _ => false end.
(* the expression behind a first word; client.go:37-38 *)
Definition behind (w : string) (f : bytes -> bool) (s : bytes) : bool := match take_word (lit w) s with Some r => f r | None => false end.
(* anywhere in the text; regexp MatchString, client.go:523 and 525 *)
Fixpoint anywhere (f : bytes -> bool) (s : bytes) : bool := f s || match s with [] => false | _ :: r => anywhere f r end.
(* jsonCheck, client.go:37 *)
Definition json_check : bytes -> bool := anywhere (fun s => behind "application/" json_rest s || behind "text/" json_rest s).
(* xmlCheck, client.go:38 *)
Definition xml_check : bytes -> bool := anywhere (fun s => behind "application/" (begins "xml") s || behind "text/" (begins "xml") s).

(* ---- the post body ---- *)

(* reflect.Kind, as far as client.go:549-560 tells kinds apart *)
Inductive kind := KStruct | KMap | KPtr | KString | KSlice | KOther.

(* a value that is not nil, by its dynamic type, in the order of client.go:513-531.  A reader:
   its kind, what it yields, the text of its error if it ends with one.  A pointer to a string
   may be nil.  Another value: its kind, what encoding/json and encoding/xml make of it, or
   the text of their error.  A file is a reader, so the branch of client.go:515 is not reached. *)
Inductive post :=
| PReader (k : kind) (data : bytes) (failed : option bytes)
| PBytes (b : bytes)
| PText (s : bytes)
| PTextAt (s : option bytes)
| PValue (k : kind) (js : json + bytes) (xs : bytes + bytes).

(* what the loops and calls end with; client.go:508-542 *)
Inductive made := Made (b : bytes) | Wrong (text : bytes) | Crash.

(* client.go:508-542; the Encoder writes a line break behind the value *)
Definition set_body (p : post) (contentType : bytes) : made :=
  let r := match p with
           | PReader _ data None => Made data
           | PReader _ _ (Some e) => Wrong e
           | PBytes b => Made b
           | PText s => Made s
           | PTextAt (Some s) => Made s
           | PTextAt None => Crash
           | PValue _ js xs =>
               if json_check contentType then match js with inl j => Made (print j ++ [lf_char]) | inr e => Wrong e end
               else if xml_check contentType then match xs with inl t => Made t | inr e => Wrong e end
               else Made []
           end in
  match r with
  | Made [] => Wrong (lit "invalid body type " ++ contentType ++ [lf_char])
  | _ => r
  end.

(* client.go:546, 553 *)
Definition plain_type : bytes := lit "text/plain; charset=utf-8".
(* client.go:551, 558 *)
Definition json_type_text : bytes := lit "application/json; charset=utf-8".

Section Body.
(* http.DetectContentType; client.go:556 *)
Context (sniff : bytes -> bytes).
(* mime/multipart's escaping of quotes; client.go:317 *)
Context (esc : bytes -> bytes).
(* the text of the error of os.Open, if any, and that of reading a closed file; client.go:477, 490 *)
Context (opened : bytes -> option bytes) (closed : bytes -> bytes).

(* client.go:545-563 *)
Definition detect_type (p : post) : bytes :=
  match p with
  | PBytes b => sniff b
  | PText _ => plain_type
  | PTextAt _ => json_type_text
  | PReader k _ _ | PValue k _ _ =>
      match k with
      | KStruct | KMap | KPtr => json_type_text
      | KString => plain_type
      | KSlice => json_type_text
      | KOther => plain_type
      end
  end.

(* ---- forms ---- *)

(* url.Values: the keys in the order in which a loop visits them; client.go:282 *)
Definition form := list (bytes * list bytes).

(* all values with their keys; client.go:309-310 *)
Definition form_pairs (f : form) : list (bytes * bytes) := flat_map (fun kv => map (pair (fst kv)) (snd kv)) f.

(* addFile: the file is closed before it is read, so there is an error in any case; client.go:476-493 *)
Definition add_file (path : bytes) : bytes := match opened path with Some e => e | None => closed path end.

(* the value of the first key with an at sign, for which the loop ends; client.go:309-315 *)
Fixpoint first_path (l : list (bytes * bytes)) : option bytes :=
  match l with
  | [] => None
  | (k, v) :: r => if has_prefix k (lit "@") then Some v else first_path r
  end.

(* the order of strings; net/url Values.Encode, client.go:348 *)
Fixpoint key_le (a b : bytes) : bool :=
  match a, b with
  | [], _ => true
  | _, [] => false
  | x :: a', y :: b' => if bval x <? bval y then true else if bval y <? bval x then false else key_le a' b'
  end.
(* sort.Strings on the keys is modelled by insertion; client.go:348 *)
Fixpoint insert_key (x : bytes * list bytes) (f : form) : form :=
  match f with
  | [] => [x]
  | y :: r => if key_le (fst x) (fst y) then x :: f else y :: insert_key x r
  end.
(* client.go:348 *)
Definition sort_form (f : form) : form := fold_right insert_key [] f.
(* url.Values.Encode: key and value, joined with ampersands; client.go:348 *)
Fixpoint encode_pairs (l : list (bytes * bytes)) : bytes :=
  match l with
  | [] => []
  | [(k, v)] => query_escape k ++ "="%char :: query_escape v
  | (k, v) :: r => query_escape k ++ "="%char :: query_escape v ++ "&"%char :: encode_pairs r
  end.
(* client.go:348 *)
Definition encode_form (f : form) : bytes := encode_pairs (form_pairs (sort_form f)).

(* ---- prepareRequest, client.go:285-351 ---- *)

(* the body, the Content-Type, and the Content-Length if it is set; client.go:276-283 *)
Inductive prepared := Sent (body : option bytes) (contentType : bytes) (contentLength : option Z) | Refused (text : bytes) | Panicked.

(* client.go:289-293 *)
Definition content_type (p : option post) (ct : bytes) : bytes :=
  match p, ct with
  | Some p, [] => detect_type p
  | _, _ => ct
  end.

(* client.go:302-351, behind the post body *)
Definition add_form (boundary : bytes) (body : option bytes) (ct : bytes) (f : form) (files : list (string * upload)) : prepared :=
  if (has_prefix ct (lit "multipart/form-data") && negb (Nat.eqb (length f) 0)) || negb (Nat.eqb (length files) 0) then
    match body with
    | Some _ => Refused (lit "Cannot specify postBody and multipart form at the same time.")
    | None =>
        match first_path (form_pairs f) with
        | Some path => Refused (add_file path)
        | None =>
            let t := form_text esc boundary (map (fun p => (string_of_list_ascii (fst p), snd p)) (form_pairs f)) (file_parts files) in
            Sent (Some (t ++ form_end boundary)) (form_data_type boundary) (Some (Z.of_nat (length t)))
        end
    end
  else if has_prefix ct (lit "application/x-www-form-urlencoded") && negb (Nat.eqb (length f) 0) then
    match body with
    | Some _ => Refused (lit "Cannot specify postBody and x-www-form-urlencoded form at the same time.")
    | None => Sent (Some (encode_form f)) ct (Some (Z.of_nat (length (encode_form f))))
    end
  else Sent body ct None.

(* client.go:285-351 *)
Definition prepare_body (boundary : bytes) (p : option post) (ct : bytes) (f : form) (files : list (string * upload)) : prepared :=
  let ct' := content_type p ct in
  match p with
  | None => add_form boundary None ct' f files
  | Some p =>
      match set_body p ct' with
      | Made b => add_form boundary (Some b) ct' f files
      | Wrong e => Refused e
      | Crash => Panicked
      end
  end.
End Body.
