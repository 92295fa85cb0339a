(* Specification: the headers of a request, and where it goes *)
From Coq Require Import ZArith NArith Bool Ascii String List.
Import ListNotations.
From Verif Require Import GoBase GoTime Tables Codec Records File Reader Json JsonFile Server Client ClientHeaders.
Local Open Scope string_scope.
Local Open Scope Z_scope.
Local Open Scope list_scope.
Local Notation length := List.length.

(* names of headers are the same when they differ in large and small letters only *)
Definition same_letter (a b : ascii) : Prop :=
  a = b
  \/ (65 <= nat_of_ascii a <= 90 /\ nat_of_ascii b = nat_of_ascii a + 32)%nat
  \/ (65 <= nat_of_ascii b <= 90 /\ nat_of_ascii a = nat_of_ascii b + 32)%nat.
Definition same_name (a b : bytes) : Prop := Forall2 same_letter a b.

(* the characters of a name, tchar of RFC 9110 *)
Definition name_char (c : ascii) : Prop :=
  In c (list_ascii_of_string "!#$%&'*+-.^_`|~0123456789ABCDEFGHIJKLMNOPQRSTUVWXYZabcdefghijklmnopqrstuvwxyz").

(* large letters at the beginning and behind a minus sign, small ones elsewhere *)
Inductive capitals : ascii -> bytes -> Prop :=
| capitals_none p : capitals p []
| capitals_more p c s :
    (p = "-"%char -> ~ (97 <= nat_of_ascii c <= 122)%nat) -> (p <> "-"%char -> ~ (65 <= nat_of_ascii c <= 90)%nat) ->
    capitals c s -> capitals p (c :: s).

(* the name under which a header is sent; a name with other characters is kept *)
Definition sent_name (k k' : bytes) : Prop :=
  (Forall name_char k /\ same_name k k' /\ capitals "-" k') \/ (~ Forall name_char k /\ k' = k).

(* a map holds these values under a name: none when the name is missing *)
Definition header_holds (h : header) (k : bytes) (vs : list bytes) : Prop :=
  NoDup (map fst h) /\ ((vs = [] /\ ~ In k (map fst h)) \/ In (k, vs) h).

(* the values given under a name, in their order *)
Inductive given_values (k : bytes) : list (bytes * bytes) -> list bytes -> Prop :=
| given_none : given_values k [] []
| given_this k' v l vs : same_name k' k -> given_values k l vs -> given_values k ((k', v) :: l) (v :: vs)
| given_other k' v l vs : ~ same_name k' k -> given_values k l vs -> given_values k ((k', v) :: l) vs.

(* a value that is not empty *)
Definition some_text (t : bytes) : list bytes := match t with [] => [] | _ => [t] end.

(* a header, with what the configuration adds to it *)
Definition header_and_given (h : header) (cfg : client_config) (k : string) (own : list bytes) : Prop :=
  exists vs, given_values (list_ascii_of_string k) (cgDefault cfg) vs
    /\ header_holds h (list_ascii_of_string k) (own ++ vs).

(* no default header has this name *)
Definition not_given (cfg : client_config) (k : string) : Prop :=
  forall k' v, In (k', v) (cgDefault cfg) -> ~ same_name k' (list_ascii_of_string k).

(* decimal text of a number *)
Definition decimal (n : nat) (t : bytes) : Prop :=
  t <> [] /\ Forall (fun c => 48 <= nat_of_ascii c <= 57)%nat t
  /\ fold_left (fun a c => a * 10 + Z.of_nat (nat_of_ascii c - 48)) t 0 = Z.of_nat n.
