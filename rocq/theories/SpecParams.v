(* Specification: the values of which a parameter of the client consists *)
From Coq Require Import ZArith NArith Bool Ascii String List.
Import ListNotations.
From Verif Require Import GoBase GoTime ClientScalars ClientParams SpecCodec SpecJson SpecNumbers.
Local Open Scope string_scope.
Local Open Scope Z_scope.
Local Open Scope list_scope.
Local Notation length := List.length.

(* the numbers m * 2^e of the format binary32 of IEEE 754, without the sign *)
Definition binary32 (m e : Z) : Prop := 2 ^ 23 <= m < 2 ^ 24 /\ -149 <= e <= 104 \/ 0 <= m < 2 ^ 23 /\ e = -149.

(* m * 2^e is the one nearest to n / d, or the even one of two that are as near;
   distances are multiplied by d * 2^149 *)
Definition nearest32 (n d m e : Z) : Prop :=
  binary32 m e /\ forall m' e', binary32 m' e' ->
    Z.abs (m * 2 ^ (e + 149) * d - n * 2 ^ 149) <= Z.abs (m' * 2 ^ (e' + 149) * d - n * 2 ^ 149)
    /\ (Z.abs (m * 2 ^ (e + 149) * d - n * 2 ^ 149) = Z.abs (m' * 2 ^ (e' + 149) * d - n * 2 ^ 149) ->
        (m', e') = (m, e) \/ Z.even m = true).

(* an exponent is written below 1e-4 and from 1e6 on; it has two digits *)
Definition exponent_rule (s : bytes) (n d : Z) : Prop :=
  (In "e"%char s <-> 0 < n /\ (10 ^ 4 * n < d \/ 10 ^ 6 * d <= n))
  /\ (In "e"%char s -> exists a g ds, s = a ++ "e"%char :: g :: ds /\ (g = "-"%char \/ g = "+"%char) /\ numerals ds /\ length ds = 2%nat).

(* s tells a float64 with the precision of binary32: infinite from half a step above the
   largest number on; otherwise a decimal with the same nearest number of binary32, with as few
   digits as there are; whole numbers with up to six digits as they are *)
Definition float_says (x : float64) (s : bytes) : Prop :=
  match x with
  | NotANumber => s = list_ascii_of_string "NaN"
  | Infinite neg => s = list_ascii_of_string (if neg then "-Inf" else "+Inf")
  | Finite neg m e =>
      let n := m * 2 ^ Z.max e 0 in
      let d := 2 ^ Z.max (- e) 0 in
      0 <= m ->
      ((2 ^ 25 - 1) * 2 ^ 103 * d <= n -> s = list_ascii_of_string (if neg then "-Inf" else "+Inf"))
      /\ (n < (2 ^ 25 - 1) * 2 ^ 103 * d ->
          exists c p m' e', amounts s neg (c * 10 ^ Z.max p 0) (10 ^ Z.max (- p) 0) /\ nearest32 n d m' e' /\ nearest32 (c * 10 ^ Z.max p 0) (10 ^ Z.max (- p) 0) m' e'
            /\ (forall c' p' j, 0 <= c' -> 0 <= j -> c' * 10 ^ Z.max p' 0 < (2 ^ 25 - 1) * 2 ^ 103 * 10 ^ Z.max (- p') 0 -> c' < 10 ^ j ->
                 nearest32 (c' * 10 ^ Z.max p' 0) (10 ^ Z.max (- p') 0) m' e' -> c < 10 ^ j)
            /\ exponent_rule s (c * 10 ^ Z.max p 0) (10 ^ Z.max (- p) 0))
      /\ (forall z, 0 <= z < 10 ^ 6 -> n = z * d -> s = (if neg then list_ascii_of_string "-" else []) ++ itoa z)
  end.

Section Texts.
(* the texts of float64 *)
Context (w : float64 -> bytes).

(* what is one text *)
Inductive one_text : gval -> bytes -> Prop :=
| text_nil : one_text GNil (list_ascii_of_string "null")
| text_int z : one_text (GInt z) (itoa z)
| text_uint z : 0 <= z -> one_text (GUint z) (itoa z)
| text_float x : one_text (GFloat x) (w x)
| text_true : one_text (GBool true) (list_ascii_of_string "true")
| text_false : one_text (GBool false) (list_ascii_of_string "false")
| text_text t : one_text (GText t) t
| text_time t s : plain_stamp t -> rfc3339_utc t s -> one_text (GTime t) s
| text_other t : one_text (GOther t) (t ++ list_ascii_of_string " value").

(* keys and texts, in order *)
Inductive pieces : bytes -> gval -> list (bytes * bytes) -> Prop :=
| pieces_one k v t : one_text v t -> pieces k v [(k, t)]
| pieces_list k l ps : Forall2 (pieces k) l ps -> pieces k (GList l) (concat ps)
| pieces_map k m ps : Forall2 (fun p q => pieces (k ++ list_ascii_of_string "[" ++ fst p ++ list_ascii_of_string "]") (snd p) q) m ps ->
    pieces k (GMap m) (concat ps)
| pieces_object k m ps : Forall2 (fun p q => pieces (k ++ list_ascii_of_string "[" ++ fst p ++ list_ascii_of_string "]") (snd p) q) m ps ->
    pieces k (GMapped m) (concat ps)
| pieces_failed k : pieces k GFailed []
| pieces_pointer k v l : pieces k v l -> pieces k (GPtr (Some v)) l.
End Texts.

(* the texts under a key, in order *)
Inductive texts_under (q : bytes) : list (bytes * bytes) -> list bytes -> Prop :=
| under_none : texts_under q [] []
| under_here t l ts : texts_under q l ts -> texts_under q ((q, t) :: l) (t :: ts)
| under_other k t l ts : k <> q -> texts_under q l ts -> texts_under q ((k, t) :: l) ts.

(* texts with commas between them *)
Inductive with_commas : list bytes -> bytes -> Prop :=
| commas_one a : with_commas [a] a
| commas_more a l t : l <> [] -> with_commas l t -> with_commas (a :: l) (a ++ list_ascii_of_string "," ++ t).

(* a pointer that is nil is met on the way *)
Inductive nil_inside : gval -> Prop :=
| nil_here : nil_inside (GPtr None)
| nil_pointer v : nil_inside v -> nil_inside (GPtr (Some v))
| nil_list l v : In v l -> nil_inside v -> nil_inside (GList l)
| nil_map m n v : In (n, v) m -> nil_inside v -> nil_inside (GMap m)
| nil_object m n v : In (n, v) m -> nil_inside v -> nil_inside (GMapped m).

(* numbers and times that Go has, and no pointers that are nil *)
Inductive proper : gval -> Prop :=
| proper_nil : proper GNil
| proper_int z : proper (GInt z)
| proper_uint z : 0 <= z -> proper (GUint z)
| proper_float x : proper (GFloat x)
| proper_bool b : proper (GBool b)
| proper_text t : proper (GText t)
| proper_list l : Forall proper l -> proper (GList l)
| proper_map m : Forall (fun p => proper (snd p)) m -> proper (GMap m)
| proper_object m : Forall (fun p => proper (snd p)) m -> proper (GMapped m)
| proper_pointer v : proper v -> proper (GPtr (Some v))
| proper_failed : proper GFailed
| proper_time t : plain_stamp t -> proper (GTime t)
| proper_other t : proper (GOther t).
