(* Parameters of the client: pkg/client/client.go:142-227 *)
From Coq Require Import ZArith NArith Bool Ascii String List.
Import ListNotations.
From Verif Require Import GoBase GoTime GoLayout GoFloat Client ClientScalars.
Local Open Scope string_scope.
Local Open Scope Z_scope.
Local Open Scope list_scope.
Local Notation length := List.length.

(* ---- strconv.FormatFloat(v, 'g', -1, 32) ---- *)

(* the float32 nearest to n / d, as m * 2^e with 2^23 <= m < 2^24 or e = -149; None:
   infinite; client.go:205 *)
Definition to_single (n d : Z) : option (Z * Z) :=
  if n =? 0 then Some (0, -149)
  else
    let e := Z.max (-149) (binade n d - 23) in
    let m := half_even (n * 2 ^ Z.max (- e) 0) (d * 2 ^ Z.max e 0) in
    let '(m', e') := if m =? 2 ^ 24 then (2 ^ 23, e + 1) else (m, e) in
    if 104 <? e' then None else Some (m', e').

(* client.go:205 *)
Definition decimal_single (c p : Z) : option (Z * Z) := to_single (c * 10 ^ Z.max p 0) (10 ^ Z.max (- p) 0).

(* as try_digits and shortest in GoFloat.v; client.go:205 *)
Definition try_single (m e p : Z) : option Z :=
  let n := m * 2 ^ Z.max e 0 * 10 ^ Z.max (- p) 0 in
  let d := 2 ^ Z.max (- e) 0 * 10 ^ Z.max p 0 in
  let lo := n / d in
  let hi := lo + 1 in
  let '(a, b) := if 2 * (n mod d) <=? d then (lo, hi) else (hi, lo) in
  if same_double (decimal_single a p) m e then Some a
  else if same_double (decimal_single b p) m e then Some b
  else None.
(* 9 digits are always enough; client.go:205 *)
Fixpoint shortest_single (fuel : nat) (m e p : Z) : option (Z * Z) :=
  match fuel with
  | O => None
  | S f => match try_single m e p with Some c => Some (c, p) | None => shortest_single f m e (p - 1) end
  end.

(* strconv fmtE: the exponent has two digits at least; client.go:205 *)
Definition fmt_e2 (s : bytes) (dp : Z) : bytes :=
  firstn 1 s
  ++ match skipn 1 s with [] => [] | r => "."%char :: r end
  ++ "e"%char :: (if dp - 1 <? 0 then "-"%char else "+"%char) :: (if Z.abs (dp - 1) <? 10 then [zero_char] else []) ++ utoa (Z.abs (dp - 1)).

(* a float32 without sign with format 'g'; client.go:205 *)
Definition single_text (m e : Z) : bytes :=
  if m =? 0 then [zero_char]
  else
    let k := places (m * 2 ^ Z.max e 0) (2 ^ Z.max (- e) 0) in
    match shortest_single 9 m e (k - 1) with
    | Some (c, p) =>
        let s := utoa c in
        let dp := Z.of_nat (length s) + p in
        let digits := strip_zeros s in
        if (dp - 1 <? -4) || (6 <=? dp - 1) then fmt_e2 digits dp else fmt_f digits dp
    | None => []
    end.

(* client.go:205: the float64 becomes a float32 first *)
Definition float_text (x : float64) : bytes :=
  match x with
  | Finite neg m e =>
      match to_single (m * 2 ^ Z.max e 0) (2 ^ Z.max (- e) 0) with
      | Some (m', e') => (if neg then "-"%char :: single_text m' e' else single_text m' e')
      | None => if neg then lit "-Inf" else lit "+Inf"
      end
  | Infinite neg => if neg then lit "-Inf" else lit "+Inf"
  | NotANumber => lit "NaN"
  end.

(* ---- values ---- *)

(* what an interface{} holds, as reflection tells it; client.go:145-211 *)
Inductive gval :=
| GNil                                          (* nil *)
| GInt (z : Z)                                  (* signed *)
| GUint (z : Z)                                 (* unsigned *)
| GFloat (x : float64)
| GBool (b : bool)
| GText (t : bytes)
| GList (l : list gval)                         (* a slice *)
| GMap (m : list (bytes * gval))                (* a map with text keys, in the order it is visited *)
| GPtr (p : option gval)                        (* a pointer; None: nil *)
| GMapped (m : list (bytes * gval))             (* a struct with ToMap *)
| GFailed                                       (* a struct of which ToMap fails *)
| GTime (t : time)
| GOther (typ : bytes).                         (* another struct, function, channel, array: the name of its type *)

(* the last argument of parameterAddToHeaderOrQuery and the kind of the first;
   client.go:144 and 215-226 *)
Inductive sink := Multi | Csv | Single.

(* url.Values or the map of headers; a key that is missing has no values; client.go:215 *)
Definition store := list (bytes * list bytes).

(* client.go:217 *)
Fixpoint store_get (st : store) (k : bytes) : list bytes :=
  match st with
  | [] => []
  | (k', vs) :: r => if bytes_eqb k' k then vs else store_get r k
  end.
(* client.go:218-224 *)
Fixpoint store_set (st : store) (k : bytes) (vs : list bytes) : store :=
  match st with
  | [] => [(k, vs)]
  | (k', vs') :: r => if bytes_eqb k' k then (k', vs) :: r else (k', vs') :: store_set r k vs
  end.

(* url.Values.Get: the first value, or nothing; client.go:217 *)
Definition store_first (st : store) (k : bytes) : bytes := match store_get st k with v :: _ => v | [] => [] end.

(* client.go:215-226 *)
Definition put (s : sink) (st : store) (k v : bytes) : store :=
  match s with
  | Multi => store_set st k (store_get st k ++ [v])
  | Csv => match store_first st k with
           | [] => store_set st k (store_get st k ++ [v])
           | f => store_set st k [f ++ lit "," ++ v]
           end
  | Single => store_set st k [v]
  end.

(* client.go:188 *)
Definition member_key (k n : bytes) : bytes := k ++ lit "[" ++ n ++ lit "]".

Section Each.
Context {A : Type} (f : store -> A -> res store).
(* one step after the other; client.go:174-178, 186-189 *)
Fixpoint each (st : store) (l : list A) : res store :=
  match l with
  | [] => Ok st
  | a :: r => match f st a with Ok st' => each st' r | x => x end
  end.
End Each.

(* parameterAddToHeaderOrQuery, client.go:144-227; a nil pointer: Interface of the zero
   Value panics, client.go:195 *)
Fixpoint add_param (s : sink) (st : store) (k : bytes) (v : gval) {struct v} : res store :=
  match v with
  | GNil => Ok (put s st k (lit "null"))
  | GInt z => Ok (put s st k (itoa z))
  | GUint z => Ok (put s st k (utoa z))
  | GFloat x => Ok (put s st k (float_text x))
  | GBool b => Ok (put s st k (format_bool b))
  | GText t => Ok (put s st k t)
  | GList l => each (fun st v => add_param s st k v) st l
  | GMap m => each (fun st p => match p with (n, v) => add_param s st (member_key k n) v end) st m
  | GPtr None => Panic
  | GPtr (Some v) => add_param s st k v
  | GFailed => Ok st
  | GMapped m => each (fun st p => match p with (n, v) => add_param s st (member_key k n) v end) st m
  | GTime t => Ok (put s st k (format_rfc3339 t))
  | GOther typ => Ok (put s st k (typ ++ lit " value"))
  end.
