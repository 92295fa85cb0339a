(* Numbers of JSON that pass through float64: strconv.ParseFloat and the writer of
   encoding/json, for file_instance.go:344-356 and base_segment.go:751-800.
   A float64 is a pair (m, e) that stands for m * 2^e, with 2^52 <= m < 2^53 or e = -1074;
   the sign is kept apart.  Transcribed (trusted): ParseFloat rounds to the nearest float64,
   to the even one if two are as near; FormatFloat with precision -1 writes the least number
   of digits that reads back as the same float64, and of those the nearest. *)
From Coq Require Import ZArith NArith Bool Ascii String List.
Import ListNotations.
From Verif Require Import GoBase GoTime Json JsonFile.
Local Open Scope string_scope.
Local Open Scope Z_scope.
Local Open Scope list_scope.
Local Notation length := List.length.

(* ---- strconv.ParseFloat ---- *)

(* the exponent, strconv readFloat: digits after 10000 are passed over; file_instance.go:345 *)
Fixpoint exp_acc (e : Z) (ds : bytes) : Z :=
  match ds with
  | [] => e
  | d :: r => exp_acc (if e <? 10000 then 10 * e + digit_val d else e) r
  end.

(* strconv readFloat, file_instance.go:345 *)
Definition read_exp (s : bytes) : Z :=
  match s with
  | e :: r =>
      if byte_eqb e "e" || byte_eqb e "E" then
        match r with
        | g :: r1 =>
            if byte_eqb g "-" then - exp_acc 0 r1
            else if byte_eqb g "+" then exp_acc 0 r1
            else exp_acc 0 r
        | [] => 0
        end
      else 0
  | [] => 0
  end.

(* sign, digits and exponent of ten of a number of JSON; strconv readFloat, file_instance.go:345 *)
Definition read_decimal (t : bytes) : bool * Z * Z :=
  let '(neg, r) := match t with c :: r => if byte_eqb c "-" then (true, r) else (false, t) | [] => (false, t) end in
  let '(whole, r1) := take_digits r in
  let '(part, r2) :=
    match r1 with
    | c :: r' => if byte_eqb c "." then take_digits r' else ([], r1)
    | [] => ([], r1)
    end in
  (neg, dval (whole ++ part), read_exp r2 - Z.of_nat (length part)).

(* the least e with n / d < 2^(e + 1), for n, d > 0; strconv ParseFloat, file_instance.go:345 *)
Definition binade (n d : Z) : Z :=
  let a := Z.log2 n - Z.log2 d in
  if d * 2 ^ Z.max a 0 <=? n * 2 ^ Z.max (- a) 0 then a else a - 1.

(* n / d, rounded to the nearest number, to the even one of two; strconv ParseFloat,
   file_instance.go:345 *)
Definition half_even (n d : Z) : Z :=
  let q := n / d in
  let r := n mod d in
  if (2 * r <? d) || ((2 * r =? d) && Z.even q) then q else q + 1.

(* the float64 nearest to n / d; None: out of range; strconv ParseFloat, file_instance.go:345 *)
Definition to_double (n d : Z) : option (Z * Z) :=
  if n =? 0 then Some (0, -1074)
  else
    let e := Z.max (-1074) (binade n d - 52) in
    let m := half_even (n * 2 ^ Z.max (- e) 0) (d * 2 ^ Z.max e 0) in
    let '(m', e') := if m =? 2 ^ 53 then (2 ^ 52, e + 1) else (m, e) in
    if 971 <? e' then None else Some (m', e').

(* c * 10^p *)
(* strconv ParseFloat, file_instance.go:345 *)
Definition decimal_double (c p : Z) : option (Z * Z) := to_double (c * 10 ^ Z.max p 0) (10 ^ Z.max (- p) 0).

(* ---- strconv.FormatFloat with precision -1 ---- *)

(* the float64 is the same; strconv FormatFloat, file_instance.go:351 *)
Definition same_double (x : option (Z * Z)) (m e : Z) : bool :=
  match x with Some (m', e') => (m' =? m) && (e' =? e) | None => false end.

(* the k with 10^(k-1) <= n / d < 10^k; strconv FormatFloat, file_instance.go:351 *)
Definition places (n d : Z) : Z :=
  if d <=? n then Z.of_nat (length (utoa (n / d))) else 1 - Z.of_nat (length (utoa ((d - 1) / n))).

(* the nearest decimals c * 10^p above and below, the nearer first, if one of them
   reads back as m * 2^e; strconv FormatFloat, file_instance.go:351 *)
Definition try_digits (m e p : Z) : option Z :=
  let n := m * 2 ^ Z.max e 0 * 10 ^ Z.max (- p) 0 in
  let d := 2 ^ Z.max (- e) 0 * 10 ^ Z.max p 0 in
  let lo := n / d in
  let hi := lo + 1 in
  let '(a, b) := if 2 * (n mod d) <=? d then (lo, hi) else (hi, lo) in
  if same_double (decimal_double a p) m e then Some a
  else if same_double (decimal_double b p) m e then Some b
  else None.

(* the digits and the exponent of ten; 17 digits are always enough;
   strconv FormatFloat, file_instance.go:351 *)
Fixpoint shortest (fuel : nat) (m e p : Z) : option (Z * Z) :=
  match fuel with
  | O => None
  | S f => match try_digits m e p with Some c => Some (c, p) | None => shortest f m e (p - 1) end
  end.

(* zeros at the end; strconv FormatFloat, file_instance.go:351 *)
Fixpoint strip_zeros (s : bytes) : bytes :=
  match s with
  | [] => []
  | c :: r =>
      match strip_zeros r with
      | [] => if byte_eqb c zero_char then [] else [c]
      | r' => c :: r'
      end
  end.

(* the format 'f' of digits 0.s * 10^dp, strconv fmtF; file_instance.go:351 *)
Definition fmt_f (s : bytes) (dp : Z) : bytes :=
  let k := Z.to_nat dp in
  (if 0 <? dp then firstn k s ++ repeat zero_char (k - length s) else [zero_char])
  ++ (if Z.of_nat (length s) <=? dp then []
      else "."%char :: repeat zero_char (Z.to_nat (- dp)) ++ skipn k s).

(* the format 'e', strconv fmtE, the exponent without zeros in front as encoding/json
   writes it; file_instance.go:351 *)
Definition fmt_e (s : bytes) (dp : Z) : bytes :=
  firstn 1 s
  ++ match skipn 1 s with [] => [] | r => "."%char :: r end
  ++ "e"%char :: (if dp - 1 <? 0 then "-"%char else "+"%char) :: utoa (Z.abs (dp - 1)).

(* m * 2^e < m' * 2^e'; encoding/json floatEncoder, file_instance.go:351 *)
Definition less_double (x y : Z * Z) : bool :=
  (snd x <? snd y) || ((snd x =? snd y) && (fst x <? fst y)).

(* 1e-6 and 1e21 as float64; encoding/json floatEncoder, file_instance.go:351 *)
Definition small_double : Z * Z := match to_double 1 (10 ^ 6) with Some x => x | None => (0, 0) end.
(* encoding/json floatEncoder, file_instance.go:351 *)
Definition large_double : Z * Z := match to_double (10 ^ 21) 1 with Some x => x | None => (0, 0) end.

(* encoding/json floatEncoder, file_instance.go:351 *)
Definition print_double (m e : Z) : option bytes :=
  if m =? 0 then Some [zero_char]
  else
    let k := places (m * 2 ^ Z.max e 0) (2 ^ Z.max (- e) 0) in
    match shortest 17 m e (k - 1) with
    | Some (c, p) =>
        let s := utoa c in
        let dp := Z.of_nat (length s) + p in
        let digits := strip_zeros s in
        Some (if less_double (m, e) small_double || negb (less_double (m, e) large_double)
              then fmt_e digits dp else fmt_f digits dp)
    | None => None
    end.

(* a number of JSON read into an interface{} and written again; None: out of range;
   file_instance.go:344-351, base_segment.go:751-761 *)
Definition go_float (t : bytes) : option bytes :=
  let '(neg, c, p) := read_decimal t in
  match decimal_double c p with
  | Some (m, e) => option_map (fun s => if neg then "-"%char :: s else s) (print_double m e)
  | None => None
  end.
