(* The Nullable types of int32, int64 and float32 of the generated client, and their JSON.
   pkg/client/utils.go:115-221 *)
From Coq Require Import ZArith NArith Bool Ascii String List.
Import ListNotations.
From Verif Require Import GoBase Json GoFloat Client ClientAccess ClientScalars ClientParams.
Local Open Scope string_scope.
Local Open Scope Z_scope.
Local Open Scope list_scope.
Local Notation length := List.length.

(* a float32: m * 2^e with a sign, or one of the others; pkg/client/utils.go:188 *)
Inductive float32 := Single32 (neg : bool) (m e : Z) | Infinite32 (neg : bool) | NotANumber32.

(* 1e-6 and 1e21 as float32; encoding/json floatEncoder, pkg/client/utils.go:215 *)
Definition small_single : Z * Z := match to_single 1 (10 ^ 6) with Some x => x | None => (0, 0) end.
(* encoding/json floatEncoder, pkg/client/utils.go:215 *)
Definition large_single : Z * Z := match to_single (10 ^ 21) 1 with Some x => x | None => (0, 0) end.

(* encoding/json floatEncoder, as print_double in GoFloat.v; pkg/client/utils.go:215 *)
Definition print_single (m e : Z) : option bytes :=
  if m =? 0 then Some [zero_char]
  else
    let k := places (m * 2 ^ Z.max e 0) (2 ^ Z.max (- e) 0) in
    match shortest_single 9 m e (k - 1) with
    | Some (c, p) =>
        let s := utoa c in
        let dp := Z.of_nat (length s) + p in
        let digits := strip_zeros s in
        Some (if less_double (m, e) small_single || negb (less_double (m, e) large_single)
              then fmt_e digits dp else fmt_f digits dp)
    | None => None
    end.

(* json.Marshal of a float32; None: UnsupportedValueError; pkg/client/utils.go:215 *)
Definition single_json (x : float32) : option json :=
  match x with
  | Single32 neg m e => option_map (fun s => JNum (if neg then "-"%char :: s else s)) (print_single m e)
  | Infinite32 _ | NotANumber32 => None
  end.

(* what encoding/json stores for a literal: ParseFloat with 32 bits; pkg/client/utils.go:220 *)
Definition json_single (j : json) : option float32 :=
  match j with
  | JNum t =>
      let '(neg, c, p) := read_decimal t in
      match decimal_single c p with Some (m, e) => Some (Single32 neg m e) | None => None end
  | _ => None
  end.

(* ParseInt with 64 bits, then OverflowInt; pkg/client/utils.go:148 *)
Definition json_int32 (j : json) : option Z :=
  match json_int j with
  | Some z => if (z <? - 2 ^ 31) || (2 ^ 31 - 1 <? z) then None else Some z
  | None => None
  end.

(* NullableInt32, pkg/client/utils.go:142-144 *)
Definition marshal_int32 : nullable Z -> option json := n_marshal int_json.
(* NullableInt32, pkg/client/utils.go:146-149 *)
Definition unmarshal_int32 : json -> nullable Z -> nullable Z * bool := s_unmarshal 0 json_int32.
(* NullableInt64, pkg/client/utils.go:178-180 *)
Definition marshal_int64 : nullable Z -> option json := n_marshal int_json.
(* NullableInt64, pkg/client/utils.go:182-185 *)
Definition unmarshal_int64 : json -> nullable Z -> nullable Z * bool := s_unmarshal 0 json_int.
(* NullableFloat32, pkg/client/utils.go:214-216 *)
Definition marshal_single : nullable float32 -> option json := n_marshal single_json.
(* NullableFloat32, pkg/client/utils.go:218-221 *)
Definition unmarshal_single : json -> nullable float32 -> nullable float32 * bool := s_unmarshal (Single32 false 0 (-149)) json_single.
