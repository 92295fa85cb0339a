(* The Nullable types of flags and numbers of the generated client, and their JSON.
   pkg/client/utils.go:43-113, 223-257 *)
From Coq Require Import ZArith NArith Bool Ascii String List.
Import ListNotations.
From Verif Require Import GoBase Json GoFloat ClientAccess.
Local Open Scope string_scope.
Local Open Scope Z_scope.
Local Open Scope list_scope.

(* a float64: m * 2^e with a sign, or one of the others; pkg/client/utils.go:224 *)
Inductive float64 := Finite (neg : bool) (m e : Z) | Infinite (neg : bool) | NotANumber.

(* json.Marshal of a bool, pkg/client/utils.go:71 *)
Definition bool_json (b : bool) : option json := Some (JBool b).
(* json.Marshal of an int, pkg/client/utils.go:107 *)
Definition int_json (z : Z) : option json := Some (JNum (itoa z)).
(* json.Marshal of a float64; None: UnsupportedValueError; pkg/client/utils.go:251 *)
Definition float_json (x : float64) : option json :=
  match x with
  | Finite neg m e => option_map (fun s => JNum (if neg then "-"%char :: s else s)) (print_double m e)
  | Infinite _ | NotANumber => None
  end.

(* what encoding/json stores for a literal, None: UnmarshalTypeError; pkg/client/utils.go:76 *)
Definition json_bool (j : json) : option bool :=
  match j with JBool b => Some b | _ => None end.
(* the same for an int, pkg/client/utils.go:112 *)
Definition json_int (j : json) : option Z :=
  match j with
  | JNum t => match parse_int 64 t with (z, None) => Some z | _ => None end
  | _ => None
  end.
(* the same for a float64, pkg/client/utils.go:256 *)
Definition json_float (j : json) : option float64 :=
  match j with
  | JNum t =>
      let '(neg, c, p) := read_decimal t in
      match decimal_double c p with Some (m, e) => Some (Finite neg m e) | None => None end
  | _ => None
  end.

(* UnmarshalJSON and whether it reports no error; encoding/json makes the pointer nil for null,
   and makes it point to [zero], if it is nil, before it looks at anything else;
   pkg/client/utils.go:74-77, 110-113, 254-257 *)
Definition s_unmarshal {A} (zero : A) (dec : json -> option A) (j : json) (n : nullable A) : nullable A * bool :=
  match j with
  | JNull => (mkNullable None true, true)
  | _ =>
      match dec j with
      | Some x => (mkNullable (Some x) true, true)
      | None => (mkNullable (Some (match nValue n with Some x => x | None => zero end)) true, false)
      end
  end.

(* NullableBool, pkg/client/utils.go:70-72 *)
Definition marshal_bool : nullable bool -> option json := n_marshal bool_json.
(* NullableBool, pkg/client/utils.go:74-77 *)
Definition unmarshal_bool : json -> nullable bool -> nullable bool * bool := s_unmarshal false json_bool.
(* NullableInt, pkg/client/utils.go:106-108 *)
Definition marshal_int : nullable Z -> option json := n_marshal int_json.
(* NullableInt, pkg/client/utils.go:110-113 *)
Definition unmarshal_int : json -> nullable Z -> nullable Z * bool := s_unmarshal 0 json_int.
(* NullableFloat64, pkg/client/utils.go:250-252 *)
Definition marshal_float : nullable float64 -> option json := n_marshal float_json.
(* NullableFloat64, pkg/client/utils.go:254-257 *)
Definition unmarshal_float : json -> nullable float64 -> nullable float64 * bool := s_unmarshal (Finite false 0 (-1074)) json_float.
