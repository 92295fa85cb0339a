(* Specification: what the errors of the client tell *)
From Coq Require Import ZArith NArith Bool Ascii String List.
Import ListNotations.
From Verif Require Import GoBase ClientConfig SpecConfig.
Local Open Scope string_scope.
Local Open Scope Z_scope.
Local Open Scope list_scope.

(* RFC 9110, section 15 *)
Definition status_names : list (Z * string) :=
  [(400, "400 Bad Request"); (404, "404 Not Found"); (405, "405 Method Not Allowed"); (501, "501 Not Implemented")].

Definition blank_char (c : ascii) : Prop := In c (map ascii_of_nat [9; 10; 11; 12; 13; 32]%nat).

(* a text that has no blank at either end *)
Definition trim_text (s : bytes) : Prop :=
  s <> [] /\ (forall c r, s = c :: r -> ~ blank_char c) /\ (forall c r, s = r ++ [c] -> ~ blank_char c).

(* texts with blanks between them *)
Inductive spaced : list bytes -> bytes -> Prop :=
| spaced_none : spaced [] []
| spaced_one a : spaced [a] a
| spaced_more a b l t : spaced (b :: l) t -> spaced (a :: b :: l) (a ++ list_ascii_of_string " " ++ t).

(* a value was given that its variable does not list *)
Definition tells_value (s : server_config) (given : list (bytes * bytes)) (t : bytes) : Prop :=
  exists n v x w, In (n, v) (scVariables s) /\ In (n, x) given /\ svEnum v <> [] /\ ~ In x (svEnum v) /\ spaced (svEnum v) w
  /\ t = list_ascii_of_string "the variable " ++ n ++ list_ascii_of_string " in the server URL has invalid value " ++ x
         ++ list_ascii_of_string ". Must be [" ++ w ++ list_ascii_of_string "]".

(* the index is not that of a server *)
Definition tells_index (sc : list server_config) (i : Z) (t : bytes) : Prop :=
  (i < 0 \/ Z.of_nat (length sc) <= i)
  /\ t = list_ascii_of_string "index " ++ itoa i ++ list_ascii_of_string " out of range " ++ itoa (Z.of_nat (length sc) - 1).

(* there is no address with this server and these variables *)
Definition tells_address (sc : list server_config) (i : Z) (given : list (bytes * bytes)) (t : bytes) : Prop :=
  tells_index sc i t \/ (0 <= i /\ exists s, nth_error sc (Z.to_nat i) = Some s /\ tells_value s given t).

(* something else than expected is in the context; [odd]: the names of the types *)
Inductive tells_type (odd : string -> bytes) (cx : context) : bytes -> Prop :=
| odd_indices : cxIndices cx = OtherType ->
    tells_type odd cx (list_ascii_of_string "Invalid type " ++ odd "serverOperationIndices" ++ list_ascii_of_string " should be map[string]int")
| odd_index : cxIndex cx = OtherType ->
    tells_type odd cx (list_ascii_of_string "Invalid type " ++ odd "serverIndex" ++ list_ascii_of_string " should be int")
| odd_operation : cxOperationVariables cx = OtherType ->
    tells_type odd cx (list_ascii_of_string "ctx value of ContextOperationServerVariables has invalid type " ++ odd "serverOperationVariables"
      ++ list_ascii_of_string " should be map[string]map[string]string")
| odd_variables : cxVariables cx = OtherType ->
    tells_type odd cx (list_ascii_of_string "ctx value of ContextServerVariables has invalid type " ++ odd "serverVariables"
      ++ list_ascii_of_string " should be map[string]string").
