(* Specification: the address of the server a call goes to *)
From Coq Require Import ZArith NArith Bool Ascii String List.
Import ListNotations.
From Verif Require Import GoBase ClientConfig.
Local Open Scope string_scope.
Local Open Scope Z_scope.
Local Open Scope list_scope.
Local Notation length := List.length.

(* an address with places for variables *)
Inductive piece := Said (t : bytes) | Place (name : bytes).

Definition braceless (t : bytes) : Prop := ~ In "{"%char t /\ ~ In "}"%char t.
Definition plain_piece (p : piece) : Prop := match p with Said t => braceless t | Place n => braceless n end.

Definition template (l : list piece) : bytes :=
  flat_map (fun p => match p with Said t => t | Place n => list_ascii_of_string "{" ++ n ++ list_ascii_of_string "}" end) l.

(* the value of a variable of the server: the one given, else its default *)
Inductive stands_for (vs : list (bytes * server_variable)) (given : list (bytes * bytes)) (n : bytes) : bytes -> Prop :=
| stands_given v x : In (n, v) vs -> In (n, x) given -> stands_for vs given n x
| stands_default v : In (n, v) vs -> ~ In n (map fst given) -> stands_for vs given n (svDefault v).

(* every place is filled; names that are not variables of the server stay *)
Inductive filled (vs : list (bytes * server_variable)) (given : list (bytes * bytes)) : list piece -> bytes -> Prop :=
| filled_end : filled vs given [] []
| filled_said t l r : filled vs given l r -> filled vs given (Said t :: l) (t ++ r)
| filled_place n x l r : stands_for vs given n x -> filled vs given l r -> filled vs given (Place n :: l) (x ++ r)
| filled_unknown n l r : ~ In n (map fst vs) -> filled vs given l r ->
    filled vs given (Place n :: l) (list_ascii_of_string "{" ++ n ++ list_ascii_of_string "}" ++ r).

(* a value that was given for a variable whose values are listed, and is not listed *)
Definition unlisted (vs : list (bytes * server_variable)) (given : list (bytes * bytes)) : Prop :=
  exists n v x, In (n, v) vs /\ In (n, x) given /\ svEnum v <> [] /\ ~ In x (svEnum v).

(* maps have each key once *)
Definition keys_once {A} (m : list (bytes * A)) : Prop := NoDup (map fst m).

(* what a context says about an operation: what it holds for that operation, else
   what it holds for all, else [none] *)
Inductive context_says {A} (one : carried (list (bytes * A))) (all : carried A) (none : A) (endpoint : bytes) : A -> Prop :=
| says_one m a : one = Carried m -> In (endpoint, a) m -> context_says one all none endpoint a
| says_all a : (one = Missing \/ exists m, one = Carried m /\ ~ In endpoint (map fst m)) -> all = Carried a ->
    context_says one all none endpoint a
| says_none : (one = Missing \/ exists m, one = Carried m /\ ~ In endpoint (map fst m)) -> all = Missing ->
    context_says one all none endpoint none.

(* the servers of an operation: its own, else those of the configuration *)
Inductive operation_servers (cf : configuration) (endpoint : bytes) : list server_config -> Prop :=
| servers_own sc : In (endpoint, sc) (cfOperationServers cf) -> operation_servers cf endpoint sc
| servers_common : ~ In endpoint (map fst (cfOperationServers cf)) -> operation_servers cf endpoint (cfServers cf).
