(* Model of pkg/client/configuration.go: the servers a client may use, and which
   of them a call goes to *)
From Coq Require Import ZArith NArith Bool Ascii String List.
Import ListNotations.
From Verif Require Import GoBase.
Local Open Scope string_scope.
Local Open Scope Z_scope.
Local Open Scope list_scope.
Local Notation length := List.length.

(* strings.HasPrefix, used by strings.Replace; configuration.go:127, 129 *)
Fixpoint starts_with (p s : bytes) : bool :=
  match p, s with
  | [], _ => true
  | a :: p, c :: s => byte_eqb a c && starts_with p s
  | _ :: _, [] => false
  end.

(* strings.Replace with -1 and an [old] that is not empty: from left to right, going
   on behind what was replaced; [skip]: bytes of [old] still to pass over;
   configuration.go:127, 129 *)
Fixpoint replace_all (old new s : bytes) (skip : nat) : bytes :=
  match s with
  | [] => []
  | c :: r =>
      match skip with
      | S k => replace_all old new r k
      | O => if starts_with old s then new ++ replace_all old new r (pred (length old))
             else c :: replace_all old new r 0
      end
  end.

(* a map with texts as keys; configuration.go:57-83 *)
Definition find_key {A} (k : bytes) (m : list (bytes * A)) : option A :=
  match find (fun p => bytes_eqb (fst p) k) m with Some p => Some (snd p) | None => None end.

(* configuration.go:57-61; the description is not used *)
Record server_variable := mkVariable { svDefault : bytes; svEnum : list bytes }.

(* configuration.go:64-68; the variables in the order in which the loop of
   configuration.go:116 visits them, which Go leaves open *)
Record server_config := mkServer { scURL : bytes; scVariables : list (bytes * server_variable) }.

(* the errors of configuration.go:110 and 125, and those of a value of another type
   in a context, configuration.go:146, 155, 172 and 181 *)
Inductive config_error := IndexOut (i : Z) | BadValue (name value : bytes) | BadContext.

(* the text and the error of configuration.go:108-133 *)
Definition url_result : Type := bytes + config_error.

(* configuration.go:117-130 *)
Definition fill_variable (variables : list (bytes * bytes)) (name : bytes) (v : server_variable) (url : bytes) : url_result :=
  let placeholder := "{"%char :: name ++ ["}"%char] in
  match find_key name variables with
  | Some value =>
      if Nat.eqb (length (svEnum v)) 0 || existsb (bytes_eqb value) (svEnum v)
      then inl (replace_all placeholder value url 0)
      else inr (BadValue name value)
  | None => inl (replace_all placeholder (svDefault v) url 0)
  end.

(* configuration.go:116-132 *)
Fixpoint fill_variables (variables : list (bytes * bytes)) (vs : list (bytes * server_variable)) (url : bytes) : url_result :=
  match vs with
  | [] => inl url
  | (name, v) :: r =>
      match fill_variable variables name v url with
      | inl url' => fill_variables variables r url'
      | inr e => inr e
      end
  end.

(* ServerConfigurations.URL, configuration.go:108-133; a nil map of variables is empty *)
Definition servers_url (sc : list server_config) (index : Z) (variables : list (bytes * bytes)) : url_result :=
  if (index <? 0) || (Z.of_nat (length sc) <=? index) then inr (IndexOut index)
  else match nth_error sc (Z.to_nat index) with
       | Some s => fill_variables variables (scVariables s) (scURL s)
       | None => inr (IndexOut index)
       end.

(* a value of a context: none, one of another type, or one of the type expected;
   configuration.go:140-190 *)
Inductive carried (A : Type) := Missing | OtherType | Carried (a : A).
Arguments Missing {A}.
Arguments OtherType {A}.
Arguments Carried {A} a.

(* the values under the four keys of configuration.go:30-42 *)
Record context := mkContext {
  cxIndex : carried Z;
  cxIndices : carried (list (bytes * Z));
  cxVariables : carried (list (bytes * bytes));
  cxOperationVariables : carried (list (bytes * list (bytes * bytes))) }.

(* getServerIndex, configuration.go:140-149 *)
Definition get_server_index (cx : context) : Z + config_error :=
  match cxIndex cx with Missing => inl 0 | OtherType => inr BadContext | Carried i => inl i end.

(* getServerOperationIndex, configuration.go:151-164 *)
Definition get_operation_index (cx : context) (endpoint : bytes) : Z + config_error :=
  match cxIndices cx with
  | OtherType => inr BadContext
  | Carried m => match find_key endpoint m with Some i => inl i | None => get_server_index cx end
  | Missing => get_server_index cx
  end.

(* getServerVariables, configuration.go:166-175 *)
Definition get_server_variables (cx : context) : list (bytes * bytes) + config_error :=
  match cxVariables cx with Missing => inl [] | OtherType => inr BadContext | Carried m => inl m end.

(* getServerOperationVariables, configuration.go:177-190 *)
Definition get_operation_variables (cx : context) (endpoint : bytes) : list (bytes * bytes) + config_error :=
  match cxOperationVariables cx with
  | OtherType => inr BadContext
  | Carried m => match find_key endpoint m with Some vs => inl vs | None => get_server_variables cx end
  | Missing => get_server_variables cx
  end.

(* the servers in Configuration, configuration.go:74-83 *)
Record configuration := mkConfiguration {
  cfServers : list server_config;
  cfOperationServers : list (bytes * list server_config) }.

(* ServerURLWithContext, configuration.go:193-214; [None]: a nil context *)
Definition server_url (cf : configuration) (cx : option context) (endpoint : bytes) : url_result :=
  let sc := match find_key endpoint (cfOperationServers cf) with Some sc => sc | None => cfServers cf end in
  match cx with
  | None => servers_url sc 0 []
  | Some cx =>
      match get_operation_index cx endpoint with
      | inr e => inr e
      | inl index =>
          match get_operation_variables cx endpoint with
          | inr e => inr e
          | inl variables => servers_url sc index variables
          end
      end
  end.

(* ServerURL, configuration.go:136-138 *)
Definition configured_url (cf : configuration) (index : Z) (variables : list (bytes * bytes)) : url_result :=
  servers_url (cfServers cf) index variables.

(* NewConfiguration, configuration.go:86-100 *)
Definition new_configuration : configuration :=
  mkConfiguration [mkServer (lit "http://localhost:8080") []] [].
