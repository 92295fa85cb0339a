(* The errors of calls of the client: pkg/client/client.go:619-659,
   api_metro2_files.go, and their texts in pkg/client/configuration.go *)
From Coq Require Import ZArith NArith Bool Ascii String List.
Import ListNotations.
From Verif Require Import GoBase GoLayout Json JsonFile Server Client ClientConfig.
Local Open Scope string_scope.
Local Open Scope Z_scope.
Local Open Scope list_scope.
Local Notation length := List.length.

(* GenericOpenAPIError, client.go:620-624, with the results of Error, Body and
   Model, client.go:627-639; the models of this client are texts *)
Record api_error := mkApiError { aeText : bytes; aeBody : bytes; aeModel : option bytes }.

(* what formatErrorMessage finds by reflection: a value that is no struct, or the
   fields Title and Detail of one as %s writes them; client.go:644-656 *)
Inductive problem := NoStruct | Problem (title detail : option bytes).

(* client.go:643-656 *)
Definition problem_text (v : problem) : bytes :=
  match v with
  | NoStruct => []
  | Problem title detail =>
      let str := match title with Some t => t | None => [] end in
      match detail with Some d => str ++ lit " (" ++ d ++ lit ")" | None => str end
  end.

(* formatErrorMessage, client.go:642-659; strings.TrimSpace on ASCII *)
Definition format_error_message (status : bytes) (v : problem) : bytes :=
  trim_both is_space_char (status ++ lit " " ++ problem_text v).

(* api_metro2_files.go:178-205, 299-305, 442-458, 575-602 for a status from 300 on; [status]
   is http.Response.Status, [t] the body of the answer; decode into a text does not fail *)
Definition status_error (models : list Z) (code : Z) (status t : bytes) : api_error :=
  if existsb (Z.eqb code) models
  then mkApiError (format_error_message status NoStruct) t (Some t)
  else mkApiError status t None.

(* net/http StatusText for the statuses that pkg/server sends, server.go:41-55, 243-250;
   and http.Response.Status, for api_metro2_files.go:181 *)
Definition reason_text (code : Z) : bytes :=
  if code =? 200 then lit "OK"
  else if code =? 400 then lit "Bad Request"
  else if code =? 404 then lit "Not Found"
  else if code =? 405 then lit "Method Not Allowed"
  else if code =? 501 then lit "Not Implemented"
  else lit "status code " ++ itoa code.
(* net/http writeStatusLine and ReadResponse, for api_metro2_files.go:181 *)
Definition status_line (code : Z) : bytes := itoa code ++ lit " " ++ reason_text code.

(* the error of a call that was answered; api_metro2_files.go:178-205 *)
Definition outcome_error (models : list Z) (r : outcome) : option api_error :=
  match r with
  | ApiError code t _ => Some (status_error models code (status_line code) t)
  | _ => None
  end.

(* ---- no address ---- *)

(* fmt %v of a []string; configuration.go:125 *)
Fixpoint list_words (l : list bytes) : bytes :=
  match l with [] => [] | [a] => a | a :: r => a ++ lit " " ++ list_words r end.

(* configuration.go:116-132 *)
Fixpoint enum_error (variables : list (bytes * bytes)) (vs : list (bytes * server_variable)) : option bytes :=
  match vs with
  | [] => None
  | (name, v) :: r =>
      match find_key name variables with
      | Some value =>
          if Nat.eqb (length (svEnum v)) 0 || existsb (bytes_eqb value) (svEnum v) then enum_error variables r
          else Some (lit "the variable " ++ name ++ lit " in the server URL has invalid value " ++ value
                     ++ lit ". Must be [" ++ list_words (svEnum v) ++ lit "]")
      | None => enum_error variables r
      end
  end.

(* configuration.go:108-133 *)
Definition servers_error (sc : list server_config) (index : Z) (variables : list (bytes * bytes)) : option bytes :=
  if (index <? 0) || (Z.of_nat (length sc) <=? index)
  then Some (lit "index " ++ itoa index ++ lit " out of range " ++ itoa (Z.of_nat (length sc) - 1))
  else match nth_error sc (Z.to_nat index) with
       | Some s => enum_error variables (scVariables s)
       | None => None
       end.

Section Address.
(* what %T writes for the value under a key of the context, configuration.go:146, 155, 172, 181 *)
Variable odd : string -> bytes.

(* configuration.go:140-149 *)
Definition index_error (cx : context) : Z + bytes :=
  match cxIndex cx with
  | Missing => inl 0
  | OtherType => inr (lit "Invalid type " ++ odd "serverIndex" ++ lit " should be int")
  | Carried i => inl i
  end.

(* configuration.go:151-164 *)
Definition operation_index_error (cx : context) (endpoint : bytes) : Z + bytes :=
  match cxIndices cx with
  | OtherType => inr (lit "Invalid type " ++ odd "serverOperationIndices" ++ lit " should be map[string]int")
  | Carried m => match find_key endpoint m with Some i => inl i | None => index_error cx end
  | Missing => index_error cx
  end.

(* configuration.go:166-175 *)
Definition variables_error (cx : context) : list (bytes * bytes) + bytes :=
  match cxVariables cx with
  | Missing => inl []
  | OtherType => inr (lit "ctx value of ContextServerVariables has invalid type " ++ odd "serverVariables"
                      ++ lit " should be map[string]string")
  | Carried m => inl m
  end.

(* configuration.go:177-190 *)
Definition operation_variables_error (cx : context) (endpoint : bytes) : list (bytes * bytes) + bytes :=
  match cxOperationVariables cx with
  | OtherType => inr (lit "ctx value of ContextOperationServerVariables has invalid type " ++ odd "serverOperationVariables"
                      ++ lit " should be map[string]map[string]string")
  | Carried m => match find_key endpoint m with Some vs => inl vs | None => variables_error cx end
  | Missing => variables_error cx
  end.

(* the text of the error of ServerURLWithContext, configuration.go:193-214 *)
Definition address_text (cf : configuration) (cx : option context) (endpoint : bytes) : option bytes :=
  let sc := match find_key endpoint (cfOperationServers cf) with Some sc => sc | None => cfServers cf end in
  match cx with
  | None => servers_error sc 0 []
  | Some cx =>
      match operation_index_error cx endpoint with
      | inr t => Some t
      | inl index =>
          match operation_variables_error cx endpoint with
          | inr t => Some t
          | inl variables => servers_error sc index variables
          end
      end
  end.

(* the error of a call without address: neither body nor model;
   api_metro2_files.go:102-105, 254-257, 375-378, 514-517 *)
Definition address_error (cf : configuration) (cx : option context) (endpoint : bytes) : option api_error :=
  match address_text cf cx endpoint with Some t => Some (mkApiError t [] None) | None => None end.
End Address.
