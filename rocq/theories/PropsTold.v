(* Properties of the errors of the client: C107 *)
From Coq Require Import ZArith NArith Bool Ascii String List.
Import ListNotations.
From Verif Require Import GoBase Json JsonFile Server Client ClientConfig ClientErrors Errors SpecClient SpecConfig SpecTold ToldFacts.
Local Open Scope string_scope.
Local Open Scope Z_scope.
Local Open Scope list_scope.

(* C107: the text of the error of a call names the status; Body, and Model if there is
   one, are the answer *)
Theorem C107_convert_partial : forall cpus rt evs errText boundary c r e,
  client_convert cpus rt evs errText boundary c = Some r -> outcome_error [400; 501] r = Some e ->
  exists code name t, In (code, name) status_names /\ (code = 400 \/ code = 501) /\ r = ApiError code t (Some t)
  /\ e = mkApiError (list_ascii_of_string name) t (Some t).
Proof. exact convert_tells. Qed.
Print Assumptions C107_convert_partial.

Theorem C107_validator_partial : forall cpus rt evs errText boundary c r e,
  client_validator cpus rt evs errText boundary c = Some r -> outcome_error [400; 501] r = Some e ->
  exists code name t, In (code, name) status_names /\ (code = 400 \/ code = 501) /\ r = ApiError code t (Some t)
  /\ e = mkApiError (list_ascii_of_string name) t (Some t).
Proof. exact validator_tells. Qed.
Print Assumptions C107_validator_partial.

Theorem C107_print_partial : forall cpus rt evs errText boundary c r e,
  client_print cpus rt evs errText boundary c = Some r -> outcome_error [400] r = Some e ->
  (exists t, r = ApiError 400 t (Some t) /\ e = mkApiError (list_ascii_of_string "400 Bad Request") t (Some t))
  \/ (exists t, r = ApiError 501 t None /\ e = mkApiError (list_ascii_of_string "501 Not Implemented") t None).
Proof. exact print_tells. Qed.
Print Assumptions C107_print_partial.

(* with any answer and any status line *)
Theorem C107_answer_partial : forall errText models d code ct b status, 300 <= code -> trim_text status ->
  exists e, e = status_error models code status (body_bytes errText b) /\ aeText e = status /\ aeBody e = body_bytes errText b
  /\ receive errText models d (Reply code ct b) = ApiError code (aeBody e) (aeModel e)
  /\ ((In code models /\ aeModel e = Some (aeBody e)) \/ (~ In code models /\ aeModel e = None)).
Proof. exact answer_error. Qed.
Print Assumptions C107_answer_partial.

(* the message of the server is not in it *)
Theorem C107_same : forall errText e1 e2, errText e1 <> errText e2 ->
  exists r1 r2 t1 t2, receive errText [400; 501] decode_os_file (Reply 400 [] (BodyError e1)) = r1
  /\ receive errText [400; 501] decode_os_file (Reply 400 [] (BodyError e2)) = r2
  /\ outcome_error [400; 501] r1 = Some t1 /\ outcome_error [400; 501] r2 = Some t2 /\ aeText t1 = aeText t2 /\ aeBody t1 <> aeBody t2.
Proof. exact tells_little. Qed.
Print Assumptions C107_same.
Theorem C107_refuted : exists errText e1 e2 t1 t2,
  error_text e1 = Some (errText e1) /\ error_text e2 = Some (errText e2) /\ errText e1 <> errText e2
  /\ outcome_error [400; 501] (receive errText [400; 501] decode_os_file (Reply 400 [] (BodyError e1))) = Some t1
  /\ outcome_error [400; 501] (receive errText [400; 501] decode_os_file (Reply 400 [] (BodyError e2))) = Some t2
  /\ aeText t1 = aeText t2.
Proof. exact tells_less. Qed.
Print Assumptions C107_refuted.

(* the title and the detail of a model would be *)
Theorem C107_title : forall s t, trim_text s -> trim_text t ->
  format_error_message s (Problem (Some t) None) = s ++ list_ascii_of_string " " ++ t.
Proof. exact title_message. Qed.
Print Assumptions C107_title.
Theorem C107_detail : forall s t d, trim_text s ->
  format_error_message s (Problem (Some t) (Some d))
  = s ++ list_ascii_of_string " " ++ t ++ list_ascii_of_string " (" ++ d ++ list_ascii_of_string ")".
Proof. exact detail_message. Qed.
Print Assumptions C107_detail.
Theorem C107_no_title : forall s, trim_text s -> format_error_message s (Problem None None) = s.
Proof. exact no_fields. Qed.
Print Assumptions C107_no_title.

(* a call without address says why, and has neither body nor model *)
Theorem C107_unsent : forall odd cf cx p, address_error odd cf cx p = None <-> exists url, server_url cf cx p = inl url.
Proof. exact unsent. Qed.
Print Assumptions C107_unsent.
Theorem C107_context : forall odd cf cx p e sc, keys_once (cfOperationServers cf) ->
  (forall m, cxIndices cx = Carried m -> keys_once m) -> (forall m, cxOperationVariables cx = Carried m -> keys_once m) ->
  operation_servers cf p sc -> address_error odd cf (Some cx) p = Some e ->
  exists t, e = mkApiError t [] None /\
    (tells_type odd cx t
     \/ exists i given, context_says (cxIndices cx) (cxIndex cx) 0 p i /\ context_says (cxOperationVariables cx) (cxVariables cx) [] p given
         /\ tells_address sc i given t).
Proof. exact told_context. Qed.
Print Assumptions C107_context.
Theorem C107_no_context : forall odd cf p e sc, keys_once (cfOperationServers cf) -> operation_servers cf p sc ->
  address_error odd cf None p = Some e -> exists t, e = mkApiError t [] None /\ tells_address sc 0 [] t.
Proof. exact told_no_context. Qed.
Print Assumptions C107_no_context.

Example C107_case : trim_text (list_ascii_of_string "400 Bad Request")
  /\ servers_error [mkServer (lit "https://{h}/") [(lit "h", mkVariable (lit "a") [lit "a"; lit "b"])]] 0 [(lit "h", lit "c")]
     = Some (lit "the variable h in the server URL has invalid value c. Must be [a b]")
  /\ address_error (fun _ => lit "string") new_configuration (Some (mkContext (Carried 3) Missing Missing Missing)) (lit "x")
     = Some (mkApiError (lit "index 3 out of range 0") [] None)
  /\ address_error (fun _ => lit "string") new_configuration (Some (mkContext OtherType Missing Missing Missing)) (lit "x")
     = Some (mkApiError (lit "Invalid type string should be int") [] None).
Proof. exact told_case. Qed.
