(* Properties of the headers of the client's requests: C99 *)
From Coq Require Import ZArith NArith Bool Ascii String List Lia.
Import ListNotations.
From Verif Require Import GoBase GoTime Tables Codec Records File Reader Json JsonFile Server Client ClientHeaders
  SpecServer SpecClient SpecWire SpecHeaders ServerCases HeaderFacts.
Local Open Scope string_scope.
Local Open Scope Z_scope.
Local Open Scope list_scope.
Local Notation length := List.length.

(* C99: a request carries its content type, what it accepts and the user agent,
   each once, unless a default header has the same name; a default header comes
   behind them *)
Theorem C99_type : forall esc cfg boundary accept w,
  header_and_given (request_headers esc cfg boundary accept w) cfg "Content-Type" (some_text (wrType w)).
Proof. exact type_header. Qed.
Print Assumptions C99_type.

Theorem C99_accept : forall esc cfg boundary accept w,
  header_and_given (request_headers esc cfg boundary accept w) cfg "Accept" (some_text accept).
Proof. exact accept_header. Qed.
Print Assumptions C99_accept.

Theorem C99_agent : forall esc cfg boundary accept w,
  header_and_given (request_headers esc cfg boundary accept w) cfg "User-Agent" [cgAgent cfg].
Proof. exact agent_header. Qed.
Print Assumptions C99_agent.

Theorem C99_own_partial : forall h cfg k own, not_given cfg k ->
  header_and_given h cfg k own -> header_holds h (list_ascii_of_string k) own.
Proof. exact own_only. Qed.
Print Assumptions C99_own_partial.

Theorem C99_own_refuted : exists cfg boundary c t1 t2, t1 <> t2
  /\ In (list_ascii_of_string "Content-Type", [t1; t2]) (request_headers (fun s => s) cfg boundary convert_accept (convert_request boundary c)).
Proof. exact type_twice. Qed.
Print Assumptions C99_own_refuted.

(* the length is that of the body without the line that ends it *)
Theorem C99_length_partial : forall esc cfg boundary accept w, exists own,
  header_and_given (request_headers esc cfg boundary accept w) cfg "Content-Length" own
  /\ match wrForm w with
     | None => own = []
     | Some _ => exists t n, own = [t] /\ decimal n t /\ (n + length boundary + 8 = length (body_text esc boundary w))%nat
     end.
Proof. exact length_header. Qed.
Print Assumptions C99_length_partial.

Theorem C99_length_refuted : exists boundary c t n, let w := convert_request boundary c in
  In (list_ascii_of_string "Content-Length", [t]) (request_headers (fun s => s) new_client_config boundary convert_accept w)
  /\ decimal n t /\ n <> length (body_text (fun s => s) boundary w).
Proof. exact length_wrong. Qed.
Print Assumptions C99_length_refuted.

(* every default header is sent, and nothing else *)
Theorem C99_default : forall esc cfg boundary accept w k v, In (k, v) (cgDefault cfg) ->
  exists k' vs, sent_name k k' /\ In (k', vs) (request_headers esc cfg boundary accept w) /\ In v vs.
Proof. exact defaults_sent. Qed.
Print Assumptions C99_default.

Theorem C99_only : forall esc cfg boundary accept w k vs v,
  In (k, vs) (request_headers esc cfg boundary accept w) -> In v vs ->
  (exists k', In (k', v) (cgDefault cfg) /\ same_name k' k)
  \/ In k (map list_ascii_of_string ["Content-Type"; "Accept"; "User-Agent"; "Content-Length"]).
Proof. exact headers_only. Qed.
Print Assumptions C99_only.

(* a default header is set by its name as it is written *)
Theorem C99_set : forall cfg k v,
  (forall v', In (k, v') (cgDefault (add_default_header cfg k v)) <-> v' = v)
  /\ (forall k' v', k' <> k -> (In (k', v') (cgDefault (add_default_header cfg k v)) <-> In (k', v') (cgDefault cfg)))
  /\ cgAgent (add_default_header cfg k v) = cgAgent cfg.
Proof. exact defaults_set. Qed.
Print Assumptions C99_set.

(* what the calls accept *)
Theorem C99_accepts : convert_accept = list_ascii_of_string "application/octet-stream,text/plain"
  /\ print_accept = list_ascii_of_string "application/json"
  /\ validator_accept = list_ascii_of_string "text/plain" /\ health_accept = list_ascii_of_string "text/plain".
Proof. exact accepts. Qed.
Print Assumptions C99_accepts.

(* where a request goes *)
Theorem C99_target : forall cfg u, let t := request_target cfg u in
  tgPath t = tgPath u
  /\ (cgHost cfg = [] -> tgHost t = tgHost u) /\ (cgHost cfg <> [] -> tgHost t = cgHost cfg)
  /\ (cgScheme cfg = [] -> tgScheme t = tgScheme u) /\ (cgScheme cfg <> [] -> tgScheme t = cgScheme cfg).
Proof. exact goes_to. Qed.
Print Assumptions C99_target.

Example C99_case : forall boundary,
  request_headers (fun s => s) (add_default_header new_client_config (lit "x-request-id") (lit "7")) boundary print_accept
    (print_request boundary (mkPrintCall None None None))
  = [(lit "Content-Type", [lit "application/json"]); (lit "Accept", [lit "application/json"]);
     (lit "User-Agent", [lit "OpenAPI-Generator/1.0.0/go"]); (lit "X-Request-Id", [lit "7"])].
Proof. reflexivity. Qed.
Example C99_given : not_given (add_default_header new_client_config (lit "x-request-id") (lit "7")) "Content-Type"
  /\ given_values (lit "Content-Type") [(lit "content-TYPE", lit "a"); (lit "x", lit "b")] [lit "a"].
Proof.
  split.
  - intros k v [E|[]] S. injection E as <- <-. inversion S as [|? ? ? ? L]. destruct L as [L|[[L M]|[L M]]]; [discriminate| |]; apply Nat.eqb_eq in M; discriminate M.
  - apply given_this.
    { unfold same_name. cbn. repeat (apply Forall2_cons; [first [left; reflexivity
        |right; right; (split; [split; apply Nat.leb_le; reflexivity|reflexivity])
        |right; left; (split; [split; apply Nat.leb_le; reflexivity|reflexivity])]|]).
      apply Forall2_nil. }
    apply given_other; [intros S; inversion S; subst; match goal with H : Forall2 _ _ _ |- _ => inversion H end|constructor].
Qed.
Example C99_target_case : request_target (mkClientConfig (lit "example.com") [] [] []) (mkTarget (lit "http") (lit "localhost:8080") (lit "/print"))
  = mkTarget (lit "http") (lit "example.com") (lit "/print").
Proof. reflexivity. Qed.
(* the name of a file goes into the form without its directories *)
Example C99_base : map base_name [lit "/tmp/a.dat"; lit "a"; lit "d/e//"; lit ""; lit "//"] = [lit "a.dat"; lit "a"; lit "e"; lit "."; lit "/"].
Proof. reflexivity. Qed.
