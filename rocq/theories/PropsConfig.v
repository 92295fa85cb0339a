(* Properties of the configuration of the client and of CacheExpires: C97, C98 *)
From Coq Require Import ZArith NArith Bool Ascii String List Lia Permutation.
From Verif Require Import GoBase GoTime GoLayout Client ClientConfig ClientCache ClientDuration SpecCodec SpecSparse SpecFormats SpecConfig SpecCache
  DateCases FormatExec FormatFacts FormatReads FormatWrong ConfigFacts CacheFacts DurationFacts DurationExact.
Import ListNotations.
Local Open Scope string_scope.
Local Open Scope Z_scope.
Local Open Scope list_scope.
Local Notation length := List.length.

(* C97: the address is that of the server with the given index, every place filled
   with the value given for the variable, else with its default *)
Theorem C97_filled_partial : forall sc i given s l r, 0 <= i -> nth_error sc (Z.to_nat i) = Some s ->
  scURL s = template l -> Forall plain_piece l -> Forall (fun p => braceless (fst p)) (scVariables s) ->
  keys_once (scVariables s) -> keys_once given ->
  (forall n x, stands_for (scVariables s) given n x -> braceless x) -> ~ unlisted (scVariables s) given ->
  filled (scVariables s) given l r -> servers_url sc i given = inl r.
Proof. exact url_filled. Qed.
Print Assumptions C97_filled_partial.

(* an address without places stays as it is, whatever braces it contains *)
Theorem C97_untouched : forall sc i given s, 0 <= i -> nth_error sc (Z.to_nat i) = Some s -> keys_once given ->
  ~ unlisted (scVariables s) given ->
  (forall n, In n (map fst (scVariables s)) ->
     ~ exists a b, scURL s = a ++ (list_ascii_of_string "{" ++ n ++ list_ascii_of_string "}") ++ b) ->
  servers_url sc i given = inl (scURL s).
Proof. exact url_untouched. Qed.
Print Assumptions C97_untouched.

(* an error exactly when there is no such server or a value is not listed *)
Theorem C97_errors : forall sc i given, keys_once given ->
  ((exists e, servers_url sc i given = inr e) <->
   i < 0 \/ Z.of_nat (length sc) <= i \/ exists s, nth_error sc (Z.to_nat i) = Some s /\ unlisted (scVariables s) given).
Proof. exact url_errors. Qed.
Print Assumptions C97_errors.

(* the order in which the map of variables is visited does not matter, *)
Theorem C97_order_partial : forall given url vs vs' l, Permutation vs vs' -> url = template l -> Forall plain_piece l ->
  Forall (fun p => braceless (fst p)) vs -> keys_once vs -> keys_once given ->
  (forall n x, stands_for vs given n x -> braceless x) -> ~ unlisted vs given ->
  servers_url [mkServer url vs'] 0 given = servers_url [mkServer url vs] 0 given.
Proof. exact url_order. Qed.
Print Assumptions C97_order_partial.

(* unless a value contains braces *)
Theorem C97_order_refuted : exists url vs vs', Permutation vs vs' /\ keys_once vs
  /\ servers_url [mkServer url vs] 0 [] <> servers_url [mkServer url vs'] 0 [].
Proof. exact order_matters. Qed.
Print Assumptions C97_order_refuted.

(* index and variables come from the context: those for the operation, else those
   for all, else the first server and the defaults *)
Theorem C97_context : forall cf cx endpoint sc, keys_once (cfOperationServers cf) ->
  (forall m, cxIndices cx = Carried m -> keys_once m) -> (forall m, cxOperationVariables cx = Carried m -> keys_once m) ->
  operation_servers cf endpoint sc ->
  (exists i given, context_says (cxIndices cx) (cxIndex cx) 0 endpoint i
     /\ context_says (cxOperationVariables cx) (cxVariables cx) [] endpoint given
     /\ server_url cf (Some cx) endpoint = servers_url sc i given)
  \/ (((forall i, ~ context_says (cxIndices cx) (cxIndex cx) 0 endpoint i)
       \/ (forall g, ~ context_says (cxOperationVariables cx) (cxVariables cx) [] endpoint g))
      /\ server_url cf (Some cx) endpoint = inr BadContext).
Proof. exact context_url. Qed.
Print Assumptions C97_context.

Theorem C97_no_context : forall cf endpoint sc, keys_once (cfOperationServers cf) -> operation_servers cf endpoint sc ->
  server_url cf None endpoint = servers_url sc 0 [].
Proof. exact nil_context_url. Qed.
Print Assumptions C97_no_context.

Theorem C97_configured : forall cf i given, configured_url cf i given = servers_url (cfServers cf) i given.
Proof. exact configured. Qed.
Print Assumptions C97_configured.

Theorem C97_default : forall endpoint, server_url new_configuration None endpoint = inl (list_ascii_of_string "http://localhost:8080")
  /\ server_url new_configuration (Some (mkContext Missing Missing Missing Missing)) endpoint
     = inl (list_ascii_of_string "http://localhost:8080")
  /\ configured_url new_configuration 0 [] = inl (list_ascii_of_string "http://localhost:8080").
Proof. exact default_url. Qed.
Print Assumptions C97_default.

Example C97_case : let vs := [(lit "host", mkVariable (lit "localhost") []); (lit "port", mkVariable (lit "80") [lit "80"; lit "8080"])] in
  let l := [Said (lit "http://"); Place (lit "host"); Said (lit ":"); Place (lit "port"); Said (lit "/"); Place (lit "path")] in
  let given := [(lit "port", lit "8080")] in
  Forall plain_piece l /\ keys_once vs /\ keys_once given /\ ~ unlisted vs given
  /\ filled vs given l (lit "http://localhost:8080/{path}")
  /\ servers_url [mkServer (lit "http://{host}:{port}/{path}") vs] 0 given = inl (lit "http://localhost:8080/{path}")
  /\ servers_url [mkServer (lit "http://{host}:{port}/{path}") vs] 0 [(lit "port", lit "81")] = inr (BadValue (lit "port") (lit "81")).
Proof.
  cbv zeta. split; [repeat constructor; cbn; intuition discriminate|]. split; [repeat constructor; cbn; intuition discriminate|].
  split; [repeat constructor; cbn; intuition discriminate|]. split; [|split].
  - intros (n & v & x & [[= <- <-]|[[= <- <-]|[]]] & [[= <-]|[]] & _ & N). apply N. cbn. auto.
  - apply (filled_said _ _ (lit "http://")), (filled_place _ _ _ (lit "localhost")).
    { apply (stands_default _ _ _ (mkVariable (lit "localhost") [])); cbn; intuition discriminate. }
    apply (filled_said _ _ (lit ":")), (filled_place _ _ _ (lit "8080")).
    { apply (stands_given _ _ _ (mkVariable (lit "80") [lit "80"; lit "8080"])); cbn; auto. }
    apply (filled_said _ _ (lit "/")). apply (filled_unknown _ _ (lit "path") [] []); [cbn; intuition discriminate|constructor].
  - split; vm_compute; reflexivity.
Qed.

Example C97_stray : servers_url [mkServer (lit "http://host/{por") [(lit "port", mkVariable (lit "80") [])]] 0 [] = inl (lit "http://host/{por").
Proof. reflexivity. Qed.

(* C98: an answer with max-age may be kept for that many seconds from its date on, *)
Theorem C98_max_age_partial : forall parts zone header abbr t l v w n,
  http_date abbr t (header "Date") -> control_text l (header "Cache-Control") ->
  says_max_age l (Some v) -> (0 < w)%nat -> decimal_text w n v -> n <= 9223372036 ->
  cache_expires parts zone header = ExpiresAt (instant (http_time zone abbr t) + n * 1000000000).
Proof. exact kept_seconds. Qed.
Print Assumptions C98_max_age_partial.

(* unless these are too many, when it has expired at once *)
Theorem C98_long : forall parts zone header abbr t l v w n,
  http_date abbr t (header "Date") -> control_text l (header "Cache-Control") ->
  says_max_age l (Some v) -> (0 < w)%nat -> decimal_text w n v -> 9223372036 < n ->
  cache_expires parts zone header = ExpiresAt (instant (http_time zone abbr t)).
Proof. exact kept_never. Qed.
Print Assumptions C98_long.

Theorem C98_max_age_refuted : exists header, header "Cache-Control" = list_ascii_of_string "max-age=9223372037"
  /\ http_date "GMT" (mkTime 2026 11 17 16 0 0 0 None) (header "Date")
  /\ forall parts zone, cache_expires parts zone header
     <> ExpiresAt (instant (http_time zone "GMT" (mkTime 2026 11 17 16 0 0 0 None)) + 9223372037 * 1000000000).
Proof. exact too_long. Qed.
Print Assumptions C98_max_age_refuted.

(* names are taken in lower case only *)
Theorem C98_name_refuted : exists header, header "Cache-Control" = list_ascii_of_string "Max-Age=60"
  /\ forall parts zone, cache_expires parts zone header = ExpiresAt 0.
Proof. exact upper_name. Qed.
Print Assumptions C98_name_refuted.

(* a max-age without a number has expired at once *)
Theorem C98_bare : forall parts zone header abbr t l, http_date abbr t (header "Date") -> control_text l (header "Cache-Control") ->
  says_max_age l None \/ says_max_age l (Some []) -> cache_expires parts zone header = ExpiresAt (instant (http_time zone abbr t)).
Proof. exact kept_bare. Qed.
Print Assumptions C98_bare.

(* the value may have a sign, a decimal point and units; [parts] is what the host makes
   of the digits behind a point *)
Theorem C98_spans : forall parts zone header, (forall f n k, 0 <= f -> 0 <= n -> 0 <= k -> 0 <= parts f n k) -> forall abbr t l v z,
  http_date abbr t (header "Date") -> control_text l (header "Cache-Control") -> says_max_age l (Some v) ->
  signed_spans parts z (v ++ list_ascii_of_string "s") -> -9223372036854775808 <= z <= 9223372036854775807 ->
  cache_expires parts zone header = ExpiresAt (instant (http_time zone abbr t) + z).
Proof. exact kept_spans. Qed.
Print Assumptions C98_spans.

(* the arithmetic of float64 cuts nothing off and adds nothing if the digits behind the
   point are whole nanoseconds of the unit, *)
Theorem C98_fraction : forall u k d f, In (u, k) unit_names -> 0 <= d -> (10 ^ d | k) -> 0 < f < 10 ^ d -> go_parts f d k * 10 ^ d = f * k.
Proof. exact parts_fraction. Qed.
Print Assumptions C98_fraction.
Theorem C98_parts : forall f d k, 0 <= f -> 0 <= d -> 0 <= k -> 0 <= go_parts f d k.
Proof. exact parts_nonneg. Qed.
Print Assumptions C98_parts.
Theorem C98_decimals : forall zone header abbr t l v w n d f a b,
  http_date abbr t (header "Date") -> control_text l (header "Cache-Control") -> says_max_age l (Some v) ->
  v = a ++ list_ascii_of_string "." ++ b -> decimal_text w n a -> decimal_text d f b -> (0 < w + d)%nat -> (d <= 9)%nat -> n < 9223372036 ->
  cache_expires go_parts zone header = ExpiresAt (instant (http_time zone abbr t) + (n * 10 ^ 9 + f * 10 ^ (9 - Z.of_nat d))).
Proof. exact kept_decimals. Qed.
Print Assumptions C98_decimals.
(* behind so many digits that their scale overflows nothing is left *)
Theorem C98_tiny : forall f d k, 309 <= d -> go_parts f d k = 0.
Proof. exact parts_tiny. Qed.
Print Assumptions C98_tiny.
(* else a nanosecond may be missing, though the fraction amounts to whole ones *)
Theorem C98_fraction_refuted : exists u k d f, In (u, k) unit_names /\ 0 < f < 10 ^ d /\ (10 ^ d | f * k) /\ go_parts f d k * 10 ^ d <> f * k.
Proof. exact parts_lossy. Qed.
Print Assumptions C98_fraction_refuted.

Example C98_decimals_case : decimal_text 1 1 (lit "1") /\ decimal_text 2 25 (lit "25") /\ go_parts 25 2 1000000000 = 250000000
  /\ go_parts 1 400 1000000000 = 0.
Proof. exact decimals_case. Qed.

(* any other value has expired at once *)
Theorem C98_no_form : forall parts zone header abbr t l v, http_date abbr t (header "Date") -> control_text l (header "Cache-Control") ->
  says_max_age l (Some v) -> ~ signed_form (v ++ list_ascii_of_string "s") ->
  cache_expires parts zone header = ExpiresAt (instant (http_time zone abbr t)).
Proof. exact kept_no_form. Qed.
Print Assumptions C98_no_form.

Example C98_spans_case : forall parts, signed_spans parts (- (60000000000 + (1000000000 + parts 5 1 1000000000))) (lit "-1m1.5" ++ list_ascii_of_string "s").
Proof.
  intros parts. apply (SpansMinus parts _ (lit "1m1.5s")), (SpansMore parts (1 * 60000000000) (lit "1") (lit "m") 60000000000 _ (lit "1.5s")).
  - cbn. tauto.
  - apply (AmountWhole _ _ _ 1); [lia|apply decimal_ok; reflexivity].
  - apply (SpansOne parts _ (lit "1.5") (lit "s") 1000000000); [cbn; tauto|].
    apply (AmountPoint parts 1000000000 1 1 (lit "1") 5 1 (lit "5")); try lia; apply decimal_ok; reflexivity.
Qed.
Example C98_form_case : ~ signed_form (lit "soon" ++ list_ascii_of_string "s").
Proof.
  assert (forall s, span_form s -> match s with c :: _ => byte_eqb c "." || is_digit c = true | [] => False end) as H.
  { intros s F. assert (forall x r, number_form x -> match x ++ r with c :: _ => byte_eqb c "." || is_digit c = true | [] => False end) as N.
    { intros x r [a D Ne|a b D E Ne].
      - destruct a as [|c a]; [contradiction|]. cbn [app]. inversion D as [|? ? I]; subst.
        cbn in I. repeat (destruct I as [<-|I]; [reflexivity|]). destruct I.
      - destruct a as [|c a]; [reflexivity|]. cbn [app]. inversion D as [|? ? I]; subst.
        cbn in I. repeat (destruct I as [<-|I]; [reflexivity|]). destruct I. }
    destruct F as [x u F _|x u r F _ _]; apply N; exact F. }
  intros [F|(r & F & [E|E])]; [apply H in F; discriminate|discriminate|discriminate].
Qed.

(* without max-age the header Expires counts *)
Theorem C98_expires : forall parts zone header abbr t l abbr' u,
  http_date abbr t (header "Date") -> control_text l (header "Cache-Control") ->
  ~ In max_age_name (map fst l) -> http_date abbr' u (header "Expires") ->
  cache_expires parts zone header = ExpiresAt (instant (http_time zone abbr' u)).
Proof. exact kept_expires. Qed.
Print Assumptions C98_expires.

(* if it is no date the answer has expired, as it has without it *)
Theorem C98_expired : forall parts zone header abbr t l, http_date abbr t (header "Date") -> control_text l (header "Cache-Control") ->
  ~ In max_age_name (map fst l) ->
  (header "Expires" = [] -> cache_expires parts zone header = ExpiresAt 0)
  /\ (header "Expires" <> [] -> parse_layout zone rfc1123 (header "Expires") = None ->
      cache_expires parts zone header = ExpiresAt (instant (http_time zone abbr t))).
Proof. exact kept_not. Qed.
Print Assumptions C98_expired.

Theorem C98_undated : forall parts zone header, header "Date" = [] -> cache_expires parts zone header = ExpiresNow.
Proof. exact kept_undated. Qed.
Print Assumptions C98_undated.

Example C98_case : let t := mkTime 2026 11 17 16 0 0 0 None in
  http_date "GMT" t (lit "Tue, 17 Nov 2026 16:00:00 GMT")
  /\ (exists l, control_text l (lit "private, max-age=60 , max-age=3600") /\ says_max_age l (Some (lit "3600")))
  /\ decimal_text 4 3600 (lit "3600").
Proof.
  cbv zeta. split; [show_text false 0 0 0|]. split.
  - exists [(lit "private", None); (lit "max-age", Some (lit "60")); (lit "max-age", Some (lit "3600"))]. split.
    + apply (ControlMore _ _ (lit "private")).
      { apply (DirectiveName (lit "private") [] []); [|discriminate|constructor|constructor]. repeat split; cbn; intuition discriminate. }
      apply (ControlMore _ _ (lit " max-age=60 ")).
      { apply (DirectiveValue (lit "max-age") (lit "60") (lit " ") (lit " ")); try (repeat constructor; fail);
          repeat split; cbn; intuition discriminate. }
      apply ControlLast. apply (DirectiveValue (lit "max-age") (lit "3600") (lit " ") []); try (repeat constructor; fail);
        repeat split; cbn; intuition discriminate.
    + exists [(lit "private", None); (lit "max-age", Some (lit "60"))], []. split; [reflexivity|intros []].
  - apply decimal_ok. vm_compute. reflexivity.
Qed.
Example C98_instants : forall parts, cache_expires parts (fun _ t => t) (fun h =>
    if String.eqb h "Date" then lit "Tue, 17 Nov 2026 16:00:00 GMT"
    else if String.eqb h "Cache-Control" then lit "private, max-age=60 , max-age=3600" else [])
  = ExpiresAt (instant (mkTime 2026 11 17 17 0 0 0 None)).
Proof. intros parts. vm_compute. reflexivity. Qed.
