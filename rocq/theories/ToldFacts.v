(* Facts for C107 *)
From Coq Require Import ZArith NArith Bool Ascii String List Lia.
Import ListNotations.
From Verif Require Import GoBase GoBaseFacts GoLayout LayoutFacts Tables Codec Records File Reader Json JsonFile Server Client ClientConfig ClientErrors Errors
  SpecServer SpecClient SpecConfig SpecTold ClientFacts ConfigFacts.
Local Open Scope string_scope.
Local Open Scope Z_scope.
Local Open Scope list_scope.
Local Notation length := List.length.

Lemma blank_ok c : is_space_char c = true <-> blank_char c.
Proof.
  unfold is_space_char, blank_char. split.
  - intros H. pose proof (ascii_N_embedding c) as E. unfold bval in H. remember (N_of_ascii c) as n. rewrite <- E. clear E Heqn.
    assert (n = 9 \/ n = 10 \/ n = 11 \/ n = 12 \/ n = 13 \/ n = 32)%N as K by lia.
    destruct K as [->|[->|[->|[->|[->| ->]]]]]; cbn; tauto.
  - intros I. cbn [map In] in I. repeat (destruct I as [<-|I]; [reflexivity|]). destruct I.
Qed.

Lemma not_blank c : ~ blank_char c -> is_space_char c = false.
Proof. intros N. destruct (is_space_char c) eqn:E; [|reflexivity]. apply blank_ok in E. contradiction. Qed.

Lemma trim_end s : trim_text s -> trim_both is_space_char (s ++ lit " ") = s.
Proof.
  intros (N & F & L). destruct s as [|c r] eqn:E; [contradiction|]. rewrite <- E in *.
  assert (trim_both is_space_char s = s) as T.
  { apply trim_none; intros x y Q; apply not_blank; [apply (F x y Q)|apply (L x y Q)]. }
  unfold trim_both in *. rewrite E in *. cbn [app drop_while] in *. rewrite (not_blank c (F c r eq_refl)) in *.
  change (c :: r ++ lit " ") with ((c :: r) ++ lit " "). rewrite rev_app_distr. change (rev (lit " ")) with (lit " "). cbn [app drop_while lit list_ascii_of_string].
  change (is_space_char " ") with true. cbv iota. exact T.
Qed.

Lemma plain_message s : trim_text s -> format_error_message s NoStruct = s.
Proof. intros T. unfold format_error_message. cbn [problem_text]. rewrite app_nil_r. exact (trim_end s T). Qed.

Lemma no_fields s : trim_text s -> format_error_message s (Problem None None) = s.
Proof. intros T. unfold format_error_message. cbn [problem_text]. rewrite app_nil_r. exact (trim_end s T). Qed.

Lemma head_app (s t : bytes) c r : s <> [] -> s ++ t = c :: r -> exists r', s = c :: r'.
Proof. destruct s as [|x s]; [contradiction|]. intros _ [= -> _]. eauto. Qed.

Lemma last_app (s t : bytes) c r : t <> [] -> s ++ t = r ++ [c] -> exists r', t = r' ++ [c].
Proof.
  intros N E. destruct (exists_last N) as (r' & x & ->). exists r'. rewrite app_assoc in E. apply app_inj_tail in E as [_ ->]. reflexivity.
Qed.

Lemma title_message s t : trim_text s -> trim_text t -> format_error_message s (Problem (Some t) None) = s ++ lit " " ++ t.
Proof.
  intros (Ns & Fs & _) (Nt & _ & Lt). unfold format_error_message. cbn [problem_text]. apply trim_none; intros c r E; apply not_blank.
  - apply head_app in E as (r' & E); [|exact Ns]. apply (Fs c r' E).
  - rewrite app_assoc in E. apply last_app in E as (r' & E); [|exact Nt]. apply (Lt c r' E).
Qed.

Lemma detail_message s t d : trim_text s -> format_error_message s (Problem (Some t) (Some d)) = s ++ lit " " ++ t ++ lit " (" ++ d ++ lit ")".
Proof.
  intros (Ns & Fs & _). unfold format_error_message. cbn [problem_text]. apply trim_none; intros c r E; apply not_blank.
  - apply head_app in E as (r' & E); [|exact Ns]. apply (Fs c r' E).
  - rewrite !app_assoc in E. apply app_inj_tail in E as [_ <-]. intros B. apply blank_ok in B. discriminate.
Qed.

(* any answer *)
Lemma answer_error errText models d code ct b status : 300 <= code -> trim_text status ->
  exists e, e = status_error models code status (body_bytes errText b) /\ aeText e = status /\ aeBody e = body_bytes errText b
  /\ receive errText models d (Reply code ct b) = ApiError code (aeBody e) (aeModel e)
  /\ ((In code models /\ aeModel e = Some (aeBody e)) \/ (~ In code models /\ aeModel e = None)).
Proof.
  intros C T. eexists. split; [reflexivity|]. unfold status_error, receive. apply Z.leb_le in C. rewrite C.
  destruct (existsb (Z.eqb code) models) eqn:M; cbn [aeText aeBody aeModel].
  - split; [exact (plain_message status T)|]. split; [reflexivity|]. split; [reflexivity|]. left. split; [|reflexivity].
    apply existsb_exists in M as (x & I & E). apply Z.eqb_eq in E. now subst.
  - split; [reflexivity|]. split; [reflexivity|]. split; [reflexivity|]. right. split; [|reflexivity]. intros I.
    assert (existsb (Z.eqb code) models = true) as Q by (apply existsb_exists; exists code; split; [exact I|apply Z.eqb_refl]). congruence.
Qed.

(* calls *)
Lemma refused_tells (models : list Z) code model r e (name : string) : refused code model r -> outcome_error models r = Some e ->
  status_error models code (status_line code) = (fun t => mkApiError (lit name) t (if model then Some t else None)) ->
  exists t, r = ApiError code t (if model then Some t else None) /\ e = mkApiError (lit name) t (if model then Some t else None).
Proof. intros [t ->] H S. exists t. split; [reflexivity|]. cbn [outcome_error] in H. rewrite S in H. now injection H as <-. Qed.

Lemma convert_tells cpus rt evs errText boundary c r e : client_convert cpus rt evs errText boundary c = Some r -> outcome_error [400; 501] r = Some e ->
  exists code name t, In (code, name) status_names /\ (code = 400 \/ code = 501) /\ r = ApiError code t (Some t) /\ e = mkApiError (lit name) t (Some t).
Proof.
  intros H E. apply convert_outcome in H as [(f & g & o & b & _ & _ & _ & _ & n & _ & ->)|[[R _]|[R _]]]; [discriminate| |].
  - destruct (refused_tells _ _ _ _ _ "400 Bad Request" R E eq_refl) as (t & -> & ->). exists 400, "400 Bad Request", t. cbn [status_names In]. tauto.
  - destruct (refused_tells _ _ _ _ _ "501 Not Implemented" R E eq_refl) as (t & -> & ->). exists 501, "501 Not Implemented", t. cbn [status_names In]. tauto.
Qed.

Lemma validator_tells cpus rt evs errText boundary c r e : client_validator cpus rt evs errText boundary c = Some r -> outcome_error [400; 501] r = Some e ->
  exists code name t, In (code, name) status_names /\ (code = 400 \/ code = 501) /\ r = ApiError code t (Some t) /\ e = mkApiError (lit name) t (Some t).
Proof.
  intros H E. apply validator_outcome in H as [(f & _ & _ & ->)|[[R _]|[R _]]]; [discriminate| |].
  - destruct (refused_tells _ _ _ _ _ "400 Bad Request" R E eq_refl) as (t & -> & ->). exists 400, "400 Bad Request", t. cbn [status_names In]. tauto.
  - destruct (refused_tells _ _ _ _ _ "501 Not Implemented" R E eq_refl) as (t & -> & ->). exists 501, "501 Not Implemented", t. cbn [status_names In]. tauto.
Qed.

Lemma print_tells cpus rt evs errText boundary c r e : client_print cpus rt evs errText boundary c = Some r -> outcome_error [400] r = Some e ->
  (exists t, r = ApiError 400 t (Some t) /\ e = mkApiError (lit "400 Bad Request") t (Some t))
  \/ (exists t, r = ApiError 501 t None /\ e = mkApiError (lit "501 Not Implemented") t None).
Proof.
  intros H E. apply print_outcome in H as [(f & o & n & _ & _ & _ & ->)|[[R _]|[R _]]]; [discriminate|left|right].
  - exact (refused_tells _ _ _ _ _ "400 Bad Request" R E eq_refl).
  - exact (refused_tells _ _ _ _ _ "501 Not Implemented" R E eq_refl).
Qed.

(* whatever the server says, the text is the same *)
Lemma tells_little errText (e1 e2 : error) : errText e1 <> errText e2 ->
  exists r1 r2 t1 t2, receive errText [400; 501] decode_os_file (Reply 400 [] (BodyError e1)) = r1
  /\ receive errText [400; 501] decode_os_file (Reply 400 [] (BodyError e2)) = r2
  /\ outcome_error [400; 501] r1 = Some t1 /\ outcome_error [400; 501] r2 = Some t2 /\ aeText t1 = aeText t2 /\ aeBody t1 <> aeBody t2.
Proof.
  intros N. do 4 eexists. split; [reflexivity|]. split; [reflexivity|]. split; [reflexivity|]. split; [reflexivity|]. split; [reflexivity|].
  intros E. apply N. exact (proj1 (app_inj_tail _ _ _ _ E)).
Qed.

Lemma tells_less : exists errText e1 e2 t1 t2,
  error_text e1 = Some (errText e1) /\ error_text e2 = Some (errText e2) /\ errText e1 <> errText e2
  /\ outcome_error [400; 501] (receive errText [400; 501] decode_os_file (Reply 400 [] (BodyError e1))) = Some t1
  /\ outcome_error [400; 501] (receive errText [400; 501] decode_os_file (Reply 400 [] (BodyError e2))) = Some t2
  /\ aeText t1 = aeText t2.
Proof.
  exists (fun e => match error_text e with Some t => t | None => [] end), ErrFailedParsing, ErrBlockDescriptorWord. do 2 eexists.
  split; [reflexivity|]. split; [reflexivity|]. split; [vm_compute; discriminate|]. split; [reflexivity|]. split; reflexivity.
Qed.

(* addresses *)
Lemma spaced_words l : spaced l (list_words l).
Proof. induction l as [|a [|b l] IH]; [constructor|constructor|]. exact (spaced_more a b l _ IH). Qed.

Lemma enum_tells given url vs : match fill_variables given vs url with inl _ => enum_error given vs = None | inr _ =>
  exists t, enum_error given vs = Some t /\ exists u, tells_value (mkServer u vs) given t end.
Proof.
  revert url. induction vs as [|[n v] vs IH]; intros url; [reflexivity|]. cbn [fill_variables enum_error]. unfold fill_variable.
  assert (forall x, match fill_variables given vs x with inl _ => enum_error given vs = None | inr _ =>
    exists t, enum_error given vs = Some t /\ exists u, tells_value (mkServer u ((n, v) :: vs)) given t end) as R.
  { intros x. specialize (IH x). destruct (fill_variables given vs x); [exact IH|]. destruct IH as (t & E & u & n' & v' & y & w & I & K). exists t. split; [exact E|].
    exists u, n', v', y, w. split; [right; exact I|exact K]. }
  destruct (find_key n given) as [x|] eqn:F; [|apply R]. destruct (Nat.eqb _ 0 || existsb _ _) eqn:O; [apply R|].
  eexists. split; [reflexivity|]. apply orb_false_iff in O as [L X]. exists url, n, v, x, (list_words (svEnum v)). split; [now left|]. split; [exact (find_key_in _ _ _ F)|].
  split; [intros Q; rewrite Q in L; discriminate|]. split; [|split; [apply spaced_words|reflexivity]].
  intros I. assert (existsb (bytes_eqb x) (svEnum v) = true) as Y; [|congruence]. apply existsb_exists. exists x. split; [exact I|apply bytes_eqb_refl].
Qed.

Lemma servers_tell sc i given : match servers_url sc i given with inl _ => servers_error sc i given = None | inr _ => exists t, servers_error sc i given = Some t end.
Proof.
  unfold servers_url, servers_error. destruct (_ || _) eqn:O; [eauto|]. destruct (nth_error sc _) as [s|] eqn:N.
  - pose proof (enum_tells given (scURL s) (scVariables s)) as E. destruct (fill_variables _ _ _); [exact E|]. destruct E as (t & E & _). eauto.
  - apply nth_error_None in N. apply orb_false_iff in O as [O1 O2]. apply Z.ltb_ge in O1. apply Z.leb_gt in O2. exfalso. lia.
Qed.

Lemma index_tells odd cx : match get_server_index cx with inl i => index_error odd cx = inl i | inr _ => exists t, index_error odd cx = inr t end.
Proof. unfold get_server_index, index_error. destruct (cxIndex cx); eauto. Qed.

Lemma operation_index_tells odd cx p : match get_operation_index cx p with inl i => operation_index_error odd cx p = inl i | inr _ => exists t, operation_index_error odd cx p = inr t end.
Proof.
  unfold get_operation_index, operation_index_error. pose proof (index_tells odd cx) as E. destruct (cxIndices cx) as [| |m]; [exact E|eauto|]. destruct (find_key p m); [reflexivity|exact E].
Qed.

Lemma variables_tell odd cx : match get_server_variables cx with inl i => variables_error odd cx = inl i | inr _ => exists t, variables_error odd cx = inr t end.
Proof. unfold get_server_variables, variables_error. destruct (cxVariables cx); eauto. Qed.

Lemma operation_variables_tell odd cx p : match get_operation_variables cx p with inl i => operation_variables_error odd cx p = inl i | inr _ => exists t, operation_variables_error odd cx p = inr t end.
Proof.
  unfold get_operation_variables, operation_variables_error. pose proof (variables_tell odd cx) as E. destruct (cxOperationVariables cx) as [| |m]; [exact E|eauto|]. destruct (find_key p m); [reflexivity|exact E].
Qed.

(* a call has an error of this kind exactly if there is no address *)
Lemma unsent odd cf cx p : address_error odd cf cx p = None <-> exists url, server_url cf cx p = inl url.
Proof.
  unfold address_error. enough (match server_url cf cx p with inl _ => address_text odd cf cx p = None | inr _ => exists t, address_text odd cf cx p = Some t end) as H.
  { destruct (server_url cf cx p) as [url|e].
    - rewrite H. split; [eauto|reflexivity].
    - destruct H as [t ->]. split; [discriminate|]. intros [url Q]. discriminate Q. }
  unfold server_url, address_text. destruct cx as [cx|]; [|apply servers_tell].
  pose proof (operation_index_tells odd cx p) as I. destruct (get_operation_index cx p) as [i|]; [rewrite I|destruct I as [t ->]; eauto].
  pose proof (operation_variables_tell odd cx p) as V. destruct (get_operation_variables cx p) as [vs|]; [rewrite V|destruct V as [t ->]; eauto].
  apply servers_tell.
Qed.

(* what it says *)
Lemma told_servers sc i given t : servers_error sc i given = Some t -> tells_address sc i given t.
Proof.
  unfold servers_error. destruct (_ || _) eqn:O.
  - intros [= <-]. left. split; [|reflexivity]. apply orb_true_iff in O. rewrite Z.ltb_lt, Z.leb_le in O. exact O.
  - intros H. right. apply orb_false_iff in O as [O _]. apply Z.ltb_ge in O. split; [exact O|].
    destruct (nth_error sc (Z.to_nat i)) as [s|] eqn:N; [|discriminate]. exists s. split; [reflexivity|].
    pose proof (enum_tells given (scURL s) (scVariables s)) as E. destruct (fill_variables _ _ _); [congruence|].
    destruct E as (t' & E & u & K). rewrite E in H. injection H as <-. exact K.
Qed.

Lemma told_no_context odd cf p e sc : keys_once (cfOperationServers cf) -> operation_servers cf p sc -> address_error odd cf None p = Some e ->
  exists t, e = mkApiError t [] None /\ tells_address sc 0 [] t.
Proof.
  intros K S. unfold address_error, address_text. rewrite (servers_of cf p sc K S). destruct (servers_error sc 0 []) as [t|] eqn:E; [|discriminate].
  intros [= <-]. exists t. split; [reflexivity|]. exact (told_servers sc 0 [] t E).
Qed.

Lemma told_index odd cx p : (exists i, get_operation_index cx p = inl i /\ operation_index_error odd cx p = inl i)
  \/ (exists t, operation_index_error odd cx p = inr t /\ tells_type odd cx t).
Proof.
  unfold get_operation_index, operation_index_error, get_server_index, index_error.
  destruct (cxIndices cx) as [| |m] eqn:I.
  - destruct (cxIndex cx) eqn:J; eauto using odd_index.
  - eauto using odd_indices.
  - destruct (find_key p m); [eauto|]. destruct (cxIndex cx) eqn:J; eauto using odd_index.
Qed.

Lemma told_variables odd cx p : (exists i, get_operation_variables cx p = inl i /\ operation_variables_error odd cx p = inl i)
  \/ (exists t, operation_variables_error odd cx p = inr t /\ tells_type odd cx t).
Proof.
  unfold get_operation_variables, operation_variables_error, get_server_variables, variables_error.
  destruct (cxOperationVariables cx) as [| |m] eqn:I.
  - destruct (cxVariables cx) eqn:J; eauto using odd_variables.
  - eauto using odd_operation.
  - destruct (find_key p m); [eauto|]. destruct (cxVariables cx) eqn:J; eauto using odd_variables.
Qed.

Lemma told_context odd cf cx p e sc : keys_once (cfOperationServers cf) ->
  (forall m, cxIndices cx = Carried m -> keys_once m) -> (forall m, cxOperationVariables cx = Carried m -> keys_once m) ->
  operation_servers cf p sc -> address_error odd cf (Some cx) p = Some e ->
  exists t, e = mkApiError t [] None /\
    (tells_type odd cx t
     \/ exists i given, context_says (cxIndices cx) (cxIndex cx) 0 p i /\ context_says (cxOperationVariables cx) (cxVariables cx) [] p given
         /\ tells_address sc i given t).
Proof.
  intros K K1 K2 S. unfold address_error, address_text. rewrite (servers_of cf p sc K S).
  destruct (told_index odd cx p) as [(i & G & ->)|(t & -> & T)].
  2: { intros [= <-]. exists t. split; [reflexivity|]. left. exact T. }
  destruct (told_variables odd cx p) as [(vs & V & ->)|(t & -> & T)].
  2: { intros [= <-]. exists t. split; [reflexivity|]. left. exact T. }
  destruct (servers_error sc i vs) as [t|] eqn:E; [|discriminate]. intros [= <-]. exists t. split; [reflexivity|]. right. exists i, vs.
  destruct (says_spec (cxIndices cx) (cxIndex cx) 0 p (get_operation_index cx p) K1 eq_refl) as [(i' & Ei & Si & _)|[Ei Ni]]; [|congruence].
  destruct (says_spec (cxOperationVariables cx) (cxVariables cx) [] p (get_operation_variables cx p) K2 eq_refl) as [(v' & Ev & Sv & _)|[Ev Nv]]; [|congruence].
  rewrite G in Ei. injection Ei as <-. rewrite V in Ev. injection Ev as <-. split; [exact Si|]. split; [exact Sv|]. exact (told_servers sc i vs t E).
Qed.

Lemma told_case : trim_text (lit "400 Bad Request")
  /\ servers_error [mkServer (lit "https://{h}/") [(lit "h", mkVariable (lit "a") [lit "a"; lit "b"])]] 0 [(lit "h", lit "c")]
     = Some (lit "the variable h in the server URL has invalid value c. Must be [a b]")
  /\ address_error (fun _ => lit "string") new_configuration (Some (mkContext (Carried 3) Missing Missing Missing)) (lit "x")
     = Some (mkApiError (lit "index 3 out of range 0") [] None)
  /\ address_error (fun _ => lit "string") new_configuration (Some (mkContext OtherType Missing Missing Missing)) (lit "x")
     = Some (mkApiError (lit "Invalid type string should be int") [] None).
Proof.
  split; [|repeat split]. split; [discriminate|]. split; intros c r E B; apply blank_ok in B.
  - injection E as <- _. discriminate.
  - change (lit "400 Bad Request") with (lit "400 Bad Reques" ++ ["t"%char]) in E. apply app_inj_tail in E as [_ <-]. discriminate.
Qed.
