(* What the client sends, and what the server answers *)
From Coq Require Import ZArith NArith Bool Ascii String List Lia.
Import ListNotations.
From Verif Require Import GoBase GoTime Tables Codec Records File Reader Json JsonFile Server Client
  SpecCodec SpecLayouts SpecRecords SpecFile SpecFiles SpecReader SpecApi SpecJson SpecServer SpecClient SpecWire
  ApiFacts ServerFacts ServerProps ClientFacts.
Local Open Scope string_scope.
Local Open Scope Z_scope.
Local Open Scope list_scope.
Local Notation length := List.length.

(* ---- requests ---- *)

Lemma file_part u : carries (file_parts [("file", u)]) u.
Proof.
  destruct u as [[|c n] [|d t]]; unfold carries; cbn.
  - right. split; [left|]; reflexivity.
  - right. split; [left|]; reflexivity.
  - right. split; [right|]; reflexivity.
  - left. repeat split; discriminate.
Qed.

Lemma query_format (format : option bytes) w : wrQuery w = encode_query (add_text "format" format) -> query_holds w format.
Proof. intros E. unfold query_holds. rewrite E, query_arrives. destruct format; reflexivity. Qed.

Ltac in_list := cbn [app In]; intuition congruence.

Lemma text_field k t n v : In (n, v) (add_text k t) <-> n = k /\ t = Some v.
Proof. destruct t as [t|]; cbn; intuition congruence. Qed.
Lemma bool_field k b n v : In (n, v) (add_bool k b) <-> n = k /\ exists x, b = Some x /\ v = bool_word x.
Proof.
  destruct b as [b|]; cbn.
  - split; [intros [[= <- <-]|[]]; split; [reflexivity|exists b; split; [reflexivity|destruct b; reflexivity]]|].
    intros (-> & x & [= <-] & ->). left. destruct b; reflexivity.
  - split; [intros []|]. intros (_ & x & E & _). discriminate.
Qed.

Lemma convert_fields c : holds_fields (add_text "format" (ccFormat2 c) ++ add_text "type" (ccType c)
     ++ add_bool "generate" (ccGenerate c) ++ add_bool "newline" (ccNewline c)) (convert_field c).
Proof.
  split.
  - destruct (ccFormat2 c), (ccType c), (ccGenerate c), (ccNewline c); cbn; repeat constructor; cbn;
      intuition discriminate.
  - intros k v. rewrite !in_app_iff, !text_field, !bool_field. split.
    + intros [[-> E]|[[-> E]|[[-> (b & E & ->)]|[-> (b & E & ->)]]]].
      * apply convert_format. exact E.
      * apply convert_type. exact E.
      * apply convert_generate. exact E.
      * apply convert_newline. exact E.
    + intros [t E|t E|b E|b E]; eauto 9.
Qed.

Lemma print_fields c : holds_fields (add_text "format" (pcFormat2 c)) (print_field c).
Proof.
  split; [destruct (pcFormat2 c); cbn; repeat constructor; intros []|].
  intros k v. rewrite text_field. split; [intros [-> E]; apply print_format; exact E|intros [t E]; auto].
Qed.

Lemma no_fields : holds_fields [] no_field.
Proof. split; [constructor|]. intros k v. cbn. unfold no_field. tauto. Qed.

Lemma convert_sent boundary c : let w := convert_request boundary c in
  wrMethod w = "POST" /\ wrPath w = "/convert" /\ query_holds w (ccFormat c)
  /\ body_holds boundary w (convert_field c) (ccFile c) "application/json".
Proof.
  cbv zeta. unfold convert_request, prepare_request.
  change (select_content_type [lit "multipart/form-data"; lit "application/json"]) with (lit "application/json").
  change (has_prefix (lit "application/json") (lit "multipart/form-data")) with false. cbn [andb orb].
  destruct (ccFile c) as [u|] eqn:F; cbn [form_file length Nat.eqb negb].
  - split; [reflexivity|]. split; [reflexivity|]. split; [apply query_format; reflexivity|].
    cbn [body_holds wrType wrForm]. split; [reflexivity|].
    eexists _, _. split; [reflexivity|]. split; [apply convert_fields|apply file_part].
  - split; [reflexivity|]. split; [reflexivity|]. split; [apply query_format; reflexivity|]. split; reflexivity.
Qed.

Lemma print_sent boundary c : let w := print_request boundary c in
  wrMethod w = "POST" /\ wrPath w = "/print" /\ query_holds w (pcFormat c)
  /\ body_holds boundary w (print_field c) (pcFile c) "application/json".
Proof.
  cbv zeta. unfold print_request, prepare_request.
  change (select_content_type [lit "multipart/form-data"; lit "application/json"]) with (lit "application/json").
  change (has_prefix (lit "application/json") (lit "multipart/form-data")) with false. cbn [andb orb].
  destruct (pcFile c) as [u|] eqn:F; cbn [form_file length Nat.eqb negb].
  - split; [reflexivity|]. split; [reflexivity|]. split; [apply query_format; reflexivity|].
    cbn [body_holds wrType wrForm]. split; [reflexivity|].
    eexists _, _. split; [reflexivity|]. split; [apply print_fields|apply file_part].
  - split; [reflexivity|]. split; [reflexivity|]. split; [apply query_format; reflexivity|]. split; reflexivity.
Qed.

Lemma validator_sent boundary c : let w := validator_request boundary c in
  wrMethod w = "POST" /\ wrPath w = "/validator" /\ query_holds w None
  /\ body_holds boundary w no_field (vcFile c) "multipart/form-data".
Proof.
  cbv zeta. unfold validator_request, prepare_request. destruct (vcFile c) as [u|].
  - split; [reflexivity|]. split; [reflexivity|]. split; [apply query_format; reflexivity|].
    cbn [body_holds]. split; [reflexivity|]. eexists _, _. split; [reflexivity|]. split; [apply no_fields|apply file_part].
  - split; [reflexivity|]. split; [reflexivity|]. split; [apply query_format; reflexivity|]. split; reflexivity.
Qed.

Lemma health_sent boundary : let w := health_request boundary in
  wrMethod w = "GET" /\ wrPath w = "/health" /\ query_holds w None /\ body_holds boundary w no_field None "".
Proof. repeat split. Qed.

Lemma fields_lost : exists boundary c k v, convert_field c k v /\ wrForm (convert_request boundary c) = None.
Proof.
  exists [], (mkConvertCall None (Some (lit "metro")) None None None None), "format", (lit "metro").
  split; [apply convert_format; reflexivity|reflexivity].
Qed.

(* ---- answers ---- *)

Lemma parse_unread rt rq e : parse_input rt rq = Some (Err e) -> unread rt rq e.
Proof.
  unfold parse_input. pose proof (multipart_spec (rqType rq)) as M.
  destruct (has_prefix (lower_text (rqType rq)) (lit "multipart/")).
  - assert (multipart (rqType rq)) as M' by (apply M; reflexivity).
    destruct (rqFile rq) as [src|] eqn:F.
    + intros E. apply (unread_file rt rq src); [apply sent_form; assumption|exact E].
    + intros [= <-]. apply unread_missing; assumption.
  - assert (~ multipart (rqType rq)) as M' by (intros H; apply M in H; discriminate).
    intros E. apply (unread_file rt rq (rqBody rq)); [apply sent_body; exact M'|exact E].
Qed.

Lemma answers rt rq k rp : with_file rt rq k = Some rp ->
  says_unread rt rq rp \/ exists f, reads rt rq f /\ rp = k f.
Proof.
  unfold with_file. pose proof (reads_parse rt rq) as R. pose proof (parse_no_panic rt rq) as N.
  pose proof (parse_unread rt rq) as U.
  destruct (parse_input rt rq) as [[f|e|]|]; [| |contradiction|discriminate]; intros [= <-].
  - right. exists f. split; [apply R; reflexivity|reflexivity].
  - left. exists e. split; [apply U; reflexivity|reflexivity].
Qed.

Lemma validator_says rt rq rp : serve_validator rt rq = Some rp ->
  says_unread rt rq rp
  \/ (exists f e, reads rt rq f /\ file_validate f = Err e /\ rp = Reply 501 plain_text (BodyError e))
  \/ (exists f, reads rt rq f /\ file_validate f = Ok tt /\ rp = Reply 200 [] (BodyText (status_text "valid file"))).
Proof.
  intros H. apply answers in H as [H|(f & R & ->)]; [left; exact H|right].
  pose proof (validate_any f (sound_file_ok f (reads_sound _ _ _ R))) as N.
  destruct (file_validate f) as [[]|e|] eqn:V; [right; exists f|left; exists f, e|contradiction].
  - split; [exact R|]. split; [exact V|reflexivity].
  - split; [exact R|]. split; [exact V|reflexivity].
Qed.

Lemma format_says rq : (get_format rq = Err (ErrOther "invalid format") /\ forall o, ~ asks_form rq o)
  \/ exists o, get_format rq = Ok (form_word o) /\ asks_form rq o.
Proof.
  destruct (get_format_spec rq) as [(e & E & N)|(o & E & A & _)]; [left; split; [|exact N]|right; exists o; auto].
  revert E. unfold get_format. cbv zeta.
  destruct (negb _ && negb _); [intros _; reflexivity|discriminate].
Qed.

Lemma print_says cpus rt rq rp : serve_print cpus rt rq = Some rp ->
  says_unread rt rq rp
  \/ ((exists f, reads rt rq f) /\ (forall o, ~ asks_form rq o) /\ says_format rp)
  \/ (exists f o b n, reads rt rq f /\ asks_form rq o /\ asks_breaks rq b /\ asks_null rq f f n
      /\ rp = Reply 200 [] (BodyText (print_text n o f b))).
Proof.
  intros H. apply answers in H as [H|(f & R & ->)]; [left; exact H|right].
  destruct (format_says rq) as [[E N]|(o & E & A)]; rewrite E.
  - left. split; [exists f; exact R|]. split; [exact N|reflexivity].
  - right. exists f, o, (get_is_newline rq), (read_nil (request_input rq) f). split; [exact R|]. split; [exact A|].
    split; [apply breaks_spec|]. split; [apply (null_asked_print rt); exact R|]. cbv zeta. rewrite message_spec. apply buffer_spec.
Qed.

Lemma convert_says cpus rt rq rp : serve_convert cpus rt rq = Some rp ->
  says_unread rt rq rp
  \/ (exists f e, reads rt rq f /\ asks_trailer rq /\ flBases f = [] /\ rp = Reply 501 plain_text (BodyError e))
  \/ ((exists f, reads rt rq f /\ (asks_trailer rq -> flBases f <> [])) /\ (forall o, ~ asks_form rq o) /\ says_format rp)
  \/ (exists f g o b n, reads rt rq f /\ asks_form rq o /\ asks_breaks rq b /\ converted (asks_trailer rq) (rqForm rq "type") f g
      /\ asks_null rq f g n /\ rp = Reply 200 attachment (BodyText (convert_text n tab o g b))).
Proof.
  intros H. apply answers in H as [H|(f & R & ->)]; [left; exact H|right].
  pose proof (true_spec rq) as T. pose proof (sound_file_ok f (reads_sound _ _ _ R)) as O.
  destruct (equal_fold (rqForm rq "generate") (lit "true")).
  - assert (asks_trailer rq) as A by (apply T; reflexivity).
    destruct (generate_into_spec f O) as [(B & e & E)|(B & f' & E & W & O')]; rewrite E.
    { left. exists f, e. split; [exact R|]. split; [exact A|]. split; [exact B|reflexivity]. }
    right. destruct (format_says rq) as [[G N]|(o & G & As)]; rewrite G.
    + left. split; [exists f; auto|]. split; [exact N|reflexivity].
    + right. destruct (change_type_spec (rqForm rq "type") f' O') as [C _].
      exists f, (change_type (rqForm rq "type") f'), o, (get_is_newline rq),
        (read_nil (request_input rq) f || negb (Bool.eqb (flPacked f) (flPacked (change_type (rqForm rq "type") f')))).
      split; [exact R|]. split; [exact As|]. split; [apply breaks_spec|].
      split; [exists f'; split; [auto|split; [contradiction|exact C]]|]. split; [apply (null_asked rt); exact R|].
      cbv zeta. rewrite message_spec. assert (flPacked f' = flPacked f) as P by (destruct W as (t & _ & _ & ->); reflexivity).
      unfold retyped_nil. rewrite P. reflexivity.
  - assert (~ asks_trailer rq) as A by (intros A; apply T in A; discriminate).
    right. destruct (format_says rq) as [[G N]|(o & G & As)]; rewrite G.
    + left. split; [exists f; split; [exact R|contradiction]|]. split; [exact N|reflexivity].
    + right. destruct (change_type_spec (rqForm rq "type") f O) as [C _].
      exists f, (change_type (rqForm rq "type") f), o, (get_is_newline rq),
        (read_nil (request_input rq) f || negb (Bool.eqb (flPacked f) (flPacked (change_type (rqForm rq "type") f)))).
      split; [exact R|]. split; [exact As|]. split; [apply breaks_spec|].
      split; [exists f; split; [contradiction|split; [reflexivity|exact C]]|]. split; [apply (null_asked rt); exact R|].
      cbv zeta. rewrite message_spec. reflexivity.
Qed.

(* other paths, and other methods *)
Lemma other_says cpus rt method path rq :
  (~ In path ["/health"; "/print"; "/validator"; "/convert"] ->
   dispatch cpus rt method path rq = Some (Reply 404 plain_text (BodyText (list_ascii_of_string "404 page not found" ++ [ascii_of_nat 10]))))
  /\ (path = "/health" -> method <> "GET" -> dispatch cpus rt method path rq = Some (Reply 405 [] (BodyText [])))
  /\ (In path ["/print"; "/validator"; "/convert"] -> method <> "POST" ->
      dispatch cpus rt method path rq = Some (Reply 405 [] (BodyText [])))
  /\ (dispatch cpus rt "GET" "/health" rq = Some (Reply 200 [] (BodyText (status_text "alive"))))
  /\ (dispatch cpus rt "POST" "/print" rq = serve_print cpus rt rq)
  /\ (dispatch cpus rt "POST" "/validator" rq = serve_validator rt rq)
  /\ (dispatch cpus rt "POST" "/convert" rq = serve_convert cpus rt rq).
Proof.
  split; [|split; [|split; [|repeat split]]].
  - intros N. unfold dispatch.
    destruct (String.eqb path "/health") eqn:A; [apply String.eqb_eq in A; subst; destruct N; cbn; auto|].
    destruct (String.eqb path "/print") eqn:B; [apply String.eqb_eq in B; subst; destruct N; cbn; auto|].
    destruct (String.eqb path "/validator") eqn:C; [apply String.eqb_eq in C; subst; destruct N; cbn; auto|].
    destruct (String.eqb path "/convert") eqn:D; [apply String.eqb_eq in D; subst; destruct N; cbn; auto|]. reflexivity.
  - intros -> N. unfold dispatch. apply String.eqb_neq in N. rewrite N. reflexivity.
  - intros I N. unfold dispatch. apply String.eqb_neq in N. rewrite N.
    destruct I as [<-|[<-|[<-|[]]]]; reflexivity.
Qed.
