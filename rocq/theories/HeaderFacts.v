(* Facts for C99 *)
From Coq Require Import ZArith NArith Bool Ascii String List Lia.
Import ListNotations.
From Verif Require Import GoBase GoTime GoLayout Tables Codec Records File Reader Json JsonFile Server Client ClientHeaders
  SpecHeaders GoBaseFacts.
Local Open Scope string_scope.
Local Open Scope Z_scope.
Local Open Scope list_scope.
Local Notation length := List.length.

Lemma beq_true a b : bytes_eqb a b = true <-> a = b.
Proof.
  revert b. induction a as [|x a IH]; intros [|y b]; split; intros H; try discriminate; try reflexivity.
  - cbn in H. apply andb_prop in H as [E H]. apply Ascii.eqb_eq in E. apply IH in H. congruence.
  - injection H as -> ->. cbn. unfold byte_eqb. rewrite Ascii.eqb_refl. apply IH. reflexivity.
Qed.
Lemma beq_false a b : bytes_eqb a b = false <-> a <> b.
Proof. rewrite <- not_true_iff_false, beq_true. tauto. Qed.

(* ---- names ---- *)

(* letter for letter, checked over all bytes *)
Definition all_codes : list ascii := map (fun n => ascii_of_nat n) (seq 0 256).
Lemma all_codes_in c : In c all_codes.
Proof.
  unfold all_codes. rewrite <- (ascii_nat_embedding c). apply (in_map (fun n => ascii_of_nat n)), in_seq.
  pose proof (nat_ascii_bounded c). lia.
Qed.
Definition same_letterb (a b : ascii) : bool :=
  let x := nat_of_ascii a in let y := nat_of_ascii b in
  Nat.eqb x y || (Nat.leb 65 x && Nat.leb x 90 && Nat.eqb y (x + 32)) || (Nat.leb 65 y && Nat.leb y 90 && Nat.eqb x (y + 32)).
Lemma same_letterb_spec a b : same_letterb a b = true <-> same_letter a b.
Proof.
  unfold same_letterb, same_letter. rewrite !orb_true_iff, !andb_true_iff, !Nat.eqb_eq, !Nat.leb_le. split.
  - intros [[H|H]|H]; [left|right; left; tauto|right; right; tauto].
    rewrite <- (ascii_nat_embedding a), H. apply ascii_nat_embedding.
  - intros [-> | [H | H]]; tauto.
Qed.
Lemma check1 (f : ascii -> bool) : forallb f all_codes = true -> forall c, f c = true.
Proof. intros H c. apply (proj1 (forallb_forall _ _) H), all_codes_in. Qed.
Lemma upper_same c : same_letter c (upper_char c).
Proof. apply same_letterb_spec. revert c. apply check1. vm_compute. reflexivity. Qed.
Lemma lower_same c : same_letter c (lower_char c).
Proof. apply same_letterb_spec. revert c. apply check1. vm_compute. reflexivity. Qed.

Lemma same_upper a b : same_letter a b -> upper_char a = upper_char b.
Proof.
  intros H. apply same_letterb_spec in H.
  assert (G : forallb (fun a => forallb (fun b => negb (same_letterb a b) || Ascii.eqb (upper_char a) (upper_char b)) all_codes) all_codes = true)
    by (vm_compute; reflexivity).
  pose proof (proj1 (forallb_forall _ _) (proj1 (forallb_forall _ _) G a (all_codes_in a)) b (all_codes_in b)) as K.
  cbn beta in K. rewrite H in K. apply Ascii.eqb_eq. exact K.
Qed.
Lemma same_lower a b : same_letter a b -> lower_char a = lower_char b.
Proof.
  intros H. apply same_letterb_spec in H.
  assert (G : forallb (fun a => forallb (fun b => negb (same_letterb a b) || Ascii.eqb (lower_char a) (lower_char b)) all_codes) all_codes = true)
    by (vm_compute; reflexivity).
  pose proof (proj1 (forallb_forall _ _) (proj1 (forallb_forall _ _) G a (all_codes_in a)) b (all_codes_in b)) as K.
  cbn beta in K. rewrite H in K. apply Ascii.eqb_eq. exact K.
Qed.
Lemma same_token a b : same_letter a b -> token_char a = token_char b.
Proof.
  intros H. apply same_letterb_spec in H.
  assert (G : forallb (fun a => forallb (fun b => negb (same_letterb a b) || Bool.eqb (token_char a) (token_char b)) all_codes) all_codes = true)
    by (vm_compute; reflexivity).
  pose proof (proj1 (forallb_forall _ _) (proj1 (forallb_forall _ _) G a (all_codes_in a)) b (all_codes_in b)) as K.
  cbn beta in K. rewrite H in K. apply eqb_prop. exact K.
Qed.
Lemma same_minus a b : same_letter a b -> byte_eqb a "-" = byte_eqb b "-".
Proof.
  intros [-> | [[[H1 H2] H3] | [[H1 H2] H3]]]; [reflexivity| |];
    (destruct (byte_eqb a "-") eqn:A; [apply Ascii.eqb_eq in A; subst a; change (nat_of_ascii "-") with 45%nat in *; lia|];
     destruct (byte_eqb b "-") eqn:B; [apply Ascii.eqb_eq in B; subst b; change (nat_of_ascii "-") with 45%nat in *; lia|]; reflexivity).
Qed.

Lemma capitalize_same u s : same_name s (capitalize u s).
Proof.
  revert u. induction s as [|c s IH]; intros u; [constructor|]. cbn [capitalize]. constructor; [|apply IH].
  destruct u; [apply upper_same|apply lower_same].
Qed.
Lemma same_name_refl s : same_name s s.
Proof. induction s; constructor; [left; reflexivity|assumption]. Qed.
Lemma canonical_same s : same_name s (canonical_key s).
Proof. unfold canonical_key. destruct forallb; [apply capitalize_same|apply same_name_refl]. Qed.
Lemma same_capitalize u a b : same_name a b -> capitalize u a = capitalize u b.
Proof.
  intros H. revert u. induction H as [|x y a b L H IH]; intros u; [reflexivity|]. cbn [capitalize].
  rewrite (same_upper _ _ L), (same_lower _ _ L), (same_minus _ _ L), IH. reflexivity.
Qed.
Lemma same_tokens a b : same_name a b -> forallb token_char a = forallb token_char b.
Proof. induction 1 as [|x y a b L H IH]; [reflexivity|]. cbn. rewrite (same_token _ _ L), IH. reflexivity. Qed.

(* a canonical name is reached by the names that are the same, and by no other *)
Lemma canonical_iff k c : forallb token_char c = true -> capitalize true c = c -> (canonical_key k = c <-> same_name k c).
Proof.
  intros T C. split.
  - intros <-. apply canonical_same.
  - intros H. unfold canonical_key. rewrite (same_tokens _ _ H), T, (same_capitalize _ _ _ H). exact C.
Qed.

(* the name it is given *)
Lemma token_spec c : token_char c = true <-> name_char c.
Proof.
  unfold name_char.
  assert (G : forallb (fun c => Bool.eqb (token_char c)
    (existsb (Ascii.eqb c) (list_ascii_of_string "!#$%&'*+-.^_`|~0123456789ABCDEFGHIJKLMNOPQRSTUVWXYZabcdefghijklmnopqrstuvwxyz"))) all_codes = true)
    by (vm_compute; reflexivity).
  pose proof (check1 _ G c) as K. cbn beta in K. apply eqb_prop in K. rewrite K, existsb_exists. split.
  - intros (x & I & E). apply Ascii.eqb_eq in E. subst x. exact I.
  - intros I. exists c. split; [exact I|apply Ascii.eqb_refl].
Qed.
Lemma tokens_spec s : forallb token_char s = true <-> Forall name_char s.
Proof.
  rewrite forallb_forall, Forall_forall. split; intros H x I; apply token_spec, H, I.
Qed.
Lemma capital_letter c : (Nat.leb 97 (nat_of_ascii (upper_char c)) && Nat.leb (nat_of_ascii (upper_char c)) 122) = false.
Proof.
  assert (G : forallb (fun c => negb (Nat.leb 97 (nat_of_ascii (upper_char c)) && Nat.leb (nat_of_ascii (upper_char c)) 122)) all_codes = true)
    by (vm_compute; reflexivity).
  apply negb_true_iff. exact (check1 _ G c).
Qed.
Lemma small_letter c : (Nat.leb 65 (nat_of_ascii (lower_char c)) && Nat.leb (nat_of_ascii (lower_char c)) 90) = false.
Proof.
  assert (G : forallb (fun c => negb (Nat.leb 65 (nat_of_ascii (lower_char c)) && Nat.leb (nat_of_ascii (lower_char c)) 90)) all_codes = true)
    by (vm_compute; reflexivity).
  apply negb_true_iff. exact (check1 _ G c).
Qed.
Lemma not_within a b x : Nat.leb a x && Nat.leb x b = false -> ~ (a <= x <= b)%nat.
Proof. intros H [A B]. apply Nat.leb_le in A, B. rewrite A, B in H. discriminate. Qed.
Lemma capitalize_capitals s : forall p, capitals p (capitalize (byte_eqb p "-") s).
Proof.
  induction s as [|c s IH]; intros p; cbn [capitalize]; [constructor|].
  assert (byte_eqb c "-" = byte_eqb (if byte_eqb p "-" then upper_char c else lower_char c) "-") as E.
  { apply same_minus. destruct byte_eqb; [apply upper_same|apply lower_same]. }
  constructor.
  - intros ->. apply not_within, capital_letter.
  - intros N. destruct (byte_eqb p "-") eqn:P; [apply Ascii.eqb_eq in P; contradiction|]. apply not_within, small_letter.
  - rewrite E. apply IH.
Qed.
Lemma canonical_sent s : sent_name s (canonical_key s).
Proof.
  unfold canonical_key. destruct (forallb token_char s) eqn:T.
  - left. split; [apply tokens_spec, T|]. split; [apply capitalize_same|]. apply (capitalize_capitals s "-").
  - right. split; [|reflexivity]. intros H. apply tokens_spec in H. congruence.
Qed.

(* ---- maps of headers ---- *)

Lemma append_values h k v k' : header_values (header_append h k v) k' = header_values h k' ++ (if bytes_eqb k k' then [v] else []).
Proof.
  induction h as [|[a vs] h IH]; cbn [header_append header_values].
  - destruct bytes_eqb; reflexivity.
  - destruct (bytes_eqb a k) eqn:E; cbn [header_values].
    + apply beq_true in E. subst a. destruct (bytes_eqb k k') eqn:F; [reflexivity|rewrite app_nil_r; reflexivity].
    + destruct (bytes_eqb a k') eqn:F; [|exact IH].
      apply beq_true in F. subst a. rewrite (proj2 (beq_false k k')); [rewrite app_nil_r; reflexivity|].
      apply beq_false in E. congruence.
Qed.
Lemma append_keys h k v x : In x (map fst (header_append h k v)) <-> In x (map fst h) \/ x = k.
Proof.
  induction h as [|[a vs] h IH]; cbn [header_append map fst].
  - cbn. intuition.
  - destruct (bytes_eqb a k) eqn:E; cbn [map fst In].
    + apply beq_true in E. subst a. intuition.
    + rewrite IH. tauto.
Qed.
Lemma append_once h k v : NoDup (map fst h) -> NoDup (map fst (header_append h k v)).
Proof.
  induction h as [|[a vs] h IH]; cbn [header_append map fst]; intros H.
  - constructor; [intros []|constructor].
  - inversion H as [|? ? N D]; subst. destruct (bytes_eqb a k) eqn:E; cbn [map fst]; constructor; auto.
    rewrite append_keys. intros [K|K]; [tauto|]. apply beq_false in E. congruence.
Qed.
Lemma append_filled h k v : Forall (fun p => snd p <> []) h -> Forall (fun p => snd p <> []) (header_append h k v).
Proof.
  induction 1 as [|[a vs] h P H IH]; cbn [header_append].
  - constructor; [discriminate|constructor].
  - destruct bytes_eqb; constructor; auto; cbn in *. intros E. apply app_eq_nil in E as [_ E]. discriminate.
Qed.
Lemma values_hold h k : NoDup (map fst h) -> header_holds h k (header_values h k).
Proof.
  intros N. split; [exact N|]. induction h as [|[a vs] h IH]; [left; split; [reflexivity|intros []]|].
  inversion N as [|? ? X D]; subst. cbn [header_values map fst]. destruct (bytes_eqb a k) eqn:E.
  - apply beq_true in E. subst a. right. left. reflexivity.
  - apply beq_false in E. destruct (IH D) as [[A B]|A]; [left; split; [exact A|intros [K|K]; congruence || tauto]|right; right; exact A].
Qed.

Lemma add_once h k v : NoDup (map fst h) -> NoDup (map fst (header_add h k v)).
Proof. apply append_once. Qed.
Lemma fold_once l h : NoDup (map fst h) -> NoDup (map fst (fold_left (fun h p => header_add h (fst p) (snd p)) l h)).
Proof. revert h. induction l as [|p l IH]; intros h H; [exact H|]. cbn [fold_left]. apply IH, add_once, H. Qed.
Lemma fold_values l h c : forallb token_char c = true -> capitalize true c = c ->
  exists vs, given_values c l vs
    /\ header_values (fold_left (fun h (p : bytes * bytes) => header_add h (fst p) (snd p)) l h) c = header_values h c ++ vs.
Proof.
  intros T C. revert h. induction l as [|[k v] l IH]; intros h; [exists []; split; [constructor|rewrite app_nil_r; reflexivity]|].
  cbn [fold_left fst snd]. destruct (IH (header_add h k v)) as [vs [G E]]. rewrite E. unfold header_add. rewrite append_values.
  destruct (bytes_eqb (canonical_key k) c) eqn:F.
  - exists (v :: vs). split; [|rewrite <- app_assoc; reflexivity].
    apply given_this; [apply (canonical_iff k c T C), beq_true, F|exact G].
  - exists vs. split; [|rewrite app_nil_r; reflexivity].
    apply given_other; [rewrite <- (canonical_iff k c T C); apply beq_false, F|exact G].
Qed.

(* ---- the headers of a request ---- *)

Section Request.
Variables (esc : bytes -> bytes) (cfg : client_config) (boundary accept : bytes) (w : wire).

Lemma if_set_keys k v x : In x (map fst (if_set k v)) -> x = lit k.
Proof. destruct v; cbn; [tauto|intuition]. Qed.
Lemma params_once : NoDup (map fst (header_params esc boundary accept w)).
Proof.
  unfold header_params, if_set. destruct (wrType w), accept, (wrForm w) as [[form files]|]; cbn [app map fst];
    repeat constructor; cbn [In]; intuition; discriminate.
Qed.
Lemma headers_once : NoDup (map fst (request_headers esc cfg boundary accept w)).
Proof. apply fold_once, add_once, params_once. Qed.

Lemma params_type : header_values (header_params esc boundary accept w) (lit "Content-Type") = some_text (wrType w).
Proof. unfold header_params, if_set. destruct (wrType w), accept, (wrForm w) as [[form files]|]; reflexivity. Qed.
Lemma params_accept : header_values (header_params esc boundary accept w) (lit "Accept") = some_text accept.
Proof. unfold header_params, if_set. destruct (wrType w), accept, (wrForm w) as [[form files]|]; reflexivity. Qed.
Lemma params_agent : header_values (header_params esc boundary accept w) (lit "User-Agent") = [].
Proof. unfold header_params, if_set. destruct (wrType w), accept, (wrForm w) as [[form files]|]; reflexivity. Qed.
Lemma params_length : header_values (header_params esc boundary accept w) (lit "Content-Length")
  = match wrForm w with Some (form, files) => [itoa (Z.of_nat (length (form_text esc boundary form files)))] | None => [] end.
Proof. unfold header_params, if_set. destruct (wrType w), accept, (wrForm w) as [[form files]|]; reflexivity. Qed.

Lemma header_is k own : forallb token_char (lit k) = true -> capitalize true (lit k) = lit k ->
  header_values (header_params esc boundary accept w) (lit k) ++ (if bytes_eqb (lit "User-Agent") (lit k) then [cgAgent cfg] else []) = own ->
  header_and_given (request_headers esc cfg boundary accept w) cfg k own.
Proof.
  intros T C E. destruct (fold_values (cgDefault cfg)
    (header_add (header_params esc boundary accept w) (lit "User-Agent") (cgAgent cfg)) (lit k) T C) as [vs [G F]].
  exists vs. split; [exact G|]. pose proof (values_hold (request_headers esc cfg boundary accept w) (lit k) headers_once) as H.
  unfold request_headers in H at 2. rewrite F in H. unfold header_add in H. rewrite append_values in H.
  change (canonical_key (lit "User-Agent")) with (lit "User-Agent") in H. rewrite E in H. exact H.
Qed.

Lemma type_header : header_and_given (request_headers esc cfg boundary accept w) cfg "Content-Type" (some_text (wrType w)).
Proof. apply header_is; [reflexivity|reflexivity|]. rewrite params_type. apply app_nil_r. Qed.
Lemma accept_header : header_and_given (request_headers esc cfg boundary accept w) cfg "Accept" (some_text accept).
Proof. apply header_is; [reflexivity|reflexivity|]. rewrite params_accept. apply app_nil_r. Qed.
Lemma agent_header : header_and_given (request_headers esc cfg boundary accept w) cfg "User-Agent" [cgAgent cfg].
Proof. apply header_is; [reflexivity|reflexivity|]. rewrite params_agent. reflexivity. Qed.

Lemma decimal_of_acc t a : fold_left (fun a c => a * 10 + Z.of_nat (nat_of_ascii c - 48)) t a = dval_acc a t \/ ~ Forall (fun c => 48 <= nat_of_ascii c)%nat t.
Proof.
  revert a. induction t as [|c t IH]; intros a; [left; reflexivity|].
  destruct (le_dec 48 (nat_of_ascii c)) as [L|L]; [|right; intros F; inversion F; tauto].
  cbn [fold_left dval_acc]. destruct (IH (a * 10 + Z.of_nat (nat_of_ascii c - 48))) as [E|E]; [left|right; intros F; inversion F; tauto].
  rewrite E. f_equal. unfold digit_val, bval. unfold nat_of_ascii in L |- *. lia.
Qed.
Lemma itoa_decimal n : decimal n (itoa (Z.of_nat n)).
Proof.
  unfold itoa. destruct (Z.ltb_spec (Z.of_nat n) 0) as [L|_]; [lia|].
  assert (D : Forall (fun c => 48 <= nat_of_ascii c <= 57)%nat (utoa (Z.of_nat n))).
  { apply Forall_forall. intros c I. pose proof (proj1 (forallb_forall _ _) (utoa_digits (Z.of_nat n) ltac:(lia)) c I) as H.
    unfold is_digit, bval in H. apply andb_prop in H as [H1 H2]. apply Z.leb_le in H1, H2. unfold nat_of_ascii. lia. }
  split; [|split; [exact D|]].
  - intros E. pose proof (utoa_nonempty (Z.of_nat n)) as H. rewrite E in H. cbn in H. lia.
  - destruct (decimal_of_acc (utoa (Z.of_nat n)) 0) as [E|E].
    + rewrite E. apply dval_utoa. lia.
    + exfalso. apply E. eapply Forall_impl; [|exact D]. cbn. lia.
Qed.

(* the length told is that of the body without the line that ends it *)
Lemma length_header : exists own, header_and_given (request_headers esc cfg boundary accept w) cfg "Content-Length" own
  /\ match wrForm w with
     | None => own = []
     | Some _ => exists t n, own = [t] /\ decimal n t /\ (n + length boundary + 8 = length (body_text esc boundary w))%nat
     end.
Proof.
  eexists. split; [apply header_is; [reflexivity|reflexivity|reflexivity]|]. rewrite params_length. unfold body_text.
  destruct (wrForm w) as [[form files]|]; [|reflexivity]. rewrite app_nil_r.
  exists (itoa (Z.of_nat (length (form_text esc boundary form files)))), (length (form_text esc boundary form files)).
  split; [reflexivity|split; [apply itoa_decimal|]]. unfold form_end. rewrite !app_length. cbn. lia.
Qed.
End Request.

(* what has no default header of its name has its own value only *)
Lemma given_nothing cfg k vs : not_given cfg k -> given_values (list_ascii_of_string k) (cgDefault cfg) vs -> vs = [].
Proof.
  unfold not_given. intros N G. induction G as [|k' v l vs S G IH|k' v l vs S G IH]; [reflexivity| |].
  - exfalso. exact (N k' v (or_introl eq_refl) S).
  - apply IH. intros a b I. apply (N a b). right. exact I.
Qed.
Lemma own_only h cfg k own : not_given cfg k -> header_and_given h cfg k own -> header_holds h (list_ascii_of_string k) own.
Proof. intros N [vs [G H]]. rewrite (given_nothing _ _ _ N G), app_nil_r in H. exact H. Qed.

(* every default header is sent *)
Lemma fold_keeps l h k v : In v (header_values h k) ->
  In v (header_values (fold_left (fun h (p : bytes * bytes) => header_add h (fst p) (snd p)) l h) k).
Proof.
  revert h. induction l as [|p l IH]; intros h H; [exact H|]. cbn [fold_left]. apply IH. unfold header_add. rewrite append_values.
  apply in_or_app. left. exact H.
Qed.
Lemma default_values_sent l h k v : In (k, v) l ->
  In v (header_values (fold_left (fun h (p : bytes * bytes) => header_add h (fst p) (snd p)) l h) (canonical_key k)).
Proof.
  revert h. induction l as [|p l IH]; intros h [].
  - subst p. cbn [fold_left fst snd]. apply fold_keeps. unfold header_add. rewrite append_values, (proj2 (beq_true _ _) eq_refl).
    apply in_or_app. right. left. reflexivity.
  - cbn [fold_left]. apply IH, H.
Qed.
Lemma values_in h k v : In v (header_values h k) -> exists vs, In (k, vs) h /\ In v vs.
Proof.
  induction h as [|[a vs] h IH]; [intros []|]. cbn [header_values]. destruct (bytes_eqb a k) eqn:E.
  - apply beq_true in E. subst a. intros H. exists vs. split; [left; reflexivity|exact H].
  - intros H. destruct (IH H) as [vs' [I J]]. exists vs'. split; [right; exact I|exact J].
Qed.
Lemma defaults_sent esc cfg boundary accept w k v : In (k, v) (cgDefault cfg) ->
  exists k' vs, sent_name k k' /\ In (k', vs) (request_headers esc cfg boundary accept w) /\ In v vs.
Proof.
  intros I. destruct (values_in (request_headers esc cfg boundary accept w) (canonical_key k) v) as [vs [A B]].
  - apply default_values_sent, I.
  - exists (canonical_key k), vs. split; [apply canonical_sent|split; assumption].
Qed.

(* and nothing else *)
Lemma append_in h k v k' vs x : In (k', vs) (header_append h k v) -> In x vs ->
  (k' = k /\ x = v) \/ exists vs', In (k', vs') h /\ In x vs'.
Proof.
  induction h as [|[a ws] h IH]; cbn [header_append].
  - intros [E|[]] I. injection E as <- <-. destruct I as [I|[]]. left. auto.
  - destruct (bytes_eqb a k) eqn:E.
    + apply beq_true in E. subst a. intros [F|F] I.
      * injection F as <- <-. apply in_app_or in I as [I|[I|[]]]; [right; exists ws; split; [left; reflexivity|exact I]|left; auto].
      * right. exists vs. split; [right; exact F|exact I].
    + intros [F|F] I.
      * right. exists vs. split; [left; exact F|exact I].
      * destruct (IH F I) as [J|[vs' [A B]]]; [left; exact J|right; exists vs'; split; [right; exact A|exact B]].
Qed.
Lemma fold_in l h k vs x : In (k, vs) (fold_left (fun h (p : bytes * bytes) => header_add h (fst p) (snd p)) l h) -> In x vs ->
  (exists k', In (k', x) l /\ same_name k' k) \/ exists vs', In (k, vs') h /\ In x vs'.
Proof.
  revert h vs. induction l as [|[a v] l IH]; intros h vs H I; [right; exists vs; split; assumption|]. cbn [fold_left fst snd] in H.
  destruct (IH _ _ H I) as [[k' [A B]]|[vs' [A B]]]; [left; exists k'; split; [right; exact A|exact B]|].
  destruct (append_in _ _ _ _ _ _ A B) as [[-> ->]|J]; [left; exists a; split; [left; reflexivity|apply canonical_same]|right; exact J].
Qed.
Lemma headers_only esc cfg boundary accept w k vs v : In (k, vs) (request_headers esc cfg boundary accept w) -> In v vs ->
  (exists k', In (k', v) (cgDefault cfg) /\ same_name k' k)
  \/ In k (map list_ascii_of_string ["Content-Type"; "Accept"; "User-Agent"; "Content-Length"]).
Proof.
  intros H I. destruct (fold_in _ _ _ _ _ H I) as [J|[vs' [A B]]]; [left; exact J|right].
  destruct (append_in _ _ _ _ _ _ A B) as [[-> _]|[ws [C _]]]; [right; right; left; reflexivity|].
  apply (in_map fst) in C. cbn [fst] in C. unfold header_params, if_set in C.
  destruct (wrType w), accept, (wrForm w) as [[form files]|]; cbn in C |- *; intuition.
Qed.

(* a default header beside one of its name *)
Lemma type_twice : exists cfg boundary c t1 t2, t1 <> t2
  /\ In (list_ascii_of_string "Content-Type", [t1; t2]) (request_headers (fun s => s) cfg boundary convert_accept (convert_request boundary c)).
Proof.
  exists (add_default_header new_client_config (lit "content-type") (lit "text/plain")), (lit "x"),
    (mkConvertCall None None None None None None), (lit "application/json"), (lit "text/plain").
  split; [discriminate|]. left. reflexivity.
Qed.

(* the length told is not that of the body *)
Lemma length_wrong : exists boundary c t n, let w := convert_request boundary c in
  In (list_ascii_of_string "Content-Length", [t]) (request_headers (fun s => s) new_client_config boundary convert_accept w)
  /\ decimal n t /\ n <> length (body_text (fun s => s) boundary w).
Proof.
  exists (lit "x"), (mkConvertCall None None None None None (Some (mkUpload (lit "a") (lit "b")))), (lit "107"), 107%nat. cbv zeta.
  split; [right; right; left; vm_compute; reflexivity|]. split.
  - split; [discriminate|split; [repeat constructor|reflexivity]].
  - vm_compute. discriminate.
Qed.

Lemma goes_to cfg u : let t := request_target cfg u in
  tgPath t = tgPath u
  /\ (cgHost cfg = [] -> tgHost t = tgHost u) /\ (cgHost cfg <> [] -> tgHost t = cgHost cfg)
  /\ (cgScheme cfg = [] -> tgScheme t = tgScheme u) /\ (cgScheme cfg <> [] -> tgScheme t = cgScheme cfg).
Proof.
  unfold request_target. cbn. repeat split; intros H.
  - rewrite H. reflexivity.
  - destruct (cgHost cfg); [congruence|reflexivity].
  - rewrite H. reflexivity.
  - destruct (cgScheme cfg); [congruence|reflexivity].
Qed.

Lemma defaults_set cfg k v :
  (forall v', In (k, v') (cgDefault (add_default_header cfg k v)) <-> v' = v)
  /\ (forall k' v', k' <> k -> (In (k', v') (cgDefault (add_default_header cfg k v)) <-> In (k', v') (cgDefault cfg)))
  /\ cgAgent (add_default_header cfg k v) = cgAgent cfg.
Proof.
  cbn. split; [|split; [|reflexivity]].
  - intros v'. rewrite in_app_iff, filter_In. cbn [fst]. rewrite (proj2 (beq_true k k) eq_refl). cbn. intuition congruence.
  - intros k' v' N. rewrite in_app_iff, filter_In. cbn [fst]. rewrite (proj2 (beq_false k' k) N). cbn. intuition congruence.
Qed.

Lemma accepts : convert_accept = list_ascii_of_string "application/octet-stream,text/plain"
  /\ print_accept = list_ascii_of_string "application/json"
  /\ validator_accept = list_ascii_of_string "text/plain" /\ health_accept = list_ascii_of_string "text/plain".
Proof. repeat split. Qed.
