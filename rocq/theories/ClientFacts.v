(* The client: query strings, hand-over, outcomes *)
From Coq Require Import ZArith NArith Bool Ascii String List Lia.
Import ListNotations.
From Verif Require Import GoBase GoBaseFacts GoTime Tables Codec Records File Reader Json JsonFile Server Client
  SpecCodec SpecLayouts SpecRecords SpecFile SpecFiles SpecReader SpecApi SpecJson SpecServer SpecClient
  ServerFacts ServerProps.
From Coq Require Import List.
Local Open Scope string_scope.
Local Open Scope Z_scope.
Local Open Scope list_scope.
Local Notation length := List.length.

(* ---- query strings ---- *)

Definition esc (c : byte) : bytes := query_escape [c].

Lemma escape_cons c s : query_escape (c :: s) = esc c ++ query_escape s.
Proof. unfold esc, query_escape. cbn [flat_map]. now rewrite app_nil_r. Qed.

Definition every_code : list ascii := map (fun n => ascii_of_nat n) (seq 0 256).
Lemma every_code_in c : In c every_code.
Proof.
  unfold every_code. rewrite <- (ascii_nat_embedding c). apply (in_map (fun n => ascii_of_nat n)), in_seq.
  pose proof (nat_ascii_bounded c). lia.
Qed.
Definition in_text (c : ascii) (s : string) : bool := existsb (Ascii.eqb c) (list_ascii_of_string s).
Lemma in_text_spec c s : in_text c s = true <-> In c (list_ascii_of_string s).
Proof.
  unfold in_text. rewrite existsb_exists. split.
  - intros (x & I & E). apply Ascii.eqb_eq in E. subst x. exact I.
  - intros I. exists c. split; [exact I|apply Ascii.eqb_refl].
Qed.
Definition escapedb (c : ascii) (t : bytes) : bool :=
  let n := nat_of_ascii c in
  let hex := list_ascii_of_string "0123456789ABCDEF" in
  if in_text c "-._~0123456789ABCDEFGHIJKLMNOPQRSTUVWXYZabcdefghijklmnopqrstuvwxyz" then bytes_eqb t [c]
  else if Ascii.eqb c " " then bytes_eqb t ["+"%char]
  else negb (in_text c " -._~0123456789ABCDEFGHIJKLMNOPQRSTUVWXYZabcdefghijklmnopqrstuvwxyz")
    && match nth_error hex (Nat.div n 16), nth_error hex (Nat.modulo n 16) with
       | Some a, Some b => bytes_eqb t ["%"%char; a; b] && Nat.eqb n (Nat.div n 16 * 16 + Nat.modulo n 16)
       | _, _ => false
       end.
Lemma escapedb_ok c t : escapedb c t = true -> escaped_char c t.
Proof.
  unfold escapedb. cbv zeta. destruct (in_text c "-._~0123456789ABCDEFGHIJKLMNOPQRSTUVWXYZabcdefghijklmnopqrstuvwxyz") eqn:U.
  { intros E. apply bytes_eqb_eq in E as ->. constructor. apply in_text_spec, U. }
  destruct (Ascii.eqb c " ") eqn:Sp.
  { intros E. apply bytes_eqb_eq in E as ->. apply Ascii.eqb_eq in Sp as ->. constructor. }
  intros H. apply andb_prop in H as [N H]. apply negb_true_iff in N.
  destruct (nth_error _ (Nat.div _ _)) as [a|] eqn:A; [|discriminate]. destruct (nth_error _ (Nat.modulo _ _)) as [b|] eqn:B; [|discriminate].
  apply andb_prop in H as [E D]. apply bytes_eqb_eq in E as ->. apply Nat.eqb_eq in D.
  apply (escaped_hex c a b _ _) with (2 := A) (3 := B); [|exact D]. intros I. apply in_text_spec in I. congruence.
Qed.
Lemma esc_spec c : escaped_char c (esc c).
Proof.
  apply escapedb_ok.
  assert (G : forallb (fun c => escapedb c (esc c)) every_code = true) by (vm_compute; reflexivity).
  exact (proj1 (forallb_forall _ _) G c (every_code_in c)).
Qed.
Lemma escape_spec s : escaped s (query_escape s).
Proof.
  induction s as [|c s (ts & F & E)]; [exists []; split; [constructor|reflexivity]|].
  exists (esc c :: ts). rewrite escape_cons, E. split; [|reflexivity]. constructor; [apply esc_spec|exact F].
Qed.

(* the escaped form of a character of a key *)
Definition kesc (c : byte) : bytes :=
  if byte_eqb c "[" then ["["%char] else if byte_eqb c "]" then ["]"%char] else esc c.

Lemma esc_unescape c s t : query_unescape s = Some t -> query_unescape (esc c ++ s) = Some (c :: t).
Proof. intros H. destruct c as [[] [] [] [] [] [] [] []]; cbn; rewrite H; reflexivity. Qed.

Lemma kesc_unescape c s t : query_unescape s = Some t -> query_unescape (kesc c ++ s) = Some (c :: t).
Proof. intros H. destruct c as [[] [] [] [] [] [] [] []]; cbn; rewrite H; reflexivity. Qed.

Lemma unescape_escape s : query_unescape (query_escape s) = Some s.
Proof. induction s as [|c s IH]; [reflexivity|]. rewrite escape_cons. now apply esc_unescape. Qed.

Lemma descape_plain c s : byte_eqb c "%" = false -> descape (c :: s) = c :: descape s.
Proof.
  intros H. cbn [descape]. destruct s as [|b [|d s]]; try reflexivity.
  assert (E : forall x y, bytes_eqb [c; b; d] ["%"%char; x; y] = false) by (intros; cbn; now rewrite H).
  unfold lit. cbn [list_ascii_of_string]. now rewrite !E.
Qed.

Lemma descape_three x y s : byte_eqb x "%" = false -> byte_eqb y "%" = false ->
  descape (["%"%char; x; y] ++ s) =
  (if bytes_eqb [x; y] (lit "5B") then ["["%char] else if bytes_eqb [x; y] (lit "5D") then ["]"%char] else ["%"%char; x; y]) ++ descape s.
Proof.
  intros X Y. cbn [app]. cbn [descape].
  change (bytes_eqb ["%"%char; x; y] (lit "%5B")) with (bytes_eqb [x; y] (lit "5B")).
  change (bytes_eqb ["%"%char; x; y] (lit "%5D")) with (bytes_eqb [x; y] (lit "5D")).
  destruct (bytes_eqb [x; y] (lit "5B")); [reflexivity|].
  destruct (bytes_eqb [x; y] (lit "5D")); [reflexivity|].
  change ("%"%char :: descape (x :: y :: s) = ["%"%char; x; y] ++ descape s).
  rewrite (descape_plain x) by exact X. rewrite (descape_plain y) by exact Y. reflexivity.
Qed.

Lemma descape_esc c s : descape (esc c ++ s) = kesc c ++ descape s.
Proof.
  assert (H : (exists d, esc c = [d] /\ byte_eqb d "%" = false /\ kesc c = [d])
    \/ exists x y, esc c = ["%"%char; x; y] /\ byte_eqb x "%" = false /\ byte_eqb y "%" = false
       /\ kesc c = (if bytes_eqb [x; y] (lit "5B") then ["["%char] else if bytes_eqb [x; y] (lit "5D") then ["]"%char] else ["%"%char; x; y])).
  { destruct c as [[] [] [] [] [] [] [] []];
      (left; eexists; split; [reflexivity|split; reflexivity])
      || (right; do 2 eexists; split; [reflexivity|split; [reflexivity|split; reflexivity]]). }
  destruct H as [(d & E & N & K)|(x & y & E & X & Y & K)]; rewrite E, K.
  - cbn [app]. now apply descape_plain.
  - now apply descape_three.
Qed.

Lemma key_unescape s : query_unescape (descape (query_escape s)) = Some s.
Proof. induction s as [|c s IH]; [reflexivity|]. rewrite escape_cons, descape_esc. now apply kesc_unescape. Qed.

(* none of the characters that divide a query *)
Definition undivided (c : byte) : bool := negb (byte_eqb c "&" || byte_eqb c "=" || byte_eqb c ";").

Lemma escape_undivided s : forallb undivided (query_escape s) = true.
Proof.
  induction s as [|c s IH]; [reflexivity|]. rewrite escape_cons, forallb_app, IH, andb_true_r.
  destruct c as [[] [] [] [] [] [] [] []]; reflexivity.
Qed.
Lemma key_undivided s : forallb undivided (descape (query_escape s)) = true.
Proof.
  induction s as [|c s IH]; [reflexivity|]. rewrite escape_cons, descape_esc, forallb_app, IH, andb_true_r.
  destruct c as [[] [] [] [] [] [] [] []]; reflexivity.
Qed.

Lemma undivided_spec c : undivided c = true -> byte_eqb c "&" = false /\ byte_eqb c "=" = false /\ byte_eqb c ";" = false.
Proof.
  unfold undivided. intros H. apply negb_true_iff in H. apply orb_false_iff in H. destruct H as [H C].
  apply orb_false_iff in H. tauto.
Qed.

Lemma cut_at_equals k v : forallb undivided k = true -> cut_at "=" (k ++ "="%char :: v) = (k, Some v).
Proof.
  induction k as [|c k IH]; cbn [forallb app cut_at]; intros H; [reflexivity|].
  apply andb_true_iff in H. destruct H as [C K]. destruct (undivided_spec _ C) as (_ & E & _).
  rewrite E, (IH K). reflexivity.
Qed.

Definition no_amp (c : byte) : bool := negb (byte_eqb c "&").

Lemma split_end s : forallb no_amp s = true -> split_at "&" s = [s].
Proof.
  induction s as [|c s IH]; cbn [forallb split_at]; intros H; [reflexivity|].
  apply andb_true_iff in H. destruct H as [C S]. apply negb_true_iff in C. now rewrite C, (IH S).
Qed.
Lemma split_more s r : forallb no_amp s = true -> split_at "&" (s ++ "&"%char :: r) = s :: split_at "&" r.
Proof.
  induction s as [|c s IH]; cbn [forallb split_at app]; intros H; [reflexivity|].
  apply andb_true_iff in H. destruct H as [C S]. apply negb_true_iff in C. now rewrite C, (IH S).
Qed.

Lemma forallb_imp {A} (P Q : A -> bool) l : (forall x, P x = true -> Q x = true) -> forallb P l = true -> forallb Q l = true.
Proof. intros H. induction l as [|x l IH]; cbn; [reflexivity|]. rewrite !andb_true_iff. intuition. Qed.

Lemma pair_no_amp p : forallb no_amp (encode_pair p) = true.
Proof.
  unfold encode_pair. rewrite forallb_app. cbn [forallb].
  assert (H : forall c, undivided c = true -> no_amp c = true).
  { intros c H. destruct (undivided_spec _ H) as (A & _ & _). unfold no_amp. now rewrite A. }
  now rewrite (forallb_imp _ _ _ H (key_undivided _)), (forallb_imp _ _ _ H (escape_undivided _)).
Qed.

Lemma no_semicolon s : forallb (fun c => undivided c || byte_eqb c "=") s = true -> existsb (fun c => byte_eqb c ";") s = false.
Proof.
  induction s as [|c s IH]; cbn [forallb existsb]; intros H; [reflexivity|].
  apply andb_true_iff in H. destruct H as [C S]. rewrite (IH S), orb_false_r.
  destruct (undivided c) eqn:U; [apply (undivided_spec _ U)|]. cbn in C. apply byte_eqb_eq in C. subst. reflexivity.
Qed.

Lemma parse_encoded p : parse_pair (encode_pair p) = [(lit (fst p), snd p)].
Proof.
  unfold parse_pair. destruct (encode_pair p) as [|c r] eqn:E.
  { unfold encode_pair in E. destruct (descape (query_escape (lit (fst p)))); discriminate. }
  rewrite <- E. clear c r E.
  rewrite no_semicolon.
  - unfold encode_pair. rewrite cut_at_equals by apply key_undivided. now rewrite key_unescape, unescape_escape.
  - unfold encode_pair. rewrite forallb_app. cbn [forallb].
    assert (H : forall c, undivided c = true -> undivided c || byte_eqb c "=" = true) by (intros c ->; reflexivity).
    now rewrite (forallb_imp _ _ _ H (key_undivided _)), (forallb_imp _ _ _ H (escape_undivided _)).
Qed.

(* every query arrives as it was given *)
Lemma query_arrives vs : parse_query (encode_query vs) = map (fun p => (lit (fst p), snd p)) vs.
Proof.
  unfold parse_query. induction vs as [|p vs IH]; [reflexivity|].
  destruct vs as [|q vs].
  - cbn [encode_query map]. rewrite split_end by apply pair_no_amp. cbn [flat_map].
    now rewrite parse_encoded, app_nil_r.
  - change (encode_query (p :: q :: vs)) with (encode_pair p ++ "&"%char :: encode_query (q :: vs)).
    rewrite split_more by apply pair_no_amp. cbn [flat_map]. rewrite IH, parse_encoded. reflexivity.
Qed.

(* ---- what arrives at the server ---- *)

Lemma first_value_found k v vs : first_value ((lit k, v) :: vs) k = v.
Proof. unfold first_value. cbn [find fst]. now rewrite bytes_eqb_refl. Qed.

Lemma form_multipart boundary : multipart (form_data_type boundary).
Proof. apply multipart_spec. unfold form_data_type. reflexivity. Qed.
Lemma form_not_json boundary : form_data_type boundary <> lit "application/json".
Proof. discriminate. Qed.
Lemma json_not_multipart : ~ multipart (lit "application/json").
Proof. intros H. apply multipart_spec in H. discriminate. Qed.

Section Facts.
Variables (rt : runtime) (evs : list read_event) (boundary : bytes).

(* the source the server reads from when a file is given *)
Definition part (u : upload) : option source :=
  match upBytes u, upName u with [], _ | _, [] => None | t, _ => Some (mkSource t evs) end.

Lemma hand_file path method ct q form u :
  let rq := hand_over evs (prepare_request boundary path method ct q form [("file", u)]) in
  rqType rq = form_data_type boundary /\ rqFile rq = part u
  /\ (forall k, rqForm rq k = first_value (map (fun p => (lit (fst p), snd p)) (q ++ form)) k).
Proof.
  cbv zeta. unfold prepare_request, part. rewrite orb_true_r.
  split; [reflexivity|]. split; [destruct u as [[|c n] [|d t]]; reflexivity|].
  intros k. unfold hand_over. cbn [rqForm wrQuery wrForm]. now rewrite query_arrives, map_app.
Qed.

Lemma part_reads rq u f : rqType rq = form_data_type boundary -> rqFile rq = part u ->
  (reads rt rq f <-> uploaded rt evs (Some u) f).
Proof.
  intros T F. pose proof (form_multipart boundary) as M. rewrite <- T in M.
  split.
  - intros (src & [s _ E|N] & R); [|contradiction]. rewrite F in E. unfold part in E.
    destruct u as [[|c n] [|d t]]; try discriminate. injection E as <-. exists (d :: t).
    split; [exists (c :: n); repeat split; discriminate|exact R].
  - intros (t & (n & [= ->] & N & Nt) & R). exists (mkSource t evs). split; [|exact R].
    apply sent_form; [exact M|]. rewrite F. unfold part. destruct n; [contradiction|]. destruct t; [contradiction|]. reflexivity.
Qed.

Lemma part_null rq u f g n : rqType rq = form_data_type boundary -> rqFile rq = part u ->
  asks_null rq f g n -> uploads_null (Some u) f g n.
Proof.
  intros T F. pose proof (form_multipart boundary) as M. rewrite <- T in M.
  intros (src & [s _ E|N] & R); [|contradiction]. rewrite F in E. unfold part in E.
  destruct u as [[|c m] [|d t]]; try discriminate. injection E as <-. exists (d :: t).
  split; [exists (c :: m); repeat split; discriminate|exact R].
Qed.

Lemma nothing_uploaded f : ~ uploaded rt evs None f.
Proof. intros (t & (n & E & _) & _). discriminate. Qed.

Lemma empty_body rq f : rqBody rq = mkSource [] evs -> ~ multipart (rqType rq) -> ~ reads rt rq f.
Proof. intros B M (src & [s H _|_] & R); [contradiction|]. rewrite B in R. discriminate. Qed.

Lemma no_part rq f : multipart (rqType rq) -> rqFile rq = None -> ~ reads rt rq f.
Proof. intros M N (src & [s _ E|H] & _); [congruence|contradiction]. Qed.

(* ---- the three operations ---- *)

Lemma convert_reads c f : reads rt (hand_over evs (convert_request boundary c)) f <-> uploaded rt evs (ccFile c) f.
Proof.
  unfold convert_request. destruct (ccFile c) as [u|]; cbn [form_file].
  - match goal with |- reads rt (hand_over evs (prepare_request _ ?p ?m ?ct ?q ?fo _)) f <-> _ =>
      destruct (hand_file p m ct q fo u) as (T & F & _) end.
    apply (part_reads _ _ _ T F).
  - split; [|intros H; destruct (nothing_uploaded _ H)]. intros H. exfalso. revert H.
    apply empty_body; [reflexivity|exact json_not_multipart].
Qed.

Lemma print_reads c f : reads rt (hand_over evs (print_request boundary c)) f <-> uploaded rt evs (pcFile c) f.
Proof.
  unfold print_request. destruct (pcFile c) as [u|]; cbn [form_file].
  - match goal with |- reads rt (hand_over evs (prepare_request _ ?p ?m ?ct ?q ?fo _)) f <-> _ =>
      destruct (hand_file p m ct q fo u) as (T & F & _) end.
    apply (part_reads _ _ _ T F).
  - split; [|intros H; destruct (nothing_uploaded _ H)]. intros H. exfalso. revert H.
    apply empty_body; [reflexivity|exact json_not_multipart].
Qed.

Lemma convert_null c u f g n : ccFile c = Some u ->
  asks_null (hand_over evs (convert_request boundary c)) f g n -> uploads_null (ccFile c) f g n.
Proof.
  intros E. unfold convert_request. rewrite E. cbn [form_file].
  match goal with |- asks_null (hand_over evs (prepare_request _ ?p ?m ?ct ?q ?fo _)) _ _ _ -> _ =>
    destruct (hand_file p m ct q fo u) as (T & F & _) end.
  apply (part_null _ _ _ _ _ T F).
Qed.

Lemma print_null c u f g n : pcFile c = Some u ->
  asks_null (hand_over evs (print_request boundary c)) f g n -> uploads_null (pcFile c) f g n.
Proof.
  intros E. unfold print_request. rewrite E. cbn [form_file].
  match goal with |- asks_null (hand_over evs (prepare_request _ ?p ?m ?ct ?q ?fo _)) _ _ _ -> _ =>
    destruct (hand_file p m ct q fo u) as (T & F & _) end.
  apply (part_null _ _ _ _ _ T F).
Qed.

Lemma validator_reads c f : reads rt (hand_over evs (validator_request boundary c)) f <-> uploaded rt evs (vcFile c) f.
Proof.
  unfold validator_request. destruct (vcFile c) as [u|]; cbn [form_file].
  - match goal with |- reads rt (hand_over evs (prepare_request _ ?p ?m ?ct ?q ?fo _)) f <-> _ =>
      destruct (hand_file p m ct q fo u) as (T & F & _) end.
    apply (part_reads _ _ _ T F).
  - split; [|intros H; destruct (nothing_uploaded _ H)]. intros H. exfalso. revert H.
    apply no_part; [apply multipart_spec; reflexivity|reflexivity].
Qed.

(* the values of the form once there is a file *)
Lemma convert_values c u : ccFile c = Some u ->
  let rq := hand_over evs (convert_request boundary c) in
  rqType rq = form_data_type boundary
  /\ rqForm rq "format" = (match ccFormat c with Some t => t | None => given (ccFormat2 c) end)
  /\ rqForm rq "type" = given (ccType c)
  /\ rqForm rq "generate" = (match ccGenerate c with Some b => format_bool b | None => [] end)
  /\ rqForm rq "newline" = (match ccNewline c with Some b => format_bool b | None => [] end).
Proof.
  intros E. unfold convert_request. rewrite E. cbn [form_file]. cbv zeta.
  match goal with |- context [hand_over evs (prepare_request _ ?p ?m ?ct ?q ?fo _)] =>
    destruct (hand_file p m ct q fo u) as (T & _ & V) end.
  split; [exact T|]. rewrite !V.
  destruct (ccFormat c), (ccFormat2 c), (ccType c), (ccGenerate c), (ccNewline c); repeat split.
Qed.

Lemma print_values c u : pcFile c = Some u ->
  let rq := hand_over evs (print_request boundary c) in
  rqType rq = form_data_type boundary
  /\ rqForm rq "format" = (match pcFormat c with Some t => t | None => given (pcFormat2 c) end)
  /\ rqForm rq "newline" = [].
Proof.
  intros E. unfold print_request. rewrite E. cbn [form_file]. cbv zeta.
  match goal with |- context [hand_over evs (prepare_request _ ?p ?m ?ct ?q ?fo _)] =>
    destruct (hand_file p m ct q fo u) as (T & _ & V) end.
  split; [exact T|]. rewrite !V. destruct (pcFormat c), (pcFormat2 c); repeat split.
Qed.

Lemma asked_one q fo t : asked_format q fo t <-> t = match q with Some x => x | None => given fo end.
Proof.
  split.
  - intros [x -> | ->]; reflexivity.
  - intros ->. destruct q; [now apply asked_query|now apply asked_form].
Qed.
Lemma asks_names q fo o : asks q fo o <-> names_form (match q with Some x => x | None => given fo end) o.
Proof.
  unfold asks. split.
  - intros (t & A & N). apply asked_one in A. now subst.
  - intros N. eexists. split; [apply asked_one; reflexivity|exact N].
Qed.
Lemma form_asks rq o : rqType rq = form_data_type boundary -> (asks_form rq o <-> names_form (rqForm rq "format") o).
Proof.
  intros T. split.
  - intros [o' E _|o' _ N]; [rewrite T in E; destruct (form_not_json _ E)|exact N].
  - intros N. apply asks_value; [rewrite T; apply form_not_json|exact N].
Qed.

Lemma bool_true b : says_word "true" (match b with Some b => format_bool b | None => [] end) <-> b = Some true.
Proof.
  etransitivity; [symmetry; apply (fold_spec (lit "true") eq_refl)|]. destruct b as [[]|]; split; try discriminate; reflexivity.
Qed.
Lemma bool_false b : says_word "false" (match b with Some b => format_bool b | None => [] end) <-> b = Some false.
Proof.
  etransitivity; [symmetry; apply (fold_spec (lit "false") eq_refl)|]. destruct b as [[]|]; split; try discriminate; reflexivity.
Qed.
End Facts.

(* ---- a written file is never empty ---- *)

Lemma flat_map_nonempty {A B} (f : A -> list B) l x : In x l -> f x <> [] -> flat_map f l <> [].
Proof.
  induction l as [|y l IH]; cbn; [tauto|]. intros [->|H] N E; apply app_eq_nil in E as [E1 E2]; [contradiction|].
  now apply IH.
Qed.

Lemma fmt_left_nonempty n s : (0 < n)%nat -> fmt_left n s <> [].
Proof.
  intros P E. unfold fmt_left in E. cbv zeta in E. apply app_eq_nil in E as [E1 E2]. rewrite E1 in E2.
  unfold pad_width in E2. cbn in E2. rewrite Nat.sub_0_r in E2. destruct n; [lia|discriminate].
Qed.

Lemma header_nonempty p h : has_type header_struct h -> header_string p h <> [].
Proof.
  intros T E. unfold header_string, pad_block in E. apply app_eq_nil in E as [E _]. revert E.
  unfold write_fields. apply (flat_map_nonempty _ _ ("RecordIdentifier", mkField 4 6 alphanumeric required)).
  - destruct p; vm_compute; tauto.
  - cbn [fst snd]. destruct (lookup "RecordIdentifier" h) as [v|] eqn:L; [|discriminate].
    change (fmt_left 6 (fmt_v v) <> []). apply fmt_left_nonempty. lia.
Qed.

Lemma text_nonempty f b : file_ok f -> file_text b f <> [].
Proof.
  intros ((h & Hh) & Ho & _) E. unfold file_text in E. apply app_eq_nil in E as [E _].
  rewrite Hh in E, Ho. exact (header_nonempty (flPacked f) h Ho E).
Qed.
Lemma convert_nonempty n o f b : file_ok f -> convert_text n tab o f b <> [].
Proof. intros O. destruct o; [discriminate|]. now apply text_nonempty. Qed.

(* ---- outcomes ---- *)

Section Outcomes.
Variables (cpus : Z) (rt : runtime) (evs : list read_event) (errText : error -> bytes) (boundary : bytes).

Lemma convert_outcome c r : client_convert cpus rt evs errText boundary c = Some r ->
  (exists f g o b, uploaded rt evs (ccFile c) f /\ asks (ccFormat c) (ccFormat2 c) o /\ breaks_asked (ccNewline c) b
     /\ converted (ccGenerate c = Some true) (given (ccType c)) f g
     /\ exists n, uploads_null (ccFile c) f g n /\ r = Returned (convert_text n tab o g b))
  \/ (refused 400 true r /\ ~ exists f, uploaded rt evs (ccFile c) f)
  \/ (refused 501 true r /\ exists f, uploaded rt evs (ccFile c) f /\
       ((~ exists o, asks (ccFormat c) (ccFormat2 c) o) \/ (ccGenerate c = Some true /\ flBases f = []))).
Proof.
  unfold client_convert, perform, respond.
  set (rq := hand_over evs (convert_request boundary c)).
  assert (D : dispatch cpus rt (wrMethod (convert_request boundary c)) (wrPath (convert_request boundary c)) rq = serve_convert cpus rt rq).
  { unfold convert_request, prepare_request. destruct (_ || _); reflexivity. }
  rewrite D. clear D. destruct (serve_convert cpus rt rq) as [rp|] eqn:E; [|discriminate]. intros [= <-].
  pose proof (fun f => convert_reads rt evs boundary c f) as R. fold rq in R.
  apply convert_cases in E as [[N [e ->]]|(f & Rf & C)].
  { right; left. split; [eexists; reflexivity|]. intros [f U]. apply (N f), R, U. }
  apply R in Rf. destruct (ccFile c) as [u|] eqn:Fc; [|destruct (nothing_uploaded _ _ _ Rf)].
  destruct (convert_values evs boundary c u Fc) as (T & Vf & Vt & Vg & Vn). fold rq in T, Vf, Vt, Vg, Vn.
  assert (A : forall o, asks_form rq o <-> asks (ccFormat c) (ccFormat2 c) o).
  { intros o. rewrite (form_asks _ _ _ T), asks_names, Vf. tauto. }
  assert (G : asks_trailer rq <-> ccGenerate c = Some true).
  { unfold asks_trailer. rewrite Vg. apply bool_true. }
  assert (B : breaks_asked (ccNewline c) (get_is_newline rq)).
  { pose proof (breaks_spec rq) as B. unfold asks_breaks in B. rewrite Vn in B. unfold breaks_asked. rewrite B. apply bool_false. }
  destruct C as [(Tr & Ba & e & ->)|[(_ & N & e & ->)|(o & g & Ba & Ao & Cv & O & n & Nu & ->)]].
  - right; right. split; [eexists; reflexivity|]. exists f. split; [exact Rf|]. right. tauto.
  - right; right. split; [eexists; reflexivity|]. exists f. split; [exact Rf|]. left. intros [o X]. apply (N o), A, X.
  - left. exists f, g, o, (get_is_newline rq). split; [exact Rf|]. split; [apply A; exact Ao|]. split; [exact B|].
    split.
    + rewrite Vt in Cv. destruct Cv as (f1 & X & Y & Z). exists f1. split; [intros H; apply X, G, H|].
      split; [intros H; apply Y; intros H'; apply H, G, H'|exact Z].
    + exists n. split; [rewrite <- Fc; apply (convert_null evs boundary c u f g n Fc); exact Nu|].
      unfold receive. cbn [body_bytes]. change (300 <=? 200) with false. cbv iota. unfold decode_os_file.
      pose proof (convert_nonempty n o g (get_is_newline rq) O) as X. destruct (convert_text _ _ _ _ _); [contradiction|reflexivity].
Qed.

Lemma print_outcome c r : client_print cpus rt evs errText boundary c = Some r ->
  (exists f o n, uploaded rt evs (pcFile c) f /\ asks (pcFormat c) (pcFormat2 c) o /\ uploads_null (pcFile c) f f n
     /\ r = Returned (print_text n o f true))
  \/ (refused 400 true r /\ ~ exists f, uploaded rt evs (pcFile c) f)
  \/ (refused 501 false r /\ (exists f, uploaded rt evs (pcFile c) f) /\ ~ exists o, asks (pcFormat c) (pcFormat2 c) o).
Proof.
  unfold client_print, perform, respond. set (rq := hand_over evs (print_request boundary c)).
  assert (D : dispatch cpus rt (wrMethod (print_request boundary c)) (wrPath (print_request boundary c)) rq = serve_print cpus rt rq).
  { unfold print_request, prepare_request. destruct (_ || _); reflexivity. }
  rewrite D. clear D. destruct (serve_print cpus rt rq) as [rp|] eqn:E; [|discriminate]. intros [= <-].
  pose proof (fun f => print_reads rt evs boundary c f) as R. fold rq in R.
  apply print_cases in E as [[N [e ->]]|(f & Rf & C)].
  { right; left. split; [eexists; reflexivity|]. intros [f U]. apply (N f), R, U. }
  apply R in Rf. destruct (pcFile c) as [u|] eqn:Fc; [|destruct (nothing_uploaded _ _ _ Rf)].
  destruct (print_values evs boundary c u Fc) as (T & Vf & Vn). fold rq in T, Vf, Vn.
  assert (A : forall o, asks_form rq o <-> asks (pcFormat c) (pcFormat2 c) o).
  { intros o. rewrite (form_asks _ _ _ T), asks_names, Vf. tauto. }
  assert (get_is_newline rq = true) as B by (unfold get_is_newline; rewrite Vn; reflexivity).
  destruct C as [(N & e & ->)|(n & o & Nu & Ao & ->)].
  - right; right. split; [eexists; reflexivity|]. split; [eauto|]. intros [o X]. apply (N o), A, X.
  - left. exists f, o, n. split; [exact Rf|]. split; [apply A; exact Ao|].
    split; [rewrite <- Fc; apply (print_null evs boundary c u f f n Fc); exact Nu|]. rewrite B. reflexivity.
Qed.

Lemma validator_outcome c r : client_validator cpus rt evs errText boundary c = Some r ->
  (exists f, uploaded rt evs (vcFile c) f /\ file_validate f = Ok tt /\ r = Returned (status_text "valid file"))
  \/ (refused 400 true r /\ ~ exists f, uploaded rt evs (vcFile c) f)
  \/ (refused 501 true r /\ exists f, uploaded rt evs (vcFile c) f /\ file_validate f <> Ok tt).
Proof.
  unfold client_validator, perform, respond. set (rq := hand_over evs (validator_request boundary c)).
  assert (D : dispatch cpus rt (wrMethod (validator_request boundary c)) (wrPath (validator_request boundary c)) rq = serve_validator rt rq).
  { unfold validator_request, prepare_request. destruct (_ || _); reflexivity. }
  rewrite D. clear D. destruct (serve_validator rt rq) as [rp|] eqn:E; [|discriminate]. intros [= <-].
  pose proof (fun f => validator_reads rt evs boundary c f) as R. fold rq in R.
  apply validator_cases in E as [[N [e ->]]|(f & Rf & C)].
  { right; left. split; [eexists; reflexivity|]. intros [f U]. apply (N f), R, U. }
  apply R in Rf. destruct C as [[V ->]|[V [e ->]]].
  - left. exists f. repeat split; [exact Rf|exact V].
  - right; right. split; [eexists; reflexivity|]. exists f. split; [exact Rf|exact V].
Qed.

Lemma health_outcome : client_health cpus rt evs errText boundary = Some (Returned (status_text "alive")).
Proof. reflexivity. Qed.

(* every call comes back as soon as the server gets the bytes *)
Lemma part_answers rq u k : rqType rq = form_data_type boundary -> rqFile rq = part evs u ->
  patient evs -> (forall t, uploads (Some u) t -> (length t < useful evs)%nat) -> exists rp, with_file rt rq k = Some rp.
Proof.
  intros T F P L. pose proof (form_multipart boundary) as M. rewrite <- T in M. apply answered.
  intros src [s _ E|N]; [|contradiction]. rewrite F in E. unfold part in E.
  destruct u as [[|c n] [|d t]]; try discriminate. injection E as <-. split; [exact P|].
  apply L. exists (c :: n). repeat split; discriminate.
Qed.
Lemma empty_answers rq k : rqBody rq = mkSource [] evs -> ~ multipart (rqType rq) -> exists rp, with_file rt rq k = Some rp.
Proof.
  intros B M. unfold with_file, parse_input. rewrite B.
  destruct (has_prefix _ _) eqn:E; [apply multipart_spec in E; contradiction|]. cbn. eauto.
Qed.
Lemma partless_answers rq k : rqFile rq = None -> multipart (rqType rq) -> exists rp, with_file rt rq k = Some rp.
Proof. intros F M. apply multipart_spec in M. unfold with_file, parse_input. rewrite M, F. eauto. Qed.

Lemma convert_answers c : patient evs -> (forall t, uploads (ccFile c) t -> (length t < useful evs)%nat) ->
  exists r, client_convert cpus rt evs errText boundary c = Some r.
Proof.
  intros P L. unfold client_convert, perform, respond. set (rq := hand_over evs (convert_request boundary c)).
  assert (D : dispatch cpus rt (wrMethod (convert_request boundary c)) (wrPath (convert_request boundary c)) rq = serve_convert cpus rt rq).
  { unfold convert_request, prepare_request. destruct (_ || _); reflexivity. }
  rewrite D. enough (exists rp, serve_convert cpus rt rq = Some rp) as [rp ->] by eauto. unfold serve_convert.
  unfold convert_request in rq. destruct (ccFile c) as [u|]; cbn [form_file] in rq.
  - match goal with rq := hand_over evs (prepare_request _ ?p ?m ?ct ?q ?fo _) |- _ =>
      destruct (hand_file evs boundary p m ct q fo u) as (T & F & _) end. apply (part_answers rq u); assumption.
  - apply empty_answers; [reflexivity|exact json_not_multipart].
Qed.

Lemma print_answers c : patient evs -> (forall t, uploads (pcFile c) t -> (length t < useful evs)%nat) ->
  exists r, client_print cpus rt evs errText boundary c = Some r.
Proof.
  intros P L. unfold client_print, perform, respond. set (rq := hand_over evs (print_request boundary c)).
  assert (D : dispatch cpus rt (wrMethod (print_request boundary c)) (wrPath (print_request boundary c)) rq = serve_print cpus rt rq).
  { unfold print_request, prepare_request. destruct (_ || _); reflexivity. }
  rewrite D. enough (exists rp, serve_print cpus rt rq = Some rp) as [rp ->] by eauto. unfold serve_print.
  unfold print_request in rq. destruct (pcFile c) as [u|]; cbn [form_file] in rq.
  - match goal with rq := hand_over evs (prepare_request _ ?p ?m ?ct ?q ?fo _) |- _ =>
      destruct (hand_file evs boundary p m ct q fo u) as (T & F & _) end. apply (part_answers rq u); assumption.
  - apply empty_answers; [reflexivity|exact json_not_multipart].
Qed.

Lemma validator_answers c : patient evs -> (forall t, uploads (vcFile c) t -> (length t < useful evs)%nat) ->
  exists r, client_validator cpus rt evs errText boundary c = Some r.
Proof.
  intros P L. unfold client_validator, perform, respond. set (rq := hand_over evs (validator_request boundary c)).
  assert (D : dispatch cpus rt (wrMethod (validator_request boundary c)) (wrPath (validator_request boundary c)) rq = serve_validator rt rq).
  { unfold validator_request, prepare_request. destruct (_ || _); reflexivity. }
  rewrite D. enough (exists rp, serve_validator rt rq = Some rp) as [rp ->] by eauto. unfold serve_validator.
  unfold validator_request in rq. destruct (vcFile c) as [u|]; cbn [form_file] in rq.
  - match goal with rq := hand_over evs (prepare_request _ ?p ?m ?ct ?q ?fo _) |- _ =>
      destruct (hand_file evs boundary p m ct q fo u) as (T & F & _) end. apply (part_answers rq u); assumption.
  - apply partless_answers; [reflexivity|apply multipart_spec; reflexivity].
Qed.
End Outcomes.

(* ---- what comes back can be uploaded again ---- *)

Lemma upload_again rt' evs' n t f : n <> [] -> t <> [] ->
  new_file_from_reader rt' evs' t = Some (Ok f) -> uploaded rt' evs' (Some (mkUpload n t)) f.
Proof. intros N T R. exists t. split; [exists n; auto|exact R]. Qed.

Lemma uploaded_one rt evs u f g : uploaded rt evs u f -> uploaded rt evs u g -> f = g.
Proof. intros (t & (n & -> & _) & E) (t' & (n' & [= _ <-] & _) & E'). congruence. Qed.

Lemma uploaded_ok rt evs u f : uploaded rt evs u f -> file_ok f.
Proof. intros (t & _ & E). apply new_file_sound in E as [_ E]. apply sound_file_ok, E. reflexivity. Qed.

Lemma converted_ok P n f g : file_ok f -> (P \/ ~ P) -> converted P n f g -> file_ok g.
Proof.
  intros O D (f1 & W & K & Rt).
  assert (file_ok f1) as O1.
  { destruct D as [H|H]; [|now rewrite (K H)]. destruct (W H) as (t & G & V & ->).
    destruct (trailer_any f O) as (t' & G' & T). rewrite G in G'. injection G' as ->.
    destruct O as (A & B & C & D & E). split; [exact A|]. split; [exact B|]. split; [exact C|]. split; [eexists; reflexivity|]. apply T. }
  destruct Rt as [p f1 f' S Pk O'|n' f1 _ _]; assumption.
Qed.

Lemma generate_decided (b : option bool) : b = Some true \/ ~ b = Some true.
Proof. destruct b as [[]|]; [left; reflexivity|right; discriminate|right; discriminate]. Qed.

Lemma converted_same P n f g g' : (P \/ ~ P) -> converted P n f g -> converted P n f g' -> g' = g.
Proof.
  intros D (f1 & W1 & N1 & Rt1) (f2 & W2 & N2 & Rt2).
  assert (f1 = f2) as <-; [|apply (retyped_unique n f1); assumption].
  destruct D as [H|H]; [|rewrite (N1 H), (N2 H); reflexivity].
  destruct (W1 H) as (t & G & _ & ->), (W2 H) as (t' & G' & _ & ->). congruence.
Qed.

Lemma asks_same q fo o o' : asks q fo o -> asks q fo o' -> o = o'.
Proof. rewrite !asks_names. apply names_unique. Qed.

Lemma breaks_same nl b b' : breaks_asked nl b -> breaks_asked nl b' -> b = b'.
Proof.
  unfold breaks_asked. intros H H'. destruct b, b'; try reflexivity.
  - apply H, H'. reflexivity.
  - symmetry. apply H', H. reflexivity.
Qed.

Section Delivered.
Variables (cpus : Z) (rt : runtime) (evs : list read_event) (errText : error -> bytes) (boundary : bytes).

(* a file that is read is answered *)
Lemma convert_some c f : uploaded rt evs (ccFile c) f -> exists r, client_convert cpus rt evs errText boundary c = Some r.
Proof.
  intros U. apply (convert_reads rt evs boundary c f) in U. unfold client_convert, perform, respond.
  set (rq := hand_over evs (convert_request boundary c)) in *.
  assert (D : dispatch cpus rt (wrMethod (convert_request boundary c)) (wrPath (convert_request boundary c)) rq = serve_convert cpus rt rq).
  { unfold convert_request, prepare_request. destruct (_ || _); reflexivity. }
  rewrite D. unfold serve_convert. rewrite (with_file_reads _ _ _ _ U). eauto.
Qed.
Lemma print_some c f : uploaded rt evs (pcFile c) f -> exists r, client_print cpus rt evs errText boundary c = Some r.
Proof.
  intros U. apply (print_reads rt evs boundary c f) in U. unfold client_print, perform, respond.
  set (rq := hand_over evs (print_request boundary c)) in *.
  assert (D : dispatch cpus rt (wrMethod (print_request boundary c)) (wrPath (print_request boundary c)) rq = serve_print cpus rt rq).
  { unfold print_request, prepare_request. destruct (_ || _); reflexivity. }
  rewrite D. unfold serve_print. rewrite (with_file_reads _ _ _ _ U). eauto.
Qed.

(* no trailer is generated for a file without data records *)
Lemma no_trailer_without_data f f1 : file_ok f -> flBases f = [] -> ~ with_trailer f f1.
Proof.
  intros O B (t & G & V & _).
  destruct (generate_into_spec f O) as [[_ [e Ge]]|(N & _)]; [|contradiction].
  unfold generate_into in Ge. rewrite G in Ge. unfold file_set_record in Ge. rewrite V in Ge.
  destruct (trailer_any f O) as (t' & G' & _). rewrite G in G'. injection G' as ->.
  destruct f as [[] ? ? ?]; discriminate.
Qed.

Lemma upload_null_one u f g n m : uploads_null u f g n -> uploads_null u f g m -> n = m.
Proof. intros (t & (x & -> & _) & E) (t' & (x' & [= _ <-] & _) & E'). exact (null_one _ _ _ _ _ E E'). Qed.

Lemma upload_null_some u f g : uploaded rt evs u f -> exists n, uploads_null u f g n.
Proof. intros (t & U & _). exists (read_nil t f || negb (Bool.eqb (flPacked f) (flPacked g))), t. split; [exact U|apply nil_null]. Qed.

Lemma convert_returned c f g o b n : uploaded rt evs (ccFile c) f -> asks (ccFormat c) (ccFormat2 c) o ->
  breaks_asked (ccNewline c) b -> converted (ccGenerate c = Some true) (given (ccType c)) f g -> uploads_null (ccFile c) f g n ->
  client_convert cpus rt evs errText boundary c = Some (Returned (convert_text n tab o g b)).
Proof.
  intros U A B C Nu. destruct (convert_some c f U) as [r E]. rewrite E. f_equal.
  apply convert_outcome in E as [(f' & g' & o' & b' & U' & A' & B' & C' & n' & Nu' & ->)|[(_ & N)|(_ & f' & U' & [N|[G N]])]].
  - rewrite (uploaded_one _ _ _ _ _ U' U) in C', Nu'. rewrite (asks_same _ _ _ _ A' A), (breaks_same _ _ _ B' B).
    rewrite (converted_same _ _ _ _ _ (generate_decided _) C C') in *. now rewrite (upload_null_one _ _ _ _ _ Nu' Nu).
  - destruct N. eauto.
  - destruct N. eauto.
  - rewrite (uploaded_one _ _ _ _ _ U' U) in N. destruct C as (f1 & W & _).
    destruct (no_trailer_without_data f f1 (uploaded_ok _ _ _ _ U) N (W G)).
Qed.

Lemma print_returned c f o n : uploaded rt evs (pcFile c) f -> asks (pcFormat c) (pcFormat2 c) o -> uploads_null (pcFile c) f f n ->
  client_print cpus rt evs errText boundary c = Some (Returned (print_text n o f true)).
Proof.
  intros U A Nu. destruct (print_some c f U) as [r E]. rewrite E. f_equal.
  apply print_outcome in E as [(f' & o' & n' & U' & A' & Nu' & ->)|[(_ & N)|(_ & _ & N)]]; [|destruct N; eauto|destruct N; eauto].
  rewrite (uploaded_one _ _ _ _ _ U' U) in *. now rewrite (asks_same _ _ _ _ A' A), (upload_null_one _ _ _ _ _ Nu' Nu).
Qed.

(* what convert returns can be uploaded again, and is the converted file *)
Lemma convert_uploads c f g o b t rt' evs' n : uploaded rt evs (ccFile c) f -> asks (ccFormat c) (ccFormat2 c) o ->
  breaks_asked (ccNewline c) b -> converted (ccGenerate c = Some true) (given (ccType c)) f g -> comes_back o g b ->
  client_convert cpus rt evs errText boundary c = Some (Returned t) ->
  orders rt' -> patient evs' -> (length t < useful evs')%nat -> n <> [] ->
  uploaded rt' evs' (Some (mkUpload n t)) g.
Proof.
  intros U A B C K E Or P L N. destruct (upload_null_some _ f g U) as [m Nu].
  rewrite (convert_returned c f g o b m U A B C Nu) in E. injection E as <-.
  apply upload_again; [exact N| |].
  - apply convert_nonempty. apply (converted_ok (ccGenerate c = Some true) (given (ccType c)) f); [apply (uploaded_ok _ _ _ _ U)|apply generate_decided|exact C].
  - apply (convert_text_back rt' m tab o g b (mkSource (convert_text m tab o g b) evs')); [apply tab_white|exact Or|exact K|].
    split; [reflexivity|]. split; [exact P|exact L].
Qed.
Lemma print_uploads c f o t rt' evs' n : uploaded rt evs (pcFile c) f -> asks (pcFormat c) (pcFormat2 c) o -> comes_back o f true ->
  client_print cpus rt evs errText boundary c = Some (Returned t) ->
  orders rt' -> patient evs' -> (length t < useful evs')%nat -> n <> [] ->
  uploaded rt' evs' (Some (mkUpload n t)) f.
Proof.
  intros U A K E Or P L N. destruct (upload_null_some _ f f U) as [m Nu].
  rewrite (print_returned c f o m U A Nu) in E. injection E as <-.
  apply upload_again; [exact N| |].
  - destruct o; [discriminate|]. apply text_nonempty. apply (uploaded_ok _ _ _ _ U).
  - apply (print_text_back rt' m o f true (mkSource (print_text m o f true) evs')); [exact Or|exact K|].
    split; [reflexivity|]. split; [exact P|exact L].
Qed.
End Delivered.

Lemma calls_answer cpus rt evs errText boundary cc pc vc : patient evs ->
  (forall t, uploads (ccFile cc) t \/ uploads (pcFile pc) t \/ uploads (vcFile vc) t -> (length t < useful evs)%nat) ->
  (exists r, client_convert cpus rt evs errText boundary cc = Some r)
  /\ (exists r, client_print cpus rt evs errText boundary pc = Some r)
  /\ (exists r, client_validator cpus rt evs errText boundary vc = Some r).
Proof.
  intros P L. split; [|split].
  - apply convert_answers; auto.
  - apply print_answers; auto.
  - apply validator_answers; auto.
Qed.

(* ---- statuses ---- *)

Lemma receive_statuses errText models d status ct b :
  (300 <= status -> refused_with status (In status models) (body_bytes errText b) (receive errText models d (Reply status ct b)))
  /\ (status < 300 -> receive errText models d (Reply status ct b) = d (body_bytes errText b)).
Proof.
  unfold receive, refused_with. destruct (Z.leb_spec 300 status) as [H|H]; (split; [intros L|intros L]); try lia; [|reflexivity].
  destruct (existsb (Z.eqb status) models) eqn:E.
  - left. split; [|reflexivity]. apply existsb_exists in E as (x & I & E). apply Z.eqb_eq in E. now subst.
  - right. split; [|reflexivity]. intros I. rewrite (proj2 (existsb_exists _ _)) in E; [discriminate|]. exists status. split; [assumption|apply Z.eqb_refl].
Qed.
