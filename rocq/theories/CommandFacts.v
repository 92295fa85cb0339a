(* Proofs about the command line and the file system: C114 *)
From Coq Require Import ZArith NArith Bool Ascii String Lia List.
Import ListNotations.
From Verif Require Import GoBase GoBaseFacts GoTime Tables Codec Records File Reader Json JsonFile Server SpecServer ServerFacts ServerProps CounterProps
  CommandLine SpecCommand.
Local Open Scope string_scope.
Local Open Scope list_scope.
Local Notation length := List.length.

Lemma create_reader_spec h d i :
  (exists c, create_reader h d i = Some (mkSource c (hoReads h)) /\ input_is h d i c)
  \/ (create_reader h d i = None /\ forall c, ~ input_is h d i c).
Proof.
  unfold create_reader, input_is. set (p := match i with [] => hoDefault h | _ => i end).
  assert (P : forall q, ((i = [] /\ q = hoDefault h) \/ (i <> [] /\ q = i)) <-> q = p).
  { intros q. subst p. destruct i; split; intros H; try (destruct H as [[? ?]|[? ?]]; congruence);
      [left; auto|right; split; [discriminate|auto]]. }
  destruct (d p) as [c|] eqn:D.
  - destruct (hoOpens h p) eqn:O.
    + left. exists c. split; [reflexivity|]. exists p. split; [apply P; reflexivity|auto].
    + right. split; [reflexivity|]. intros c' [q [Q [_ O']]]. apply P in Q. subst q. congruence.
  - right. split; [reflexivity|]. intros c' [q [Q [D' _]]]. apply P in Q. subst q. congruence.
Qed.

Lemma input_unique h d i c c' : input_is h d i c -> input_is h d i c' -> c = c'.
Proof.
  intros [p [P [D _]]] [q [Q [D' _]]]. assert (p = q) by (destruct P as [[? ?]|[? ?]], Q as [[? ?]|[? ?]]; congruence). congruence.
Qed.

Lemma reads_unique rt h d i c c' f f' : reads_file rt h d i c f -> reads_file rt h d i c' f' -> c = c' /\ f = f'.
Proof. intros [A B] [A' B']. assert (c = c') as -> by (eapply input_unique; eauto). split; [auto|congruence]. Qed.

Lemma no_trailer rt evs c f f1 : new_file_from_reader rt evs c = Some (Ok f) -> flBases f = [] -> ~ with_trailer f f1.
Proof.
  intros R B (t & G & V & _). pose proof (proj2 (new_file_sound _ _ _ _ R) f eq_refl) as O. apply sound_file_ok in O.
  destruct (generate_into_spec f O) as [[_ [e X]]|[N _]]; [|contradiction].
  destruct (trailer_any f O) as (t0 & E & _). rewrite E in G. injection G as <-.
  unfold generate_into in X. rewrite E in X. rewrite (set_trailer_spec f t0 V) in X. discriminate X.
Qed.

(* what the commands of Server.v come to *)
Lemma validate_ends rt h d i a r : cli_validate rt (mkFlags (create_reader h d i) [] [] false false true) = Some r ->
  (exists t, meant rt h d (mkLine CValidator i a) t /\ r = Wrote t)
  \/ (exists e, r = Failed e) /\ forall t, ~ meant rt h d (mkLine CValidator i a) t.
Proof.
  intros R. apply cli_validate_spec in R. cbn [fgInput] in R.
  destruct (create_reader_spec h d i) as [(c & E & I)|[E N]]; rewrite E in R.
  - destruct R as [(src & f & [= <-] & F & V & ->)|[X [X'|(src & [= <-] & F)]]]; [|discriminate|].
    + left. eexists. split; [|reflexivity]. apply (meant_validator rt h d i a c f); [split; auto|exact V].
    + right. split; [exact X|]. intros t M. inversion M; subst.
      match goal with H : reads_file _ _ _ _ _ _ |- _ => destruct H as [I' F'] end.
      assert (c0 = c) as -> by (eapply input_unique; eauto). apply (F _ F'). assumption.
  - destruct R as [(src & f & X & _)|[X _]]; [discriminate|]. right. split; [exact X|]. intros t M. inversion M; subst.
    match goal with H : reads_file _ _ _ _ _ _ |- _ => destruct H as [I' F'] end. apply (N _ I').
Qed.

Lemma print_ends cpus rt h d format b i a r : cli_print cpus rt (mkFlags (create_reader h d i) format [] false b true) = Some r ->
  (exists t, meant rt h d (mkLine (CPrint format b) i a) t /\ r = Wrote t)
  \/ (exists e, r = Failed e) /\ forall t, ~ meant rt h d (mkLine (CPrint format b) i a) t.
Proof.
  intros R. apply cli_print_spec in R. cbn [fgInput fgFormat fgNewline] in R.
  destruct (create_reader_spec h d i) as [(c & E & I)|[E N]]; rewrite E in R.
  - destruct R as [(src & f & o & [= <-] & F & A & n & Z & ->)|[X [X'|[X'|(src & e & [= <-] & F)]]]]; [|discriminate| |].
    + left. eexists. split; [|reflexivity]. apply (meant_print rt h d format b i a c f o n); [split; auto|exact A|exact Z].
    + right. split; [exact X|]. intros t M. inversion M; subst. eapply X'; eauto.
    + right. split; [exact X|]. intros t M. inversion M; subst.
      match goal with H : reads_file _ _ _ _ _ _ |- _ => destruct H as [I' F'] end.
      assert (c0 = c) as -> by (eapply input_unique; eauto). cbn in F. congruence.
  - destruct R as [(src & f & o & X & _)|[X _]]; [discriminate|]. right. split; [exact X|]. intros t M. inversion M; subst.
    match goal with H : reads_file _ _ _ _ _ _ |- _ => destruct H as [I' F'] end. apply (N _ I').
Qed.

Lemma convert_ends cpus rt h d format type g b i p a r :
  cli_convert cpus rt (mkFlags (create_reader h d i) format type g b true) = Some r ->
  (exists t, meant rt h d (mkLine (CConvert format type g b) i (p :: a)) t /\ r = Wrote t)
  \/ (exists e, r = Failed e) /\ forall t, ~ meant rt h d (mkLine (CConvert format type g b) i (p :: a)) t.
Proof.
  intros R. apply cli_convert_spec in R. cbn [fgInput fgFormat fgNewline fgGenerate fgType fgCreates] in R.
  destruct (create_reader_spec h d i) as [(c & E & I)|[E N]]; rewrite E in R.
  - destruct R as [(src & f & f' & o & [= <-] & F & A & C & n & Z & ->)|[X [X'|[X'|[X'|[(src & e & [= <-] & F)|(src & f & [= <-] & F & G & B)]]]]]];
      [|discriminate| |discriminate| |].
    + left. eexists. split; [|reflexivity]. apply (meant_convert rt h d format type g b i p a c f f' o n); [split; auto|exact A|exact C|exact Z].
    + right. split; [exact X|]. intros t M. inversion M; subst. eapply X'; eauto.
    + right. split; [exact X|]. intros t M. inversion M; subst.
      match goal with H : reads_file _ _ _ _ _ _ |- _ => destruct H as [I' F'] end.
      assert (c0 = c) as -> by (eapply input_unique; eauto). cbn in F. congruence.
    + right. split; [exact X|]. intros t M. inversion M; subst.
      match goal with H : reads_file _ _ _ _ _ _ |- _ => destruct H as [I' F'] end.
      assert (c0 = c) as -> by (eapply input_unique; eauto). cbn in F. rewrite F in F'. injection F' as <-.
      match goal with H : converted _ _ _ _ |- _ => destruct H as (f1 & W & _) end.
      apply (no_trailer _ _ _ _ _ F B (W eq_refl)).
  - destruct R as [(src & f & f' & o & X & _)|[X _]]; [discriminate|]. right. split; [exact X|]. intros t M. inversion M; subst.
    match goal with H : reads_file _ _ _ _ _ _ |- _ => destruct H as [I' F'] end. apply (N _ I').
Qed.

Lemma no_target_other l p : target l p -> exists format type g b, lnCommand l = CConvert format type g b.
Proof. intros T. inversion T; subst. cbn. eauto 6. Qed.

Lemma classic_serves l : serves l \/ ~ serves l.
Proof.
  destruct l as [[port test| |format b|format type g b] i a]; try (right; intros (? & ? & ? & E); discriminate E).
  destruct test; [right; intros (? & ? & ? & E); discriminate E|left; exists port, i, a; reflexivity].
Qed.

(* every run: a refusal, or the output goes where it belongs as far as there is room *)
Lemma run_ends cpus rt h d l r : ~ serves l -> run cpus rt h d l = Some r ->
  (exists t, meant rt h d l t /\
     ((exists p, target l p /\ r = write_file h d p t) \/ ((forall p, ~ target l p) /\ r = print_out h d t)))
  \/ (exists e, r = finish d [] (Some e)) /\ forall t, ~ meant rt h d l t.
Proof.
  destruct l as [c i a]. unfold run. cbn [lnCommand lnInput lnArgs]. intros S R.
  destruct c as [port test| |format b|format type g b].
  - destruct test; [|elim S; exists port, i, a; reflexivity]. injection R as <-. left. eexists. split; [apply meant_web|].
    right. split; [intros p T; inversion T|reflexivity].
  - destruct (cli_validate _ _) as [x|] eqn:X; [|discriminate]. apply (validate_ends rt h d i a) in X.
    destruct X as [(t & M & ->)|[[e ->] N]]; injection R as <-; [left|right; eauto].
    exists t. split; [exact M|]. right. split; [intros p T; inversion T|reflexivity].
  - destruct (cli_print _ _ _) as [x|] eqn:X; [|discriminate]. apply (print_ends cpus rt h d format b i a) in X.
    destruct X as [(t & M & ->)|[[e ->] N]]; injection R as <-; [left|right; eauto].
    exists t. split; [exact M|]. right. split; [intros p T; inversion T|reflexivity].
  - destruct a as [|p a].
    + injection R as <-. right. split; [eauto|]. intros t M. inversion M.
    + destruct (cli_convert _ _ _) as [x|] eqn:X; [|discriminate]. apply (convert_ends cpus rt h d format type g b i p a) in X.
      destruct X as [(t & M & ->)|[[e ->] N]]; injection R as <-; [left|right; eauto].
      exists t. split; [exact M|]. left. exists p. split; [constructor|reflexivity].
Qed.

Lemma put_same d p t : put d p t p = Some t.
Proof. unfold put. rewrite bytes_eqb_refl. reflexivity. Qed.
Lemma put_other d p t q : q <> p -> put d p t q = d q.
Proof. intros N. unfold put. rewrite (proj2 (bytes_eqb_neq q p) N). reflexivity. Qed.

Lemma roomy_run cpus rt h d l r : roomy h -> ~ serves l -> run cpus rt h d l = Some r ->
  (exists t, meant rt h d l t /\ delivered d l t r)
  \/ (declined d r /\ ((forall t, ~ meant rt h d l t) \/ exists p, target l p /\ hoCreates h p = false)).
Proof.
  intros [W O] S R. destruct (run_ends _ _ _ _ _ _ S R) as [(t & M & [(p & T & ->)|[N ->]])|[[e ->] N]].
  - unfold write_file. destruct (W p) as [W1 W2]. rewrite W1, W2. cbn [cut_to]. rewrite Nat.ltb_irrefl. destruct (hoCreates h p) eqn:C.
    + left. exists t. split; [exact M|]. split; [reflexivity|]. left. exists p. cbn. repeat split; auto.
      * apply put_same.
      * intros q Q. apply put_other. exact Q.
    + right. split; [|right; exists p; auto]. split; [eexists; reflexivity|]. split; [intros q; reflexivity|reflexivity].
  - left. exists t. split; [exact M|]. split; [reflexivity|]. right. split; [exact N|]. unfold print_out. rewrite O. split; [intros q|]; reflexivity.
  - right. split; [|left; exact N]. split; [eexists; reflexivity|]. split; [intros q|]; reflexivity.
Qed.

Lemma cut_begins n t : begins (cut_to n t) t.
Proof. destruct n as [n|]; cbn; [exists (skipn n t); symmetry; apply firstn_skipn|exists []; symmetry; apply app_nil_r]. Qed.

Lemma begins_trans a b c : begins a b -> begins b c -> begins a c.
Proof. intros [u ->] [v ->]. exists (u ++ v). rewrite app_assoc. reflexivity. Qed.

(* whatever the host does *)
Lemma files_kept cpus rt h d l r q : run cpus rt h d l = Some r -> ~ target l q -> raDisk r q = d q.
Proof.
  destruct l as [c i a]. unfold run. cbn [lnCommand lnInput lnArgs]. intros R N.
  destruct c as [port test| |format b|format type g b].
  - destruct test; [injection R as <-; reflexivity|]. destruct (hoServe _ _); [injection R as <-; reflexivity|discriminate].
  - destruct (cli_validate _ _) as [[]|]; [| | |discriminate]; injection R as <-; reflexivity.
  - destruct (cli_print _ _ _) as [[]|]; [| | |discriminate]; injection R as <-; reflexivity.
  - destruct a as [|p a]; [injection R as <-; reflexivity|].
    destruct (cli_convert _ _ _) as [[]|]; [| | |discriminate]; injection R as <-; try reflexivity.
    unfold write_file. destruct (hoCreates h p); [|reflexivity]. cbn. apply put_other. intros ->. apply N. constructor.
Qed.

Lemma file_changed cpus rt h d l r p : run cpus rt h d l = Some r -> raDisk r p <> d p ->
  exists t u, meant rt h d l t /\ target l p /\ raDisk r p = Some u /\ begins u t.
Proof.
  intros R C.
  assert (S : ~ serves l).
  { intros (port & i & a & ->). apply C. unfold run in R. cbn [lnCommand] in R. destruct (hoServe _ _); [injection R as <-; reflexivity|discriminate]. }
  destruct (run_ends _ _ _ _ _ _ S R) as [(t & M & [(q & T & ->)|[N ->]])|[[e ->] N]]; [|elim C; reflexivity|elim C; reflexivity].
  unfold write_file in C |- *. destruct (hoCreates h q); [|elim C; reflexivity]. cbn in C |- *.
  assert (p = q) as ->.
  { destruct (bytes_eqb p q) eqn:E; [apply bytes_eqb_eq; exact E|]. elim C. apply put_other. apply bytes_eqb_neq. exact E. }
  exists t. eexists. split; [exact M|]. split; [exact T|]. split; [apply put_same|].
  eapply begins_trans; apply cut_begins.
Qed.

(* without an error all of the output was written, unless closing the file failed *)
Lemma written cpus rt h d l r p : run cpus rt h d l = Some r -> target l p -> raError r = None ->
  exists t, meant rt h d l t /\ raDisk r p = Some (cut_to (hoCloses h p) t) /\ hoCreates h p = true
    /\ forall n, hoRoom h p = Some n -> (length t <= n)%nat.
Proof.
  intros R T E.
  assert (S : ~ serves l) by (intros (port & i & a & ->); inversion T).
  destruct (run_ends _ _ _ _ _ _ S R) as [(t & M & [(q & T' & ->)|[N ->]])|[[e ->] N]]; [|elim (N p T)|discriminate E].
  assert (q = p) as -> by (inversion T; subst; inversion T'; subst; reflexivity).
  unfold write_file in *. destruct (hoCreates h p); [|discriminate E]. cbn [finish raError raDisk] in *.
  destruct (Nat.ltb_spec (length (cut_to (hoRoom h p) t)) (length t)) as [L|L]; [discriminate E|].
  assert (K : cut_to (hoRoom h p) t = t).
  { destruct (hoRoom h p) as [n|]; [|reflexivity]. cbn in *. apply firstn_all2. rewrite firstn_length in L. lia. }
  exists t. split; [exact M|]. split; [cbn; rewrite K; apply put_same|]. split; [reflexivity|].
  intros n Q. rewrite Q in L. cbn in L. rewrite firstn_length in L. lia.
Qed.

(* an error means that there is nothing to write or that it could not be written *)
Lemma reported cpus rt h d l r e : ~ serves l -> run cpus rt h d l = Some r -> raError r = Some e ->
  (forall t, ~ meant rt h d l t)
  \/ exists p t, target l p /\ meant rt h d l t /\ (hoCreates h p = false \/ exists n, hoRoom h p = Some n /\ (n < length t)%nat).
Proof.
  intros S R E. destruct (run_ends _ _ _ _ _ _ S R) as [(t & M & [(p & T & ->)|[N ->]])|[_ N]]; [right|discriminate E|left; exact N].
  exists p, t. split; [exact T|]. split; [exact M|]. unfold write_file in E. destruct (hoCreates h p); [right|left; reflexivity].
  cbn [finish raError] in E. destruct (Nat.ltb_spec (length (cut_to (hoRoom h p) t)) (length t)) as [L|L]; [|discriminate E].
  destruct (hoRoom h p) as [n|]; cbn in L; [|lia]. exists n. rewrite firstn_length in L. split; [reflexivity|lia].
Qed.

(* the exit status says nothing *)
Lemma status_zero cpus rt h d l r : run cpus rt h d l = Some r -> raStatus r = 0%Z.
Proof.
  intros R. destruct (classic_serves l) as [(port & i & a & ->)|S].
  - unfold run in R. cbn [lnCommand] in R. destruct (hoServe _ _); [injection R as <-; reflexivity|discriminate].
  - destruct (run_ends _ _ _ _ _ _ S R) as [(t & M & [(p & T & ->)|[N ->]])|[[e ->] N]]; [|reflexivity|reflexivity].
    unfold write_file. destruct (hoCreates h p); reflexivity.
Qed.

(* a server is announced, and ends with an error if it ends *)
Lemma web_run cpus rt h d port i a r : run cpus rt h d (mkLine (CWeb port false) i a) = Some r ->
  same_disk (raDisk r) d /\ raError r = hoServe h (list_ascii_of_string "0.0.0.0:" ++ port) /\ raError r <> None
  /\ begins (raOut r) (list_ascii_of_string "Starting web server on port " ++ port ++ [ascii_of_nat 10; ascii_of_nat 10]).
Proof.
  unfold run. cbn [lnCommand]. destruct (hoServe h _) as [e|] eqn:E; [|discriminate]. intros [= <-].
  split; [intros q; reflexivity|]. split; [reflexivity|]. split; [discriminate|apply cut_begins].
Qed.
