(* Proofs about conversions in a row: C115 *)
From Coq Require Import ZArith NArith Bool Ascii String Lia List.
Import ListNotations.
From Verif Require Import GoBase GoBaseFacts GoTime Tables Codec Records File Reader Json JsonFile Server SpecReader SpecJson SpecServer ServerFacts ServerProps
  CommandLine SpecCommand CommandFacts CommandScript SpecScript.
Local Open Scope string_scope.
Local Open Scope list_scope.
Local Notation length := List.length.

Lemma retyped_nothing f g : retyped [] f g -> g = f.
Proof. intros R. inversion R as [p f0 f' S P O E|]; subst; [|reflexivity]. destruct (flPacked g); discriminate E. Qed.

Lemma null_exists c f g : exists n, null_data c f g n.
Proof. exists (read_nil c f || negb (Bool.eqb (flPacked f) (flPacked g))). apply nil_null. Qed.

Lemma meant_exists rt h d i c f o b p a : reads_file rt h d i c f ->
  exists t, meant rt h d (mkLine (CConvert (form_word o) [] false b) i (p :: a)) t.
Proof.
  intros R. destruct (null_exists c f f) as [n N]. eexists.
  apply (meant_convert rt h d (form_word o) [] false b i p a c f f o n); [exact R|constructor| |exact N].
  exists f. split; [discriminate|]. split; [reflexivity|]. apply retyped_none; discriminate.
Qed.

Lemma meant_only rt h d i c f o b p a t : reads_file rt h d i c f ->
  meant rt h d (mkLine (CConvert (form_word o) [] false b) i (p :: a)) t ->
  exists n, t = convert_text n (list_ascii_of_string "  ") o f b.
Proof.
  intros R M. inversion M; subst.
  match goal with H : reads_file _ _ _ _ _ ?x |- _ => destruct (reads_unique _ _ _ _ _ _ _ _ R H) as [E1 E2] end. subst.
  match goal with H : converted _ _ _ _ |- _ => destruct H as (f1 & _ & W & T) end.
  rewrite (W ltac:(discriminate)) in T. apply retyped_nothing in T. subst.
  match goal with H : names_form _ ?x |- _ => assert (x = o) as -> by (apply (names_unique _ _ _ H); constructor) end.
  eauto.
Qed.

Lemma two_white : Forall white (list_ascii_of_string "  ").
Proof. repeat (constructor; [left; reflexivity|]). constructor. Qed.

Lemma convert_runs cpus rt h d i c f o b p : reads_file rt h d i c f ->
  exists r, run cpus rt h d (mkLine (CConvert (form_word o) [] false b) i [p]) = Some r.
Proof.
  intros [I F]. unfold run. cbn [lnCommand lnInput lnArgs].
  destruct (create_reader_spec h d i) as [(c' & E & I')|[_ N]]; [|elim (N _ I)].
  assert (c' = c) as -> by (eapply input_unique; eauto). rewrite E. unfold cli_convert. cbn [fgInput fgFormat fgGenerate fgCreates srReads srInput].
  destruct (flag_format_spec (form_word o)) as [(e & _ & N)|(o' & -> & _ & _)]; [elim (N o); constructor|].
  rewrite F. cbn. eexists. reflexivity.
Qed.

Lemma one_step cpus rt h d i c f o b p : orders rt -> steady h -> reads_file rt h d i c f -> passes h f [(o, b, p)] ->
  exists r c', run cpus rt h d (mkLine (CConvert (form_word o) [] false b) i [p]) = Some r /\ raError r = None
    /\ reads_file rt h (raDisk r) p c' f /\ forall q, q <> p -> raDisk r q = d q.
Proof.
  intros Or (Ro & Op & Cr & Pa) R P. destruct (convert_runs cpus rt h d i c f o b p R) as [r X].
  destruct (meant_exists rt h d i c f o b p [] R) as [t0 M0].
  assert (S : ~ serves (mkLine (CConvert (form_word o) [] false b) i [p])) by (intros (? & ? & ? & E); discriminate E).
  destruct (roomy_run _ _ _ _ _ _ Ro S X) as [(t & M & E & [(q & T & D & K & _)|[N _]])|[_ [N|(q & _ & C)]]].
  - assert (q = p) as -> by (inversion T; reflexivity). exists r, t. split; [exact X|]. split; [exact E|]. split; [|exact K].
    destruct (meant_only _ _ _ _ _ _ _ _ _ _ _ R M) as [n ->]. destruct (P o b p (or_introl eq_refl)) as (Np & Cb & L).
    split; [exists p; split; [right; auto|split; [exact D|apply Op]]|].
    apply (convert_text_back rt n (list_ascii_of_string "  ") o f b (mkSource _ (hoReads h)) two_white Or Cb).
    split; [reflexivity|]. split; [exact Pa|apply L].
  - elim (N p). constructor.
  - elim (N _ M0).
  - rewrite Cr in C. discriminate C.
Qed.

Lemma passes_cons h f s r : passes h f (s :: r) -> passes h f [s] /\ passes h f r.
Proof. intros P. split; intros o b p I; apply P; [destruct I as [I|[]]; left; exact I|right; exact I]. Qed.

Lemma chain cpus rt h f steps : forall d i c, orders rt -> steady h -> reads_file rt h d i c f -> passes h f steps ->
  exists d' c', run_script cpus rt h d (conversions i steps) = Some (d', repeat None (length steps))
    /\ reads_file rt h d' (last_path i steps) c' f
    /\ forall q, ~ In q (map step_path steps) -> d' q = d q.
Proof.
  induction steps as [|[[o b] p] r IH]; intros d i c Or St R P.
  - exists d, c. split; [reflexivity|]. split; [exact R|reflexivity].
  - apply passes_cons in P. destruct P as [P1 P2].
    destruct (one_step cpus rt h d i c f o b p Or St R P1) as (x & c1 & X & E & R1 & K1).
    destruct (IH (raDisk x) p c1 Or St R1 P2) as (d' & c' & X' & R' & K').
    exists d', c'. cbn [conversions run_script last_path]. rewrite X, X', E. split; [reflexivity|]. split; [exact R'|].
    intros q N. cbn in N. rewrite K'; [apply K1; intros ->; apply N; left; reflexivity|intros I; apply N; right; exact I].
Qed.

(* the validator agrees about the first and the last file *)
Lemma chain_valid cpus rt h f steps d i c : orders rt -> steady h -> reads_file rt h d i c f -> passes h f steps ->
  exists d' es, run_script cpus rt h d (conversions i steps) = Some (d', es) /\
    forall a x y, run cpus rt h d (mkLine CValidator i a) = Some x ->
      run cpus rt h d' (mkLine CValidator (last_path i steps) a) = Some y -> raOut x = raOut y /\ (raError x = None <-> raError y = None).
Proof.
  intros Or St R P. destruct (chain cpus rt h f steps d i c Or St R P) as (d' & c' & X & R' & _). exists d', (repeat None (length steps)). split; [exact X|].
  intros a x y Hx Hy. destruct St as (Ro & _).
  assert (V : forall dd ii cc z, reads_file rt h dd ii cc f -> run cpus rt h dd (mkLine CValidator ii a) = Some z ->
    (file_validate f = Ok tt /\ raError z = None /\ raOut z = list_ascii_of_string "the file is valid " ++ [ascii_of_nat 10])
    \/ (file_validate f <> Ok tt /\ raError z <> None /\ raOut z = [])).
  { intros dd ii cc z Rd Hz. assert (S : ~ serves (mkLine CValidator ii a)) by (intros (? & ? & ? & E); discriminate E).
    destruct (roomy_run _ _ _ _ _ _ Ro S Hz) as [(t & M & E & [(q & T & _)|(_ & _ & O)])|[([e E] & _ & O) [N|(q & T & _)]]].
    - inversion T.
    - left. inversion M; subst.
      match goal with H : reads_file _ _ _ _ _ ?x |- _ => destruct (reads_unique _ _ _ _ _ _ _ _ Rd H) as [E1 E2] end. subst. auto.
    - right. split; [intros V; apply (N _ (meant_validator rt h dd ii a cc f Rd V))|]. split; [rewrite E; discriminate|exact O].
    - inversion T. }
  destruct (V _ _ _ _ R Hx) as [(V1 & E1 & O1)|(V1 & E1 & O1)], (V _ _ _ _ R' Hy) as [(V2 & E2 & O2)|(V2 & E2 & O2)]; try contradiction;
    (split; [congruence|tauto]).
Qed.

(* the output of a conversion of any kind is read as the converted file, on any host *)
Lemma reread cpus rt h d format type g b i p a r : run cpus rt h d (mkLine (CConvert format type g b) i (p :: a)) = Some r ->
  raError r = None -> hoCloses h p = None -> p <> [] ->
  exists c f f' o t, reads_file rt h d i c f /\ names_form format o /\ converted (g = true) type f f' /\ raDisk r p = Some t
    /\ forall rt' h', orders rt' -> hoOpens h' p = true -> patient (hoReads h') -> (length t < useful (hoReads h'))%nat ->
         comes_back o f' b -> reads_file rt' h' (raDisk r) p t f'.
Proof.
  intros R E C N. destruct (written _ _ _ _ _ _ p R ltac:(constructor) E) as (t & M & D & _). rewrite C in D. cbn [cut_to] in D.
  inversion M; subst. do 5 eexists. split; [eassumption|]. split; [eassumption|]. split; [eassumption|]. split; [exact D|].
  intros rt' h' Or Op Pa L Cb. split; [exists p; split; [right; auto|split; [exact D|exact Op]]|].
  eapply (convert_text_back rt' _ (list_ascii_of_string "  ") _ _ b (mkSource _ (hoReads h')) two_white Or Cb).
  split; [reflexivity|]. split; [exact Pa|exact L].
Qed.
