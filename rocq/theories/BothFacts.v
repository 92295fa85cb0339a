(* Proofs about the command line and the web server: C116 *)
From Coq Require Import ZArith NArith Bool Ascii String Lia List.
Import ListNotations.
From Verif Require Import GoBase GoBaseFacts GoTime Tables Codec Records File Reader Json JsonFile Server SpecJson SpecServer JsonTextFacts ServerFacts ServerProps
  SpecBoth.
Local Open Scope string_scope.
Local Open Scope list_scope.

Lemma sent_same rq s s' : sent rq s -> sent rq s' -> s = s'.
Proof. intros A B. destruct A, B; congruence || contradiction. Qed.

Lemma reads_same rt rq src : sent rq src -> forall f, reads rt rq f <-> new_file_from_reader rt (srReads src) (srInput src) = Some (Ok f).
Proof.
  intros S f. split; [intros (s & S' & R); rewrite (sent_same _ _ _ S S'); exact R|intros R; exists src; auto].
Qed.

Lemma validators_agree rt rq fg d rp : same_input rq fg -> cli_validate rt fg = Some d -> serve_validator rt rq = Some rp ->
  ((exists t, d = Wrote t) /\ exists h b, rp = Reply 200 h b) \/ both_fail d rp.
Proof.
  intros (src & S & I) D R. apply cli_validate_spec in D. apply validator_status in R.
  destruct R as (st & h & b & -> & S4 & S5 & S2). pose proof (reads_same rt rq src S) as RS.
  destruct D as [(s & f & I' & F & V & ->)|[E [N|(s & I' & N)]]]; [| congruence |].
  - rewrite I in I'. injection I' as <-. left. split; [eauto|].
    assert (st = 200%Z) as -> by (apply S2; exists f; split; [apply RS; exact F|exact V]). eauto.
  - rewrite I in I'. injection I' as <-. right. split; [exact E|]. exists st, h, b. split; [reflexivity|].
    destruct (new_file_from_reader rt (srReads src) (srInput src)) as [[f|e|]|] eqn:X;
      try (left; apply S4; intros [f Q]; apply RS in Q; discriminate Q).
    right. apply S5. exists f. split; [apply RS; reflexivity|]. apply N. reflexivity.
Qed.

Lemma prints_agree cpus cpus' rt rq fg d rp : same_input rq fg -> same_form rq fg -> same_breaks rq fg ->
  cli_print cpus rt fg = Some d -> serve_print cpus' rt rq = Some rp ->
  (exists o t u, asks_form rq o /\ d = Wrote t /\ rp = Reply 200 [] (BodyText u) /\ printed_alike o t u) \/ both_fail d rp.
Proof.
  intros (src & S & I) F B D R. apply cli_print_spec in D. pose proof (reads_same rt rq src S) as RS.
  destruct D as [(s & f & o & I' & X & A & n & Nu & ->)|[E Q]].
  - rewrite I in I'. injection I' as <-. left. exists o. eexists. eexists. split; [apply F; exact A|]. split; [reflexivity|].
    rewrite (print_delivers cpus' rt rq f o (fgNewline fg) n) in R;
      [|apply RS; exact X|apply F; exact A|exact B|exists src; auto].
    injection R as <-. split; [reflexivity|]. destruct o; [exists (encode_file n f); split; reflexivity|reflexivity].
  - right. split; [exact E|]. apply print_status in R. destruct R as (st & h & b & -> & S4 & S5 & _). exists st, h, b. split; [reflexivity|].
    destruct (new_file_from_reader rt (srReads src) (srInput src)) as [[f|e|]|] eqn:X;
      try (left; apply S4; intros [f Y]; apply RS in Y; discriminate Y).
    right. apply S5. split; [exists f; apply RS; reflexivity|]. intros [o A]. apply F in A.
    destruct Q as [Q|[Q|(s & e & I' & Y)]]; [congruence|elim (Q _ A)|].
    rewrite I in I'. injection I' as <-. congruence.
Qed.

Lemma converts_agree cpus cpus' rt rq fg d rp : same_input rq fg -> same_form rq fg -> same_breaks rq fg -> same_change rq fg ->
  fgCreates fg = true -> cli_convert cpus rt fg = Some d -> serve_convert cpus' rt rq = Some rp ->
  (exists o t u, asks_form rq o /\ d = Wrote t /\ rp = Reply 200 attachment (BodyText u) /\ converted_alike o t u) \/ both_fail d rp.
Proof.
  intros (src & S & I) F B [G T] Cr D R. apply cli_convert_spec in D. pose proof (reads_same rt rq src S) as RS.
  destruct D as [(s & f & g & o & I' & X & A & Cv & n & Nu & ->)|[E Q]].
  - rewrite I in I'. injection I' as <-. left. exists o. eexists. eexists. split; [apply F; exact A|]. split; [reflexivity|].
    rewrite (convert_delivers cpus' rt rq f g o (fgNewline fg) n) in R; [|apply RS; exact X|apply F; exact A|exact B| |exists src; auto].
    + injection R as <-. split; [reflexivity|]. destruct o; [exists (encode_file n g); split; reflexivity|reflexivity].
    + rewrite T. destruct Cv as (f1 & W & N & Rt). exists f1. split; [intros H; apply W, G, H|]. split; [intros H; apply N; intros K; apply H, G, K|exact Rt].
  - right. split; [exact E|]. apply convert_status in R. destruct R as (st & h & b & -> & S4 & S5 & _). exists st, h, b. split; [reflexivity|].
    destruct (new_file_from_reader rt (srReads src) (srInput src)) as [[f|e|]|] eqn:X;
      try (left; apply S4; intros [f Y]; apply RS in Y; discriminate Y).
    right. apply S5. exists f. split; [apply RS; reflexivity|].
    destruct Q as [Q|[Q|[Q|[(s & e & I' & Y)|(s & f' & I' & Y & Gn & Bs)]]]]; [congruence| |congruence| |].
    + left. intros [o A]. apply F in A. elim (Q _ A).
    + rewrite I in I'. injection I' as <-. congruence.
    + rewrite I in I'. injection I' as <-. rewrite X in Y. injection Y as <-. right. split; [apply G; exact Gn|exact Bs].
Qed.

(* indented or not, it is the same JSON *)
Lemma same_json j : plain_json j -> forall indent n, Forall white indent -> spells j (print_indent indent n j) /\ spells j (print j).
Proof. intros P indent n W. split; [apply print_indent_spells; assumption|apply print_spells; exact P]. Qed.

(* whatever the layout and the line breaks, the same file is read from both outputs *)
Lemma prints_reread cpus cpus' rt rq fg t h u b : same_input rq fg -> same_form rq fg -> asks_breaks rq b ->
  cli_print cpus rt fg = Some (Wrote t) -> serve_print cpus' rt rq = Some (Reply 200 h (BodyText u)) ->
  exists o f, asks_form rq o /\ reads rt rq f /\ forall rt' src src', orders rt' -> delivers src t -> delivers src' u ->
    comes_back o f (fgNewline fg) -> comes_back o f b ->
    new_file_from_reader rt' (srReads src) (srInput src) = Some (Ok f) /\ new_file_from_reader rt' (srReads src') (srInput src') = Some (Ok f).
Proof.
  intros (src & S & I) F B D R. apply cli_print_spec in D. pose proof (reads_same rt rq src S) as RS.
  destruct D as [(s & f & o & I' & X & A & n & Nu & [= ->])|[[e E] _]]; [|discriminate E].
  rewrite I in I'. injection I' as <-. exists o, f. split; [apply F; exact A|]. split; [apply RS; exact X|].
  rewrite (print_delivers cpus' rt rq f o b n) in R; [|apply RS; exact X|apply F; exact A|exact B|exists src; auto].
  injection R as _ <-. intros rt' s s' Or D D' C C'. split.
  - apply (convert_text_back rt' n (lit "  ") o f (fgNewline fg)); auto. repeat constructor.
  - apply (print_text_back rt' n o f b); auto.
Qed.

Lemma converts_reread cpus cpus' rt rq fg t h u b : same_input rq fg -> same_form rq fg -> asks_breaks rq b -> same_change rq fg ->
  cli_convert cpus rt fg = Some (Wrote t) -> serve_convert cpus' rt rq = Some (Reply 200 h (BodyText u)) ->
  exists o f g, asks_form rq o /\ reads rt rq f /\ converted (asks_trailer rq) (rqForm rq "type") f g
    /\ forall rt' src src', orders rt' -> delivers src t -> delivers src' u ->
    comes_back o g (fgNewline fg) -> comes_back o g b ->
    new_file_from_reader rt' (srReads src) (srInput src) = Some (Ok g) /\ new_file_from_reader rt' (srReads src') (srInput src') = Some (Ok g).
Proof.
  intros (src & S & I) F B [G T] D R. apply cli_convert_spec in D. pose proof (reads_same rt rq src S) as RS.
  destruct D as [(s & f & g & o & I' & X & A & Cv & n & Nu & [= ->])|[[e E] _]]; [|discriminate E].
  rewrite I in I'. injection I' as <-.
  assert (converted (asks_trailer rq) (rqForm rq "type") f g) as Cv'.
  { rewrite T. destruct Cv as (f1 & W & N & Rt). exists f1. split; [intros H; apply W, G, H|]. split; [intros H; apply N; intros K; apply H, G, K|exact Rt]. }
  exists o, f, g. split; [apply F; exact A|]. split; [apply RS; exact X|]. split; [exact Cv'|].
  rewrite (convert_delivers cpus' rt rq f g o b n) in R; [|apply RS; exact X|apply F; exact A|exact B|exact Cv'|exists src; auto].
  injection R as _ <-. intros rt' s s' Or D D' C C'. split.
  - apply (convert_text_back rt' n (lit "  ") o g (fgNewline fg)); auto. repeat constructor.
  - apply (convert_text_back rt' n tab o g b); auto. apply tab_white.
Qed.
