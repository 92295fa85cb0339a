(* Proofs about bodies of requests, pkg/client/client.go:276-351, 475-493, 508-563 *)
From Coq Require Import ZArith NArith Bool Ascii String List Lia Sorted Permutation.
Import ListNotations.
From Verif Require Import GoBase GoBaseFacts GoTime GoLayout Tables Codec Records File Reader Json JsonTextFacts JsonFile Server Client ClientHeaders ClientBody SpecCodec SpecJson SpecServer SpecBody
  ServerProps ClientFacts SpecForm FormFacts.
Local Open Scope string_scope.
Local Open Scope Z_scope.
Local Open Scope list_scope.
Local Notation length := List.length.

(* ---- words ---- *)

Definition small_char (d : byte) : bool := plain_char d.

Lemma lower_char_spec c d : plain_char d = true -> (lower_char c = d <-> c = d \/ (97 <= nat_of_ascii d <= 122)%nat /\ nat_of_ascii d = (nat_of_ascii c + 32)%nat).
Proof.
  intros P. split.
  - intros E. destruct (byte_eqb c d) eqn:Q; [left; now apply byte_eqb_eq|]. right. revert P Q. rewrite <- E. clear E d.
    assert (forallb (fun c => implb (plain_char (lower_char c)) (implb (negb (byte_eqb c (lower_char c)))
      ((97 <=? nat_of_ascii (lower_char c))%nat && (nat_of_ascii (lower_char c) <=? 122)%nat && (nat_of_ascii (lower_char c) =? nat_of_ascii c + 32)%nat))) all_chars = true) as H by (vm_compute; reflexivity).
    rewrite forallb_forall in H. specialize (H c (all_chars_In c)). intros P Q. rewrite P, Q in H. cbn [implb negb] in H.
    apply andb_prop in H as [H H2]. apply andb_prop in H as [H0 H1]. apply Nat.leb_le in H0, H1. apply Nat.eqb_eq in H2. auto.
  - intros [->|[R E]]; [now apply lower_char_same|]. exact (proj1 (upper_pair c d R E)).
Qed.

Lemma word_taken w : forallb plain_char w = true -> forall s r, take_word w s = Some r <-> exists t, spelled [("s"%char, long_s)] t w /\ s = t ++ r.
Proof.
  induction w as [|d w IH]; intros P s r.
  - cbn [take_word]. split; [intros [= <-]; exists []; split; [apply spelled_end|reflexivity]|intros (t & H & ->); inversion H; reflexivity].
  - cbn [forallb] in P. apply andb_prop in P as [Pd P]. specialize (IH P). destruct s as [|c s].
    { split; [discriminate|]. intros (t & H & E). symmetry in E. apply app_eq_nil in E as [-> ->].
      inversion H as [|? ? ? ? X|? ? ? ? ? ? ? X|x ? s' ? I ? X]; [destruct x; [|discriminate]]. destruct I as [I|[]]; discriminate. }
    cbn [take_word]. destruct (byte_eqb (lower_char c) d) eqn:L.
    + apply byte_eqb_eq in L. rewrite IH. apply (lower_char_spec c d Pd) in L. split.
      * intros (t & H & ->). exists (c :: t). split; [|reflexivity]. destruct L as [->|[R E]]; [now constructor|now constructor].
      * intros (t & H & E). inversion H as [|c' s' w' H' X Y|c' d' s' w' R E' H' X Y|x d' s' w' I H' X Y]; subst.
        -- injection E as <- ->. eauto.
        -- injection E as <- ->. eauto.
        -- destruct I as [[= <- <-]|[]]. injection E as -> _. destruct L as [L|[_ L]]; [discriminate|vm_compute in L; discriminate].
    + assert (forall t, spelled [("s"%char, long_s)] t (d :: w) -> forall q, t ++ q = c :: s -> d = "s"%char /\ exists t', t = long_s ++ t' /\ spelled [("s"%char, long_s)] t' w) as Inv.
      { intros t H q E. inversion H as [|c' s' w' H' X Y|c' d' s' w' R E' H' X Y|x d' s' w' I H' X Y]; subst.
        - injection E as -> _. rewrite (proj2 (byte_eqb_eq _ _) (lower_char_same c Pd)) in L. discriminate.
        - injection E as -> _. rewrite (proj2 (byte_eqb_eq _ _) (proj1 (upper_pair c d R E'))) in L. discriminate.
        - destruct I as [[= <- <-]|[]]. split; [reflexivity|]. eauto. }
      destruct s as [|c' s].
      { split; [discriminate|]. intros (t & H & E). destruct (Inv t H r (eq_sym E)) as (_ & t' & -> & _). discriminate. }
      destruct (byte_eqb d "s" && bytes_eqb [c; c'] (map ascii_of_N [197; 191]%N)) eqn:Q.
      * apply andb_prop in Q as [Q1 Q2]. apply byte_eqb_eq in Q1. subst d. apply bytes_eqb_eq in Q2. rewrite IH. change (map ascii_of_N [197; 191]%N) with long_s in Q2.
        split.
        -- intros (t & H & ->). exists (long_s ++ t). split; [apply spelled_special; [now left|exact H]|]. rewrite <- Q2. reflexivity.
        -- intros (t & H & E). destruct (Inv t H r (eq_sym E)) as (_ & t' & -> & H'). injection E as _ _ ->. eauto.
      * split; [discriminate|]. intros (t & H & E). destruct (Inv t H r (eq_sym E)) as (-> & t' & -> & H'). injection E as -> -> _. discriminate.
Qed.

Lemma begins_spec w s : forallb plain_char (lit w) = true -> (begins w s = true <-> exists t r, in_case w t /\ s = t ++ r).
Proof.
  intros P. unfold begins, in_case. destruct (take_word (lit w) s) as [r|] eqn:T.
  - apply word_taken in T as (t & H & ->); [|exact P]. split; [eauto|reflexivity].
  - split; [discriminate|]. intros (t & r & H & E). assert (take_word (lit w) s = Some r) as X by (apply word_taken; eauto). rewrite X in T. discriminate.
Qed.

Lemma plus_spec s : plus_json s = true <-> exists x j b, s = x ++ "+"%char :: j ++ b /\ ~ In ";"%char x /\ in_case "json" j.
Proof.
  induction s as [|c s IH]; cbn [plus_json].
  - split; [discriminate|]. intros (x & j & b & E & _). destruct x; discriminate.
  - rewrite orb_true_iff, !andb_true_iff, IH, negb_true_iff, byte_eqb_eq, begins_spec by reflexivity. split.
    + intros [(-> & j & b & J & ->)|(N & x & j & b & -> & X & J)]; [exists [], j, b; repeat split; [intros []|exact J]|].
      exists (c :: x), j, b. split; [reflexivity|]. split; [|exact J]. intros [->|I]; [discriminate|contradiction].
    + intros (x & j & b & E & N & J). destruct x as [|y x].
      * injection E as -> ->. left. eauto.
      * injection E as -> ->. right. split; [|exists x, j, b; repeat split; [intros I; apply N; now right|exact J]].
        destruct (byte_eqb y ";") eqn:Q; [apply byte_eqb_eq in Q; subst; exfalso; apply N; now left|reflexivity].
Qed.

Definition json_tail (s : bytes) : Prop := exists v j b, s = v ++ j ++ b /\ in_case "json" j
  /\ (v = [] \/ exists d x, v = d ++ x ++ lit "+" /\ in_case "vnd." d /\ x <> [] /\ ~ In ";"%char x).

Lemma json_rest_spec s : json_rest s = true <-> json_tail s.
Proof.
  unfold json_rest. rewrite orb_true_iff, begins_spec by reflexivity. split.
  - intros [(j & b & J & ->)|H]; [exists [], j, b; auto|]. destruct (take_word _ _) as [[|c r]|] eqn:T; try discriminate.
    apply word_taken in T as (d & D & ->); [|reflexivity]. apply andb_prop in H as [N H]. apply plus_spec in H as (x & j & b & -> & X & J).
    exists (d ++ (c :: x) ++ lit "+"), j, b. split; [rewrite <- !app_assoc; reflexivity|]. split; [exact J|]. right. exists d, (c :: x). split; [reflexivity|]. split; [exact D|]. split; [discriminate|].
    intros [->|I]; [discriminate|contradiction].
  - intros (v & j & b & -> & J & [->|(d & x & -> & D & X & N)]); [left; exists j, b; auto|]. right. destruct x as [|c x]; [contradiction|].
    assert (take_word (lit "vnd.") ((d ++ (c :: x) ++ lit "+") ++ j ++ b) = Some (c :: x ++ "+"%char :: j ++ b)) as ->.
    { apply word_taken; [reflexivity|]. exists d. split; [exact D|]. rewrite <- !app_assoc. reflexivity. }
    apply andb_true_iff. split; [|apply plus_spec; exists x, j, b; repeat split; [intros I; apply N; now right|exact J]].
    destruct (byte_eqb c ";") eqn:Q; [apply byte_eqb_eq in Q; subst; exfalso; apply N; now left|reflexivity].
Qed.

Lemma behind_spec w f s : forallb plain_char (lit w) = true -> (behind w f s = true <-> exists t r, in_case w t /\ s = t ++ r /\ f r = true).
Proof.
  intros P. unfold behind, in_case. destruct (take_word (lit w) s) as [r|] eqn:T.
  - split; [intros F; apply word_taken in T as (t & H & ->); eauto|]. intros (t & r' & H & E & F).
    assert (take_word (lit w) s = Some r') as X by (apply word_taken; eauto). rewrite X in T. injection T as <-. exact F.
  - split; [discriminate|]. intros (t & r & H & E & _). assert (take_word (lit w) s = Some r) as X by (apply word_taken; eauto). rewrite X in T. discriminate.
Qed.

Lemma anywhere_spec f s : anywhere f s = true <-> exists a b, s = a ++ b /\ f b = true.
Proof.
  induction s as [|c s IH]; cbn [anywhere]; rewrite orb_true_iff.
  - split; [intros [H|H]; [exists [], []; auto|discriminate]|]. intros (a & b & E & H). symmetry in E. apply app_eq_nil in E as [-> ->]. auto.
  - rewrite IH. split.
    + intros [H|(a & b & -> & H)]; [exists [], (c :: s); auto|exists (c :: a), b; auto].
    + intros (a & b & E & H). destruct a as [|x a]; [cbn in E; subst b; auto|]. injection E as -> ->. right. eauto.
Qed.

Lemma json_checked ct : json_check ct = true <-> json_type ct.
Proof.
  unfold json_check. rewrite anywhere_spec. unfold json_type, tree. split.
  - intros (a & b & -> & H). apply orb_true_iff in H as [H|H]; apply behind_spec in H as (t & r & T & -> & F); try reflexivity;
      apply json_rest_spec in F as (v & j & q & -> & J & V); exists a, t, v, j, q; auto.
  - intros (a & t & v & j & b & -> & T & J & V). exists a, (t ++ v ++ j ++ b). split; [reflexivity|]. assert (json_rest (v ++ j ++ b) = true) as F by (apply json_rest_spec; exists v, j, b; auto).
    apply orb_true_iff. destruct T as [T|T]; [left|right]; apply behind_spec; try reflexivity; eauto.
Qed.
Lemma xml_checked ct : xml_check ct = true <-> xml_type ct.
Proof.
  unfold xml_check. rewrite anywhere_spec. unfold xml_type, tree. split.
  - intros (a & b & -> & H). apply orb_true_iff in H as [H|H]; apply behind_spec in H as (t & r & T & -> & F); try reflexivity;
      apply begins_spec in F as (x & q & X & ->); try reflexivity; exists a, t, x, q; auto.
  - intros (a & t & x & b & -> & T & X). exists a, (t ++ x ++ b). split; [reflexivity|]. assert (begins "xml" (x ++ b) = true) as F by (apply begins_spec; [reflexivity|]; exists x, b; auto).
    apply orb_true_iff. destruct T as [T|T]; [left|right]; apply behind_spec; try reflexivity; eauto.
Qed.

(* ---- post bodies ---- *)

Lemma body_made p ct b : set_body p ct = Made b <-> given p ct b /\ b <> [].
Proof.
  unfold set_body. split.
  - intros H. assert (forall r, match r with Made [] => Wrong (lit "invalid body type " ++ ct ++ [lf_char]) | _ => r end = Made b -> r = Made b /\ b <> []) as K.
    { intros [[|c t]|e|] E; try discriminate E. injection E as <-. split; [reflexivity|discriminate]. }
    apply K in H as [H N]. clear K. split; [|exact N]. destruct p as [k d [e|]|s|s|[s|]|k js xs]; try discriminate H; try (injection H as <-; constructor).
    destruct (json_check ct) eqn:J.
    + apply json_checked in J. destruct js; [|discriminate]. injection H as <-. now constructor.
    + assert (~ json_type ct) as NJ by (intros X; apply json_checked in X; rewrite X in J; discriminate).
      destruct (xml_check ct) eqn:X; [|injection H as <-; contradiction]. apply xml_checked in X. destruct xs; [|discriminate]. injection H as <-. now constructor.
  - intros [G N]. assert (forall r, r = Made b -> match r with Made [] => Wrong (lit "invalid body type " ++ ct ++ [lf_char]) | _ => r end = Made b) as K by (intros r ->; destruct b; [contradiction|reflexivity]).
    apply K. clear K N. destruct G as [| | | |k j x ct J|k j s ct J X]; try reflexivity.
    + apply json_checked in J. now rewrite J.
    + assert (json_check ct = false) as -> by (destruct (json_check ct) eqn:Q; [exfalso; apply J, json_checked, Q|reflexivity]). apply xml_checked in X. now rewrite X.
Qed.

Lemma body_wrong p ct e : set_body p ct = Wrong e <-> complains p ct e.
Proof.
  unfold set_body. split.
  - intros H. destruct p as [k d [e'|]|s|s|[s|]|k js xs]; try discriminate H.
    + injection H as <-. constructor.
    + destruct d; [|discriminate]. injection H as <-. apply CEmpty. constructor.
    + destruct s; [|discriminate]. injection H as <-. apply CEmpty. constructor.
    + destruct s; [|discriminate]. injection H as <-. apply CEmpty. constructor.
    + destruct s; [|discriminate]. injection H as <-. apply CEmpty. constructor.
    + destruct (json_check ct) eqn:J.
      * apply json_checked in J. destruct js as [j|e']; [|injection H as <-; now constructor]. destruct (print j ++ [lf_char]) eqn:Q; [|discriminate]. apply app_eq_nil in Q as [_ Q]. discriminate.
      * assert (~ json_type ct) as NJ by (intros X; apply json_checked in X; rewrite X in J; discriminate). destruct (xml_check ct) eqn:X.
        -- apply xml_checked in X. destruct xs as [t|e']; [|injection H as <-; now constructor]. destruct t; [|discriminate]. injection H as <-. apply CEmpty. now constructor.
        -- assert (~ xml_type ct) as NX by (intros Y; apply xml_checked in Y; rewrite Y in X; discriminate). injection H as <-. now constructor.
  - assert (forall ct, ~ json_type ct -> json_check ct = false) as FJ by (intros c N; destruct (json_check c) eqn:Q; [exfalso; apply N, json_checked, Q|reflexivity]).
    assert (forall ct, ~ xml_type ct -> xml_check ct = false) as FX by (intros c N; destruct (xml_check c) eqn:Q; [exfalso; apply N, xml_checked, Q|reflexivity]).
    intros G. destruct G as [k s e ct|k e x ct J|k j e ct J X|p ct G|k j x ct J X].
    + reflexivity.
    + apply json_checked in J. now rewrite J.
    + rewrite (FJ _ J). apply xml_checked in X. now rewrite X.
    + change (chr 10) with lf_char. inversion G as [| | | |? ? ? ? ? Q1 Q2 Q3|k j s ct' J X]; subst; try reflexivity.
      * apply app_eq_nil in Q3 as [_ Q3]. discriminate.
      * rewrite (FJ _ J). apply xml_checked in X. now rewrite X.
    + now rewrite (FJ _ J), (FX _ X).
Qed.

Lemma body_crash p ct : set_body p ct = Crash <-> p = PTextAt None.
Proof.
  split; [|now intros ->]. unfold set_body. destruct p as [k d [e'|]|s|s|[s|]|k js xs]; try (intros H; discriminate H); try reflexivity; try (destruct d; intros H; discriminate H); try (destruct s; intros H; discriminate H).
  destruct (json_check ct); [destruct js as [j|]; [destruct (print j ++ [lf_char])|]; intros H; discriminate H|]. destruct (xml_check ct); [|intros H; discriminate H]. destruct xs as [[|]|]; intros H; discriminate H.
Qed.

Section Body.
Context (sniff esc : bytes -> bytes) (opened : bytes -> option bytes) (closed : bytes -> bytes).
Local Notation prepare := (prepare_body sniff esc opened closed).
Local Notation add := (add_form esc opened closed).

Lemma labelled_spec p ct ct' : labelled sniff p ct ct' <-> ct' = content_type sniff (Some p) ct.
Proof.
  unfold content_type. split.
  - intros [p' c N|k d e c K|b|s|s|k j x c K]; try reflexivity.
    + destruct c; [contradiction|reflexivity].
    + cbn [detect_type]. destruct K as [[[->|[->|[->| ->]]] ->]|[[->| ->] ->]]; reflexivity.
    + cbn [detect_type]. destruct K as [[[->|[->|[->| ->]]] ->]|[[->| ->] ->]]; reflexivity.
  - destruct ct as [|c ct]; [|intros ->; apply LAsked; discriminate]. intros ->. destruct p as [k d e|b|s|s|k js xs]; cbn [detect_type]; constructor; unfold kind_type; destruct k; auto 8.
Qed.

Lemma post_sent boundary p ct b ct' n : prepare boundary (Some p) ct [] [] = Sent (Some b) ct' n <-> labelled sniff p ct ct' /\ given p ct' b /\ b <> [] /\ n = None.
Proof.
  unfold prepare_body. rewrite labelled_spec. set (c := content_type sniff (Some p) ct). split.
  - destruct (set_body p c) as [t|e|] eqn:S; try discriminate. apply body_made in S as [G N]. unfold add_form. cbn [length Nat.eqb negb orb]. rewrite !andb_false_r. cbn [orb].
    intros [= -> <- <-]. auto.
  - intros (-> & G & N & ->). assert (set_body p c = Made b) as -> by (apply body_made; auto). unfold add_form. cbn [length Nat.eqb negb orb]. rewrite !andb_false_r. reflexivity.
Qed.

Lemma post_refused boundary p ct e : prepare boundary (Some p) ct [] [] = Refused e <-> exists ct', labelled sniff p ct ct' /\ complains p ct' e.
Proof.
  unfold prepare_body. set (c := content_type sniff (Some p) ct). split.
  - destruct (set_body p c) as [t|e'|] eqn:S; try discriminate.
    + unfold add_form. cbn [length Nat.eqb negb orb]. rewrite !andb_false_r. discriminate.
    + intros [= <-]. exists c. split; [now apply labelled_spec|]. now apply body_wrong.
  - intros (ct' & L & C). apply labelled_spec in L. fold c in L. subst ct'. apply body_wrong in C. now rewrite C.
Qed.

Lemma post_panics boundary p ct f files : prepare boundary p ct f files = Panicked <-> p = Some (PTextAt None).
Proof.
  assert (forall b c, add boundary b c f files <> Panicked) as N.
  { intros b c. unfold add_form. destruct (_ || _); [destruct b; [discriminate|]; destruct (first_path _); discriminate|]. destruct (_ && _); [destruct b; discriminate|discriminate]. }
  unfold prepare_body. destruct p as [p|]; [|split; [intros H; contradiction (N _ _ H)|discriminate]].
  destruct (set_body p _) as [t|e|] eqn:S.
  - split; [intros H; contradiction (N _ _ H)|]. intros [= ->]. discriminate S.
  - split; [discriminate|]. intros [= ->]. discriminate S.
  - split; [|reflexivity]. intros _. apply body_crash in S. now subst.
Qed.

(* a body and a form *)
Lemma prefix_iff p : forall s, has_prefix s p = true <-> exists r, s = p ++ r.
Proof.
  induction p as [|x p IH]; intros s; [destruct s; (split; [intros _; eexists; reflexivity|reflexivity])|]. destruct s as [|y s]; [split; [discriminate|intros (r & E); discriminate]|]. cbn [has_prefix]. rewrite andb_true_iff, byte_eqb_eq, IH. split.
  - intros (-> & r & ->). exists r. reflexivity.
  - intros (r & [= -> ->]). eauto.
Qed.

Lemma post_and_form boundary p ct ct' b f files : labelled sniff p ct ct' -> given p ct' b -> b <> [] ->
  (files <> [] \/ f <> [] /\ (exists r, ct' = lit "multipart/form-data" ++ r) ->
     prepare boundary (Some p) ct f files = Refused (lit "Cannot specify postBody and multipart form at the same time."))
  /\ (files = [] -> f <> [] -> (exists r, ct' = lit "application/x-www-form-urlencoded" ++ r) ->
     prepare boundary (Some p) ct f files = Refused (lit "Cannot specify postBody and x-www-form-urlencoded form at the same time."))
  /\ (files = [] -> f = [] \/ (forall r, ct' <> lit "multipart/form-data" ++ r) /\ (forall r, ct' <> lit "application/x-www-form-urlencoded" ++ r) ->
     prepare boundary (Some p) ct f files = Sent (Some b) ct' None).
Proof.
  intros L G N. apply labelled_spec in L. unfold prepare_body. rewrite <- L. assert (set_body p ct' = Made b) as -> by (apply body_made; auto). unfold add_form. clear L G N. split; [|split].
  - intros [H|[F H]]; [destruct files; [contradiction|]; now rewrite orb_true_r|]. apply prefix_iff in H. rewrite H. destruct f; [contradiction|]. reflexivity.
  - intros -> F H. assert (has_prefix ct' (lit "multipart/form-data") = false) as -> by (destruct H as (r & ->); reflexivity). apply prefix_iff in H. rewrite H. destruct f; [contradiction|]. reflexivity.
  - intros -> [->|[A B]]; [cbn [length Nat.eqb negb]; now rewrite !andb_false_r|].
    assert (has_prefix ct' (lit "multipart/form-data") = false) as -> by (destruct (has_prefix ct' (lit "multipart/form-data")) eqn:Q; [apply prefix_iff in Q as (r & Q); contradiction (A r)|reflexivity]).
    assert (has_prefix ct' (lit "application/x-www-form-urlencoded") = false) as -> by (destruct (has_prefix ct' (lit "application/x-www-form-urlencoded")) eqn:Q; [apply prefix_iff in Q as (r & Q); contradiction (B r)|reflexivity]).
    reflexivity.
Qed.
Lemma post_complains boundary p ct ct' f files e : labelled sniff p ct ct' -> complains p ct' e -> prepare boundary (Some p) ct f files = Refused e.
Proof. intros L C. apply labelled_spec in L. unfold prepare_body. rewrite <- L. apply body_wrong in C. now rewrite C. Qed.

(* ---- forms ---- *)

Lemma path_found l : first_path l <> None <-> exists k v, In ("@"%char :: k, v) l.
Proof.
  induction l as [|[k v] l IH]; cbn [first_path]; [split; [congruence|intros (? & ? & [])]|]. destruct (has_prefix k (lit "@")) eqn:P.
  - split; [|discriminate]. intros _. destruct k as [|c k]; [discriminate|]. cbn [has_prefix lit list_ascii_of_string] in P. apply andb_prop in P as [P _]. apply byte_eqb_eq in P. subst c. exists k, v. now left.
  - rewrite IH. split; [intros (k' & v' & I); exists k', v'; now right|]. intros (k' & v' & [[= -> ->]|I]); [destruct k'; discriminate P|eauto].
Qed.
Lemma pairs_in k v f : In (k, v) (form_pairs f) <-> exists vs, In (k, vs) f /\ In v vs.
Proof.
  unfold form_pairs. rewrite in_flat_map. split.
  - intros ((k' & vs) & I & H). cbn [fst snd] in H. apply in_map_iff in H as (v' & [= -> ->] & J). eauto.
  - intros (vs & I & J). exists (k, vs). split; [exact I|]. apply in_map_iff. eauto.
Qed.

Lemma path_refused boundary ct f files : has_path f -> has_prefix ct (lit "multipart/form-data") = true \/ files <> [] -> exists path, prepare boundary None ct f files = Refused (add_file opened closed path).
Proof.
  intros (k & v & vs & I) H. unfold prepare_body. cbn [content_type]. unfold add_form.
  assert ((has_prefix ct (lit "multipart/form-data") && negb (Nat.eqb (length f) 0)) || negb (Nat.eqb (length files) 0) = true) as ->.
  { destruct H as [H|H]; [rewrite H; destruct f; [contradiction|reflexivity]|]. destruct files; [contradiction|]. now rewrite orb_true_r. }
  destruct (first_path (form_pairs f)) as [path|] eqn:P; [eauto|]. exfalso. apply (proj2 (path_found (form_pairs f))); [|exact P].
  exists k, v. apply pairs_in. exists (v :: vs). split; [exact I|now left].
Qed.

Lemma pairs_listed f : listed f (form_pairs f).
Proof. induction f as [|[k vs] f IH]; [constructor|]. induction vs as [|v vs IHv]; [now constructor|]. exact (ListValue k v vs f _ IHv). Qed.
Lemma files_kept files : kept files (file_parts files).
Proof.
  unfold file_parts. induction files as [|[n u] l IH]; cbn [filter snd]; [constructor|]. destruct (upBytes u) as [|b bs] eqn:B; [apply KeptNot; auto|].
  destruct (upName u) as [|c cs] eqn:N; [apply KeptNot; auto|]. apply KeptFile; [now rewrite B|now rewrite N|exact IH].
Qed.
Lemma listed_in f l : listed f l -> forall k v, In (k, v) l -> exists vs, In (k, vs) f /\ In v vs.
Proof.
  induction 1 as [|k f l H IH|k v vs f l H IH]; intros k' v' I; [destruct I| |].
  - destruct (IH _ _ I) as (vs & A & B). exists vs. split; [now right|exact B].
  - destruct I as [[= <- <-]|I]; [exists (v :: vs); split; now left|]. destruct (IH _ _ I) as (ws & [[= <- <-]|A] & B); [exists (v :: vs); split; [now left|now right]|exists ws; split; [now right|exact B]].
Qed.

Lemma form_sent boundary ct f files : ~ has_path f -> has_prefix ct (lit "multipart/form-data") = true /\ f <> [] \/ files <> [] -> (forall s, one_line (esc s)) ->
  (forall k vs v, In (k, vs) f -> In v vs -> ~ occurs (delimiter boundary) v) -> Forall (fun p => ~ occurs (delimiter boundary) (upBytes (snd p))) files ->
  exists b n l kf ps qs, prepare boundary None ct f files = Sent (Some b) (lit "multipart/form-data; boundary=" ++ boundary) (Some n) /\ n + Z.of_nat (length boundary) + 8 = Z.of_nat (length b)
    /\ listed f l /\ kept files kf /\ form_says boundary b (ps ++ qs) /\ Forall2 (fun p => field_says (esc (fst p)) (snd p)) l ps
    /\ Forall2 (fun p => file_says (esc (list_ascii_of_string (fst p))) (esc (base_name (upName (snd p)))) (upBytes (snd p))) kf qs.
Proof.
  intros P M E V W. set (fs := map (fun p => (string_of_list_ascii (fst p), snd p)) (form_pairs f)). set (t := form_text esc boundary fs (file_parts files)).
  destruct (body_says esc boundary (mkWire "" "" [] [] (Some (fs, file_parts files))) fs (file_parts files) eq_refl E) as (ps & qs & S & F & G).
  - apply Forall_forall. intros p I. apply in_map_iff in I as ((k & v) & <- & I). cbn [snd]. apply pairs_in in I as (vs & I & J). exact (V _ _ _ I J).
  - apply Forall_forall. intros p I. rewrite Forall_forall in W. apply W. unfold file_parts in I. now apply filter_In in I as [I _].
  - exists (t ++ form_end boundary), (Z.of_nat (length t)), (form_pairs f), (file_parts files), ps, qs. split; [|split; [|split; [apply pairs_listed|split; [apply files_kept|split; [exact S|split; [|exact G]]]]]].
    + unfold prepare_body. cbn [content_type]. unfold add_form.
      assert ((has_prefix ct (lit "multipart/form-data") && negb (Nat.eqb (length f) 0)) || negb (Nat.eqb (length files) 0) = true) as ->.
      { destruct M as [[H N]|H]; [rewrite H; destruct f; [contradiction|reflexivity]|]. destruct files; [contradiction|]. now rewrite orb_true_r. }
      destruct (first_path (form_pairs f)) as [path|] eqn:Q; [|reflexivity]. exfalso. assert (first_path (form_pairs f) <> None) as X by (rewrite Q; discriminate).
      apply path_found in X as (k & v & I). apply pairs_in in I as (vs & I & J). apply P. destruct vs as [|v' vs]; [contradiction|]. exists k, v', vs. exact I.
    + rewrite app_length. unfold form_end, crlf. rewrite !app_length. cbn [length lit list_ascii_of_string]. lia.
    + clear - F. subst fs. remember (form_pairs f) as l. clear Heql. revert ps F. induction l as [|[k v] l IH]; intros ps F; inversion F; subst; constructor; [|apply IH; assumption].
      cbn [fst snd] in *. rewrite list_ascii_of_string_of_list_ascii in *. assumption.
Qed.

(* an encoded form *)
Lemma pair_shape k v : forallb undivided (query_escape k) = true /\ forallb no_amp (query_escape k ++ "="%char :: query_escape v) = true
  /\ parse_pair (query_escape k ++ "="%char :: query_escape v) = [(k, v)].
Proof.
  assert (forallb undivided (query_escape k) = true) as U by apply escape_undivided. split; [exact U|]. split.
  - rewrite forallb_app. cbn [forallb].
    assert (H : forall c, undivided c = true -> no_amp c = true) by (intros c H; destruct (undivided_spec _ H) as (A & _ & _); unfold no_amp; now rewrite A).
    now rewrite (forallb_imp _ _ _ H U), (forallb_imp _ _ _ H (escape_undivided v)).
  - unfold parse_pair. destruct (query_escape k ++ "="%char :: query_escape v) as [|c r] eqn:E; [destruct (query_escape k); discriminate|]. rewrite <- E. clear c r E. rewrite no_semicolon.
    + rewrite cut_at_equals by exact U. now rewrite !unescape_escape.
    + rewrite forallb_app. cbn [forallb]. assert (H : forall c, undivided c = true -> undivided c || byte_eqb c "=" = true) by (intros c ->; reflexivity).
      now rewrite (forallb_imp _ _ _ H U), (forallb_imp _ _ _ H (escape_undivided v)).
Qed.

Lemma pairs_arrive l : parse_query (encode_pairs l) = l.
Proof.
  unfold parse_query. induction l as [|[k v] l IH]; [reflexivity|]. destruct (pair_shape k v) as (_ & A & P). destruct l as [|q l].
  - cbn [encode_pairs]. rewrite split_end by exact A. cbn [flat_map]. now rewrite P.
  - change (encode_pairs ((k, v) :: q :: l)) with (query_escape k ++ "="%char :: query_escape v ++ "&"%char :: encode_pairs (q :: l)).
    replace (query_escape k ++ "="%char :: query_escape v ++ "&"%char :: encode_pairs (q :: l)) with ((query_escape k ++ "="%char :: query_escape v) ++ "&"%char :: encode_pairs (q :: l)) by now rewrite <- app_assoc.
    rewrite split_more by exact A. cbn [flat_map]. now rewrite IH, P.
Qed.

Lemma key_le_before a : forall b, key_le a b = true <-> before a b.
Proof.
  induction a as [|x a IH]; intros [|y b]; cbn [key_le]; try (split; [constructor|reflexivity]); [split; [discriminate|inversion 1]|].
  change bval with code. destruct (Z.ltb_spec (code x) (code y)) as [L|L]; [split; [now constructor|reflexivity]|]. destruct (Z.ltb_spec (code y) (code x)) as [M|M].
  - split; [discriminate|]. inversion 1; subst; lia.
  - rewrite IH. assert (x = y) as ->. { assert (code x = code y) as E by lia. revert E. change code with bval. intros E. apply bval_inj. exact E. }
    split; [apply BSame|]. inversion 1; subst; [lia|assumption].
Qed.
Lemma key_total a : forall b, key_le a b = false -> key_le b a = true.
Proof.
  induction a as [|x a IH]; intros [|y b]; cbn [key_le]; try discriminate; [reflexivity|]. destruct (Z.ltb_spec (bval x) (bval y)); [discriminate|]. destruct (Z.ltb_spec (bval y) (bval x)); [reflexivity|]. apply IH.
Qed.

Lemma before_refl k : before k k.
Proof. induction k; [apply BEmpty|now apply BSame]. Qed.

Lemma held_cons k kv f : held k (kv :: f) = (if bytes_eqb (fst kv) k then snd kv else []) ++ held k f.
Proof. unfold held. cbn [filter]. destruct (bytes_eqb (fst kv) k); reflexivity. Qed.
Lemma held_insert k x f : held k (insert_key x f) = held k (x :: f).
Proof.
  induction f as [|y f IH]; [reflexivity|]. cbn [insert_key]. destruct (key_le (fst x) (fst y)) eqn:L; [reflexivity|]. rewrite (held_cons k y), IH, !held_cons, !app_assoc. f_equal.
  destruct (bytes_eqb (fst y) k) eqn:A; [|rewrite app_nil_r; reflexivity]. destruct (bytes_eqb (fst x) k) eqn:B; [|rewrite app_nil_r; reflexivity].
  apply bytes_eqb_eq in A, B. exfalso. rewrite A, B in L. assert (key_le k k = true) as R; [|rewrite R in L; discriminate]. apply key_le_before, before_refl.
Qed.
Lemma held_sort k f : held k (sort_form f) = held k f.
Proof. induction f as [|x f IH]; [reflexivity|]. cbn [sort_form fold_right]. rewrite held_insert, !held_cons. f_equal. exact IH. Qed.

Lemma got_pairs k f : got k (form_pairs f) = held k f.
Proof.
  induction f as [|[k' vs] f IH]; [reflexivity|]. rewrite held_cons, <- IH. unfold got, form_pairs. cbn [flat_map fst snd]. rewrite filter_app, map_app. f_equal.
  induction vs as [|v vs IHv]; cbn [map filter fst]; [destruct (bytes_eqb k' k); reflexivity|]. destruct (bytes_eqb k' k); [cbn [map snd]; f_equal; exact IHv|exact IHv].
Qed.

Definition ordered (f : form) : Prop := Sorted (fun a b => before (fst a) (fst b)) f.
Lemma insert_sorted x f : ordered f -> ordered (insert_key x f).
Proof.
  unfold ordered. induction 1 as [|y f S IH H]; cbn [insert_key]; [repeat constructor|]. destruct (key_le (fst x) (fst y)) eqn:L.
  - constructor; [constructor; assumption|]. constructor. now apply key_le_before.
  - constructor; [exact IH|]. apply key_total, key_le_before in L. destruct f as [|z f]; cbn [insert_key]; [now constructor|]. destruct (key_le (fst x) (fst z)); [now constructor|]. inversion H. now constructor.
Qed.
Lemma sort_sorted f : ordered (sort_form f).
Proof. induction f as [|x f IH]; [constructor|]. cbn [sort_form fold_right]. apply insert_sorted, IH. Qed.

Lemma before_trans a : forall b c, before a b -> before b c -> before a c.
Proof.
  induction a as [|x a IH]; intros b c H K; [constructor|]. inversion H; subst; inversion K; subst; try (apply BLess; lia); try (apply BLess; assumption). apply BSame. eauto.
Qed.

Lemma pairs_sorted f : ordered f -> StronglySorted (fun a b => before (fst a) (fst b)) (form_pairs f).
Proof.
  intros O. apply Sorted_StronglySorted in O; [|intros x y z; apply before_trans]. induction O as [|[k vs] f O IH H]; [constructor|]. unfold form_pairs. cbn [flat_map fst snd].
  induction vs as [|v vs IHv]; [exact IH|]. cbn [map app]. constructor; [exact (IHv H)|]. apply Forall_app. split.
  - apply Forall_forall. intros p I. apply in_map_iff in I as (v' & <- & _). cbn [fst]. apply before_refl.
  - apply Forall_forall. intros [k' v'] I. cbn [fst]. apply pairs_in in I as (vs' & I & _). rewrite Forall_forall in H. exact (H _ I).
Qed.

Lemma form_encoded boundary ct f : f <> [] -> has_prefix ct (lit "application/x-www-form-urlencoded") = true ->
  exists t, prepare boundary None ct f [] = Sent (Some t) ct (Some (Z.of_nat (length t)))
    /\ (forall k, got k (parse_query t) = held k f) /\ StronglySorted (fun a b => before (fst a) (fst b)) (parse_query t).
Proof.
  intros N H. exists (encode_form f). split; [|unfold encode_form; rewrite pairs_arrive; split; [intros k; now rewrite got_pairs, held_sort|apply pairs_sorted, sort_sorted]].
  unfold prepare_body. cbn [content_type]. unfold add_form. assert (has_prefix ct (lit "multipart/form-data") = false) as ->.
  { destruct ct as [|c ct]; [reflexivity|]. cbn [has_prefix lit list_ascii_of_string] in *. apply andb_prop in H as [H _]. apply byte_eqb_eq in H. subst c. reflexivity. }
  cbn [andb orb length Nat.eqb negb]. rewrite H. destruct f; [contradiction|]. reflexivity.
Qed.
End Body.

(* a struct, map or list arrives as its JSON *)
Lemma value_json sniff esc opened closed boundary k j x : plain_json j -> (k = KStruct \/ k = KMap \/ k = KPtr \/ k = KSlice) ->
  exists t, prepare_body sniff esc opened closed boundary (Some (PValue k (inl j) x)) [] [] [] = Sent (Some (t ++ [chr 10])) (list_ascii_of_string "application/json; charset=utf-8") None /\ spells j t.
Proof.
  intros P K. exists (print j). split; [|now apply print_spells]. apply post_sent. split; [apply LValue; left; auto|]. split; [|split; [|reflexivity]].
  - constructor. apply json_checked. reflexivity.
  - intros E. apply app_eq_nil in E as [_ E]. discriminate.
Qed.

(* ---- cases ---- *)

Lemma not_json : ~ exists j, spells j (lit "hello").
Proof.
  intros (j & H). remember (lit "hello") as t eqn:E. destruct H as [| | |t H|s q H| | | |]; try discriminate E.
  - destruct H as (g & w & f & e & -> & G & W & _). destruct G as [->| ->]; [|discriminate E]. cbn [app] in E. destruct W as [->|[[W0 W] _]]; [discriminate E|].
    destruct w as [|c w]; [contradiction|]. injection E as -> _. inversion W as [|? ? R _]; subst. vm_compute in R. destruct R as [_ R]. contradiction R. reflexivity.
  - destruct H as (q' & _ & ->). discriminate E.
Qed.

Section Cases.
Context (sniff esc : bytes -> bytes) (opened : bytes -> option bytes) (closed : bytes -> bytes) (boundary : bytes).
Local Notation prepare := (prepare_body sniff esc opened closed boundary).

Lemma label_wrong : exists p b, prepare (Some p) [] [] [] = Sent (Some b) (lit "application/json; charset=utf-8") None /\ ~ exists j, spells j b.
Proof. exists (PTextAt (Some (lit "hello"))), (lit "hello"). split; [reflexivity|exact not_json]. Qed.

Lemma empty_wrong ct : prepare (Some (PText [])) ct [] [] = Refused (lit "invalid body type " ++ (match ct with [] => lit "text/plain; charset=utf-8" | _ => ct end) ++ [chr 10]).
Proof. destruct ct; reflexivity. Qed.

Lemma number_wrong x : prepare (Some (PValue KOther (inl (JNum (lit "7"))) x)) [] [] [] = Refused (lit "invalid body type text/plain; charset=utf-8" ++ [chr 10]).
Proof. reflexivity. Qed.

Lemma nil_panics : prepare (Some (PTextAt None)) [] [] [] = Panicked.
Proof. reflexivity. Qed.

Lemma path_wrong : (forall path, opened path = None) -> prepare None (lit "multipart/form-data") [(lit "@file", [lit "a.txt"])] [] = Refused (closed (lit "a.txt")).
Proof.
  intros O. change (prepare None (lit "multipart/form-data") [(lit "@file", [lit "a.txt"])] []) with (Refused (add_file opened closed (lit "a.txt"))).
  unfold add_file. now rewrite O.
Qed.

Lemma form_case : (forall s, esc s = s) -> ~ has_path [(lit "a", [lit "1"; lit "2"])] /\ exists n,
  prepare None (lit "multipart/form-data") [(lit "a", [lit "1"; lit "2"])] [("f", mkUpload (lit "x") [])]
  = Sent (Some (lit "--" ++ boundary ++ crlf ++ lit "Content-Disposition: form-data; name=""a""" ++ crlf ++ crlf ++ lit "1" ++ crlf ++ lit "--" ++ boundary ++ crlf
                ++ lit "Content-Disposition: form-data; name=""a""" ++ crlf ++ crlf ++ lit "2" ++ crlf ++ lit "--" ++ boundary ++ lit "--" ++ crlf))
         (lit "multipart/form-data; boundary=" ++ boundary) (Some n).
Proof.
  intros E. split; [intros (k & v & vs & [H|[]]); discriminate H|]. eexists. unfold prepare_body, add_form. cbn [content_type].
  match goal with |- context [first_path ?l] => change (first_path l) with (@None bytes) end. cbn [andb orb has_prefix lit list_ascii_of_string byte_eqb Ascii.eqb Bool.eqb length Nat.eqb negb].
  unfold form_text, form_end. cbn [form_pairs flat_map map app fst snd join_parts file_parts filter upBytes upName]. unfold field_part, part_start. cbn [fst snd]. rewrite E. f_equal. f_equal.
  rewrite <- !app_assoc. reflexivity.
Qed.

Lemma body_case : prepare (Some (PText (lit "hi"))) [] [] [] = Sent (Some (lit "hi")) (lit "text/plain; charset=utf-8") None
  /\ prepare (Some (PValue KStruct (inl (JObj [(lit "a", JNull)])) (inr []))) (lit "TEXT/vnd.x+JSON") [] [] = Sent (Some (lit "{""a"":null}" ++ [chr 10])) (lit "TEXT/vnd.x+JSON") None
  /\ prepare None (lit "application/x-www-form-urlencoded") [(lit "b", [lit "2"; lit "3"]); (lit "a", [lit "x y"])] [] = Sent (Some (lit "a=x+y&b=2&b=3")) (lit "application/x-www-form-urlencoded") (Some 13).
Proof. repeat split; vm_compute; reflexivity. Qed.
End Cases.

Lemma types_case : json_type (lit "application/json") /\ json_type (lit "x text/VND.a+b+json; y") /\ ~ json_type (lit "application/xml") /\ ~ json_type (lit "text/vnd.;+json")
  /\ ~ json_type (lit "text/vnd.+json") /\ xml_type (lit "text/xml") /\ ~ xml_type (lit "image/xml").
Proof.
  repeat split; try (apply json_checked; reflexivity); try (apply xml_checked; reflexivity); intros H; (apply json_checked in H || apply xml_checked in H); vm_compute in H; discriminate H.
Qed.
Lemma both_case sniff : labelled sniff (PText (lit "a")) (lit "multipart/form-data; x") (lit "multipart/form-data; x")
  /\ given (PText (lit "a")) (lit "multipart/form-data; x") (lit "a") /\ complains (PText []) (lit "a") (lit "invalid body type a" ++ [chr 10]).
Proof. split; [apply LAsked; discriminate|]. split; [constructor|]. exact (CEmpty (PText []) (lit "a") (GText [] (lit "a"))). Qed.
