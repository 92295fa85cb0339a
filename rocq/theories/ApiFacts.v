(* Histories of calls *)
From Coq Require Import ZArith NArith Bool Ascii String List Lia.
Import ListNotations.
From Verif Require Import GoBase GoBaseFacts GoTime Tables Codec Records File
  SpecCodec SpecLayouts SpecRecords SpecFile SpecValidate SpecCounters SpecApi
  TimeFacts FieldFacts RecordFacts RoundTrip FieldProps ParseFacts ValidateFacts CounterFacts CounterProps Check.
Local Open Scope string_scope.
Local Open Scope Z_scope.
Local Open Scope list_scope.
Local Notation length := List.length.

Lemma new_file_ok format f : new_file format = Ok f -> file_ok f.
Proof.
  unfold new_file. destruct (bytes_eqb _ _); [intros [= <-]|destruct (bytes_eqb _ _); [intros [= <-]|discriminate]];
    repeat split; try (eexists; reflexivity); try constructor.
Qed.

Lemma set_record_ok f r : file_ok f -> record_ok r -> file_ok (fst (file_set_record f r)).
Proof.
  intros O R. unfold file_set_record. destruct (record_validate r); [exact O|].
  destruct O as (H1 & H2 & H3 & H4 & H5). destruct f as [p h bs t]. cbn [flPacked flHeader flBases flTrailer] in *.
  destruct p, r as [[] x|[] x|[] x]; cbn; repeat split; auto; try (eexists; reflexivity).
  all: apply R.
Qed.

Lemma add_data_record_ok f r : file_ok f -> record_ok r -> file_ok (fst (file_add_data_record f r)).
Proof.
  intros O R. unfold file_add_data_record. destruct (record_validate r); [exact O|].
  destruct O as (H1 & H2 & H3 & H4 & H5). destruct f as [p h bs t]. cbn [flPacked flHeader flBases flTrailer] in *.
  destruct p, r as [[] x|[] x|[] x]; cbn; repeat split; auto; apply Forall_app;
    (split; [exact H3|constructor; [split; [eexists; reflexivity|exact R]|constructor]]).
Qed.

Lemma convert_bases_spec p l : Forall (fun r => is_base (negb p) r) l ->
  exists l', convert_bases p l = Some l' /\ Forall2 same_record l l' /\ Forall (is_base p) l'.
Proof.
  induction 1 as [|r l [b ->] H (l' & E & S & I)]; [exists []; repeat split; constructor|].
  exists (RBase p b :: l'). unfold convert_bases. cbn [fold_right]. fold (convert_bases p l). rewrite E, eqb_reflx.
  repeat split; constructor; auto; [reflexivity|exists b; reflexivity].
Qed.

Lemma same_record_ok r r' : same_record r r' -> record_ok r -> record_ok r'.
Proof. destruct r, r'; cbn; try contradiction; intros <-; auto. Qed.

Lemma set_type_same f p : file_ok f -> exists f', file_set_type f (type_name p) = (f', None)
  /\ flPacked f' = p /\ same_contents f f' /\ file_ok f'.
Proof.
  intros (H1 & H2 & H3 & H4 & H5).
  assert (same_contents f f) as Refl.
  { destruct H1 as [h Eh], H4 as [t Et]. repeat split; [rewrite Eh; reflexivity| |rewrite Et; reflexivity].
    clear -H3. induction H3 as [|r l [[b ->] _] H IH]; constructor; [reflexivity|exact IH]. }
  unfold file_set_type.
  assert (negb (bytes_eqb (type_name p) (lit "character")) && negb (bytes_eqb (type_name p) (lit "packed")) = false) as -> by (destruct p; reflexivity).
  assert (bytes_eqb (format_name (flPacked f)) (type_name p) = Bool.eqb (flPacked f) p) as -> by (destruct p, (flPacked f); reflexivity).
  destruct (Bool.eqb (flPacked f) p) eqn:E.
  - exists f. apply eqb_prop in E. split; [reflexivity|]. split; [exact E|]. split; [exact Refl|]. repeat split; auto.
  - assert (bytes_eqb (type_name p) (lit "packed") = p) as -> by (destruct p; reflexivity).
    assert (flPacked f = negb p) as Ep by (clear -E; destruct p, (flPacked f); cbn in *; congruence).
    rewrite Ep in *. destruct H1 as [h Eh], H4 as [t Et]. rewrite Eh in *. rewrite eqb_reflx. cbn [negb set_header flBases flTrailer].
    destruct (convert_bases_spec p (flBases f)) as (l' & C & S & I).
    { clear -H3. revert H3. apply Forall_impl. tauto. }
    rewrite C. cbn [set_bases flTrailer set_header flHeader flBases]. rewrite Et in *. rewrite eqb_reflx. cbn [negb].
    eexists. split; [reflexivity|]. cbn [flPacked flHeader flBases flTrailer]. split; [reflexivity|].
    split; [split; [|split]; cbn; [rewrite Eh; reflexivity|exact S|rewrite Et; reflexivity]|].
    split; [exists h; reflexivity|]. split; [exact H2|]. split; [|split; [exists t; reflexivity|exact H5]].
    clear -S I H3. induction S as [|r r' l l' S _ IH]; constructor.
    + inversion I; subst. split; [assumption|]. inversion H3 as [|? ? [_ Or] ?]; subst. revert Or. apply same_record_ok. exact S.
    + inversion I; inversion H3; subst. auto.
Qed.

Lemma set_type_unknown f t : t <> type_name true -> t <> type_name false -> exists e, file_set_type f t = (f, Some e).
Proof.
  intros A B. unfold file_set_type.
  apply bytes_eqb_neq in A, B. unfold type_name in *. unfold lit. rewrite A, B. eexists. reflexivity.
Qed.

Lemma bytes_dec (a b : bytes) : {a = b} + {a <> b}.
Proof. destruct (bytes_eqb a b) eqn:E; [left; apply bytes_eqb_eq; exact E|right; apply bytes_eqb_neq; exact E]. Qed.

Lemma set_type_ok f t : file_ok f -> file_ok (fst (file_set_type f t)).
Proof.
  intros O. destruct (bytes_dec t (type_name true)) as [->|A].
  - destruct (set_type_same f true O) as (f' & -> & _ & _ & O'). exact O'.
  - destruct (bytes_dec t (type_name false)) as [->|B].
    + destruct (set_type_same f false O) as (f' & -> & _ & _ & O'). exact O'.
    + destruct (set_type_unknown f t A B) as [e ->]. exact O.
Qed.

Lemma replace_nth_Forall {A} (P : A -> Prop) x : forall l i, P x -> Forall P l -> Forall P (replace_nth i x l).
Proof.
  intros l i Px H. revert i. induction H as [|y l Py H IH]; intros [|i]; cbn; auto.
Qed.

Lemma add_segment_ok s r p : seg_typed s -> is_base p r -> record_ok r ->
  is_base p (fst (record_add_segment s r)) /\ record_ok (fst (record_add_segment s r)).
Proof.
  intros T [b ->] O. cbn [record_add_segment]. unfold base_add_segment.
  destruct (seg_validate s); [split; [exists b; reflexivity|exact O]|].
  split; [eexists; reflexivity|]. cbn. destruct O as [[Tb P] F].
  split; [split; [rewrite put_fields; exact Tb|apply put_placed; exact P]|apply put_forall; assumption].
Qed.

(* whatever the file, a generated trailer has the fields of a trailer *)
Lemma fold_steps_panic p l : fold_left (step p) l Panic = Panic.
Proof. induction l; [reflexivity|exact IHl]. Qed.

Lemma fold_steps_any packed l : Forall (fun r => is_base packed r /\ record_ok r) l -> forall st,
  fold_left (step packed) l (Ok st) = Ok (fold_left incr (flat_map part_counters (parts l)) st).
Proof.
  induction 1 as [|r l [[b ->] R] H IH]; intros st; [reflexivity|]. cbn [fold_left step].
  rewrite eqb_reflx, IH. unfold parts. cbn [flat_map]. rewrite flat_map_app, fold_left_app.
  rewrite (base_counters_parts b) by (apply R). reflexivity.
Qed.

Lemma generate_any packed l : Forall (fun r => is_base packed r /\ record_ok r) l ->
  exists info, generate_information packed l = Ok info /\ has_type trailer_struct info.
Proof.
  intros H. eexists. split; [apply (fold_steps_any packed l H)|]. apply information_types.
Qed.

Lemma set_typed s st n v : has_type s st -> NoDup (map fst s) -> In (n, kind_of v) s -> has_type s (set_field n v st).
Proof.
  intros T ND I. unfold has_type. transitivity (types st); [|exact T].
  apply set_field_types. apply can_assign_spec. rewrite <- T in I.
  apply in_map_iff in I as ([m w] & [= -> K] & I). exists w. split; [|symmetry; exact K].
  apply In_lookup; [|exact I]. rewrite (has_type_names _ _ T). exact ND.
Qed.

Lemma generate_trailer_any f : file_ok f ->
  exists t, file_generate_trailer f = Ok (RTrailer (flPacked f) t) /\ has_type trailer_struct t.
Proof.
  intros (_ & _ & B & _). unfold file_generate_trailer. destruct (generate_any _ _ B) as (info & -> & T).
  eexists. split; [reflexivity|].
  apply set_typed; [apply set_typed; [exact T|exact trailer_names_nodup|cbn [kind_of]; field]|exact trailer_names_nodup|cbn [kind_of]; field].
Qed.

Lemma validate_any f : file_ok f -> file_validate f <> Panic.
Proof.
  intros (_ & _ & B & _). unfold file_validate.
  destruct (record_validate (flHeader f)); [discriminate|]. destruct (record_validate (flTrailer f)); [discriminate|].
  destruct (first_error _ _); [discriminate|]. destruct (generate_any _ _ B) as (info & -> & _).
  destruct (compare_information _ _); discriminate.
Qed.

Lemma called_ok f c f' : file_ok f -> call_ok c -> called f c f' -> file_ok f'.
Proof.
  intros O C H. destruct H as [r|r|t|input iv fuel f' r E|i s r E|t E]; cbn [call_ok] in C.
  - apply set_record_ok; assumption.
  - apply add_data_record_ok; assumption.
  - apply set_type_ok; assumption.
  - apply (file_parse_ok fuel f input iv f' r); assumption.
  - destruct O as (H1 & H2 & H3 & H4 & H5). repeat split; auto. cbn.
    apply replace_nth_Forall; [|exact H3].
    apply nth_error_In in E. pose proof (proj1 (Forall_forall _ _) H3 r E) as [I R]. apply add_segment_ok; assumption.
  - apply set_record_ok; [exact O|]. destruct (generate_trailer_any f O) as (t' & E' & T). rewrite E' in E.
    injection E as <-. exact T.
Qed.

Lemma reachable_ok f : reachable f -> file_ok f.
Proof.
  induction 1 as [format f E|f c f' H IH C E]; [apply (new_file_ok format); exact E|apply (called_ok f c); assumption].
Qed.

Lemma reachable_no_panic f : reachable f ->
  file_ok f /\ (exists t, file_generate_trailer f = Ok (RTrailer (flPacked f) t) /\ has_type trailer_struct t)
  /\ file_validate f <> Panic.
Proof.
  intros H. apply reachable_ok in H. split; [exact H|]. split; [apply generate_trailer_any|apply validate_any]; exact H.
Qed.

(* ---- SetType there and back ---- *)

Lemma same_unique f f' g : same_contents f f' -> same_contents f g -> flPacked f' = flPacked g ->
  file_ok f' -> file_ok g -> f' = g.
Proof.
  intros (A1 & A2 & A3) (B1 & B2 & B3) P (F1 & _ & F3 & F4 & _) (G1 & _ & G3 & G4 & _).
  destruct f' as [p h bs t], g as [q h' bs' t']. cbn in *. subst q.
  destruct F1 as [x ->], F4 as [y ->], G1 as [x' ->], G4 as [y' ->].
  assert (RHeader p x = RHeader p x') as <- by (destruct (flHeader f); cbn in *; try contradiction; congruence).
  assert (RTrailer p y = RTrailer p y') as <- by (destruct (flTrailer f); cbn in *; try contradiction; congruence).
  f_equal. clear -A2 B2 F3 G3. revert bs' B2 G3. induction A2 as [|r r' l l' S _ IH]; intros bs' B G.
  - inversion B. reflexivity.
  - inversion B as [|? s ? m S' B']; subst. inversion F3 as [|? ? [[b ->] _] F]; inversion G as [|? ? [[b' ->] _] G']; subst.
    f_equal; [|apply IH; assumption]. destruct r; cbn in *; try contradiction. congruence.
Qed.

Lemma same_sym f g : same_contents f g -> same_contents g f.
Proof.
  assert (forall r s, same_record r s -> same_record s r) as S by (intros [] []; cbn; auto).
  intros (A & B & C). repeat split; auto. clear -B S. induction B; constructor; auto.
Qed.

Lemma same_trans f g h : same_contents f g -> same_contents g h -> same_contents f h.
Proof.
  assert (forall r s t, same_record r s -> same_record s t -> same_record r t) as S
    by (intros [] [] []; cbn; try contradiction; congruence).
  intros (A & B & C) (A' & B' & C'). repeat split; eauto. clear -B B' S. revert B'. generalize (flBases h).
  induction B; intros m B'; inversion B'; subst; constructor; eauto.
Qed.

Lemma there_and_back f p q f1 f2 : file_ok f -> file_set_type f (type_name p) = (f1, None) ->
  file_set_type f1 (type_name q) = (f2, None) -> flPacked f = q -> f2 = f.
Proof.
  intros O E1 E2 Q. destruct (set_type_same f p O) as (g1 & G1 & _ & S1 & O1). rewrite E1 in G1. injection G1 as <-.
  destruct (set_type_same f1 q O1) as (g2 & G2 & P2 & S2 & O2). rewrite E2 in G2. injection G2 as <-.
  apply (same_unique f1); auto; [apply same_sym; exact S1|congruence].
Qed.

(* ---- SetType and validity ---- *)

Definition must_names (doc : list doc_field) : list string := map dName (filter dMust doc).

Lemma complete_names doc doc' st : must_names doc = must_names doc' -> complete doc st -> complete doc' st.
Proof.
  intros E C d v I M H.
  assert (In (dName d) (must_names doc)) as J.
  { rewrite E. unfold must_names. apply in_map. apply filter_In. auto. }
  unfold must_names in J. apply in_map_iff in J as (d' & N & J). apply filter_In in J as [J M'].
  apply (C d' v J M'). rewrite N. exact H.
Qed.

Lemma record_valid_same r r' (p : bool) : record_valid r -> same_record r r' ->
  (match r' with RHeader q _ | RBase q _ | RTrailer q _ => q end = p) ->
  (p = true -> match r with RBase false b => forall s, holds (bFields b) "PaymentHistoryProfile" (VStr s) -> ~ In "Z"%char s | _ => True end) ->
  record_valid r'.
Proof.
  destruct r as [q h|q b|q t], r' as [q' h'|q' b'|q' t']; cbn [same_record record_valid]; try contradiction; intros V <- <- Z.
  - revert V. apply complete_names. destruct q, q'; vm_compute; reflexivity.
  - destruct V as [V R]. split; [revert V; apply complete_names; destruct q, q'; vm_compute; reflexivity|].
    destruct R as (R1 & R2 & R3 & R4 & R5 & R6 & R7 & R8 & R9).
    repeat (split; [assumption|]). split; [|exact R9].
    intros s H. destruct (R8 s H) as [L F]. split; [exact L|].
    destruct q, q'; try exact F.
    + revert F. apply Forall_impl. cbv beta. intros c. unfold history_codes. cbn. tauto.
    + specialize (Z eq_refl s H). rewrite Forall_forall in *. intros c Ic. specialize (F c Ic). unfold history_codes in *.
      cbn in F |- *. assert (c <> "Z"%char) by (intros ->; contradiction). intuition congruence.
  - revert V. apply complete_names. destruct q, q'; vm_compute; reflexivity.
Qed.

Lemma counters_same l l' t : Forall2 same_record l l' -> counters_right l t -> counters_right l' t.
Proof.
  intros S [R B].
  assert (parts l' = parts l) as E.
  { unfold parts. clear -S. induction S as [|r r' l l' S _ IH]; [reflexivity|]. cbn [flat_map]. rewrite IH.
    destruct r, r'; cbn in S; try contradiction; subst; reflexivity. }
  assert (length l' = length l) as L by (symmetry; clear -S; induction S; cbn; auto).
  split; [rewrite E; exact R|rewrite L; exact B].
Qed.

Lemma same_times r r' : same_record r r' -> record_times r -> record_times r'.
Proof. destruct r, r'; cbn; try contradiction; intros <-; auto. Qed.

Lemma set_type_valid f p f' : file_ok f -> file_times f -> file_validate f = Ok tt ->
  (p = true -> flPacked f = false -> no_new_accounts f) ->
  file_set_type f (type_name p) = (f', None) -> file_validate f' = Ok tt.
Proof.
  intros O G V Z E. destruct (set_type_same f p O) as (g & E' & P & S & O'). rewrite E in E'. injection E' as <-.
  apply file_validate_spec in V as (V1 & V2 & V3 & V4); [|exact O|exact G].
  pose proof S as (S1 & S2 & S3). destruct G as (G1 & G2 & G3).
  pose proof O' as ([h Eh] & _ & Ob & [t Et] & _).
  apply file_validate_spec; [exact O'|..].
  - split; [apply (same_times _ _ S1 G1)|]. split; [|apply (same_times _ _ S3 G3)].
    clear -S2 G2. induction S2; inversion G2; subst; constructor; auto. eapply same_times; eauto.
  - split; [|split; [|split]].
    + apply (record_valid_same _ _ (flPacked f') V1 S1); [rewrite Eh; reflexivity|].
      destruct (flHeader f), (flHeader f'); cbn in S1; try contradiction; auto. discriminate Eh.
    + apply (record_valid_same _ _ (flPacked f') V2 S3); [rewrite Et; reflexivity|].
      destruct (flTrailer f), (flTrailer f'); cbn in S3; try contradiction; auto. discriminate Et.
    + pose proof O as (_ & _ & Ofb & _).
      assert (Forall (fun r => p = true -> match r with RBase false b => forall s, holds (bFields b) "PaymentHistoryProfile" (VStr s) -> ~ In "Z"%char s | _ => True end) (flBases f)) as ZZ.
      { rewrite Forall_forall. intros r Ir Hp. destruct r as [|[] b|]; auto.
        pose proof (proj1 (Forall_forall _ _) Ofb _ Ir) as [[b' Eb] _]. injection Eb as Eb _.
        specialize (Z Hp (eq_sym Eb)). unfold no_new_accounts in Z. rewrite Forall_forall in Z. apply (Z _ Ir). }
      rewrite P in Ob. clear -V3 S2 Ob ZZ. induction S2 as [|r r' l l' S _ IH]; constructor; inversion V3; inversion Ob as [|? ? [[b Eb] _] ?]; inversion ZZ; subst; auto.
      apply (record_valid_same r _ p); auto.
    + assert (record_fields (flTrailer f') = record_fields (flTrailer f)) as ->
        by (destruct (flTrailer f), (flTrailer f'); cbn in S3 |- *; try contradiction; congruence).
      apply (counters_same (flBases f)); assumption.
Qed.

(* ---- adding segments and records ---- *)

Lemma put_added s b : segment_added s b (put_segment s b).
Proof.
  split; [apply put_fields|]. unfold put_segment.
  intros k. destruct (sKind s), k; cbn; rewrite ?app_nil_r; reflexivity.
Qed.

Lemma add_segment_spec s b : exists b' e, base_add_segment s b = (b', e) /\
  ((e = None /\ seg_validate s = None /\ segment_added s b b')
   \/ (e <> None /\ seg_validate s <> None /\ b' = b)).
Proof.
  unfold base_add_segment. destruct (seg_validate s) eqn:V; do 2 eexists; (split; [reflexivity|]).
  - right. repeat split; discriminate.
  - left. split; [reflexivity|]. split; [reflexivity|]. apply put_added.
Qed.

Lemma set_record_spec f r : file_ok f -> exists f' e, file_set_record f r = (f', e) /\
  ((e = None /\ record_validate r = None /\
      (is_header (flPacked f) r /\ f' = mkFile (flPacked f) r (flBases f) (flTrailer f)
       \/ is_trailer (flPacked f) r /\ f' = mkFile (flPacked f) (flHeader f) (flBases f) r))
   \/ (e <> None /\ f' = f /\
       (record_validate r <> None \/ ~ is_header (flPacked f) r /\ ~ is_trailer (flPacked f) r))).
Proof.
  intros _. unfold file_set_record. destruct (record_validate r) as [e|] eqn:V.
  - exists f, (Some e). split; [reflexivity|]. right. repeat split; [discriminate|]. left. discriminate.
  - destruct f as [p h bs t], p, r as [[] x|[] x|[] x]; do 2 eexists; (split; [reflexivity|]);
      first [ left; split; [reflexivity|]; split; [reflexivity|];
              first [left; split; [eexists; reflexivity|reflexivity] | right; split; [eexists; reflexivity|reflexivity]]
            | right; split; [discriminate|]; split; [reflexivity|]; right; split; intros [y [=]] ].
Qed.

Lemma add_data_record_spec f r : exists f' e, file_add_data_record f r = (f', e) /\
  ((e = None /\ record_validate r = None /\ is_base (flPacked f) r
      /\ f' = mkFile (flPacked f) (flHeader f) (flBases f ++ [r]) (flTrailer f))
   \/ (e <> None /\ f' = f /\ (record_validate r <> None \/ ~ is_base (flPacked f) r))).
Proof.
  unfold file_add_data_record. destruct (record_validate r) as [e|] eqn:V.
  - exists f, (Some e). split; [reflexivity|]. right. repeat split; [discriminate|]. left. discriminate.
  - destruct f as [p h bs t], p, r as [[] x|[] x|[] x]; do 2 eexists; (split; [reflexivity|]);
      first [ left; split; [reflexivity|]; split; [reflexivity|]; split; [eexists; reflexivity|reflexivity]
            | right; split; [discriminate|]; split; [reflexivity|]; right; intros [y [=]] ].
Qed.

(* any number of additions *)
Lemma put_of_kind k s b : segs_of k (put_segment s b) =
  if segkind_eqb (sKind s) k then (match k with J1 | J2 => segs_of k b ++ [s] | _ => [s] end) else segs_of k b.
Proof. unfold put_segment. destruct (sKind s), k; reflexivity. Qed.

Definition add_all (l : list segment) (b : base) : base := fold_left (fun b s => fst (base_add_segment s b)) l b.

Lemma add_all_consumers k l : k = J1 \/ k = J2 -> forall b,
  segs_of k (add_all l b) = segs_of k b ++ filter (fun s => segkind_eqb (sKind s) k && match seg_validate s with None => true | _ => false end) l.
Proof.
  intros K. unfold add_all. induction l as [|s l IH]; intros b; [symmetry; apply app_nil_r|].
  cbn [fold_left filter]. rewrite IH. unfold base_add_segment. destruct (seg_validate s); cbn [fst].
  - rewrite andb_false_r. reflexivity.
  - rewrite andb_true_r, put_of_kind. destruct (segkind_eqb (sKind s) k); [|reflexivity].
    destruct K as [->| ->]; rewrite <- app_assoc; reflexivity.
Qed.

Lemma add_all_others k l : k <> J1 -> k <> J2 -> forall b,
  segs_of k (add_all l b) =
  match rev (filter (fun s => segkind_eqb (sKind s) k && match seg_validate s with None => true | _ => false end) l) with
  | [] => segs_of k b
  | s :: _ => [s]
  end.
Proof.
  intros N1' N2'. unfold add_all. induction l as [|s l IH] using rev_ind; intros b; [reflexivity|].
  rewrite fold_left_app, filter_app, rev_app_distr. cbn [fold_left filter].
  unfold base_add_segment at 1. destruct (seg_validate s); cbn [fst].
  - rewrite andb_false_r. apply IH.
  - rewrite andb_true_r, put_of_kind. destruct (segkind_eqb (sKind s) k); cbn [rev app]; [|apply IH].
    destruct k; congruence.
Qed.

Lemma add_all_spec l b k :
  let accepted := filter (fun s => segkind_eqb (sKind s) k && match seg_validate s with None => true | _ => false end) l in
  segs_of k (fold_left (fun b s => fst (base_add_segment s b)) l b) =
  match k with
  | J1 | J2 => segs_of k b ++ accepted
  | _ => match rev accepted with [] => segs_of k b | s :: _ => [s] end
  end.
Proof.
  destruct k; cbv zeta; try (apply (add_all_consumers _ l); auto); apply (add_all_others _ l); discriminate.
Qed.

Lemma add_refused s r : (exists p h, r = RHeader p h) \/ (exists p t, r = RTrailer p t) ->
  exists e, record_add_segment s r = (r, Some e).
Proof. intros [(p & h & ->)|(p & t & ->)]; eexists; reflexivity. Qed.
