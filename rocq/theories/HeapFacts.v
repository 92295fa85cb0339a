(* Memory: what allocation, assignment and append leave unchanged *)
From Coq Require Import ZArith NArith Bool Ascii String List Lia.
Import ListNotations.
From Verif Require Import GoBase GoTime Tables Codec Records File
  SpecCodec SpecLayouts SpecRecords SpecFile SpecValidate SpecCounters SpecApi Heap SpecHeap.
Local Open Scope string_scope.
Local Open Scope nat_scope.
Local Open Scope list_scope.
Local Notation length := List.length.

(* ---- lists ---- *)

Lemma upd_length {A} i (x : A) l : length (upd i x l) = length l.
Proof. revert i. induction l; destruct i; cbn; auto. Qed.

Lemma nth_upd {A} i j (x d : A) l : nth j (upd i x l) d = if (Nat.eqb i j && Nat.ltb i (length l))%bool then x else nth j l d.
Proof.
  revert i j. induction l as [|y l IH]; intros i j.
  - destruct i, j; cbn; rewrite ?andb_false_r; reflexivity.
  - destruct i, j; cbn; try reflexivity. rewrite IH. reflexivity.
Qed.

Lemma nth_upd_same {A} i (x d : A) l : i < length l -> nth i (upd i x l) d = x.
Proof. intros H. rewrite nth_upd, Nat.eqb_refl. apply Nat.ltb_lt in H. rewrite H. reflexivity. Qed.

Lemma nth_upd_other {A} i j (x d : A) l : i <> j -> nth j (upd i x l) d = nth j l d.
Proof. intros H. rewrite nth_upd. apply Nat.eqb_neq in H. rewrite H. reflexivity. Qed.

Lemma nth_error_upd_same {A} i (x : A) l : i < length l -> nth_error (upd i x l) i = Some x.
Proof. revert i. induction l; destruct i; cbn; intros H; try lia; auto. apply IHl. lia. Qed.

Lemma nth_error_upd_other {A} i j (x : A) l : i <> j -> nth_error (upd i x l) j = nth_error l j.
Proof. revert i j. induction l; destruct i, j; cbn; intros H; try congruence; auto. Qed.

Lemma firstn_upd {A} n m (x : A) l : n <= m -> firstn n (upd m x l) = firstn n l.
Proof. revert n m. induction l; destruct n, m; cbn; intros H; try reflexivity; try lia. f_equal. apply IHl. lia. Qed.

Lemma firstn_S_upd {A} n (x : A) l : n < length l -> firstn (S n) (upd n x l) = firstn n l ++ [x].
Proof. revert n. induction l; destruct n; cbn; intros H; try lia; auto. f_equal. rewrite <- IHl by lia. reflexivity. Qed.

Lemma In_upd {A} i (x y : A) l : In y (upd i x l) -> y = x \/ In y l.
Proof. revert i. induction l; destruct i; cbn; intros H; auto; destruct H as [H|H]; auto. destruct (IHl _ H); auto. Qed.

(* ---- memory that is in order ---- *)

Definition wf_slice (h : heap) (sl : slice) : Prop :=
  match sl with
  | Nil => True
  | Slice a n => a < length (hArrays h) /\ n <= length (nth a (hArrays h) [])
      /\ Forall (fun s => s < length (hSegments h)) (firstn n (nth a (hArrays h) []))
  end.

Definition wf_option (h : heap) (o : option nat) : Prop :=
  match o with Some s => s < length (hSegments h) | None => True end.

Definition wf_base (h : heap) (b : hbase) : Prop :=
  wf_slice h (hbJ1 b) /\ wf_slice h (hbJ2 b) /\ wf_option h (hbK1 b) /\ wf_option h (hbK2 b)
  /\ wf_option h (hbK3 b) /\ wf_option h (hbK4 b) /\ wf_option h (hbL1 b) /\ wf_option h (hbN1 b).

Definition wf_cell (h : heap) (c : hrecord) : Prop :=
  match c with HBase _ b => wf_base h b | _ => True end.

Definition wf (h : heap) : Prop := forall r, r < length (hRecords h) -> wf_cell h (cell h r).

(* more memory *)
Definition grown (h h' : heap) : Prop :=
  (exists l, hSegments h' = hSegments h ++ l) /\ (exists l, hArrays h' = hArrays h ++ l)
  /\ (exists l, hRecords h' = hRecords h ++ l).

Lemma grown_refl h : grown h h.
Proof. repeat split; exists []; symmetry; apply app_nil_r. Qed.

Lemma grown_trans h1 h2 h3 : grown h1 h2 -> grown h2 h3 -> grown h1 h3.
Proof.
  intros ((a & A) & (b & B) & (c & C)) ((a' & A') & (b' & B') & (c' & C')).
  repeat split; eexists; [rewrite A', A|rewrite B', B|rewrite C', C]; symmetry; apply app_assoc.
Qed.

Lemma grown_seg h h' s : grown h h' -> s < length (hSegments h) -> seg_value h' s = seg_value h s.
Proof. intros ((l & E) & _) L. unfold seg_value. rewrite E, app_nth1 by exact L. reflexivity. Qed.

Lemma grown_array h h' a : grown h h' -> a < length (hArrays h) -> nth a (hArrays h') [] = nth a (hArrays h) [].
Proof. intros (_ & (l & E) & _) L. rewrite E, app_nth1 by exact L. reflexivity. Qed.

Lemma grown_cell h h' r : grown h h' -> r < length (hRecords h) -> cell h' r = cell h r.
Proof. intros (_ & _ & (l & E)) L. unfold cell. rewrite E, app_nth1 by exact L. reflexivity. Qed.

Lemma grown_lengths h h' : grown h h' -> length (hSegments h) <= length (hSegments h')
  /\ length (hArrays h) <= length (hArrays h') /\ length (hRecords h) <= length (hRecords h').
Proof. intros ((a & A) & (b & B) & (c & C)). rewrite A, B, C, !app_length. lia. Qed.

Lemma grown_refs h h' sl : grown h h' -> wf_slice h sl -> slice_refs h' sl = slice_refs h sl.
Proof. intros G W. destruct sl; [reflexivity|]. cbn. rewrite (grown_array _ _ _ G) by apply W. reflexivity. Qed.

Lemma wf_slice_refs h sl : wf_slice h sl -> Forall (fun s => s < length (hSegments h)) (slice_refs h sl).
Proof. destruct sl; cbn; [constructor|]. intros (_ & _ & H). exact H. Qed.

Lemma grown_slice h h' sl : grown h h' -> wf_slice h sl ->
  map (seg_value h') (slice_refs h' sl) = map (seg_value h) (slice_refs h sl).
Proof.
  intros G W. rewrite (grown_refs _ _ _ G W). apply map_ext_in. intros s I. apply grown_seg; [exact G|].
  pose proof (wf_slice_refs _ _ W) as F. rewrite Forall_forall in F. auto.
Qed.

Lemma grown_option h h' o : grown h h' -> wf_option h o -> option_map (seg_value h') o = option_map (seg_value h) o.
Proof. intros G W. destruct o; [|reflexivity]. cbn. rewrite (grown_seg _ _ _ G W). reflexivity. Qed.

Lemma grown_base h h' b : grown h h' -> wf_base h b -> base_value h' b = base_value h b.
Proof.
  intros G (W1 & W2 & W3 & W4 & W5 & W6 & W7 & W8). unfold base_value.
  rewrite !(grown_slice h h'), !(grown_option h h') by assumption. reflexivity.
Qed.

Lemma grown_value h h' c : grown h h' -> wf_cell h c -> cell_value h' c = cell_value h c.
Proof. intros G W. destruct c; cbn; try reflexivity. rewrite (grown_base h h') by assumption. reflexivity. Qed.

Lemma grown_record h h' r : grown h h' -> wf h -> r < length (hRecords h) -> record_value h' r = record_value h r.
Proof. intros G W L. unfold record_value. rewrite (grown_cell h h') by assumption. apply grown_value; auto. Qed.

Lemma grown_wf_slice h h' sl : grown h h' -> wf_slice h sl -> wf_slice h' sl.
Proof.
  intros G W. destruct sl; [exact I|]. destruct W as (L & N & F). pose proof (grown_lengths _ _ G) as (A & B & C).
  cbn. rewrite (grown_array h h') by assumption. repeat split; [lia|exact N|]. revert F. apply Forall_impl. intros s. lia.
Qed.

Lemma grown_wf_option h h' o : grown h h' -> wf_option h o -> wf_option h' o.
Proof. intros G W. destruct o; [|exact I]. cbn in *. apply grown_lengths in G. lia. Qed.

Lemma grown_wf_cell h h' c : grown h h' -> wf_cell h c -> wf_cell h' c.
Proof.
  intros G W. destruct c; cbn in *; auto. destruct W as (W1 & W2 & W3 & W4 & W5 & W6 & W7 & W8).
  repeat split; eauto using grown_wf_slice, grown_wf_option.
Qed.

(* ---- allocation ---- *)

Lemma grown_new_segment h s : grown h (fst (new_segment_at h s)).
Proof. repeat split; cbn; eexists; try reflexivity; symmetry; apply app_nil_r. Qed.

Lemma grown_new_record h c : grown h (fst (new_record_at h c)).
Proof. repeat split; cbn; eexists; try reflexivity; symmetry; apply app_nil_r. Qed.

Lemma new_record_cell h c : cell (fst (new_record_at h c)) (snd (new_record_at h c)) = c.
Proof. unfold cell. cbn. rewrite app_nth2 by lia. rewrite Nat.sub_diag. reflexivity. Qed.

Lemma wf_new_segment h s : wf h -> wf (fst (new_segment_at h s)).
Proof. intros W r L. apply (grown_wf_cell h); [apply grown_new_segment|]. apply W. exact L. Qed.

Lemma wf_new_record h c : wf h -> wf_cell h c -> wf (fst (new_record_at h c)).
Proof.
  intros W K r L. apply (grown_wf_cell h); [apply grown_new_record|]. unfold cell. cbn in *. rewrite app_length in L. cbn in L.
  destruct (Nat.lt_ge_cases r (length (hRecords h))) as [D|D].
  - rewrite app_nth1 by exact D. apply W. exact D.
  - rewrite app_nth2 by exact D. replace (r - length (hRecords h)) with 0 by lia. exact K.
Qed.

(* ---- arrays of records ---- *)

Definition part (sl : slice) : list (nat * nat) := match sl with Nil => [] | Slice a n => [(a, n)] end.

Definition parts (c : hrecord) : list (nat * nat) :=
  match c with HBase _ b => part (hbJ1 b) ++ part (hbJ2 b) | _ => [] end.

(* ---- arrays that are shared ---- *)

(* an array of a record that was not left behind is shared with records left behind only,
   which see no more of it *)
Definition apart (left : list nat) (h : heap) : Prop :=
  (forall r, r < length (hRecords h) -> NoDup (map fst (parts (cell h r))))
  /\ forall r r' a n n', r < length (hRecords h) -> r' < length (hRecords h) -> r <> r' -> ~ In r left ->
       In (a, n) (parts (cell h r)) -> In (a, n') (parts (cell h r')) -> In r' left /\ n' <= n.

Lemma parts_wf h c a n : wf_cell h c -> In (a, n) (parts c) -> a < length (hArrays h) /\ n <= length (nth a (hArrays h) []).
Proof.
  destruct c as [p st|p b|p st]; cbn; try contradiction. intros (W1 & W2 & _) I. apply in_app_or in I as [I|I].
  - destruct (hbJ1 b); cbn in I; [contradiction|]. destruct I as [I|[]]. inversion I; subst. cbn in W1. tauto.
  - destruct (hbJ2 b); cbn in I; [contradiction|]. destruct I as [I|[]]. inversion I; subst. cbn in W2. tauto.
Qed.

(* one more record with arrays of its own *)
Lemma apart_fresh left h h' c : wf h -> apart left h -> grown h h' -> hRecords h' = hRecords h ++ [c] ->
  NoDup (map fst (parts c)) -> (forall a m, In (a, m) (parts c) -> length (hArrays h) <= a) -> apart left h'.
Proof.
  intros W [P1 P2] G E D N.
  assert (forall r, r < length (hRecords h') -> r < length (hRecords h) /\ cell h' r = cell h r \/ r = length (hRecords h) /\ cell h' r = c) as K.
  { intros r L. unfold cell. rewrite E in *. rewrite app_length in L. cbn in L. destruct (Nat.lt_ge_cases r (length (hRecords h))) as [A|A].
    - left. split; [exact A|]. apply app_nth1. exact A.
    - right. assert (r = length (hRecords h)) as -> by lia. split; [reflexivity|]. rewrite app_nth2, Nat.sub_diag by lia. reflexivity. }
  split.
  - intros r L. destruct (K r L) as [[A ->]|[A ->]]; auto.
  - intros r r' a n n' L L' Ne Nl I I'. destruct (K r L) as [[A Er]|[A Er]], (K r' L') as [[A' Er']|[A' Er']]; rewrite Er in I; rewrite Er' in I'.
    + exact (P2 r r' a n n' A A' Ne Nl I I').
    + apply (parts_wf h) in I as [I _]; [|apply W; exact A]. apply N in I'. lia.
    + apply (parts_wf h) in I' as [I' _]; [|apply W; exact A']. apply N in I. lia.
    + congruence.
Qed.

Section Spare.
Variable spare : nat -> nat.

Lemma store_segments_spec l : forall h h' ns, store_segments h l = (h', ns) ->
  hSegments h' = hSegments h ++ l /\ hArrays h' = hArrays h /\ hRecords h' = hRecords h
  /\ map (seg_value h') ns = l /\ Forall (fun s => s < length (hSegments h')) ns.
Proof.
  induction l as [|s l IH]; intros h h' ns E; cbn in E.
  - inversion E; subst. rewrite app_nil_r. repeat split; constructor.
  - destruct (store_segments _ l) as [h2 ns2] eqn:E2. inversion E; subst. apply IH in E2 as (A & B & C & D & F).
    cbn in A, B, C. rewrite <- app_assoc in A. cbn in A. repeat split; auto.
    + cbn. rewrite D. f_equal. unfold seg_value. rewrite A, app_nth2, Nat.sub_diag by lia. reflexivity.
    + constructor; [|exact F]. rewrite A, app_length. cbn. lia.
Qed.

Lemma store_slice_spec h l h' sl : store_slice spare h l = (h', sl) ->
  grown h h' /\ hRecords h' = hRecords h /\ wf_slice h' sl /\ map (seg_value h') (slice_refs h' sl) = l
  /\ hSegments h' = hSegments h ++ l /\ (forall a n, In (a, n) (part sl) -> length (hArrays h) <= a).
Proof.
  unfold store_slice. destruct (store_segments h l) as [h1 ns] eqn:E. apply store_segments_spec in E as (A & B & C & D & F).
  destruct ns as [|n ns].
  - intros E. inversion E; subst. cbn in *. repeat split; auto; try contradiction.
    + exists (map (seg_value h') []). rewrite A. reflexivity.
    + exists []. rewrite B, app_nil_r. reflexivity.
    + exists []. rewrite C, app_nil_r. reflexivity.
  - intros E.
    assert (hSegments h' = hSegments h ++ l) as A'.
    { inversion E; subst. cbn. exact A. }
    assert (exists x, hArrays h' = hArrays h ++ [(n :: ns) ++ x]) as (x & B').
    { inversion E; subst. cbn [hArrays]. rewrite B. eexists. reflexivity. }
    assert (hRecords h' = hRecords h) as C' by (inversion E; subst; exact C).
    assert (sl = Slice (length (hArrays h)) (length (n :: ns))) as -> by (inversion E; subst; rewrite <- B; reflexivity).
    clear E.
    assert (firstn (length (n :: ns)) (nth (length (hArrays h)) (hArrays h') []) = n :: ns) as R.
    { rewrite B', app_nth2, Nat.sub_diag by lia. cbn [nth]. rewrite firstn_app, firstn_all, Nat.sub_diag.
      apply app_nil_r. }
    repeat split.
    + exists l. exact A'.
    + eexists. exact B'.
    + exists []. rewrite C', app_nil_r. reflexivity.
    + exact C'.
    + rewrite B', app_length. cbn. lia.
    + rewrite B', app_nth2, Nat.sub_diag by lia. cbn [nth]. rewrite app_length. lia.
    + rewrite R. rewrite A', <- A. exact F.
    + unfold slice_refs. rewrite R. rewrite <- D. apply map_ext. intros s. unfold seg_value. rewrite A', A. reflexivity.
    + exact A'.
    + intros a m I. cbn in I. destruct I as [I|[]]. inversion I; subst. lia.
Qed.

Lemma store_option_spec h o h' o' : store_option h o = (h', o') ->
  grown h h' /\ hRecords h' = hRecords h /\ hArrays h' = hArrays h /\ hSegments h' = hSegments h ++ opt_to_list o /\ wf_option h' o'
  /\ option_map (seg_value h') o' = o.
Proof.
  destruct o as [s|]; cbn; intros E; inversion E; subst.
  - repeat split; try (apply (grown_new_segment h s)).
    + cbn. rewrite app_length. cbn. lia.
    + cbn. unfold seg_value. cbn. rewrite app_nth2, Nat.sub_diag by lia. reflexivity.
  - repeat split; try (exists []; symmetry; apply app_nil_r). cbn. symmetry. apply app_nil_r.
Qed.

Lemma store_record_spec h v h' n : store_record spare h v = (h', n) ->
  grown h h' /\ n = length (hRecords h) /\ hSegments h' = hSegments h ++ (match v with RBase _ b => segments_of b | _ => [] end)
  /\ (exists c, hRecords h' = hRecords h ++ [c] /\ wf_cell h' c
    /\ cell_value h' c = v /\ NoDup (map fst (parts c)) /\ forall a m, In (a, m) (parts c) -> length (hArrays h) <= a).
Proof.
  destruct v as [p st|p b|p st].
  - intros E. inversion E; subst. split; [apply (grown_new_record h (HHeader p st))|]. split; [reflexivity|]. split; [symmetry; apply app_nil_r|].
    eexists. repeat split; try constructor. contradiction.
  - destruct b as [st j1 j2 k1 k2 k3 k4 l1 n1]. cbn [store_record].
    destruct (store_slice spare h j1) as [h1 j1'] eqn:E1. destruct (store_slice spare h1 j2) as [h2 j2'] eqn:E2.
    destruct (store_option h2 k1) as [h3 k1'] eqn:E3. destruct (store_option h3 k2) as [h4 k2'] eqn:E4.
    destruct (store_option h4 k3) as [h5 k3'] eqn:E5. destruct (store_option h5 k4) as [h6 k4'] eqn:E6.
    destruct (store_option h6 l1) as [h7 l1'] eqn:E7. destruct (store_option h7 n1) as [h8 n1'] eqn:E8.
    apply store_slice_spec in E1 as (G1 & R1 & W1 & V1 & T1 & A1). apply store_slice_spec in E2 as (G2 & R2 & W2 & V2 & T2 & A2).
    apply store_option_spec in E3 as (G3 & R3 & Y3 & T3 & W3 & V3). apply store_option_spec in E4 as (G4 & R4 & Y4 & T4 & W4 & V4).
    apply store_option_spec in E5 as (G5 & R5 & Y5 & T5 & W5 & V5). apply store_option_spec in E6 as (G6 & R6 & Y6 & T6 & W6 & V6).
    apply store_option_spec in E7 as (G7 & R7 & Y7 & T7 & W7 & V7). apply store_option_spec in E8 as (G8 & R8 & Y8 & T8 & W8 & V8).
    set (c := HBase p (mkHBase st j1' j2' k1' k2' k3' k4' l1' n1')). intros E.
    assert (h' = fst (new_record_at h8 c)) as -> by (rewrite E; reflexivity).
    assert (n = length (hRecords h)) as ->.
    { replace n with (snd (new_record_at h8 c)) by (rewrite E; reflexivity). cbn. congruence. }
    clear E. set (h' := fst (new_record_at h8 c)).
    assert (grown h8 h') as G9 by apply grown_new_record.
    assert (grown h7 h') as G7' by (eapply grown_trans; eassumption).
    assert (grown h6 h') as G6' by (eapply grown_trans; eassumption).
    assert (grown h5 h') as G5' by (eapply grown_trans; eassumption).
    assert (grown h4 h') as G4' by (eapply grown_trans; eassumption).
    assert (grown h3 h') as G3' by (eapply grown_trans; eassumption).
    assert (grown h2 h') as G2' by (eapply grown_trans; eassumption).
    assert (grown h1 h') as G1' by (eapply grown_trans; eassumption).
    split; [eapply grown_trans; eassumption|]. split; [reflexivity|].
    split; [change (hSegments h') with (hSegments h8); rewrite T8, T7, T6, T5, T4, T3, T2, T1; unfold segments_of; cbn [bJ1 bJ2 bK1 bK2 bK3 bK4 bL1 bN1]; rewrite <- !app_assoc; reflexivity|].
    exists c. repeat split.
    + unfold h'. cbn. congruence.
    + cbn. eauto using grown_wf_slice.
    + cbn. eauto using grown_wf_slice.
    + cbn. eauto using grown_wf_option.
    + cbn. eauto using grown_wf_option.
    + cbn. eauto using grown_wf_option.
    + cbn. eauto using grown_wf_option.
    + cbn. eauto using grown_wf_option.
    + cbn. eauto using grown_wf_option.
    + unfold c. cbn [cell_value]. f_equal. unfold base_value. cbn [hbFields hbJ1 hbJ2 hbK1 hbK2 hbK3 hbK4 hbL1 hbN1].
      rewrite (grown_slice h1 h'), (grown_slice h2 h'), V1, V2 by assumption.
      rewrite (grown_option h3 h'), (grown_option h4 h'), (grown_option h5 h'), (grown_option h6 h'),
        (grown_option h7 h'), (grown_option h8 h') by assumption.
      rewrite V3, V4, V5, V6, V7, V8. reflexivity.
    + unfold c. cbn [parts hbJ1 hbJ2]. destruct j1' as [|a m], j2' as [|a' m']; cbn; repeat constructor; cbn; auto.
      * intros [->|[]]. specialize (A2 a m' (or_introl eq_refl)). destruct W1 as (L & _). lia.
    + intros a m I. unfold c in I. cbn [parts hbJ1 hbJ2] in I. apply in_app_or in I as [I|I]; [eauto|].
      apply A2 in I. apply grown_lengths in G1. lia.
  - intros E. inversion E; subst. split; [apply (grown_new_record h (HTrailer p st))|]. split; [reflexivity|]. split; [symmetry; apply app_nil_r|].
    eexists. repeat split; try constructor. contradiction.
Qed.

Lemma store_records_spec left l : forall h h' ns, wf h -> apart left h -> store_records spare h l = (h', ns) ->
  grown h h' /\ wf h' /\ apart left h' /\ map (record_value h') ns = l
  /\ ns = seq (length (hRecords h)) (length l) /\ length (hRecords h') = length (hRecords h) + length l
  /\ exists l', hSegments h' = hSegments h ++ l' /\ (Forall record_ok l -> Forall seg_typed l').
Proof.
  induction l as [|v l IH]; intros h h' ns W P E; cbn in E.
  - inversion E; subst. split; [apply grown_refl|]. split; [exact W|]. split; [exact P|]. cbn.
    split; [reflexivity|]. split; [reflexivity|]. split; [lia|]. exists []. rewrite app_nil_r. auto.
  - destruct (store_record spare h v) as [h1 n] eqn:E1. destruct (store_records spare h1 l) as [h2 ns2] eqn:E2. inversion E; subst.
    apply store_record_spec in E1 as (G & Nn & Sg & c & R & Wc & V & D & A).
    assert (wf h1) as W1.
    { intros r L. unfold cell. rewrite R in *. rewrite app_length in L. cbn in L.
      destruct (Nat.lt_ge_cases r (length (hRecords h))) as [B|B].
      - rewrite app_nth1 by exact B. apply (grown_wf_cell h); [exact G|]. apply W. exact B.
      - rewrite app_nth2 by exact B. replace (r - length (hRecords h)) with 0 by lia. exact Wc. }
    assert (apart left h1) as P1 by (apply (apart_fresh left h h1 c); assumption).
    apply IH in E2 as (G2 & W2 & P2 & V2 & N2 & L2 & l2 & S2 & T2); auto.
    assert (length (hRecords h1) = S (length (hRecords h))) as L1 by (rewrite R, app_length; cbn; lia).
    split; [eapply grown_trans; eassumption|]. split; [exact W2|]. split; [exact P2|]. split; [|split; [|split]].
    + cbn [map]. rewrite V2. f_equal. rewrite (grown_record h1 h') by (auto; lia). unfold record_value.
      replace (cell h1 n) with c; [exact V|]. unfold cell. rewrite R, Nn, app_nth2, Nat.sub_diag by lia. reflexivity.
    + rewrite N2, Nn, L1. reflexivity.
    + cbn. lia.
    + exists ((match v with RBase _ b => segments_of b | _ => [] end) ++ l2). split; [rewrite S2, Sg, <- app_assoc; reflexivity|].
      intros F. inversion_clear F as [|? ? Fv Fl]. apply Forall_app. split; [|auto]. destruct v; try constructor. apply Fv.
Qed.

End Spare.
