(* Table-driven records in general: what String writes and what Parse reads back,
   for any layout that implements a documented layout. *)
From Coq Require Import ZArith NArith Bool Ascii String List Lia Permutation.
Import ListNotations.
From Verif Require Import GoBase GoBaseFacts GoTime Regex Tables Codec SpecCodec TimeFacts FieldFacts.
Local Open Scope string_scope.
Local Open Scope Z_scope.
Local Open Scope list_scope.
Local Notation length := List.length.

Notation BDW := "BlockDescriptorWord"%string.

(* ---- association lists ---- *)

Lemma lookup_In {A} n (v : A) l : lookup n l = Some v -> In (n, v) l.
Proof.
  induction l as [|[k a] l IH]; simpl; [discriminate|].
  destruct (String.eqb_spec n k); [|auto]. intros [= ->]. subst. auto.
Qed.

Lemma In_lookup {A} n (v : A) l : NoDup (map fst l) -> In (n, v) l -> lookup n l = Some v.
Proof.
  induction l as [|[k a] l IH]; simpl; [tauto|]. intros ND H. inversion ND as [|? ? H1 H2]; subst.
  destruct H as [[= -> ->]|H].
  - rewrite String.eqb_refl. reflexivity.
  - destruct (String.eqb_spec n k); [|auto]. subst. exfalso. apply H1.
    apply (in_map fst) in H. exact H.
Qed.

Lemma lookup_Some_In_fst {A} n (v : A) l : lookup n l = Some v -> In n (map fst l).
Proof. intros H. apply lookup_In in H. apply (in_map fst) in H. exact H. Qed.

Lemma lookup_None {A} n (l : list (string * A)) : lookup n l = None <-> ~ In n (map fst l).
Proof.
  induction l as [|[k a] l IH]; simpl; [tauto|].
  destruct (String.eqb_spec n k); [|rewrite IH; intuition congruence].
  split; [discriminate|]. intros H. exfalso. apply H. auto.
Qed.

Lemma In_fst_lookup {A} n (l : list (string * A)) : In n (map fst l) -> exists v, lookup n l = Some v.
Proof.
  intros H. destruct (lookup n l) eqn:E; [eauto|]. apply lookup_None in E. contradiction.
Qed.

Lemma lookup_perm {A} (l l' : list (string * A)) n :
  Permutation l l' -> NoDup (map fst l) -> lookup n l = lookup n l'.
Proof.
  intros P ND. assert (NoDup (map fst l')) as ND'.
  { eapply Permutation_NoDup; [|exact ND]. apply Permutation_map. exact P. }
  destruct (lookup n l) eqn:E.
  - apply lookup_In in E. symmetry. apply In_lookup; [assumption|].
    eapply Permutation_in; eauto.
  - symmetry. apply lookup_None. apply lookup_None in E. intros H. apply E.
    eapply Permutation_in; [|exact H]. apply Permutation_map. symmetry. exact P.
Qed.

Definition types (st : fields) : structure := map (fun p => (fst p, kind_of (snd p))) st.

Lemma types_names st : map fst (types st) = map fst st.
Proof. unfold types. rewrite map_map. reflexivity. Qed.

Lemma has_type_names s st : has_type s st -> map fst st = map fst s.
Proof. intros H. rewrite <- types_names. unfold types. rewrite H. reflexivity. Qed.

Lemma lookup_types n st : lookup n (types st) = option_map kind_of (lookup n st).
Proof. induction st as [|[k v] st IH]; simpl; [reflexivity|]. destruct (String.eqb n k); auto. Qed.

Lemma lookup_set_field n m v st :
  lookup n (set_field m v st) =
  if String.eqb n m then (match lookup m st with Some _ => Some v | None => None end)
  else lookup n st.
Proof.
  induction st as [|[k a] st IH]; simpl.
  - destruct (String.eqb n m); reflexivity.
  - destruct (String.eqb_spec m k) as [->|Hmk]; simpl.
    + destruct (String.eqb_spec n k); reflexivity.
    + rewrite IH. destruct (String.eqb_spec n k) as [->|Hnk]; [|reflexivity].
      destruct (String.eqb_spec k m); [congruence|reflexivity].
Qed.

Lemma set_field_names m v st : map fst (set_field m v st) = map fst st.
Proof.
  induction st as [|[k a] st IH]; simpl; [reflexivity|].
  destruct (String.eqb_spec m k); simpl; congruence.
Qed.

Lemma can_assign_spec n v st : can_assign n v st = true <->
  exists w, lookup n st = Some w /\ kind_of v = kind_of w.
Proof.
  unfold can_assign. destruct (lookup n st) as [w|].
  - split.
    + intros H. exists w. split; [reflexivity|]. destruct (kind_of v), (kind_of w); try discriminate; reflexivity.
    + intros [w' [[= <-] ->]]. destruct (kind_of w); reflexivity.
  - split; [discriminate|]. intros [w [? _]]. discriminate.
Qed.

Lemma set_field_types n v st : can_assign n v st = true -> types (set_field n v st) = types st.
Proof.
  rewrite can_assign_spec. intros [w [L K]]. revert L.
  induction st as [|[k a] st IH]; simpl; [reflexivity|].
  destruct (String.eqb_spec n k).
  - intros [= ->]. simpl. rewrite K. reflexivity.
  - intros H. simpl. rewrite IH by assumption. reflexivity.
Qed.

Lemma fields_ext (a b : fields) : map fst a = map fst b -> NoDup (map fst a) ->
  (forall n, lookup n a = lookup n b) -> a = b.
Proof.
  revert b. induction a as [|[k v] a IH]; intros [|[k' v'] b] E ND H; try discriminate; [reflexivity|].
  injection E as -> E. inversion ND as [|? ? N1 N2]; subst.
  pose proof (H k') as Hk. simpl in Hk. rewrite String.eqb_refl in Hk. injection Hk as ->.
  f_equal. apply IH; auto. intros n. destruct (String.eqb_spec n k') as [->|Hn].
  - rewrite (proj2 (lookup_None k' a) N1). symmetry. apply lookup_None. rewrite <- E. exact N1.
  - specialize (H n). simpl in H. destruct (String.eqb_spec n k'); [congruence|exact H].
Qed.

(* ---- insertion sort ---- *)

Lemma insert_spec_perm x l : Permutation (x :: l) (insert_spec x l).
Proof.
  induction l as [|y l IH]; simpl; [reflexivity|]. destruct (spec_le x y); [reflexivity|].
  rewrite perm_swap, IH. reflexivity.
Qed.

Lemma to_specifications_perm l : Permutation l (to_specifications l).
Proof.
  induction l as [|x l IH]; simpl; [reflexivity|]. rewrite <- insert_spec_perm, <- IH. reflexivity.
Qed.

Lemma lookup_specifications l n : NoDup (map fst l) -> lookup n (to_specifications l) = lookup n l.
Proof. intros ND. symmetry. apply lookup_perm; [apply to_specifications_perm|assumption]. Qed.

(* ---- layouts implementing documented layouts ---- *)

Fixpoint layout_ok (start : nat) (doc : list doc_field) (l : layout) : bool :=
  match doc, l with
  | [], [] => true
  | d :: doc', (n, f) :: l' =>
      String.eqb (dName d) n && Nat.eqb (fStart f) start && entry_ok d f
      && layout_ok (start + dWidth d) doc' l'
  | _, _ => false
  end.

Fixpoint nodupb (l : list string) : bool :=
  match l with
  | [] => true
  | x :: l' => negb (existsb (String.eqb x) l') && nodupb l'
  end.

Lemma existsb_string_In n l : existsb (String.eqb n) l = true <-> In n l.
Proof.
  rewrite existsb_exists. split.
  - intros [x [H E]]. apply String.eqb_eq in E. subst. exact H.
  - intros H. exists n. rewrite String.eqb_refl. auto.
Qed.

Lemma nodupb_NoDup l : nodupb l = true -> NoDup l.
Proof.
  induction l as [|x l IH]; simpl; [constructor|]. intros H. apply andb_prop in H as [H1 H2].
  constructor; auto. intros I. apply existsb_string_In in I. rewrite I in H1. discriminate.
Qed.

Definition is_reserved (d : doc_field) : bool :=
  match dKind d with FReserved => true | _ => false end.

(* the documented data fields are the struct fields *)
Definition struct_ok (doc : list doc_field) (s : structure) : bool :=
  forallb (fun d =>
    if is_reserved d then negb (existsb (String.eqb (dName d)) (map fst s))
    else match lookup (dName d) s with Some k => kind_eqb k (fk_kind (dKind d)) | None => false end) doc
  && forallb (fun p => existsb (fun d => String.eqb (dName d) (fst p) && negb (is_reserved d)) doc) s
  && nodupb (map fst s) && negb (existsb (String.eqb BDW) (map fst s))
  && negb (existsb (fun d => String.eqb (dName d) BDW) doc).

(* flag of the block descriptor word: decimal or binary *)
Definition bdw_type (packed : bool) : N := N.lor (if packed then descriptor else numeric) omitted.
Definition bdw_field (packed : bool) : field := mkField 0 4 (bdw_type packed) applicable.

Definition field_eqb (a b : field) : bool :=
  Nat.eqb (fStart a) (fStart b) && Nat.eqb (fLength a) (fLength b) && N.eqb (fType a) (fType b)
  && match fRequired a, fRequired b with
     | nullable, nullable | required, required | applicable, applicable => true
     | _, _ => false
     end.

Lemma field_eqb_eq a b : field_eqb a b = true -> a = b.
Proof.
  destruct a as [s l t r], b as [s' l' t' r']. unfold field_eqb. cbn.
  intros H. apply andb_prop in H as [H Hr]. apply andb_prop in H as [H Ht]. apply andb_prop in H as [Hs Hl].
  apply Nat.eqb_eq in Hs, Hl. apply N.eqb_eq in Ht. subst.
  destruct r, r'; try discriminate; reflexivity.
Qed.

(* a layout and struct with a block descriptor word in front *)
Definition scheme_bdw (packed : bool) (doc : list doc_field) (l : layout) (s : structure) : bool :=
  nodupb (map fst l) &&
  match to_specifications l, s with
  | (n, f) :: sp, (n', KInt) :: s' =>
      String.eqb n BDW && String.eqb n' BDW && field_eqb f (bdw_field packed)
      && layout_ok 0 doc sp && struct_ok doc s'
  | _, _ => false
  end.

(* ... and without *)
Definition scheme_plain (doc : list doc_field) (l : layout) (s : structure) : bool :=
  nodupb (map fst l) && layout_ok 0 doc (to_specifications l) && struct_ok doc s.

(* ---- writing ---- *)

Definition text (sp : layout) (st : fields) : bytes :=
  flat_map (fun p => to_string (snd p) (lookup (fst p) st)) sp.

(* what the generic lemmas need to know about the values *)
Definition fit_values (doc : list doc_field) (st : fields) : Prop :=
  forall d, In d doc ->
    if is_reserved d then lookup (dName d) st = None
    else exists v, lookup (dName d) st = Some v /\ fits d v.

Lemma fit_values_of doc s st : struct_ok doc s = true -> NoDup (map fst st) ->
  (forall n, n <> BDW -> In n (map fst st) -> In n (map fst s)) ->
  record_fits doc st -> fit_values doc st.
Proof.
  intros S ND T R d Hd. unfold struct_ok in S. repeat (apply andb_prop in S as [S ?]).
  rewrite forallb_forall in S. specialize (S d Hd). destruct (is_reserved d) eqn:K.
  - apply lookup_None. intros I. rewrite negb_true_iff in S.
    assert (dName d <> BDW) as Nb.
    { intros Eb. rewrite negb_true_iff in H. rewrite <- not_true_iff_false in H. apply H.
      apply existsb_exists. exists d. split; [assumption|]. rewrite Eb. apply String.eqb_refl. }
    apply (T _ Nb) in I. apply existsb_string_In in I. congruence.
  - destruct (R d Hd) as [v [Hv F]].
    { unfold is_reserved in K. intros E. rewrite E in K. discriminate. }
    exists v. split; [|assumption]. apply In_lookup; assumption.
Qed.

Lemma entry_written d f st : entry_ok d f = true ->
  (if is_reserved d then lookup (dName d) st = None
   else exists v, lookup (dName d) st = Some v /\ fits d v) ->
  let p := to_string f (lookup (dName d) st) in
  length p = dWidth d /\
  (dKind d = FReserved -> p = repeat " "%char (dWidth d)) /\
  (dKind d <> FReserved -> exists v, lookup (dName d) st = Some v /\ written d v p /\ reads_back f p v).
Proof.
  intros E H p. unfold is_reserved in H.
  assert ({dKind d = FReserved} + {dKind d <> FReserved}) as [K|K] by (destruct (dKind d); auto; right; discriminate).
  - rewrite K in H. unfold p. rewrite H, (reserved_written d f E K). rewrite repeat_length.
    split; [reflexivity|]. split; [reflexivity|]. contradiction.
  - assert (exists v, lookup (dName d) st = Some v /\ fits d v) as [v [L F]] by (destruct (dKind d); auto; contradiction).
    unfold p. rewrite L. destruct (field_written d f v E K F) as (Ln & W & Rb).
    split; [exact Ln|]. split; [contradiction|]. intros _. exists v. auto.
Qed.

Lemma text_parts doc : forall start sp st,
  layout_ok start doc sp = true -> fit_values doc st ->
  exists parts, text sp st = List.concat parts /\
    Forall2 (fun d p => length p = dWidth d /\
      (dKind d = FReserved -> p = repeat " "%char (dWidth d)) /\
      (dKind d <> FReserved -> exists v, lookup (dName d) st = Some v /\ written d v p)) doc parts.
Proof.
  induction doc as [|d doc IH]; intros start [|[n f] sp] st H V; try discriminate.
  - exists []. split; [reflexivity|constructor].
  - cbn [layout_ok] in H. apply andb_prop in H as [H H4]. apply andb_prop in H as [H H3].
    apply andb_prop in H as [H1 H2]. apply String.eqb_eq in H1. subst n.
    destruct (IH _ sp st H4) as [parts [Ep Fp]].
    { intros d' Hd'. apply V. right. exact Hd'. }
    exists (to_string f (lookup (dName d) st) :: parts). split.
    + cbn [text flat_map fst snd List.concat]. f_equal. exact Ep.
    + constructor; [|exact Fp].
      destruct (entry_written d f st H3 (V d (or_introl eq_refl))) as (P1 & P2 & P3).
      split; [exact P1|]. split; [exact P2|]. intros K. destruct (P3 K) as (v & ? & ? & _). eauto.
Qed.

Fixpoint doc_width (doc : list doc_field) : nat :=
  match doc with [] => 0 | d :: doc' => dWidth d + doc_width doc' end.

Lemma text_length doc start sp st :
  layout_ok start doc sp = true -> fit_values doc st -> length (text sp st) = doc_width doc.
Proof.
  intros H V. destruct (text_parts doc start sp st H V) as [parts [-> F]]. clear - F.
  induction F as [|d p doc parts [L _] F IH]; [reflexivity|].
  cbn. rewrite app_length, IH, L. reflexivity.
Qed.

Lemma body_written_text doc start sp st :
  layout_ok start doc sp = true -> fit_values doc st -> body_written doc st (text sp st).
Proof.
  intros H V. destruct (text_parts doc start sp st H V) as [parts [E F]]. exists parts.
  split; [exact E|]. clear - F. induction F as [|d p doc' parts' (P1 & P2 & P3) F IH]; constructor.
  - split; [exact P1|]. split; [exact P2|]. intros K. destruct (P3 K) as (v & Lv & W). exists v.
    split; [apply lookup_In; exact Lv|exact W].
  - exact IH.
Qed.

(* position of one field in the text *)
Lemma text_at doc : forall start sp st n f,
  layout_ok start doc sp = true -> fit_values doc st -> lookup n sp = Some f ->
  exists d pre post, In d doc /\ dName d = n /\ entry_ok d f = true /\
    text sp st = pre ++ to_string f (lookup n st) ++ post /\
    (fStart f = start + length pre)%nat.
Proof.
  induction doc as [|d doc IH]; intros start [|[m g] sp] st n f H V L; try discriminate.
  cbn [layout_ok] in H. apply andb_prop in H as [H H4]. apply andb_prop in H as [H H3].
  apply andb_prop in H as [H1 H2]. apply String.eqb_eq in H1. subst m. apply Nat.eqb_eq in H2.
  destruct (entry_written d g st H3 (V d (or_introl eq_refl))) as (P1 & _ & _).
  cbn [lookup] in L. destruct (String.eqb_spec n (dName d)) as [->|Hn].
  - injection L as <-. exists d, [], (text sp st). split; [left; reflexivity|]. split; [reflexivity|].
    split; [exact H3|]. split; [reflexivity|]. cbn. lia.
  - destruct (IH _ sp st n f H4) as (d' & pre & post & I & Nm & E & T & S); auto.
    { intros d' Hd'. apply V. right. exact Hd'. }
    exists d', (to_string g (lookup (dName d) st) ++ pre), post.
    split; [right; exact I|]. split; [exact Nm|]. split; [exact E|]. split.
    + cbn [text flat_map fst snd]. fold (text sp st). rewrite T, <- !app_assoc. reflexivity.
    + rewrite app_length. lia.
Qed.

(* ---- reading ---- *)

Fixpoint assign (names : list string) (target st : fields) : fields :=
  match names with
  | [] => st
  | n :: names' =>
      assign names' target (match lookup n target with Some v => set_field n v st | None => st end)
  end.

Lemma lookup_assign names target : forall st n, map fst st = map fst target ->
  lookup n (assign names target st) = if in_dec string_dec n names then lookup n target else lookup n st.
Proof.
  induction names as [|m names IH]; intros st n E; [reflexivity|].
  cbn [assign]. rewrite IH.
  - destruct (in_dec string_dec n names) as [I|I].
    + destruct (in_dec string_dec n (m :: names)) as [J|J]; [reflexivity|]. exfalso. apply J. right. exact I.
    + destruct (in_dec string_dec n (m :: names)) as [[->|J]|J]; [|contradiction|].
      * destruct (lookup n target) as [v|] eqn:Lt.
        -- rewrite lookup_set_field, String.eqb_refl.
           destruct (lookup n st) eqn:Ls; [reflexivity|].
           apply lookup_None in Ls. rewrite E in Ls. apply lookup_Some_In_fst in Lt. contradiction.
        -- apply lookup_None. rewrite E. apply lookup_None. exact Lt.
      * destruct (lookup m target) as [v|]; [|reflexivity]. rewrite lookup_set_field.
        destruct (String.eqb_spec n m) as [->|]; [|reflexivity]. exfalso. apply J. left. reflexivity.
  - destruct (lookup m target); [rewrite set_field_names|]; exact E.
Qed.

Lemma assign_names names target : forall st, map fst (assign names target st) = map fst st.
Proof.
  induction names as [|m names IH]; intros st; [reflexivity|]. cbn [assign]. rewrite IH. destruct (lookup m target); [apply set_field_names|reflexivity].
Qed.

Lemma assign_target names target st : map fst st = map fst target -> NoDup (map fst target) ->
  (forall n, ~ In n names -> lookup n st = lookup n target) -> assign names target st = target.
Proof.
  intros E ND H. apply fields_ext.
  - rewrite assign_names. exact E.
  - rewrite assign_names, E. exact ND.
  - intros n. rewrite lookup_assign by assumption. destruct (in_dec string_dec n names); auto.
Qed.

Lemma parse_fields_ok pol chk l rname record target : forall names off st,
  types st = types target ->
  (forall n, In n names -> n <> BDW /\ exists f v data,
     lookup n l = Some f /\ lookup n target = Some v /\
     slice record (fStart f + off) (fStart f + fLength f + off) = Some data /\ reads_back f data v) ->
  parse_fields pol chk l rname record names off st = (assign names target st, Ok tt).
Proof.
  induction names as [|n names IH]; intros off st T H; [reflexivity|].
  destruct (H n (or_introl eq_refl)) as (Nb & f & v & data & Lf & Lv & Sl & Rb).
  cbn [parse_fields]. rewrite Lf, Sl.
  assert (Nat.ltb (length record) (fStart f + fLength f + off) = false) as ->.
  { apply Nat.ltb_ge. unfold slice in Sl.
    destruct (Nat.leb_spec (fStart f + off) (fStart f + fLength f + off));
    destruct (Nat.leb_spec (fStart f + fLength f + off) (length record)); cbn in Sl; try discriminate; lia. }
  rewrite andb_false_r. destruct (Rb n rname) as [-> ->].
  assert (can_assign n v st = true) as CA.
  { apply can_assign_spec. pose proof (lookup_types n st) as A. rewrite T, lookup_types, Lv in A.
    destruct (lookup n st) as [w|]; [|discriminate]. exists w. split; [reflexivity|]. cbn in A. congruence. }
  rewrite CA. assert (String.eqb n "BlockDescriptorWord" = false) as -> by (apply String.eqb_neq; exact Nb).
  assert (parse_fields pol chk l rname record names off (set_field n v st)
          = (assign (n :: names) target st, Ok tt)) as R.
  { cbn [assign]. rewrite Lv. apply IH.
    - rewrite set_field_types by assumption. exact T.
    - intros m Hm. apply H. right. exact Hm. }
  destruct v; exact R.
Qed.

(* every struct field other than the block descriptor word is read back from a
   record containing the body text at offset [length pre] *)
Lemma body_fields_ok doc sp l s st record pre rest :
  NoDup (map fst l) ->
  (forall n, n <> BDW -> lookup n l = lookup n sp) ->
  layout_ok 0 doc sp = true -> struct_ok doc s = true -> fit_values doc st ->
  record = pre ++ text sp st ++ rest ->
  forall n, In n (map fst s) -> n <> BDW /\ exists f v data,
    lookup n l = Some f /\ lookup n st = Some v /\
    slice record (fStart f + length pre) (fStart f + fLength f + length pre) = Some data /\
    reads_back f data v.
Proof.
  intros ND Hl Lo So V -> n Hn.
  unfold struct_ok in So. apply andb_prop in So as [So H5]. apply andb_prop in So as [So H4].
  apply andb_prop in So as [So H3]. apply andb_prop in So as [H1 H2].
  assert (n <> BDW) as Nb.
  { intros ->. apply existsb_string_In in Hn. rewrite Hn in H4. discriminate. }
  split; [exact Nb|].
  apply in_map_iff in Hn as [[n' k] [E In']]. cbn in E. subst n'.
  rewrite forallb_forall in H2. specialize (H2 _ In'). apply existsb_exists in H2 as [d [Id Hd]].
  apply andb_prop in Hd as [Hd Hr]. apply String.eqb_eq in Hd. cbn in Hd.
  rewrite negb_true_iff in Hr.
  assert (exists f, lookup n sp = Some f) as [f Lf].
  { assert (forall doc start sp, layout_ok start doc sp = true -> In d doc -> In (dName d) (map fst sp)) as G.
    { clear. induction doc as [|e doc IH]; intros start [|[m g] sp] H I; try discriminate; [contradiction|].
      cbn [layout_ok] in H. repeat (apply andb_prop in H as [H ?]). apply String.eqb_eq in H.
      destruct I as [->|I]; [left; cbn; congruence|right]. eapply IH; eauto. }
    apply In_fst_lookup. rewrite <- Hd. eapply G; eauto. }
  destruct (text_at doc 0 sp st n f Lo V Lf) as (d' & a & b & Id' & Nd' & E' & T & Sf).
  assert (is_reserved d' = false) as Hr'.
  { pose proof (V d Id) as Vd. rewrite Hr in Vd. destruct Vd as [v [Lv _]].
    pose proof (V d' Id') as Vd'. destruct (is_reserved d'); [|reflexivity]. rewrite Nd' in Vd'. congruence. }
  pose proof (V d' Id') as Vd'.
  destruct (entry_written d' f st E' Vd') as (P1 & _ & P3). rewrite Nd' in *.
  destruct P3 as (v & Lv & W & Rb).
  { intros K. unfold is_reserved in Hr'. rewrite K in Hr'. discriminate. }
  exists f, v, (to_string f (lookup n st)). split; [rewrite Hl; assumption|]. split; [exact Lv|].
  split; [|exact Rb].
  assert (fLength f = dWidth d') as Fl.
  { unfold entry_ok in E'. repeat (apply andb_prop in E' as [E' ?]). apply Nat.eqb_eq in E'. exact E'. }
  rewrite T. rewrite <- !app_assoc. rewrite (app_assoc pre a). apply slice_mid; [rewrite app_length; lia|].
  rewrite P1. lia.
Qed.

(* ---- the block descriptor word ---- *)

Definition bdw_text (packed : bool) (z : Z) : bytes := to_string (bdw_field packed) (Some (VInt z)).

Definition bdw_doc (packed : bool) : doc_field := Doc BDW 4 (if packed then FWord else FNumber) false.

Lemma bdw_text_zero packed : bdw_text packed 0 = [].
Proof. destruct packed; reflexivity. Qed.

Lemma bdw_text_written packed z : z <> 0 -> fits (bdw_doc packed) (VInt z) ->
  length (bdw_text packed z) = 4%nat /\ written (bdw_doc packed) (VInt z) (bdw_text packed z)
  /\ reads_back (bdw_field packed) (bdw_text packed z) (VInt z).
Proof.
  intros Nz F.
  set (f := mkField 0 4 (if packed then descriptor else numeric) applicable).
  assert (bdw_text packed z = to_string f (Some (VInt z))) as ->.
  { unfold bdw_text, to_string, f, bdw_field, bdw_type. destruct packed; cbn;
      destruct (Z.eqb_spec z 0); congruence || reflexivity. }
  destruct (field_written (bdw_doc packed) f (VInt z)) as (L & W & R);
    [destruct packed; reflexivity|destruct packed; discriminate|exact F|].
  split; [exact L|]. split; [exact W|].
  intros n r. destruct (R n r) as [R1 R2]. destruct packed; split; [exact R1|exact R2|exact R1|exact R2].
Qed.


(* ---- whole records ---- *)

Lemma scheme_bdw_inv packed doc l s : scheme_bdw packed doc l s = true ->
  exists sp s', to_specifications l = (BDW, bdw_field packed) :: sp /\ s = (BDW, KInt) :: s' /\
    NoDup (map fst l) /\ layout_ok 0 doc sp = true /\ struct_ok doc s' = true.
Proof.
  unfold scheme_bdw. intros H. apply andb_prop in H as [ND H]. apply nodupb_NoDup in ND.
  destruct (to_specifications l) as [|[n f] sp]; [discriminate|].
  destruct s as [|[n' []] s']; try discriminate.
  repeat (apply andb_prop in H as [H ?]). apply String.eqb_eq in H. subst n.
  match goal with E : String.eqb n' BDW = true |- _ => apply String.eqb_eq in E; subst n' end.
  match goal with E : field_eqb _ _ = true |- _ => apply field_eqb_eq in E; subst f end.
  exists sp, s'. auto.
Qed.

Lemma struct_ok_nodup doc s : struct_ok doc s = true -> NoDup (map fst s) /\ ~ In BDW (map fst s).
Proof.
  unfold struct_ok. intros H. repeat (apply andb_prop in H as [H ?]).
  split; [apply nodupb_NoDup; assumption|]. intros I. apply existsb_string_In in I.
  match goal with E : negb (existsb (String.eqb BDW) _) = true |- _ => rewrite I in E end. discriminate.
Qed.

Lemma scheme_nodup packed doc l s st : scheme_bdw packed doc l s = true -> has_type s st ->
  NoDup (map fst st).
Proof.
  intros H T. apply scheme_bdw_inv in H as (sp & s' & _ & -> & _ & _ & So).
  rewrite (has_type_names _ _ T). destruct (struct_ok_nodup _ _ So). constructor; assumption.
Qed.

Lemma scheme_fit_values packed doc l s st : scheme_bdw packed doc l s = true -> has_type s st ->
  record_fits doc st -> fit_values doc st.
Proof.
  intros H T R. pose proof (scheme_nodup _ _ _ _ _ H T) as ND.
  apply scheme_bdw_inv in H as (sp & s' & _ & -> & _ & _ & So).
  apply (fit_values_of doc s'); auto. intros n Nb I. rewrite (has_type_names _ _ T) in I.
  destruct I as [E|I]; [cbn in E; congruence|exact I].
Qed.

Lemma scheme_plain_fit_values doc l s st : scheme_plain doc l s = true -> has_type s st ->
  record_fits doc st -> NoDup (map fst st) /\ fit_values doc st.
Proof.
  intros H T R. unfold scheme_plain in H. apply andb_prop in H as [_ So].
  assert (NoDup (map fst st)) as ND by (rewrite (has_type_names _ _ T); apply struct_ok_nodup in So; tauto).
  split; [exact ND|]. apply (fit_values_of doc s); auto. intros n _ I.
  rewrite (has_type_names _ _ T) in I. exact I.
Qed.

Lemma has_type_types s a b : has_type s a -> has_type s b -> types a = types b.
Proof. unfold has_type, types. congruence. Qed.

(* text written by the String loop: block descriptor word, then the body *)
Lemma write_fields_bdw packed doc l s st z : scheme_bdw packed doc l s = true ->
  has_type s st -> holds st BDW (VInt z) ->
  exists sp s', to_specifications l = (BDW, bdw_field packed) :: sp /\ s = (BDW, KInt) :: s' /\
    NoDup (map fst l) /\ layout_ok 0 doc sp = true /\ struct_ok doc s' = true /\
    write_fields l st = bdw_text packed z ++ text sp st.
Proof.
  intros H T Hz. pose proof (scheme_nodup _ _ _ _ _ H T) as ND.
  destruct (scheme_bdw_inv _ _ _ _ H) as (sp & s' & Sp & Es & NDl & Lo & So).
  exists sp, s'. repeat (split; [assumption|]). unfold write_fields. rewrite Sp. cbn [flat_map fst snd].
  rewrite (In_lookup BDW (VInt z) st ND Hz). reflexivity.
Qed.

Lemma types_BDW s' st : has_type ((BDW, KInt) :: s') st -> exists z st', st = (BDW, VInt z) :: st'.
Proof.
  unfold has_type. destruct st as [|[n v] st']; [discriminate|]. cbn. intros [= -> K _].
  destruct v as [z| |]; try discriminate. eauto.
Qed.

(* variable-length reading: 4 bytes of block descriptor word, then the body *)
Lemma parse_shift packed doc l s st st0 z record pre rest rname :
  scheme_bdw packed doc l s = true -> has_type s st -> has_type s st0 -> record_fits doc st ->
  holds st BDW (VInt z) ->
  length pre = 4%nat -> reads_back (bdw_field packed) pre (VInt z) ->
  (forall sp, to_specifications l = (BDW, bdw_field packed) :: sp -> record = pre ++ text sp st ++ rest) ->
  parse_fields BdwShift true l rname record (map fst st0) 0 st0 = (st, Ok tt).
Proof.
  intros H T T0 R Hz Lp Rb Er.
  pose proof (scheme_nodup _ _ _ _ _ H T) as ND. pose proof (scheme_fit_values _ _ _ _ _ H T R) as V.
  destruct (scheme_bdw_inv _ _ _ _ H) as (sp & s' & Sp & -> & NDl & Lo & So).
  specialize (Er sp Sp).
  assert (map fst st0 = BDW :: map fst s') as N0 by (rewrite (has_type_names _ _ T0); reflexivity).
  destruct (types_BDW _ _ T0) as (z0 & st0' & ->).
  rewrite N0. cbn [parse_fields].
  assert (lookup BDW l = Some (bdw_field packed)) as Lb.
  { rewrite <- lookup_specifications by assumption. rewrite Sp. reflexivity. }
  rewrite Lb. cbn [fStart fLength bdw_field Nat.add].
  assert (slice record 0 4 = Some pre) as Sl.
  { rewrite Er. change (pre ++ text sp st ++ rest) with ([] ++ pre ++ (text sp st ++ rest)).
    apply slice_mid; [reflexivity|]. rewrite Lp. reflexivity. }
  assert (Nat.ltb (length record) 4 = false) as -> by (apply Nat.ltb_ge; rewrite Er, app_length; lia).
  cbn [andb]. rewrite Sl. destruct (Rb BDW rname) as [R1 R2]. rewrite R1, R2.
  rewrite String.eqb_refl.
  assert (can_assign BDW (VInt z) ((BDW, VInt z0) :: st0') = true) as -> by reflexivity.
  set (st1 := set_field BDW (VInt z) ((BDW, VInt z0) :: st0')).
  assert (types st1 = types st) as T1.
  { unfold st1. rewrite set_field_types by reflexivity. apply (has_type_types _ _ _ T0 T). }
  change (parse_fields BdwShift true l rname record (map fst s') (0 + 4) st1 = (st, Ok tt)).
  rewrite (parse_fields_ok BdwShift true l rname record st (map fst s') (0 + 4) st1 T1).
  - f_equal. apply assign_target; auto.
    + rewrite <- !types_names. congruence.
    + intros n Hn. destruct (String.eqb_spec n BDW) as [->|Nb].
      * rewrite (In_lookup BDW (VInt z) st ND Hz). reflexivity.
      * rewrite (proj2 (lookup_None n st1)), (proj2 (lookup_None n st)); [reflexivity| |].
        -- rewrite (has_type_names _ _ T). intros [E|I]; [apply Nb; symmetry; exact E|contradiction].
        -- rewrite <- types_names, T1, types_names, (has_type_names _ _ T). 
           intros [E|I]; [apply Nb; symmetry; exact E|contradiction].
  - intros n Hn. replace (0 + 4)%nat with (length pre) by lia.
    apply (body_fields_ok doc sp l s' st record pre rest); auto.
    intros m Hm. rewrite <- lookup_specifications by assumption. rewrite Sp. cbn [lookup].
    destruct (String.eqb_spec m BDW); [congruence|reflexivity].
Qed.

(* fixed-length reading: the first four bytes are looked at twice *)
Lemma parse_skip doc l s st st0 z record rest rname :
  scheme_bdw false doc l s = true -> has_type s st -> has_type s st0 -> record_fits doc st ->
  holds st BDW (VInt z) -> holds st0 BDW (VInt z) ->
  (exists v, reads_back (bdw_field false) (firstn 4 record) (VInt v)) -> (4 <= length record)%nat ->
  (forall sp, to_specifications l = (BDW, bdw_field false) :: sp -> record = text sp st ++ rest) ->
  parse_fields BdwSkip true l rname record (map fst st0) 0 st0 = (st, Ok tt).
Proof.
  intros H T T0 R Hz Hz0 [v Rb] L4 Er.
  pose proof (scheme_nodup _ _ _ _ _ H T) as ND. pose proof (scheme_fit_values _ _ _ _ _ H T R) as V.
  pose proof (scheme_nodup _ _ _ _ _ H T0) as ND0.
  destruct (scheme_bdw_inv _ _ _ _ H) as (sp & s' & Sp & -> & NDl & Lo & So).
  specialize (Er sp Sp).
  assert (map fst st0 = BDW :: map fst s') as N0 by (rewrite (has_type_names _ _ T0); reflexivity).
  rewrite N0. cbn [parse_fields].
  assert (lookup BDW l = Some (bdw_field false)) as Lb.
  { rewrite <- lookup_specifications by assumption. rewrite Sp. reflexivity. }
  rewrite Lb. cbn [fStart fLength bdw_field Nat.add].
  assert (Nat.ltb (length record) 4 = false) as -> by (apply Nat.ltb_ge; lia).
  cbn [andb]. rewrite slice_ok by lia. cbn [skipn Nat.sub]. destruct (Rb BDW rname) as [R1 R2].
  rewrite R1, R2. rewrite String.eqb_refl.
  change (parse_fields BdwSkip true l rname record (map fst s') 0 st0 = (st, Ok tt)).
  rewrite (parse_fields_ok BdwSkip true l rname record st (map fst s') 0 st0 (has_type_types _ _ _ T0 T)).
  - f_equal. apply assign_target; auto.
    + rewrite <- !types_names. f_equal. apply (has_type_types _ _ _ T0 T).
    + intros n Hn. destruct (String.eqb_spec n BDW) as [->|Nb].
      * rewrite (In_lookup BDW (VInt z) st ND Hz), (In_lookup BDW (VInt z) st0 ND0 Hz0). reflexivity.
      * rewrite (proj2 (lookup_None n st0)), (proj2 (lookup_None n st)); [reflexivity| |].
        -- rewrite (has_type_names _ _ T). intros [E|I]; [apply Nb; symmetry; exact E|contradiction].
        -- rewrite N0. intros [E|I]; [apply Nb; symmetry; exact E|contradiction].
  - intros n Hn. change 0%nat with (length (@nil ascii)).
    apply (body_fields_ok doc sp l s' st record [] rest); auto.
    intros m Hm. rewrite <- lookup_specifications by assumption. rewrite Sp. cbn [lookup].
    destruct (String.eqb_spec m BDW); [congruence|reflexivity].
Qed.

(* records without block descriptor word: segments and trailers *)
Lemma parse_plain pol chk doc l s st st0 record rest rname :
  scheme_plain doc l s = true -> has_type s st -> has_type s st0 -> record_fits doc st ->
  record = write_fields l st ++ rest ->
  parse_fields pol chk l rname record (map fst st0) 0 st0 = (st, Ok tt).
Proof.
  intros H T T0 R Er. destruct (scheme_plain_fit_values _ _ _ _ H T R) as [ND V].
  unfold scheme_plain in H. apply andb_prop in H as [H So]. apply andb_prop in H as [NDl Lo].
  apply nodupb_NoDup in NDl.
  rewrite (parse_fields_ok pol chk l rname record st (map fst st0) 0 st0 (has_type_types _ _ _ T0 T)).
  - f_equal. apply assign_target; auto.
    + rewrite <- !types_names. f_equal. apply (has_type_types _ _ _ T0 T).
    + intros n Hn. rewrite (proj2 (lookup_None n st0) Hn). symmetry. apply lookup_None.
      rewrite (has_type_names _ _ T), <- (has_type_names _ _ T0). exact Hn.
  - intros n Hn. change 0%nat with (length (@nil ascii)).
    apply (body_fields_ok doc (to_specifications l) l s st record [] rest); auto.
    + intros m _. symmetry. apply lookup_specifications. assumption.
    + rewrite <- (has_type_names _ _ T0). exact Hn.
Qed.

Lemma write_fields_plain_length doc l s st : scheme_plain doc l s = true -> has_type s st ->
  record_fits doc st -> length (write_fields l st) = doc_width doc.
Proof.
  intros H T R. destruct (scheme_plain_fit_values _ _ _ _ H T R) as [ND V].
  unfold scheme_plain in H. apply andb_prop in H as [H So]. apply andb_prop in H as [NDl Lo].
  exact (text_length doc 0 _ st Lo V).
Qed.
