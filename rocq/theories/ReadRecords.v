(* Reading records, field by field *)
From Coq Require Import ZArith NArith Bool Ascii String List Lia Permutation.
Import ListNotations.
From Verif Require Import GoBase GoBaseFacts GoTime Regex Tables Codec Records
  SpecCodec SpecLayouts SpecRecords SpecReport SpecRead TimeFacts FieldFacts RecordFacts RoundTrip FieldRead RecordRead ReadField.
Local Open Scope string_scope.
Local Open Scope Z_scope.
Local Open Scope list_scope.
Local Notation length := List.length.

Definition data_names (doc : list doc_field) : list string :=
  map dName (filter (fun d => negb (is_reserved d)) doc).

Lemma data_names_in n doc : In n (data_names doc) -> In n (map dName doc).
Proof.
  unfold data_names. rewrite !in_map_iff. intros (d & E & I). apply filter_In in I as [I _]. eauto.
Qed.

Definition filled (st : fields) (d : doc_field) (w : bytes) : Prop :=
  dKind d = FReserved \/ exists v, stands_for d w v /\ lookup (dName d) st = Some v.

Lemma slice_at pre p rest a b : length pre = a -> (a + length p)%nat = b -> slice (pre ++ p ++ rest) a b = Some p.
Proof.
  intros <- <-. unfold slice. rewrite !app_length.
  destruct (Nat.leb_spec (length pre) (length pre + length p)); [|lia].
  destruct (Nat.leb_spec (length pre + length p) (length pre + (length p + length rest))); [|lia]. cbn [andb].
  rewrite skipn_app, skipn_all, Nat.sub_diag. cbn [app skipn].
  replace (length pre + length p - length pre)%nat with (length p) by lia.
  rewrite firstn_app, firstn_all, Nat.sub_diag. cbn. rewrite app_nil_r. reflexivity.
Qed.

Definition typed_at (st : fields) (d : doc_field) : Prop :=
  is_reserved d = true \/ dName d <> BDW /\ exists v, lookup (dName d) st = Some v /\ kind_of v = fk_kind (dKind d).

Lemma body_exact pol chk l rname record off : forall doc start sp parts pre rest st,
  layout_ok start doc sp = true ->
  Forall (fun p => lookup (fst p) l = Some (snd p)) sp ->
  NoDup (data_names doc) -> Forall (typed_at st) doc ->
  record = pre ++ List.concat parts ++ rest -> length pre = (start + off)%nat -> cut doc parts ->
  (exists st', parse_fields pol chk l rname record (data_names doc) off st = (st', Ok tt)
     /\ Forall2 (filled st') doc parts /\ (forall n, ~ In n (data_names doc) -> lookup n st' = lookup n st))
  \/ (exists st' e d1 d d2 p1 p p2, parse_fields pol chk l rname record (data_names doc) off st = (st', Err e)
     /\ doc = d1 ++ d :: d2 /\ parts = p1 ++ p :: p2 /\ Forall2 (filled st') d1 p1
     /\ (forall n, ~ In n (data_names d1) -> lookup n st' = lookup n st)
     /\ ~ readable d p /\ complaint rname d p e).
Proof.
  induction doc as [|d doc IH]; intros start [|[m g] sp] parts pre rest st Lo Lk ND Ty Er Lp C; try discriminate.
  - inversion C; subst. left. exists st. split; [reflexivity|]. split; [constructor|reflexivity].
  - inversion C as [|? p ? parts' Lw C']; subst parts.
    cbn [layout_ok] in Lo. apply andb_prop in Lo as [Lo H4]. apply andb_prop in Lo as [Lo H3].
    apply andb_prop in Lo as [H1 H2]. apply String.eqb_eq in H1. apply Nat.eqb_eq in H2.
    inversion Lk as [|? ? Lg Lk']; subst. cbn [fst snd] in Lg.
    inversion Ty as [|? ? Td Ty']; subst.
    pose proof (entry_length _ _ H3) as El.
    assert (pre ++ List.concat (p :: parts') ++ rest = (pre ++ p) ++ List.concat parts' ++ rest) as Er'
      by (cbn [List.concat]; rewrite <- !app_assoc; reflexivity).
    destruct (is_reserved d) eqn:Rd.
    + (* reserved *)
      assert (data_names (d :: doc) = data_names doc) as Dn by (unfold data_names; cbn [filter]; rewrite Rd; reflexivity).
      rewrite Dn in *.
      destruct (IH _ sp parts' (pre ++ p) rest st H4 Lk' ND Ty' Er' ltac:(rewrite app_length; lia) C')
        as [(st' & E & F & K)|(st' & e & d1 & x & d2 & p1 & y & p2 & E & -> & -> & F & K & R)].
      * left. exists st'. split; [exact E|]. split; [|exact K]. constructor; [|exact F].
        left. apply is_reserved_spec. exact Rd.
      * right. exists st', e, (d :: d1), x, d2, (p :: p1), y, p2. split; [exact E|]. split; [reflexivity|]. split; [reflexivity|].
        split; [constructor; [left; apply is_reserved_spec; exact Rd|exact F]|]. split; [|exact R].
        unfold data_names. cbn [filter]. rewrite Rd. exact K.
    + assert (data_names (d :: doc) = dName d :: data_names doc) as Dn by (unfold data_names; cbn [filter]; rewrite Rd; reflexivity).
      rewrite Dn in *. inversion ND as [|? ? N1 N2]; subst.
      destruct Td as [Td|(Nb & v0 & L0 & K0)]; [congruence|].
      pose proof (proj1 (is_reserved_false d) Rd) as NR.
      cbn [parse_fields]. rewrite Lg.
      assert (chk && Nat.ltb (length (pre ++ List.concat (p :: parts') ++ rest)) (fStart g + fLength g + off) = false) as ->.
      { apply andb_false_iff. right. apply Nat.ltb_ge. rewrite Er', !app_length. lia. }
      assert (slice (pre ++ List.concat (p :: parts') ++ rest) (fStart g + off) (fStart g + fLength g + off) = Some p) as ->.
      { cbn [List.concat]. rewrite <- app_assoc. apply slice_at; lia. }
      destruct (is_valid_type g p (dName d) rname) as [e|] eqn:V.
      { right. exists st, e, [], d, doc, [], p, parts'. split; [reflexivity|]. split; [reflexivity|]. split; [reflexivity|].
        split; [constructor|]. split; [reflexivity|]. apply (field_complains d g); auto. }
      destruct (parse_value g p (dName d) rname) as [v|e|] eqn:P.
      2:{ right. exists st, e, [], d, doc, [], p, parts'. split; [reflexivity|]. split; [reflexivity|]. split; [reflexivity|].
          split; [constructor|]. split; [reflexivity|]. apply (field_complains d g); auto. }
      2:{ exfalso. eapply field_no_panic; eauto. }
      pose proof (field_stands d g p _ _ v H3 NR Lw V P) as S.
      assert (can_assign (dName d) v st = true) as Ca.
      { apply can_assign_spec. exists v0. split; [exact L0|]. rewrite (stands_kind _ _ _ S), K0. reflexivity. }
      assert (String.eqb (dName d) BDW = false) as Eb by (apply String.eqb_neq; exact Nb).
      set (st1 := set_field (dName d) v st).
      assert (lookup (dName d) st1 = Some v) as L1 by (unfold st1; rewrite lookup_set_field, String.eqb_refl, L0; reflexivity).
      assert (forall n, n <> dName d -> lookup n st1 = lookup n st) as Lo1.
      { intros n Hn. unfold st1. rewrite lookup_set_field. destruct (String.eqb_spec n (dName d)); [contradiction|reflexivity]. }
      assert (Forall (typed_at st1) doc) as Ty1.
      { apply Forall_forall. intros x Hx. rewrite Forall_forall in Ty'. destruct (Ty' x Hx) as [T|(Nx & w & Lx & Kx)]; [left; exact T|].
        right. split; [exact Nx|]. destruct (string_dec (dName x) (dName d)) as [Ex|Ex].
        - destruct (is_reserved x) eqn:Rx; [|].
          + exists v. rewrite Ex. split; [exact L1|]. rewrite Ex, L0 in Lx. injection Lx as <-. rewrite (stands_kind _ _ _ S). congruence.
          + exists v. rewrite Ex. split; [exact L1|]. rewrite Ex, L0 in Lx. injection Lx as <-. rewrite (stands_kind _ _ _ S). congruence.
        - exists w. rewrite Lo1 by exact Ex. auto. }
      match goal with |- (exists st', ?X = _ /\ _) \/ _ =>
        assert (X = parse_fields pol chk l rname (pre ++ List.concat (p :: parts') ++ rest) (data_names doc) off st1) as Ep end.
      { rewrite Ca. destruct v; [change "BlockDescriptorWord" with BDW; rewrite Eb|..]; reflexivity. }
      rewrite Ep. clear Ep.
      destruct (IH _ sp parts' (pre ++ p) rest st1 H4 Lk' N2 Ty1 Er' ltac:(rewrite app_length; lia) C')
        as [(st' & E & F & K)|(st' & e & d1 & x & d2 & p1 & y & p2 & E & -> & -> & F & K & R)].
      * left. exists st'. split; [exact E|]. split.
        -- constructor; [|exact F]. right. exists v. split; [exact S|]. rewrite K by exact N1. exact L1.
        -- intros n Hn. rewrite K by (intros X; apply Hn; right; exact X). apply Lo1. intros ->. apply Hn. left. reflexivity.
      * right. exists st', e, (d :: d1), x, d2, (p :: p1), y, p2. split; [exact E|]. split; [reflexivity|]. split; [reflexivity|].
        assert (incl (data_names d1) (data_names (d1 ++ x :: d2))) as In1.
        { unfold data_names. rewrite filter_app, map_app. apply incl_appl, incl_refl. }
        split; [|split; [|exact R]].
        -- constructor; [|exact F]. right. exists v. split; [exact S|]. rewrite K by (intros X; apply N1, In1; exact X). exact L1.
        -- unfold data_names at 1. cbn [filter]. rewrite Rd. cbn [negb map]. intros n Hn.
           rewrite K by (intros X; apply Hn; right; exact X). apply Lo1. intros ->. apply Hn. left. reflexivity.
Qed.

(* ---- records ---- *)

Lemma holds_lookup st n v : NoDup (map fst st) -> (holds st n v <-> lookup n st = Some v).
Proof. intros ND. split; [apply In_lookup; exact ND|apply lookup_In]. Qed.

Lemma filled_filled_in st d p : filled st d p -> filled_in st d p.
Proof. intros [R|(v & S & L)]; [left; exact R|right]. exists v. split; [exact S|]. apply lookup_In. exact L. Qed.

Lemma filled_all st doc parts : Forall2 (filled st) doc parts -> Forall2 (filled_in st) doc parts.
Proof. induction 1; constructor; auto using filled_filled_in. Qed.

Lemma kept_lookup st st' l : NoDup (map fst st) -> NoDup (map fst st') ->
  (forall n, ~ In n l -> lookup n st' = lookup n st) -> forall l', incl l l' -> kept st st' l'.
Proof.
  intros ND ND' K l' I n v Hn. rewrite !holds_lookup by assumption. rewrite K; [tauto|]. auto.
Qed.

Lemma data_names_incl doc : incl (data_names doc) (map dName doc).
Proof. intros n. apply data_names_in. Qed.

Lemma layout_lookup l sp : NoDup (map fst l) -> (forall n f, In (n, f) sp -> In (n, f) (to_specifications l)) ->
  Forall (fun p => lookup (fst p) l = Some (snd p)) sp.
Proof.
  intros ND I. apply Forall_forall. intros [n f] H. apply I in H. cbn [fst snd].
  apply In_lookup; [exact ND|]. eapply Permutation_in; [apply Permutation_sym, to_specifications_perm|exact H].
Qed.

Lemma nodup_types st st' : types st' = types st -> NoDup (map fst st) -> NoDup (map fst st').
Proof. intros T. rewrite <- (types_names st'), <- (types_names st), T. auto. Qed.

Lemma struct_typed doc s st : struct_ok doc s = true -> NoDup (map fst st) ->
  (forall n k, lookup n s = Some k -> exists v, lookup n st = Some v /\ kind_of v = k) ->
  (forall d, In d doc -> dName d <> BDW) -> Forall (typed_at st) doc.
Proof.
  intros So ND T NB. apply Forall_forall. intros d Hd. pose proof (struct_entry _ _ _ So Hd) as Se.
  unfold typed_at. destruct (is_reserved d); [auto|]. right. split; [auto|]. apply T. exact Se.
Qed.

Lemma struct_ok_bdw doc s d : struct_ok doc s = true -> In d doc -> dName d <> BDW.
Proof.
  intros So Hd E. unfold struct_ok in So. apply andb_prop in So as [_ So]. apply negb_true_iff in So.
  assert (existsb (fun d => String.eqb (dName d) BDW) doc = true) as X; [|congruence].
  apply existsb_exists. exists d. split; [exact Hd|]. rewrite E. reflexivity.
Qed.

Lemma plain_exact pol chk doc l s st rname parts rest :
  scheme_plain doc l s = true -> data_names doc = map fst s -> has_type s st -> cut doc parts ->
  let r := parse_fields pol chk l rname (List.concat parts ++ rest) (map fst st) 0 st in
  (exists st', r = (st', Ok tt) /\ read_whole doc parts st st')
  \/ (exists st' e, r = (st', Err e) /\ read_until rname doc parts st st' e).
Proof.
  intros H On T C r. unfold scheme_plain in H. apply andb_prop in H as [H So]. apply andb_prop in H as [NDl Lo].
  apply nodupb_NoDup in NDl. destruct (struct_ok_nodup _ _ So) as [NDs NB].
  assert (map fst st = map fst s) as Nm by (apply has_type_names; exact T).
  assert (NoDup (map fst st)) as ND by (rewrite Nm; exact NDs).
  assert (forall st' x, r = (st', x) -> NoDup (map fst st')) as ND'.
  { intros st' x E. eapply nodup_types; [|exact ND].
    pose proof (parse_fields_types pol chk l rname (List.concat parts ++ rest) (map fst st) 0 st) as Ty. fold r in Ty. rewrite E in Ty. exact Ty. }
  assert (Forall (typed_at st) doc) as Ty.
  { apply (struct_typed doc s); auto.
    - intros n k Hk. rewrite <- T in Hk. apply lookup_of_types. exact Hk.
    - intros d. apply (struct_ok_bdw doc s). exact So. }
  unfold r in *. rewrite Nm, <- On. rewrite Nm, <- On in ND'.
  destruct (body_exact pol chk l rname (List.concat parts ++ rest) 0 doc 0 (to_specifications l) parts [] rest st Lo)
    as [(st' & E & F & K)|(st' & e & d1 & d & d2 & p1 & p & p2 & E & Ed & Ep & F & K & R)]; auto.
  - apply layout_lookup; auto.
  - rewrite On. exact NDs.
  - left. exists st'. split; [exact E|]. split; [apply filled_all; exact F|].
    eapply kept_lookup; [exact ND|eapply ND'; exact E|exact K|apply data_names_incl].
  - right. exists st', e. split; [exact E|]. exists d1, d, d2, p1, p, p2.
    split; [exact Ed|]. split; [exact Ep|]. split; [apply filled_all; exact F|]. split; [|exact R].
    eapply kept_lookup; [exact ND|eapply ND'; exact E|exact K|apply data_names_incl].
Qed.

(* the block descriptor word, as a field of four bytes *)
Definition word_field (packed : bool) : field := mkField 0 4 (if packed then descriptor else numeric) applicable.

Lemma word_entry p : entry_ok (block_word p) (word_field p) = true.
Proof. destruct p; reflexivity. Qed.

Lemma word_same p w n r : is_valid_type (bdw_field p) w n r = is_valid_type (word_field p) w n r
  /\ parse_value (bdw_field p) w n r = parse_value (word_field p) w n r.
Proof. destruct p; split; reflexivity. Qed.

Lemma word_not_reserved p : dKind (block_word p) <> FReserved.
Proof. destruct p; discriminate. Qed.

Lemma word_stands p w r v : length w = 4%nat ->
  is_valid_type (bdw_field p) w BDW r = None -> parse_value (bdw_field p) w BDW r = Ok v ->
  stands_for (block_word p) w v /\ exists z, v = VInt z.
Proof.
  intros L V P. destruct (word_same p w BDW r) as [Ev Epv]. rewrite Ev in V. rewrite Epv in P.
  assert (stands_for (block_word p) w v) as S.
  { eapply field_stands; [apply word_entry|apply word_not_reserved|destruct p; exact L|exact V|exact P]. }
  split; [exact S|]. apply stands_kind in S. destruct p, v; try discriminate; eauto.
Qed.

Lemma word_complains p w r e : length w = 4%nat ->
  is_valid_type (bdw_field p) w BDW r = Some e
    \/ is_valid_type (bdw_field p) w BDW r = None /\ parse_value (bdw_field p) w BDW r = Err e ->
  ~ readable (block_word p) w /\ complaint r (block_word p) w e.
Proof.
  intros L H. destruct (word_same p w BDW r) as [Ev Epv]. rewrite Ev, Epv in H.
  eapply field_complains; [apply word_entry|apply word_not_reserved|destruct p; exact L|exact H].
Qed.

Lemma bdw_step pol p l rname w record names st z0 : length w = 4%nat -> firstn 4 record = w ->
  lookup BDW l = Some (bdw_field p) -> lookup BDW st = Some (VInt z0) ->
  (exists e, parse_fields pol true l rname record (BDW :: names) 0 st = (st, Err e)
     /\ ~ readable (block_word p) w /\ complaint rname (block_word p) w e)
  \/ (exists z, stands_for (block_word p) w (VInt z) /\
      parse_fields pol true l rname record (BDW :: names) 0 st =
        match pol with
        | BdwSkip => parse_fields pol true l rname record names 0 st
        | BdwShift => parse_fields pol true l rname record names 4 (set_field BDW (VInt z) st)
        | BdwError => (st, Err ErrBlockDescriptorWord)
        | BdwPlain => parse_fields pol true l rname record names 0 (set_field BDW (VInt z) st)
        end).
Proof.
  intros Lw Ew Lb Ls. cbn [parse_fields]. rewrite Lb. cbn [fStart fLength bdw_field andb].
  assert (4 <= length record)%nat as L4.
  { rewrite <- Ew, firstn_length in Lw. lia. }
  destruct (Nat.ltb_spec (length record) (0 + 4 + 0)) as [X|_]; [cbn in X; lia|].
  assert (slice record (0 + 0) (0 + 4 + 0) = Some w) as ->.
  { unfold slice. cbn [Nat.add]. destruct (Nat.leb_spec 4 (length record)); [|lia]. cbn [Nat.leb andb Nat.sub skipn]. rewrite Ew. reflexivity. }
  change (mkField 0 4 (bdw_type p) applicable) with (bdw_field p).
  destruct (is_valid_type (bdw_field p) w BDW rname) as [e|] eqn:V.
  { left. exists e. split; [reflexivity|]. apply word_complains; auto. }
  destruct (parse_value (bdw_field p) w BDW rname) as [v|e|] eqn:P.
  - right. destruct (word_stands p w rname v Lw V P) as [S [z ->]]. exists z. split; [exact S|].
    assert (can_assign BDW (VInt z) st = true) as Ca by (apply can_assign_spec; eauto).
    rewrite Ca. change "BlockDescriptorWord" with BDW. rewrite String.eqb_refl. destruct pol; reflexivity.
  - left. exists e. split; [reflexivity|]. apply word_complains; auto.
  - exfalso. destruct (word_same p w BDW rname) as [_ Epv]. rewrite Epv in P.
    eapply field_no_panic; [apply word_entry| |exact P]. destruct p; exact Lw.
Qed.

Section Bdw.
Variables (packed : bool) (doc : list doc_field) (l : layout) (s : structure) (st : fields) (rname : string).
Hypothesis Sch : scheme_bdw packed doc l s = true.
Hypothesis On : BDW :: data_names doc = map fst s.
Hypothesis T : has_type s st.

Lemma bdw_body pol (off : nat) st1 pre parts rest : types st1 = types st -> cut doc parts -> length pre = off ->
  let r := parse_fields pol true l rname (pre ++ List.concat parts ++ rest) (data_names doc) off st1 in
  (exists st', r = (st', Ok tt) /\ read_whole doc parts st1 st')
  \/ (exists st' e, r = (st', Err e) /\ read_until rname doc parts st1 st' e).
Proof using Sch On T.
  intros Et C Lp r. destruct (scheme_bdw_inv _ _ _ _ Sch) as (sp & s' & Sp & Es & NDl & Lo & So).
  destruct (struct_ok_nodup _ _ So) as [NDs NB].
  assert (data_names doc = map fst s') as On'.
  { pose proof On as O. rewrite Es in O. cbn in O. injection O. auto. }
  assert (NoDup (map fst st1)) as ND.
  { eapply nodup_types; [exact Et|]. rewrite (has_type_names _ _ T), Es. constructor; assumption. }
  assert (forall st' x, r = (st', x) -> NoDup (map fst st')) as ND'.
  { intros st' x E. eapply nodup_types; [|exact ND].
    pose proof (parse_fields_types pol true l rname (pre ++ List.concat parts ++ rest) (data_names doc) off st1) as Ty. fold r in Ty. rewrite E in Ty. exact Ty. }
  assert (Forall (typed_at st1) doc) as Ty.
  { apply (struct_typed doc s'); auto.
    - intros n k Hk. apply lookup_of_types. rewrite Et. unfold has_type in T. unfold types. rewrite T, Es. cbn [lookup].
      destruct (String.eqb_spec n BDW) as [->|]; [|exact Hk]. exfalso. apply NB. eapply lookup_Some_In_fst. exact Hk.
    - intros d. apply (struct_ok_bdw doc s'). exact So. }
  destruct (body_exact pol true l rname (pre ++ List.concat parts ++ rest) off doc 0 sp parts pre rest st1 Lo)
    as [(st' & E & F & K)|(st' & e & d1 & d & d2 & p1 & p & p2 & E & Ed & Ep & F & K & R)]; auto.
  - apply layout_lookup; auto. rewrite Sp. intros n f I. right. exact I.
  - rewrite On'. exact NDs.
  - left. exists st'. split; [exact E|]. split; [apply filled_all; exact F|].
    eapply kept_lookup; [exact ND|eapply ND'; exact E|exact K|apply data_names_incl].
  - right. exists st', e. split; [exact E|]. exists d1, d, d2, p1, p, p2.
    split; [exact Ed|]. split; [exact Ep|]. split; [apply filled_all; exact F|]. split; [|exact R].
    eapply kept_lookup; [exact ND|eapply ND'; exact E|exact K|apply data_names_incl].
Qed.

Lemma bdw_names : map fst st = BDW :: data_names doc /\ NoDup (map fst st) /\ (exists z, lookup BDW st = Some (VInt z))
  /\ lookup BDW l = Some (bdw_field packed) /\ ~ In BDW (map dName doc).
Proof using Sch On T.
  destruct (scheme_bdw_inv _ _ _ _ Sch) as (sp & s' & Sp & Es & NDl & Lo & So).
  destruct (struct_ok_nodup _ _ So) as [NDs NB].
  split; [rewrite On; apply has_type_names; exact T|].
  split; [rewrite (has_type_names _ _ T), Es; constructor; assumption|].
  split; [|split].
  - pose proof T as T0. rewrite Es in T0. apply types_BDW in T0 as (z & st0 & ->). exists z. reflexivity.
  - rewrite <- (lookup_specifications l _ NDl), Sp. reflexivity.
  - intros I. apply in_map_iff in I as (d & E & Hd). exact (struct_ok_bdw doc s' d So Hd E).
Qed.

Lemma kept_trans_word st1 st' z names : st1 = set_field BDW (VInt z) st -> kept st1 st' names -> kept st st' (BDW :: names).
Proof.
  intros -> K n v Hn. rewrite <- (K n v) by (intros X; apply Hn; right; exact X).
  assert (n <> BDW) as N by (intros ->; apply Hn; left; reflexivity).
  unfold holds. clear - N. induction st as [|[m x] q IH]; [reflexivity|]. cbn [set_field].
  destruct (String.eqb_spec BDW m) as [<-|].
  - cbn [In]. split; intros [E|E]; auto; exfalso; congruence.
  - cbn [In]. rewrite IH. tauto.
Qed.

Lemma variable_exact w parts rest : length w = 4%nat -> cut doc parts ->
  let r := parse_fields BdwShift true l rname (w ++ List.concat parts ++ rest) (map fst st) 0 st in
  (exists st', r = (st', Ok tt) /\ read_whole (block_word packed :: doc) (w :: parts) st st')
  \/ (exists st' e, r = (st', Err e) /\ read_until rname (block_word packed :: doc) (w :: parts) st st' e).
Proof using Sch On T.
  intros Lw C r. destruct bdw_names as (Nm & ND & (z0 & L0) & Lb & NBd). unfold r. rewrite Nm.
  assert (firstn 4 (w ++ List.concat parts ++ rest) = w) as F4 by (apply firstn_app_exact; symmetry; exact Lw).
  destruct (bdw_step BdwShift packed l rname w _ (data_names doc) st z0 Lw F4 Lb L0) as [(e & E & R)|(z & S & E)].
  - right. exists st, e. split; [exact E|]. exists [], (block_word packed), doc, [], w, parts.
    split; [reflexivity|]. split; [reflexivity|]. split; [constructor|]. split; [intros n v _; tauto|exact R].
  - rewrite E. set (st1 := set_field BDW (VInt z) st).
    assert (types st1 = types st) as Et by (apply set_field_types, can_assign_spec; eauto).
    assert (lookup BDW st1 = Some (VInt z)) as L1 by (unfold st1; rewrite lookup_set_field, String.eqb_refl, L0; reflexivity).
    destruct (bdw_body BdwShift 4 st1 w parts rest Et C Lw) as [(st' & E' & F & K)|(st' & e & E' & d1 & d & d2 & p1 & p & p2 & Ed & Ep & F & K & R)].
    + left. exists st'. split; [exact E'|]. split; [|eapply kept_trans_word; [reflexivity|exact K]].
      constructor; [|exact F]. right. exists (VInt z). split; [exact S|]. apply (K BDW (VInt z)); [exact NBd|].
      apply lookup_In. exact L1.
    + right. exists st', e. split; [exact E'|]. exists (block_word packed :: d1), d, d2, (w :: p1), p, p2.
      split; [rewrite Ed; reflexivity|]. split; [rewrite Ep; reflexivity|]. split; [|split; [eapply kept_trans_word; [reflexivity|exact K]|exact R]].
      constructor; [|exact F]. right. exists (VInt z). split; [exact S|]. apply (K BDW (VInt z)).
      * intros X. apply NBd. rewrite Ed, map_app. apply in_or_app. left. exact X.
      * apply lookup_In. exact L1.
Qed.

Lemma fixed_exact w q rest : length w = 4%nat -> cut doc (w :: q) ->
  let r := parse_fields BdwSkip true l rname (List.concat (w :: q) ++ rest) (map fst st) 0 st in
  (exists st', r = (st', Ok tt) /\ readable (block_word packed) w /\ read_whole doc (w :: q) st st')
  \/ (exists st' e, r = (st', Err e) /\
       (~ readable (block_word packed) w /\ st' = st /\ complaint rname (block_word packed) w e
        \/ readable (block_word packed) w /\ read_until rname doc (w :: q) st st' e)).
Proof using Sch On T.
  intros Lw C r. destruct bdw_names as (Nm & ND & (z0 & L0) & Lb & NBd). unfold r. rewrite Nm.
  assert (firstn 4 (List.concat (w :: q) ++ rest) = w) as F4 by (cbn [List.concat]; rewrite <- app_assoc; apply firstn_app_exact; symmetry; exact Lw).
  destruct (bdw_step BdwSkip packed l rname w _ (data_names doc) st z0 Lw F4 Lb L0) as [(e & E & R)|(z & S & E)].
  - right. exists st, e. split; [exact E|]. left. split; [apply R|]. split; [reflexivity|apply R].
  - rewrite E. assert (readable (block_word packed) w) as Rw by (right; eauto).
    destruct (bdw_body BdwSkip 0 st [] (w :: q) rest eq_refl C eq_refl) as [(st' & E' & F)|(st' & e & E' & F)].
    + left. exists st'. auto.
    + right. exists st', e. auto.
Qed.

End Bdw.
