(* What reading a record can produce, and that it never panics *)
From Coq Require Import ZArith NArith Bool Ascii String List Lia Permutation.
Import ListNotations.
From Verif Require Import GoBase GoBaseFacts GoTime Regex Tables Codec Records
  SpecCodec SpecLayouts SpecRecords TimeFacts FieldFacts RecordFacts RoundTrip FieldRead.
Local Open Scope string_scope.
Local Open Scope Z_scope.
Local Open Scope list_scope.
Local Notation length := List.length.

(* ---- types are kept whatever happens ---- *)

Lemma parse_fields_types pol chk l rname record : forall names off st,
  types (fst (parse_fields pol chk l rname record names off st)) = types st.
Proof.
  induction names as [|n names IH]; intros off st; [reflexivity|]. cbn [parse_fields].
  destruct (lookup n l) as [f|]; [|reflexivity].
  destruct (chk && _); [reflexivity|].
  destruct (slice _ _ _) as [data|]; [|reflexivity].
  destruct (is_valid_type _ _ _ _); [reflexivity|].
  destruct (parse_value _ _ _ _) as [v| |]; [|reflexivity|reflexivity].
  assert (forall o, types (fst (if can_assign n v st
      then parse_fields pol chk l rname record names o (set_field n v st) else (st, Panic))) = types st) as C.
  { intros o. destruct (can_assign n v st) eqn:Ca; [|reflexivity]. rewrite IH, set_field_types; auto. }
  destruct v; auto. destruct (String.eqb n BDW); auto. destruct pol; auto.
Qed.

(* ---- successful reading ---- *)

Lemma parse_fields_inv pol chk l rname record : forall names off st st',
  ~ In BDW names -> NoDup names ->
  parse_fields pol chk l rname record names off st = (st', Ok tt) ->
  (forall n, In n names -> exists f data v, lookup n l = Some f /\
     slice record (fStart f + off) (fStart f + fLength f + off) = Some data /\
     is_valid_type f data n rname = None /\ parse_value f data n rname = Ok v /\
     lookup n st' = Some v) /\
  (forall n, ~ In n names -> lookup n st' = lookup n st).
Proof.
  induction names as [|n names IH]; intros off st st' NB ND H.
  - injection H as <-. split; [intros n []|auto].
  - cbn [parse_fields] in H. destruct (lookup n l) as [f|] eqn:Lk; [|discriminate].
    destruct (chk && _); [discriminate|].
    destruct (slice _ _ _) as [data|] eqn:Sl; [|discriminate].
    destruct (is_valid_type _ _ _ _) eqn:V; [discriminate|].
    destruct (parse_value _ _ _ _) as [v| |] eqn:P; [|discriminate|discriminate].
    assert (String.eqb n BDW = false) as E by (apply String.eqb_neq; intros ->; apply NB; left; reflexivity).
    assert ((if can_assign n v st then parse_fields pol chk l rname record names off (set_field n v st)
             else (st, Panic)) = (st', Ok tt)) as H'.
    { destruct v; [rewrite E in H|..]; exact H. }
    destruct (can_assign n v st) eqn:Ca; [|discriminate].
    inversion ND as [|? ? N1 N2]; subst.
    apply IH in H' as [H1 H2]; [|intros X; apply NB; right; exact X|exact N2].
    split.
    + intros m [<-|Hm]; [|auto]. exists f, data, v. repeat (split; [assumption|]).
      rewrite H2 by exact N1. rewrite lookup_set_field, String.eqb_refl.
      apply can_assign_spec in Ca as (w & -> & _). reflexivity.
    + intros m Hm. rewrite H2 by (intros X; apply Hm; right; exact X).
      rewrite lookup_set_field. destruct (String.eqb_spec m n) as [->|]; [|reflexivity].
      exfalso. apply Hm. left. reflexivity.
Qed.

(* ---- reading never panics ---- *)

Definition safe_entry (st : fields) (n rname : string) (f : field) : Prop :=
  forall data, length data = fLength f -> is_valid_type f data n rname = None ->
  parse_value f data n rname <> Panic /\
  forall v, parse_value f data n rname = Ok v -> can_assign n v st = true.

Lemma can_assign_types n v a b : types a = types b -> can_assign n v a = can_assign n v b.
Proof.
  intros T. unfold can_assign. pose proof (lookup_types n a) as A. pose proof (lookup_types n b) as B.
  rewrite T, B in A. destruct (lookup n a), (lookup n b); cbn in A; congruence.
Qed.

Lemma slice_length s a b d : slice s a b = Some d -> length d = (b - a)%nat.
Proof.
  unfold slice. destruct (Nat.leb a b && Nat.leb b (length s))%bool eqn:E; [|discriminate].
  intros [= <-]. apply andb_prop in E as [E1 E2]. apply Nat.leb_le in E1, E2.
  rewrite firstn_length, skipn_length. lia.
Qed.

Lemma parse_fields_no_panic pol chk l rname record : forall names off st,
  (forall n f, In n names -> lookup n l = Some f -> safe_entry st n rname f) ->
  (chk = true \/ (pol = BdwPlain /\ forall n f, lookup n l = Some f ->
     (fStart f + fLength f + off <= length record)%nat)) ->
  snd (parse_fields pol chk l rname record names off st) <> Panic.
Proof.
  induction names as [|n names IH]; intros off st Sf R; [discriminate|]. cbn [parse_fields].
  destruct (lookup n l) as [f|] eqn:Lk; [|discriminate].
  destruct (chk && Nat.ltb (length record) (fStart f + fLength f + off)) eqn:C; [discriminate|].
  assert (fStart f + fLength f + off <= length record)%nat as Rg.
  { destruct R as [->|[_ R]]; [|eauto]. cbn [andb] in C. apply Nat.ltb_ge in C. exact C. }
  destruct (slice _ _ _) as [data|] eqn:Sl.
  2:{ exfalso. unfold slice in Sl.
      destruct (Nat.leb_spec (fStart f + off) (fStart f + fLength f + off)); [|lia].
      destruct (Nat.leb_spec (fStart f + fLength f + off) (length record)); [discriminate|lia]. }
  pose proof (slice_length _ _ _ _ Sl) as Ld.
  destruct (is_valid_type _ _ _ _) eqn:V; [discriminate|].
  destruct (Sf n f (or_introl eq_refl) Lk data ltac:(lia) V) as [Hnp Hca].
  destruct (parse_value _ _ _ _) as [v| |] eqn:P; [|discriminate|contradiction].
  specialize (Hca v eq_refl).
  assert (forall o, (chk = true \/ o = off) -> snd (if can_assign n v st
      then parse_fields pol chk l rname record names o (set_field n v st) else (st, Panic)) <> Panic) as K.
  { intros o Ho. rewrite Hca. apply IH.
    - intros m g Hm Hg data' L' V'. destruct (Sf m g (or_intror Hm) Hg data' L' V') as [A B].
      split; [exact A|]. intros w Hw. rewrite (can_assign_types m w (set_field n v st) st); auto.
      apply set_field_types. exact Hca.
    - destruct R as [R|R]; [left; exact R|]. destruct Ho as [Ho| ->]; [left; exact Ho|right; exact R]. }
  destruct v; auto. destruct (String.eqb n BDW); auto.
  destruct pol; auto; try discriminate.
  - apply IH.
    + intros m g Hm Hg. apply Sf; auto. right. exact Hm.
    + destruct R as [R|[R _]]; [auto|discriminate].
  - apply K. destruct R as [R|[R _]]; [left; exact R|discriminate].
Qed.

Lemma entry_safe d f st rname v0 : entry_ok d f = true -> dKind d <> FReserved ->
  lookup (dName d) st = Some v0 -> kind_of v0 = fk_kind (dKind d) -> safe_entry st (dName d) rname f.
Proof.
  intros E NR Lk K data L V.
  assert (fLength f = dWidth d) as W.
  { unfold entry_ok in E. do 3 apply andb_prop in E as [E _]. apply Nat.eqb_eq in E. exact E. }
  rewrite W in L. split; [eapply field_no_panic; eassumption|].
  intros v P. destruct (field_read d f data _ _ v E NR L V P) as [F _].
  apply can_assign_spec. exists v0. split; [exact Lk|]. rewrite (read_fits_kind _ _ F). auto.
Qed.

Lemma bdw_safe p st rname z : lookup BDW st = Some (VInt z) -> safe_entry st BDW rname (bdw_field p).
Proof.
  intros Lk data L V. cbn in L. split.
  - destruct data as [|a [|b ?]]; try discriminate.
    destruct p; cbn; [discriminate|]. destruct (parse_int 64 _) as [? [|]]; discriminate.
  - intros v P. apply can_assign_spec. exists (VInt z). split; [exact Lk|].
    destruct p; cbn in P.
    + destruct data as [|a [|b ?]]; try discriminate. injection P as <-. reflexivity.
    + destruct (parse_int 64 data) as [? [|]]; [discriminate|]. injection P as <-. reflexivity.
Qed.

Lemma layout_ok_lookup doc : forall start sp n f, layout_ok start doc sp = true -> lookup n sp = Some f ->
  exists d, In d doc /\ dName d = n /\ entry_ok d f = true /\
    (start <= fStart f)%nat /\ (fStart f + dWidth d <= start + doc_width doc)%nat.
Proof.
  induction doc as [|d doc IH]; intros start [|[m g] sp] n f H Lk; try discriminate.
  cbn [layout_ok] in H. apply andb_prop in H as [H H4]. apply andb_prop in H as [H H3].
  apply andb_prop in H as [H1 H2]. apply String.eqb_eq in H1. apply Nat.eqb_eq in H2.
  cbn [lookup] in Lk. cbn [doc_width]. destruct (String.eqb_spec n m).
  - injection Lk as <-. exists d. subst. repeat split; auto; try (left; reflexivity); try lia.
  - destruct (IH _ _ _ _ H4 Lk) as (d' & A & B & C & D1 & D2). exists d'.
    repeat split; auto; try (right; exact A); try lia.
Qed.

Lemma struct_entry doc s d : struct_ok doc s = true -> In d doc ->
  if is_reserved d then ~ In (dName d) (map fst s) else lookup (dName d) s = Some (fk_kind (dKind d)).
Proof.
  intros H Hd. unfold struct_ok in H. do 4 apply andb_prop in H as [H _].
  rewrite forallb_forall in H. specialize (H d Hd). destruct (is_reserved d).
  - apply negb_true_iff in H. intros I. apply existsb_string_In in I. congruence.
  - destruct (lookup (dName d) s) as [k|]; [|discriminate]. f_equal. destruct k, (fk_kind (dKind d)); try discriminate; reflexivity.
Qed.

Lemma is_reserved_spec d : is_reserved d = true <-> dKind d = FReserved.
Proof. unfold is_reserved. destruct (dKind d); split; congruence. Qed.

Lemma is_reserved_false d : is_reserved d = false <-> dKind d <> FReserved.
Proof. unfold is_reserved. destruct (dKind d); split; congruence. Qed.

Lemma lookup_of_types n st k : lookup n (types st) = Some k -> exists v, lookup n st = Some v /\ kind_of v = k.
Proof. rewrite lookup_types. destruct (lookup n st) as [v|]; cbn; intros [= <-]. eauto. Qed.

(* ---- the two kinds of records ---- *)

Lemma plain_no_panic pol chk doc l s st record rname : scheme_plain doc l s = true -> has_type s st ->
  (chk = true \/ (pol = BdwPlain /\ (doc_width doc <= length record)%nat)) ->
  snd (parse_fields pol chk l rname record (map fst st) 0 st) <> Panic.
Proof.
  intros H T R. unfold scheme_plain in H. apply andb_prop in H as [H So]. apply andb_prop in H as [NDl Lo].
  apply nodupb_NoDup in NDl. apply parse_fields_no_panic.
  - intros n f Hn Lk. rewrite <- (lookup_specifications l n NDl) in Lk.
    destruct (layout_ok_lookup _ _ _ _ _ Lo Lk) as (d & Hd & <- & E & _).
    pose proof (struct_entry _ _ _ So Hd) as Se. destruct (is_reserved d) eqn:Rd.
    + exfalso. apply Se. rewrite <- (has_type_names _ _ T). exact Hn.
    + rewrite <- T in Se. apply lookup_of_types in Se as (v0 & L0 & K0).
      eapply entry_safe; eauto. apply is_reserved_false. exact Rd.
  - destruct R as [R|[R1 R2]]; [left; exact R|right]. split; [exact R1|]. intros n f Lk.
    rewrite <- (lookup_specifications l n NDl) in Lk.
    destruct (layout_ok_lookup _ _ _ _ _ Lo Lk) as (d & Hd & <- & E & _ & B).
    unfold entry_ok in E. do 3 apply andb_prop in E as [E _]. apply Nat.eqb_eq in E. lia.
Qed.

Lemma bdw_no_panic pol packed doc l s st record rname : scheme_bdw packed doc l s = true -> has_type s st ->
  snd (parse_fields pol true l rname record (map fst st) 0 st) <> Panic.
Proof.
  intros H T. apply scheme_bdw_inv in H as (sp & s' & Sp & -> & NDl & Lo & So).
  destruct (types_BDW _ _ T) as (z & st' & Est).
  apply parse_fields_no_panic; [|left; reflexivity].
  intros n f Hn Lk. rewrite <- (lookup_specifications l n NDl), Sp in Lk. cbn [lookup] in Lk.
  destruct (String.eqb_spec n BDW) as [->|Nb].
  - injection Lk as <-. apply (bdw_safe packed st rname z). subst st. reflexivity.
  - destruct (layout_ok_lookup _ _ _ _ _ Lo Lk) as (d & Hd & <- & E & _).
    pose proof (struct_entry _ _ _ So Hd) as Se. destruct (is_reserved d) eqn:Rd.
    + exfalso. apply Se. rewrite (has_type_names _ _ T) in Hn. destruct Hn as [Hn|Hn]; [|exact Hn].
      cbn in Hn. congruence.
    + assert (lookup (dName d) (types st) = Some (fk_kind (dKind d))) as Lt.
      { unfold has_type in T. unfold types. rewrite T. cbn [lookup].
        destruct (String.eqb_spec (dName d) BDW); [contradiction|exact Se]. }
      apply lookup_of_types in Lt as (v0 & L0 & K0).
      eapply entry_safe; eauto. apply is_reserved_false. exact Rd.
Qed.

(* what is known after reading the body: every field of the layout was read at
   its position (moved by [off]) *)
Definition body_read (sp : layout) (off : nat) (record : bytes) (rname : string) (names : list string) (st : fields) : Prop :=
  forall n f, In n names -> lookup n sp = Some f -> exists data v,
    slice record (fStart f + off) (fStart f + fLength f + off) = Some data /\
    is_valid_type f data n rname = None /\ parse_value f data n rname = Ok v /\ lookup n st = Some v.

Lemma entry_length d f : entry_ok d f = true -> fLength f = dWidth d.
Proof. intros E. unfold entry_ok in E. do 3 apply andb_prop in E as [E _]. apply Nat.eqb_eq in E. exact E. Qed.

Lemma layout_ok_in doc : forall start sp d, layout_ok start doc sp = true -> In d doc ->
  exists f, In (dName d, f) sp /\ entry_ok d f = true.
Proof.
  induction doc as [|e doc IH]; intros start [|[m g] sp] d H Hd; try discriminate; [destruct Hd|].
  cbn [layout_ok] in H. apply andb_prop in H as [H H4]. apply andb_prop in H as [H H3].
  apply andb_prop in H as [H1 H2]. apply String.eqb_eq in H1.
  destruct Hd as [<-|Hd].
  - exists g. split; [left; congruence|exact H3].
  - destruct (IH _ _ _ H4 Hd) as (f & A & B). exists f. split; [right; exact A|exact B].
Qed.

Lemma body_read_reads doc sp start off record rname names st :
  layout_ok start doc sp = true -> NoDup (map fst sp) ->
  (forall d, In d doc -> is_reserved d = false -> In (dName d) names) ->
  body_read sp off record rname names st -> record_reads doc st.
Proof.
  intros Lo ND Hn Br d Hd NR. apply is_reserved_false in NR.
  destruct (layout_ok_in _ _ _ _ Lo Hd) as (f & If & E).
  pose proof (In_lookup _ _ _ ND If) as Lk.
  destruct (Br _ _ (Hn _ Hd NR) Lk) as (data & v & Sl & V & P & Ls).
  exists v. split; [apply lookup_In; exact Ls|].
  apply slice_length in Sl. pose proof (entry_length _ _ E).
  eapply field_read; eauto; [apply is_reserved_false; exact NR|lia].
Qed.

(* canonical text is written again *)
Lemma body_read_text doc : forall sp start off record rname names st parts pre rest,
  layout_ok start doc sp = true -> NoDup (map fst sp) ->
  (forall d, In d doc -> if is_reserved d then lookup (dName d) st = None else In (dName d) names) ->
  body_read sp off record rname names st ->
  record = pre ++ List.concat parts ++ rest -> length pre = (start + off)%nat ->
  Forall2 (fun d p => length p = dWidth d /\ canonical d p) doc parts ->
  text sp st = List.concat parts /\
  (forall d, In d doc -> dKind d <> FReserved -> exists v, holds st (dName d) v /\ fits d v).
Proof.
  induction doc as [|d doc IH]; intros [|[m g] sp] start off record rname names st parts pre rest Lo ND Hn Br Er Lp F;
    try discriminate.
  - inversion F; subst. split; [reflexivity|intros d []].
  - inversion F as [|? p ? parts' [Lw Cp] F']; subst parts. subst.
    cbn [layout_ok] in Lo. apply andb_prop in Lo as [Lo H4]. apply andb_prop in Lo as [Lo H3].
    apply andb_prop in Lo as [H1 H2]. apply String.eqb_eq in H1. apply Nat.eqb_eq in H2. subst m.
    cbn [map fst] in ND. inversion ND as [|? ? N1 N2]; subst.
    pose proof (entry_length _ _ H3) as El.
    destruct (IH sp (fStart g + dWidth d)%nat off (pre ++ List.concat (p :: parts') ++ rest) rname names st parts' (pre ++ p) rest)
      as [It Ir]; auto.
    + intros e He. apply Hn. right. exact He.
    + intros n f Hin Lk. apply Br; [exact Hin|]. cbn [lookup].
      destruct (String.eqb_spec n (dName d)) as [->|]; [|exact Lk].
      exfalso. apply N1. eapply lookup_Some_In_fst. exact Lk.
    + cbn [List.concat]. rewrite <- !app_assoc. reflexivity.
    + rewrite app_length. lia.
    + assert (to_string g (lookup (dName d) st) = p /\
              (dKind d <> FReserved -> exists v, holds st (dName d) v /\ fits d v)) as [Ep Ef].
      { specialize (Hn d (or_introl eq_refl)). destruct (is_reserved d) eqn:Rd.
        - apply is_reserved_spec in Rd. rewrite Hn. split; [|contradiction].
          unfold canonical in Cp. rewrite Rd in Cp. rewrite Cp. apply reserved_written; assumption.
        - apply is_reserved_false in Rd.
          destruct (Br (dName d) g Hn) as (data & v & Sl & V & P & Ls).
          { cbn [lookup]. rewrite String.eqb_refl. reflexivity. }
          assert (data = p) as ->.
          { pose proof (slice_length _ _ _ _ Sl) as Ld. unfold slice in Sl.
            destruct (_ && _)%bool in Sl; [|discriminate]. injection Sl as <-.
            replace (fStart g + fLength g + off - (fStart g + off))%nat with (length p) by lia.
            rewrite <- Lp. rewrite skipn_app, skipn_all, Nat.sub_diag. cbn [skipn app List.concat].
            rewrite <- app_assoc, firstn_app, firstn_all, Nat.sub_diag. cbn. apply app_nil_r. }
          destruct (field_read d g p _ _ v H3 Rd Lw V P) as [_ Fc]. destruct (Fc Cp) as [Ff Ft].
          rewrite Ls. split; [exact Ft|]. intros _. exists v. split; [apply lookup_In; exact Ls|exact Ff]. }
      split.
      * unfold text in *. cbn [flat_map fst snd List.concat]. rewrite It, Ep. reflexivity.
      * intros e [<-|He]; [exact Ef|apply Ir; exact He].
Qed.

Lemma plain_read pol chk doc l s st st' record rname : scheme_plain doc l s = true -> has_type s st ->
  parse_fields pol chk l rname record (map fst st) 0 st = (st', Ok tt) ->
  has_type s st' /\ NoDup (map fst st') /\ record_reads doc st' /\
  (forall text' rest, record = text' ++ rest -> canonical_body doc text' ->
     record_fits doc st' /\ write_fields l st' = text') /\
  body_read (to_specifications l) 0 record rname (map fst s) st'.
Proof.
  intros H T P. unfold scheme_plain in H. apply andb_prop in H as [H So]. apply andb_prop in H as [NDl Lo].
  apply nodupb_NoDup in NDl. destruct (struct_ok_nodup _ _ So) as [NDs NB].
  assert (types st' = types st) as Ty.
  { pose proof (parse_fields_types pol chk l rname record (map fst st) 0 st) as Q. rewrite P in Q. exact Q. }
  assert (has_type s st') as T' by (unfold has_type, types in *; congruence).
  assert (map fst st = map fst s) as Nm by (apply has_type_names; exact T).
  assert (map fst st' = map fst s) as Nm' by (apply has_type_names; exact T').
  rewrite Nm in P. apply parse_fields_inv in P as [P1 P2]; auto.
  set (sp := to_specifications l) in *.
  assert (NoDup (map fst sp)) as NDp.
  { eapply Permutation_NoDup; [apply Permutation_map; apply to_specifications_perm|exact NDl]. }
  assert (body_read sp 0 record rname (map fst s) st') as Br.
  { intros n f Hn Lk. destruct (P1 n Hn) as (g & data & v & Lg & R). unfold sp in Lk.
    rewrite (lookup_specifications l n NDl), Lg in Lk. injection Lk as ->. eauto. }
  assert (forall d, In d doc -> if is_reserved d then lookup (dName d) st' = None else In (dName d) (map fst s)) as Hd.
  { intros d Hd. pose proof (struct_entry _ _ _ So Hd) as Se. destruct (is_reserved d).
    - apply lookup_None. rewrite Nm'. exact Se.
    - eapply lookup_Some_In_fst. exact Se. }
  split; [exact T'|]. split; [rewrite Nm'; exact NDs|]. split; [|split; [|exact Br]].
  - eapply body_read_reads; eauto. intros d Hin Rd. specialize (Hd d Hin). rewrite Rd in Hd. exact Hd.
  - intros text' rest Er (parts & -> & F).
    destruct (body_read_text doc sp 0 0 record rname (map fst s) st' parts [] rest) as [A B]; auto.
Qed.

Lemma bdw_read pol packed doc l s st st' record rname : scheme_bdw packed doc l s = true -> has_type s st ->
  parse_fields pol true l rname record (map fst st) 0 st = (st', Ok tt) ->
  has_type s st' /\ NoDup (map fst st') /\ record_reads doc st' /\ (4 <= length record)%nat /\
  exists z z', lookup BDW st' = Some (VInt z) /\
    parse_value (bdw_field packed) (firstn 4 record) BDW rname = Ok (VInt z') /\
    (pol = BdwSkip /\ lookup BDW st = Some (VInt z) \/ (pol = BdwShift \/ pol = BdwPlain) /\ z' = z) /\
  (forall sp pre text' rest, to_specifications l = (BDW, bdw_field packed) :: sp ->
     record = pre ++ text' ++ rest -> length pre = (match pol with BdwShift => 4 | _ => 0 end)%nat ->
     canonical_body doc text' ->
     record_fits doc st' /\ text sp st' = text').
Proof.
  intros H T P. apply scheme_bdw_inv in H as (sp & s' & Sp & -> & NDl & Lo & So).
  destruct (struct_ok_nodup _ _ So) as [NDs NB].
  assert (types st' = types st) as Ty.
  { pose proof (parse_fields_types pol true l rname record (map fst st) 0 st) as Q. rewrite P in Q. exact Q. }
  assert (has_type ((BDW, KInt) :: s') st') as T' by (unfold has_type, types in *; congruence).
  assert (map fst st = BDW :: map fst s') as Nm by (rewrite (has_type_names _ _ T); reflexivity).
  assert (map fst st' = BDW :: map fst s') as Nm' by (rewrite (has_type_names _ _ T'); reflexivity).
  rewrite Nm in P. cbn [parse_fields] in P.
  assert (lookup BDW l = Some (bdw_field packed)) as Lb.
  { rewrite <- (lookup_specifications l _ NDl), Sp. reflexivity. }
  rewrite Lb in P. cbn [fStart fLength bdw_field andb] in P.
  destruct (Nat.ltb_spec (length record) (0 + 4 + 0)) as [|L4]; [discriminate|]. cbn in L4.
  destruct (slice record (0 + 0) (0 + 4 + 0)) as [data|] eqn:Sl; [|discriminate].
  assert (data = firstn 4 record) as ->.
  { unfold slice in Sl. destruct (_ && _)%bool in Sl; [|discriminate]. injection Sl as <-. reflexivity. }
  destruct (is_valid_type _ _ _ _) eqn:V; [discriminate|].
  destruct (parse_value (bdw_field packed) (firstn 4 record) BDW rname) as [v| |] eqn:Pv; try discriminate.
  destruct (types_BDW _ _ T) as (z0 & st0 & Est).
  assert (lookup BDW st = Some (VInt z0)) as L0 by (subst st; reflexivity).
  assert (exists z', v = VInt z') as [z' ->].
  { destruct (bdw_safe packed st rname z0 L0 (firstn 4 record)) as [_ Ca]; [rewrite firstn_length; cbn [bdw_field fLength]; lia|exact V|].
    specialize (Ca v Pv). apply can_assign_spec in Ca as (w & Lw & Kw). rewrite L0 in Lw. injection Lw as <-.
    destruct v; try discriminate. eauto. }
  assert (can_assign BDW (VInt z') st = true) as Ca by (apply can_assign_spec; eauto).
  rewrite Ca, String.eqb_refl in P.
  set (off := match pol with BdwShift => 4%nat | _ => 0%nat end).
  assert (exists st1 z, lookup BDW st1 = Some (VInt z) /\
    parse_fields pol true l rname record (map fst s') off st1 = (st', Ok tt) /\
    (pol = BdwSkip /\ lookup BDW st = Some (VInt z) \/ (pol = BdwShift \/ pol = BdwPlain) /\ z' = z)) as (st1 & z & L1 & P1 & Hz).
  { destruct pol; try discriminate; unfold off.
    - exists st, z0. repeat (split; [assumption|]). left. auto.
    - exists (set_field BDW (VInt z') st), z'. rewrite lookup_set_field, String.eqb_refl, L0.
      split; [reflexivity|]. split; [exact P|]. right. auto.
    - exists (set_field BDW (VInt z') st), z'. rewrite lookup_set_field, String.eqb_refl, L0.
      split; [reflexivity|]. split; [exact P|]. right. auto. }
  clear P. apply parse_fields_inv in P1 as [P1 P2]; auto.
  assert (NoDup (map fst sp)) as NDp.
  { assert (NoDup (map fst (to_specifications l))) as Q.
    { eapply Permutation_NoDup; [apply Permutation_map; apply to_specifications_perm|exact NDl]. }
    rewrite Sp in Q. cbn in Q. inversion Q. assumption. }
  assert (body_read sp off record rname (map fst s') st') as Br.
  { intros n f Hn Lk. destruct (P1 n Hn) as (g & data & v & Lg & R).
    rewrite <- (lookup_specifications l n NDl), Sp in Lg. cbn [lookup] in Lg.
    destruct (String.eqb_spec n BDW) as [->|]; [contradiction|].
    rewrite Lg in Lk. injection Lk as ->. eauto. }
  assert (forall d, In d doc -> dName d <> BDW) as Ndb.
  { intros d Hd E. unfold struct_ok in So. apply andb_prop in So as [_ So]. apply negb_true_iff in So.
    assert (existsb (fun d => String.eqb (dName d) BDW) doc = true) as X; [|congruence].
    apply existsb_exists. exists d. split; [exact Hd|]. rewrite E. reflexivity. }
  assert (forall d, In d doc -> if is_reserved d then lookup (dName d) st' = None else In (dName d) (map fst s')) as Hd.
  { intros d Hd. pose proof (struct_entry _ _ _ So Hd) as Se. destruct (is_reserved d).
    - apply lookup_None. rewrite Nm'. intros [E|E]; [symmetry in E; exact (Ndb d Hd E)|contradiction].
    - eapply lookup_Some_In_fst. exact Se. }
  split; [exact T'|]. split; [rewrite Nm'; constructor; assumption|]. split.
  { eapply body_read_reads; eauto. intros d Hin Rd. specialize (Hd d Hin). rewrite Rd in Hd. exact Hd. }
  split; [exact L4|]. exists z, z'. split; [rewrite P2 by exact NB; exact L1|]. split; [reflexivity|]. split; [exact Hz|].
  intros sp2 pre text' rest E2 Er Lp (parts & -> & F). rewrite Sp in E2. injection E2 as <-.
  destruct (body_read_text doc sp 0 off record rname (map fst s') st' parts pre rest) as [A B]; auto.
Qed.

(* ---- segments ---- *)

Lemma has_type_eq s st st' : has_type s st -> types st' = types st -> has_type s st'.
Proof. unfold has_type, types. congruence. Qed.

Lemma seg_parse_typed s data iv : seg_typed s ->
  sKind (fst (seg_parse s data iv)) = sKind s /\ seg_typed (fst (seg_parse s data iv)).
Proof.
  intros T. unfold seg_parse. destruct (Nat.ltb _ _); [auto|].
  pose proof (parse_fields_types (char_policy iv) true (seg_layout (sKind s)) (seg_rname (sKind s)) data
    (map fst (sFields s)) 0 (sFields s)) as Ty.
  destruct (parse_fields _ _ _ _ _ _ _ _) as [st r]. cbn in *. split; [reflexivity|].
  unfold seg_typed in *. cbn [sKind sFields]. eapply has_type_eq; eauto.
Qed.

Lemma seg_parse_no_panic s data iv : seg_typed s -> snd (seg_parse s data iv) <> Panic.
Proof.
  intros T. unfold seg_parse. destruct (Nat.ltb _ _); [discriminate|].
  pose proof (plain_no_panic (char_policy iv) true _ _ _ (sFields s) data (seg_rname (sKind s))
    (seg_scheme (sKind s)) T (or_introl eq_refl)) as N.
  destruct (parse_fields _ _ _ _ _ _ _ _) as [st [| |]]; cbn in *; congruence.
Qed.

Lemma seg_read s s' data iv n : seg_typed s -> seg_parse s data iv = (s', Ok n) ->
  sKind s' = sKind s /\ n = seg_size (sKind s) /\ (n <= length data)%nat /\
  seg_typed s' /\ record_reads (seg_doc (sKind s)) (sFields s') /\
  (forall p rest, data = p ++ rest -> canonical_body (seg_doc (sKind s)) p -> seg_fits s' /\ seg_string s' = p) /\
  body_read (to_specifications (seg_layout (sKind s))) 0 data (seg_rname (sKind s))
    (map fst (seg_struct (sKind s))) (sFields s').
Proof.
  intros T. unfold seg_parse. rewrite seg_length_size.
  destruct (Nat.ltb_spec (length data) (seg_size (sKind s))); [discriminate|].
  destruct (parse_fields _ _ _ _ _ _ _ _) as [st r] eqn:P.
  intros E. injection E as <- E. destruct r as [[]| |]; try discriminate. injection E as <-.
  destruct (plain_read _ _ _ _ _ _ _ _ _ (seg_scheme (sKind s)) T P) as (T' & _ & R & C & Br).
  cbn [sKind sFields]. repeat (split; [first [reflexivity | assumption]|]). split; [|exact Br].
  intros p rest Ed Cp. destruct (C p rest Ed Cp) as [F W]. split; [split; assumption|exact W].
Qed.

Lemma seg_mark_trim k : trim_right (seg_mark k) = seg_mark k.
Proof. destruct k; reflexivity. Qed.

Lemma seg_read_mark k s data iv n : seg_parse (new_segment k) data iv = (s, Ok n) ->
  firstn 2 data = seg_mark k -> holds (sFields s) "SegmentIdentifier" (VStr (seg_mark k)).
Proof.
  intros P M. pose proof (seg_read _ _ _ _ _ (new_segment_typed k) P) as (_ & _ & _ & _ & _ & _ & Br).
  cbn [sKind new_segment] in Br. specialize (Br "SegmentIdentifier").
  assert (exists req, lookup "SegmentIdentifier" (to_specifications (seg_layout k)) = Some (mkField 0 2 alphanumeric req)) as [req Lk].
  { destruct k; eexists; vm_compute; reflexivity. }
  destruct (Br _ ltac:(destruct k; left; reflexivity) Lk) as (d & v & Sl & V & Pv & Ls).
  apply lookup_In. rewrite Ls. cbn [fStart fLength] in Sl. unfold slice in Sl.
  destruct (_ && _)%bool in Sl; [|discriminate]. injection Sl as Sl. change (firstn 2 data = d) in Sl. rewrite M in Sl. subst d.
  cbn in Pv. injection Pv as <-. f_equal. f_equal. destruct k; reflexivity.
Qed.

Lemma concat_app_length {A} (parts : list (list A)) rest n : (n = length (List.concat parts))%nat ->
  skipn n (List.concat parts ++ rest) = rest.
Proof. intros ->. rewrite skipn_app, skipn_all, Nat.sub_diag. reflexivity. Qed.

Lemma seg_size_ge k : (30 <= seg_size k)%nat.
Proof. destruct k; cbn; lia. Qed.

Lemma read_segments_inv iv : forall fuel record off b b' n,
  read_segments fuel record off b iv = (b', Ok n) ->
  exists segs parts rest, record = List.concat parts ++ rest /\ no_segment rest
    /\ n = (off + segs_size segs)%nat
    /\ b' = fold_left (fun b s => put_segment s b) segs b
    /\ Forall2 (fun s p => seg_read_from s p /\
         (canonical_body (seg_doc (sKind s)) p -> seg_fits s /\ seg_string s = p)) segs parts.
Proof.
  induction fuel as [|fuel IH]; intros record off b b' n H; [discriminate|]. cbn [read_segments] in H.
  destruct (Nat.ltb_spec 2 (length record)) as [L2|L2].
  2:{ injection H as <- <-. exists [], [], record. split; [reflexivity|]. split; [left; lia|]. split; [cbn; lia|]. auto. }
  destruct (kind_of_identifier (firstn 2 record)) as [k|] eqn:Ki.
  2:{ injection H as <- <-. exists [], [], record. split; [reflexivity|]. split; [|split; [cbn; lia|auto]].
      right. intros k E. rewrite E, kind_of_mark in Ki. discriminate. }
  apply kind_of_identifier_mark in Ki.
  destruct (seg_parse (new_segment k) record iv) as [s r] eqn:P. destruct r as [read| |]; try discriminate.
  pose proof (seg_read _ _ _ _ _ (new_segment_typed k) P) as (Ks & -> & Ln & Ts & Rs & Cs & _).
  cbn [sKind new_segment] in *. unfold base_add_segment in H.
  destruct (seg_validate s) eqn:V; [discriminate|].
  apply IH in H as (segs & parts & rest & Er & Nr & -> & -> & F).
  exists (s :: segs), (firstn (seg_size k) record :: parts), rest. cbn [List.concat fold_left segs_size].
  rewrite <- app_assoc, <- Er, firstn_skipn, Ks. repeat (split; [first [reflexivity | assumption | lia]|]).
  constructor; [|exact F]. rewrite Ks. split.
  - unfold seg_read_from. rewrite Ks. split; [rewrite firstn_length; lia|].
    split.
    { rewrite firstn_firstn. pose proof (seg_size_ge k). replace (Nat.min 2 (seg_size k)) with 2%nat by lia. exact Ki. }
    repeat (split; [assumption|]). split; [|exact V]. eapply seg_read_mark; eauto.
  - intros C. eapply Cs; [|exact C]. symmetry. apply firstn_skipn.
Qed.

Lemma read_segments_no_panic iv : forall fuel record off b,
  snd (read_segments fuel record off b iv) <> Panic.
Proof.
  induction fuel as [|fuel IH]; intros record off b; [discriminate|]. cbn [read_segments].
  destruct (Nat.ltb _ _); [|discriminate]. destruct (kind_of_identifier _) as [k|]; [|discriminate].
  pose proof (seg_parse_no_panic (new_segment k) record iv (new_segment_typed k)) as N.
  destruct (seg_parse _ _ _) as [s [read| |]]; [|discriminate|contradiction].
  unfold base_add_segment. destruct (seg_validate s); [discriminate|]. apply IH.
Qed.

(* the fuel is sufficient: any larger amount gives the same result *)
Lemma read_segments_fuel iv : forall fuel fuel' record off b,
  (length record < fuel)%nat -> (length record < fuel')%nat ->
  read_segments fuel record off b iv = read_segments fuel' record off b iv.
Proof.
  induction fuel as [|fuel IH]; intros [|fuel'] record off b Lf Lf'; try lia. cbn [read_segments].
  destruct (Nat.ltb_spec 2 (length record)); [|reflexivity].
  destruct (kind_of_identifier _) as [k|]; [|reflexivity].
  destruct (seg_parse (new_segment k) record iv) as [s [read|e|]] eqn:P; try reflexivity.
  pose proof (seg_read _ _ _ _ _ (new_segment_typed k) P) as (Ks & -> & Ln & _).
  pose proof (seg_size_ge (sKind (new_segment k))).
  unfold base_add_segment. destruct (seg_validate s) eqn:V; [reflexivity|].
  apply IH; rewrite skipn_length; lia.
Qed.
