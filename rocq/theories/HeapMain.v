(* Calls of considerate programs, all kinds *)
From Coq Require Import ZArith NArith Bool Ascii String List Lia.
Import ListNotations.
From Verif Require Import GoBase GoBaseFacts GoTime Tables Codec Records File
  SpecCodec SpecLayouts SpecRecords SpecFile SpecValidate SpecCounters SpecApi Heap SpecHeap
  ParseFacts AgreeFacts ApiFacts HeapFacts HeapSteps HeapCalls HeapRuns.
Local Open Scope string_scope.
Local Open Scope nat_scope.
Local Open Scope list_scope.
Local Notation length := List.length.

Lemma upd_same {A} i (x : A) l : nth_error l i = Some x -> upd i x l = l.
Proof. revert i. induction l as [|y l IH]; intros [|i] E; try discriminate; cbn; [inversion E; reflexivity|]. f_equal. apply IH. exact E. Qed.

Section Spare.
Variable spare : nat -> nat.

(* what a call keeps and does *)
Definition fine (fuel : nat) (w : world) (left : list nat) (c : hcall) (w' : world) : Prop :=
  inv w' (left ++ left_behind w c w')
  /\ length (hRecords (wHeap w)) <= length (hRecords (wHeap w'))
  /\ (forall s, s < length (hSegments (wHeap w)) -> segment_effect w c s (seg_value (wHeap w') s))
  /\ (forall r, r < length (hRecords (wHeap w)) -> record_effect w c r (record_value (wHeap w') r))
  /\ forall i f, nth_error (wFiles w) i = Some f ->
       exists f', nth_error (wFiles w') i = Some f' /\ file_effect fuel w c i f (file_value (wHeap w') f').

Lemma file_in_nth w left i f : inv w left -> nth_error (wFiles w) i = Some f -> file_in (wHeap w) f.
Proof. intros (_ & _ & F & _) E. rewrite Forall_forall in F. apply F. eapply nth_error_In. exact E. Qed.

Lemma grown_file w left h' i f : inv w left -> grown (wHeap w) h' -> nth_error (wFiles w) i = Some f ->
  file_value h' f = file_value (wHeap w) f.
Proof.
  intros V G E. pose proof (file_in_nth _ _ _ _ V E) as F. apply file_value_ext. intros r I. apply grown_record; [exact G|apply V|].
  eapply file_in_slots; eauto.
Qed.

(* calls that only make records or segments *)
Lemma fine_grown fuel w left c h' : inv w left -> inv (mkWorld h' (wFiles w)) left -> grown (wHeap w) h' ->
  match c with HNewHeader _ | HNewBase _ | HNewTrailer _ | HNewSegment _ => True | _ => False end ->
  fine fuel w left c (mkWorld h' (wFiles w)).
Proof.
  intros V V' G Hc. unfold fine. cbn [wHeap wFiles].
  assert (left_behind w c (mkWorld h' (wFiles w)) = []) as -> by (destruct c; try contradiction; reflexivity).
  rewrite app_nil_r. split; [exact V'|]. split; [apply grown_lengths; exact G|].
  assert (forall i f, nth_error (wFiles w) i = Some f -> file_value h' f = file_value (wHeap w) f) as K by (intros i f; apply (grown_file w left); assumption).
  split; [|split].
  - intros s L. pose proof (grown_seg _ _ s G L) as E. destruct c; try contradiction; exact E.
  - intros r L. pose proof (grown_record _ _ r G (proj1 V) L) as E. destruct c; try contradiction; exact E.
  - intros i f E. exists f. split; [exact E|]. pose proof (K i f E) as Kv. destruct c; try contradiction; exact Kv.
Qed.

Lemma step_new_file fuel w left p w' : inv w left -> h_step spare fuel w (HNewFile p) = Some w' -> fine fuel w left (HNewFile p) w'.
Proof.
  intros V E. cbn [h_step] in E.
  destruct (inv_new w left (HHeader p new_header) V I eq_refl) as [V1 G1].
  set (h1 := fst (new_record_at (wHeap w) (HHeader p new_header))) in *.
  destruct (inv_new (mkWorld h1 (wFiles w)) left (HTrailer p new_trailer) V1 I eq_refl) as [V2 G2]. cbn [wHeap wFiles] in *.
  set (h2 := fst (new_record_at h1 (HTrailer p new_trailer))) in *.
  assert (w' = mkWorld h2 (wFiles w ++ [mkHFile p (length (hRecords (wHeap w))) [] (length (hRecords h1))])) as -> by (inversion E; reflexivity).
  clear E. assert (grown (wHeap w) h2) as G by (eapply grown_trans; eassumption).
  assert (length (hRecords h1) = S (length (hRecords (wHeap w)))) as L1 by (change (hRecords h1) with (hRecords (wHeap w) ++ [HHeader p new_header]); rewrite app_length; cbn; lia).
  assert (length (hRecords h2) = S (S (length (hRecords (wHeap w))))) as L2 by (change (hRecords h2) with (hRecords h1 ++ [HTrailer p new_trailer]); rewrite app_length, L1; cbn; lia).
  unfold fine. cbn [wHeap wFiles left_behind]. rewrite app_nil_r. split; [|split; [|split; [|split]]].
  - destruct V2 as (W & P & F & D & N & L). cbn [wHeap wFiles] in *. unfold inv. cbn [wHeap wFiles].
    pose proof V as (_ & _ & F0 & _ & _ & Lf).
    assert (forall r, In r (all_slots (wFiles w)) -> r < length (hRecords (wHeap w))) as B.
    { intros r I. apply in_flat_map in I as (f & If & Ir). rewrite Forall_forall in F0. eapply file_in_slots; eauto. }
    assert (all_slots (wFiles w ++ [mkHFile p (length (hRecords (wHeap w))) [] (length (hRecords h1))]) =
            all_slots (wFiles w) ++ [length (hRecords (wHeap w)); length (hRecords h1)]) as As.
    { unfold all_slots. rewrite flat_map_app. reflexivity. }
    split; [exact W|]. split; [exact P|]. split; [|split; [|split]].
    + apply Forall_app. split; [exact F|]. constructor; [|constructor]. split; [|split; [constructor|]]; cbn [hfHeader hfTrailer hfPacked]; split; try lia.
      * replace (cell h2 (length (hRecords (wHeap w)))) with (HHeader p new_header); [reflexivity|]. symmetry.
        rewrite (grown_cell h1 h2) by (auto; lia). exact (new_record_cell (wHeap w) (HHeader p new_header)).
      * pose proof (new_record_cell h1 (HTrailer p new_trailer)) as C. cbn [snd new_record_at] in C. unfold h2. rewrite C. reflexivity.
    + rewrite As. replace [length (hRecords (wHeap w)); length (hRecords h1)] with ([length (hRecords (wHeap w))] ++ [length (hRecords h1)]) by reflexivity.
      rewrite app_assoc. apply NoDup_snoc; [apply NoDup_snoc; [exact D|]|].
      * intros I. apply B in I. lia.
      * intros I. apply in_app_or in I as [I|[I|[]]]; [apply B in I|]; lia.
    + intros r I J. rewrite As in J. rewrite Forall_forall in Lf. apply in_app_or in J as [J|[J|[J|[]]]].
      * exact (N r I J).
      * apply Lf in I. lia.
      * apply Lf in I. lia.
    + exact L.
  - lia.
  - intros s Ls. apply grown_seg; assumption.
  - intros r Lr. apply grown_record; [exact G|apply V|exact Lr].
  - intros i f E. exists f. split; [rewrite nth_error_app1; [exact E|apply nth_error_Some; congruence]|].
    cbn. apply (grown_file w left h2 i); assumption.
Qed.

Lemma effect_files fuel w left c h' : inv w left ->
  match c with HWriteRecord _ _ | HWriteSegment _ _ | HAddSegment _ _ => True | _ => False end ->
  (forall r, r < length (hRecords (wHeap w)) -> record_effect w c r (record_value h' r)) ->
  forall i f, nth_error (wFiles w) i = Some f ->
    exists f', nth_error (wFiles w) i = Some f' /\ file_effect fuel w c i f (file_value h' f').
Proof.
  intros V Hc K i f E. exists f. split; [exact E|]. pose proof (file_in_nth _ _ _ _ V E) as F.
  assert (flPacked (file_value h' f) = flPacked (file_value (wHeap w) f) /\ record_effect w c (hfHeader f) (flHeader (file_value h' f))
      /\ Forall2 (record_effect w c) (hfBases f) (flBases (file_value h' f))
      /\ record_effect w c (hfTrailer f) (flTrailer (file_value h' f))) as X.
  { split; [reflexivity|]. split; [apply K; eapply file_in_slots; cbn; eauto|]. split; [|apply K; eapply file_in_slots; cbn; eauto].
    cbn [flBases file_value]. assert (forall r, In r (hfBases f) -> r < length (hRecords (wHeap w))) as B
      by (intros r I; eapply file_in_slots; [exact F|cbn; auto]).
    clear -K B. induction (hfBases f) as [|r l IH]; constructor; [apply K, B; left; reflexivity|]. apply IH. intros x I. apply B. right. exact I. }
  destruct c; try contradiction; exact X.
Qed.

Lemma step_write_record fuel w left r st w' : inv w left -> h_step spare fuel w (HWriteRecord r st) = Some w' ->
  fine fuel w left (HWriteRecord r st) w'.
Proof.
  intros V E. cbn [h_step] in E. destruct (Nat.ltb_spec r (length (hRecords (wHeap w)))) as [L|]; [|discriminate].
  assert (w' = mkWorld (set_cell (wHeap w) r (write_fields (cell (wHeap w) r) st)) (wFiles w)) as -> by (inversion E; reflexivity). clear E.
  set (h := wHeap w) in *. set (c' := write_fields (cell h r) st). pose proof V as (W & P & _). fold h in W, P.
  assert (parts c' = parts (cell h r)) as Pc by (unfold c'; destruct (cell h r) as [?|? []|?]; reflexivity).
  assert (shape c' = shape (cell h r)) as Sc by (unfold c'; destruct (cell h r) as [?|? []|?]; reflexivity).
  assert (wf_cell h c') as Wc by (specialize (W r L); unfold c'; destruct (cell h r) as [?|? []|?]; exact W).
  assert (cell_value h c' = fields_written st (record_value h r)) as Vc.
  { unfold c', record_value. destruct (cell h r) as [?|? []|?]; reflexivity. }
  assert (forall x, x < length (hRecords h) -> record_effect w (HWriteRecord r st) x (record_value (set_cell h r c') x)) as K.
  { intros x Lx. cbn. fold h. rewrite value_set by exact L. rewrite Vc. destruct (Nat.eqb_spec x r) as [->|]; reflexivity. }
  unfold fine. cbn [wHeap wFiles left_behind]. rewrite app_nil_r. fold h. split; [|split; [|split; [|split]]].
  - apply (inv_heap w); [exact V| | |]; fold h; [apply wf_set|apply apart_set|apply kept_set]; assumption.
  - rewrite set_cell_length. lia.
  - intros s _. reflexivity.
  - exact K.
  - apply (effect_files fuel w left); [exact V|exact I|exact K].
Qed.

Lemma step_write_segment fuel w left s st w' : inv w left -> h_step spare fuel w (HWriteSegment s st) = Some w' ->
  fine fuel w left (HWriteSegment s st) w'.
Proof.
  intros V E. cbn [h_step] in E. destruct (Nat.ltb_spec s (length (hSegments (wHeap w)))) as [L|]; [|discriminate].
  set (h := wHeap w) in *. set (y := mkSegment (sKind (seg_value h s)) st) in *.
  assert (w' = mkWorld (set_seg h s y) (wFiles w)) as -> by (inversion E; reflexivity). clear E. pose proof V as (W & P & _). fold h in W, P.
  assert (forall x, seg_value (set_seg h s y) x = if Nat.eqb x s then mkSegment (sKind (seg_value h x)) st else seg_value h x) as Sv.
  { intros x. rewrite seg_set by exact L. destruct (Nat.eqb_spec x s) as [->|]; reflexivity. }
  assert (forall x, x < length (hRecords h) -> record_effect w (HWriteSegment s st) x (record_value (set_seg h s y) x)) as K.
  { intros x Lx. cbn. fold h. unfold segment_written, record_value, pointers. change (cell (set_seg h s y) x) with (cell h x).
    destruct (cell h x) as [p z|p b|p z]; try reflexivity. cbn [cell_value].
    split; [reflexivity|]. split; [reflexivity|].
    assert (forall l, map (seg_value (set_seg h s y)) l =
      map (fun x0 => if Nat.eqb x0 s then mkSegment (sKind (seg_value h x0)) st else seg_value h x0) l) as Em by (intros l; apply map_ext, Sv).
    assert (forall o, opt_list (option_map (seg_value (set_seg h s y)) o) =
      map (fun x0 => if Nat.eqb x0 s then mkSegment (sKind (seg_value h x0)) st else seg_value h x0) (opt_list o)) as Eo.
    { intros [z|]; [|reflexivity]. cbn [option_map opt_list map]. rewrite Sv. reflexivity. }
    intros k. destruct k; cbn [segs_of base_value bJ1 bJ2 bK1 bK2 bK3 bK4 bL1 bN1]; [apply Em|apply Em|apply Eo..]. }
  unfold fine. cbn [wHeap wFiles left_behind]. rewrite app_nil_r. fold h. split; [|split; [|split; [|split]]].
  - apply (inv_heap w); [exact V| | |]; fold h.
    + apply wf_seg. exact W.
    + apply (apart_parts left h); auto.
    + intros x Lx. split; [exact Lx|reflexivity].
  - apply le_n.
  - intros x _. cbn. fold h. apply Sv.
  - exact K.
  - apply (effect_files fuel w left); [exact V|exact I|exact K].
Qed.

Lemma step_add_segment fuel w left r s w' : inv w left -> ~ In r left -> h_step spare fuel w (HAddSegment r s) = Some w' ->
  fine fuel w left (HAddSegment r s) w'.
Proof.
  intros V N E. cbn [h_step] in E.
  destruct (Nat.ltb_spec r (length (hRecords (wHeap w)))) as [Lr|]; [|discriminate].
  destruct (Nat.ltb_spec s (length (hSegments (wHeap w)))) as [Ls|]; [|discriminate]. cbn [andb] in E.
  set (h := wHeap w) in *. assert (w' = mkWorld (h_add_segment spare h r s) (wFiles w)) as -> by (inversion E; reflexivity). clear E.
  pose proof V as (W & P & _). fold h in W, P.
  pose proof (add_segment_spec spare left h r s W P Lr Ls N) as (W' & P' & K' & L' & Y).
  assert (forall x, x < length (hRecords h) -> record_effect w (HAddSegment r s) x (record_value (h_add_segment spare h r s) x)) as K.
  { intros x Lx. cbn [record_effect]. fold h. rewrite Y by exact Lx. destruct (Nat.eqb_spec x r) as [->|]; reflexivity. }
  unfold fine. cbn [wHeap wFiles left_behind]. rewrite app_nil_r. fold h. split; [|split; [|split; [|split]]].
  - apply (inv_heap w); assumption.
  - lia.
  - intros x _. cbn. fold h. unfold h_add_segment. destruct (cell h r) as [?|p b|?]; try reflexivity.
    destruct (seg_validate _); [reflexivity|]. destruct (h_put _ _ _ _ _) as [h1 b'] eqn:Ep.
    unfold seg_value. cbn [hSegments set_cell]. replace (hSegments h1) with (hSegments h); [reflexivity|].
    clear -Ep. destruct b as [z j1 j2 k1 k2 k3 k4 l1 n1]. destruct (sKind (seg_value h s)); cbn [h_put] in Ep;
      try (inversion Ep; reflexivity).
    all: destruct (slice_append spare h _ s) as [h2 sl] eqn:A; inversion Ep; subst; clear Ep; unfold slice_append in A.
    all: match type of A with match ?j with _ => _ end = _ => destruct j as [|a n] end;
      [inversion A; reflexivity|destruct (Nat.ltb _ _); inversion A; reflexivity].
  - exact K.
  - apply (effect_files fuel w left); [exact V|exact I|exact K].
Qed.

(* calls that put a record in a file *)
Lemma fine_put fuel w left c i f f' r : inv w left -> nth_error (wFiles w) i = Some f ->
  ~ In r left -> ~ in_files w r -> file_in (wHeap w) f' -> NoDup (slots f') ->
  (forall x, In x (slots f') -> x = r \/ In x (slots f)) ->
  left_behind w c (mkWorld (wHeap w) (upd i f' (wFiles w))) = [] ->
  (forall s, segment_effect w c s (seg_value (wHeap w) s)) -> (forall x, record_effect w c x (record_value (wHeap w) x)) ->
  file_effect fuel w c i f (file_value (wHeap w) f') ->
  (forall j g, i <> j -> file_effect fuel w c j g (file_value (wHeap w) g)) ->
  fine fuel w left c (mkWorld (wHeap w) (upd i f' (wFiles w))).
Proof.
  intros V E Nl Nf F' D' S LB SE RE FE FO. unfold fine. rewrite LB, app_nil_r. cbn [wHeap wFiles].
  split; [|split; [lia|split; [auto|split; [auto|]]]].
  - rewrite <- (app_nil_r left). pose proof V as (W & P & F & D & N & L). apply (inv_upd w left [] i f f'); auto.
    + intros x Lx. auto.
    + rewrite app_nil_r. exact P.
    + intros x I. destruct (S x I) as [->|J].
      * split; [exact Nl|]. split; [auto|]. right. rewrite <- in_files_slots. exact Nf.
      * split; [|auto]. intros Il. apply (N x Il). eapply slot_in_all; eauto.
    + intros x [].
  - intros j g Ej. destruct (Nat.eq_dec i j) as [<-|Ne].
    + exists f'. split; [apply nth_error_upd_same; apply nth_error_Some; congruence|].
      replace g with f by congruence. exact FE.
    + exists g. split; [rewrite nth_error_upd_other by exact Ne; exact Ej|]. apply FO. exact Ne.
Qed.

Lemma step_set_record fuel w left i r w' : inv w left -> considerate w left (HSetRecord i r) ->
  h_step spare fuel w (HSetRecord i r) = Some w' -> fine fuel w left (HSetRecord i r) w'.
Proof.
  intros V [Nl Nf] E. cbn [h_step] in E. destruct (Nat.ltb_spec r (length (hRecords (wHeap w)))) as [L|]; [|discriminate].
  unfold with_file in E. destruct (nth_error (wFiles w) i) as [f|] eqn:Ef; [|discriminate].
  set (f' := h_set_record (wHeap w) f r) in *. assert (w' = mkWorld (wHeap w) (upd i f' (wFiles w))) as -> by (inversion E; reflexivity). clear E.
  destruct (set_record_spec (wHeap w) f r) as [Fv Fs]. fold f' in Fv, Fs.
  pose proof (file_in_nth _ _ _ _ V Ef) as Fi. pose proof V as (_ & _ & _ & D & _). pose proof (slots_of_one _ _ _ Ef D) as Ds.
  assert (~ In r (slots f)) as Nr by (intros I; apply Nf; exists f; split; [eapply nth_error_In; eauto|exact I]).
  apply (fine_put fuel w left _ i f f' r); auto; try reflexivity.
  - destruct Fi as (A & B & C). destruct Fs as [->|[[-> Sh]|[-> Sh]]]; (split; [|split]); cbn [hfHeader hfTrailer hfBases hfPacked]; auto; split; auto.
  - unfold slots in *. destruct Fs as [->|[[-> Sh]|[-> Sh]]]; cbn [hfHeader hfTrailer hfBases hfPacked]; auto.
    + inversion Ds; subst. constructor; [|assumption]. intros I. apply Nr. right. exact I.
    + inversion Ds as [|? ? A B]; subst. inversion B as [|? ? A' B']; subst. constructor; [|constructor; [|exact B']].
      * intros [X|I]; [apply Nr; left; congruence|]. apply A. right. exact I.
      * intros I. apply Nr. right. right. exact I.
  - intros x I. unfold slots in *. destruct Fs as [->|[[-> Sh]|[-> Sh]]]; cbn [hfHeader hfTrailer hfBases hfPacked In] in *; intuition.
  - cbn [file_effect]. rewrite Nat.eqb_refl. exact Fv.
  - intros j g Ne. cbn [file_effect]. apply Nat.eqb_neq in Ne. rewrite Ne. reflexivity.
Qed.

Lemma step_add_data fuel w left i r w' : inv w left -> considerate w left (HAddDataRecord i r) ->
  h_step spare fuel w (HAddDataRecord i r) = Some w' -> fine fuel w left (HAddDataRecord i r) w'.
Proof.
  intros V [Nl Nf] E. cbn [h_step] in E. destruct (Nat.ltb_spec r (length (hRecords (wHeap w)))) as [L|]; [|discriminate].
  unfold with_file in E. destruct (nth_error (wFiles w) i) as [f|] eqn:Ef; [|discriminate].
  set (f' := h_add_data_record (wHeap w) f r) in *. assert (w' = mkWorld (wHeap w) (upd i f' (wFiles w))) as -> by (inversion E; reflexivity). clear E.
  destruct (add_data_record_spec (wHeap w) f r) as [Fv Fs]. fold f' in Fv, Fs.
  pose proof (file_in_nth _ _ _ _ V Ef) as Fi. pose proof V as (_ & _ & _ & D & _). pose proof (slots_of_one _ _ _ Ef D) as Ds.
  assert (~ In r (slots f)) as Nr by (intros I; apply Nf; exists f; split; [eapply nth_error_In; eauto|exact I]).
  apply (fine_put fuel w left _ i f f' r); auto; try reflexivity.
  - destruct Fi as (A & B & C). destruct Fs as [->|[-> Sh]]; (split; [|split]); cbn [hfHeader hfTrailer hfBases hfPacked]; auto.
    apply Forall_app. split; [exact B|]. constructor; [split; assumption|constructor].
  - destruct Fs as [->|[-> Sh]]; auto. change (NoDup (slots f ++ [r])). apply NoDup_snoc; assumption.
  - intros x I. destruct Fs as [Ef'|[Ef' Sh]]; rewrite Ef' in I; auto. change (In x (slots f ++ [r])) in I.
    apply in_app_or in I as [I|[I|[]]]; auto.
  - cbn [file_effect]. rewrite Nat.eqb_refl. exact Fv.
  - intros j g Ne. cbn [file_effect]. apply Nat.eqb_neq in Ne. rewrite Ne. reflexivity.
Qed.

Lemma step_generate fuel w left i w' : inv w left -> h_step spare fuel w (HGenerate i) = Some w' -> fine fuel w left (HGenerate i) w'.
Proof.
  intros V E. cbn [h_step] in E. unfold with_file in E. destruct (nth_error (wFiles w) i) as [f|] eqn:Ef; [|discriminate].
  unfold h_generate in E. destruct (file_generate_trailer _) as [t|e|]; try discriminate. destruct t as [p st|p b|p st]; try discriminate.
  destruct (inv_new w left (HTrailer p st) V I eq_refl) as [V' G].
  set (h' := fst (new_record_at (wHeap w) (HTrailer p st))) in *.
  assert (w' = mkWorld h' (wFiles w)) as ->.
  { inversion E. f_equal. apply upd_same. exact Ef. }
  unfold fine. cbn [wHeap wFiles left_behind]. rewrite app_nil_r. split; [exact V'|]. split; [apply grown_lengths; exact G|].
  split; [|split].
  - intros s L. apply grown_seg; assumption.
  - intros r L. apply grown_record; [exact G|apply V|exact L].
  - intros j g Eg. exists g. split; [exact Eg|]. cbn. apply (grown_file w left h' j); assumption.
Qed.

Lemma step_parse fuel w left i input iv w' : inv w left -> h_step spare fuel w (HParse i input iv) = Some w' ->
  fine fuel w left (HParse i input iv) w'.
Proof.
  intros V E. cbn [h_step] in E. unfold with_file in E. destruct (nth_error (wFiles w) i) as [f|] eqn:Ef; [|discriminate].
  destruct (h_parse spare fuel (wHeap w) f input iv) as [[h' f']|] eqn:Ep; [|discriminate]. inversion E; subst; clear E.
  pose proof (file_in_nth _ _ _ _ V Ef) as Fi. pose proof V as (W & P & Fs & D & N & L). pose proof (slots_of_one _ _ _ Ef D) as Ds.
  assert (hfHeader f <> hfTrailer f) as Ne by (inversion Ds as [|? ? A B]; intros Eq; apply A; left; congruence).
  destruct (parse_spec spare left fuel (wHeap w) f input iv h' f' W P Fi Ne Ep) as [(W' & P' & K & (sg & Sg & _) & E1 & E2 & E3 & Y & Db & Lb & Sb & _) X].
  assert (forall j g r, nth_error (wFiles w) j = Some g -> In r (slots g) -> r < length (hRecords (wHeap w))) as B.
  { intros j g r Ej I. eapply file_in_slots; [eapply file_in_nth; eauto|exact I]. }
  assert (forall x, In x (slots f') -> (x = hfHeader f \/ x = hfTrailer f) \/ length (hRecords (wHeap w)) <= x) as Sl.
  { intros x I. unfold slots in I. rewrite E2, E3 in I. destruct I as [I|[I|I]]; auto. rewrite Forall_forall in Lb. right. auto. }
  unfold fine. cbn [wHeap wFiles left_behind]. split; [|split; [|split; [|split]]].
  - apply (inv_upd w left [] i f f'); auto.
    + rewrite app_nil_r. exact P'.
    + destruct Fi as (A & B0 & C). split; [|split]; rewrite ?E1, ?E2, ?E3; [apply (kept_at (wHeap w)); assumption|exact Sb|apply (kept_at (wHeap w)); assumption].
    + unfold slots. rewrite E2, E3. inversion Ds as [|? ? A B0]; subst. rewrite Forall_forall in Lb. constructor; [|constructor; [|exact Db]].
      * intros [I|I]; [congruence|]. apply Lb in I. pose proof (B i f (hfHeader f) Ef (or_introl eq_refl)). lia.
      * intros I. apply Lb in I. pose proof (B i f (hfTrailer f) Ef (or_intror (or_introl eq_refl))). lia.
    + intros x I. split; [|split; [auto|]].
      * intros Il. destruct (Sl x I) as [[->| ->]|Lx].
        -- apply (N _ Il). eapply slot_in_all; [exact Ef|]. left. reflexivity.
        -- apply (N _ Il). eapply slot_in_all; [exact Ef|]. right. left. reflexivity.
        -- rewrite Forall_forall in L. apply L in Il. lia.
      * destruct (Sl x I) as [[->| ->]|Lx]; [left; left; reflexivity|left; right; left; reflexivity|].
        right. intros J. apply in_flat_map in J as (g & Ig & Jg). apply In_nth_error in Ig as (j & Ej). pose proof (B j g x Ej Jg). lia.
    + intros x [].
  - assert (length (hRecords (wHeap w)) = 0 \/ exists n, length (hRecords (wHeap w)) = S n) as [Z|[n Z]]
      by (destruct (length (hRecords (wHeap w))); eauto); [lia|].
    destruct (K n ltac:(lia)) as [Q _]. lia.
  - intros s Ls. cbn. unfold seg_value. rewrite Sg, app_nth1 by exact Ls. reflexivity.
  - intros r Lr. cbn. intros Hx. destruct (Hx f Ef). apply Y; assumption.
  - intros j g Ej. destruct (Nat.eq_dec i j) as [<-|Nj].
    + exists f'. split; [apply nth_error_upd_same; apply nth_error_Some; congruence|].
      cbn [file_effect]. rewrite Nat.eqb_refl. replace g with f by congruence. exact X.
    + exists g. split; [rewrite nth_error_upd_other by exact Nj; exact Ej|]. cbn [file_effect].
      assert (Nat.eqb i j = false) as -> by (apply Nat.eqb_neq; exact Nj).
      apply file_value_ext. intros r I. apply Y; [eapply B; eauto| |].
      * intros ->. apply (slots_disjoint (wFiles w) i j f g (hfHeader f)); auto. left. reflexivity.
      * intros ->. apply (slots_disjoint (wFiles w) i j f g (hfTrailer f)); auto. right. left. reflexivity.
Qed.

Lemma type_cases f t : ((t <> type_name true /\ t <> type_name false) \/ t = type_name (hfPacked f))
  \/ exists p, t = type_name p /\ hfPacked f = negb p.
Proof.
  destruct (bytes_dec t (type_name true)) as [->|A].
  - destruct (hfPacked f) eqn:E; [auto|]. right. exists true. auto.
  - destruct (bytes_dec t (type_name false)) as [->|B]; [|auto].
    destruct (hfPacked f) eqn:E; [|auto]. right. exists false. auto.
Qed.

Lemma step_set_type fuel w left i t w' : inv w left -> h_step spare fuel w (HSetType i t) = Some w' ->
  fine fuel w left (HSetType i t) w'.
Proof.
  intros V E. cbn [h_step] in E. unfold with_file in E. destruct (nth_error (wFiles w) i) as [f|] eqn:Ef; [|discriminate].
  pose proof (file_in_nth _ _ _ _ V Ef) as Fi. pose proof V as (W & P & Fs & D & N & L). pose proof (slots_of_one _ _ _ Ef D) as Ds.
  destruct (type_cases f t) as [T|(p & -> & Ep)].
  - destruct (set_type_same_spec (wHeap w) f t T) as [Es Ev]. rewrite Es in E. inversion E; subst; clear E.
    rewrite upd_same by exact Ef. destruct w as [h fs]. cbn [wHeap wFiles] in *. unfold fine. cbn [wHeap wFiles left_behind].
    rewrite Ef, eqb_reflx, app_nil_r. split; [exact V|]. split; [lia|]. split; [intros; reflexivity|]. split; [intros; reflexivity|].
    intros j g Ej. exists g. split; [exact Ej|]. cbn [file_effect wHeap]. destruct (Nat.eqb_spec i j) as [<-|]; [|reflexivity].
    replace g with f by congruence. symmetry. exact Ev.
  - destruct (set_type_spec (wHeap w) f p Fi Ep) as [Es Ev]. set (h := wHeap w) in *. set (n := length (hRecords h)) in *.
    rewrite Es in E. clear Es.
    set (l := hfHeader f :: hfBases f ++ [hfTrailer f]) in *.
    set (h' := mkHeap (hSegments h) (hArrays h) (hRecords h ++ map (fun r => convert_cell p (cell h r)) l)) in *.
    set (f' := mkHFile p n (seq (S n) (length (hfBases f))) (S n + length (hfBases f))) in *.
    assert (w' = mkWorld h' (upd i f' (wFiles w))) as -> by (inversion E; reflexivity). clear E.
    assert (grown h h') as G by (repeat split; eexists; try reflexivity; symmetry; apply app_nil_r).
    assert (forall r, In r l <-> In r (slots f)) as Il.
    { intros r. unfold l, slots. cbn [In]. rewrite in_app_iff. cbn [In]. tauto. }
    assert (forall r, In r l -> r < n) as Ll by (intros r I; eapply file_in_slots; [exact Fi|apply Il; exact I]).
    assert (NoDup l) as Dl.
    { unfold l. unfold slots in Ds. inversion Ds as [|? ? A B]; subst. inversion B as [|? ? A' B']; subst.
      constructor; [|apply NoDup_snoc; assumption]. intros I. apply in_app_or in I as [I|[I|[]]]; apply A; [right; exact I|left; congruence]. }
    assert (length l = S (S (length (hfBases f)))) as Len by (unfold l; cbn; rewrite app_length; cbn; lia).
    assert (length (hRecords h') = n + S (S (length (hfBases f)))) as Ln by (unfold h'; cbn [hRecords]; rewrite app_length, map_length, Len; reflexivity).
    assert (forall k r, nth_error l k = Some r -> cell h' (n + k) = convert_cell p (cell h r)) as Ck.
    { intros k r Ek. unfold cell at 1. unfold h'. cbn [hRecords]. rewrite app_nth2 by (unfold n; lia). unfold n. rewrite Nat.add_comm, Nat.add_sub.
      apply nth_error_nth. exact (map_nth_error (fun r => convert_cell p (cell h r)) _ _ Ek). }
    assert (nth_error l 0 = Some (hfHeader f)) as E0 by reflexivity.
    assert (nth_error l (S (length (hfBases f))) = Some (hfTrailer f)) as E2.
    { unfold l. cbn. rewrite nth_error_app2, Nat.sub_diag by lia. reflexivity. }
    assert (forall k r, nth_error (hfBases f) k = Some r -> nth_error l (S k) = Some r) as E1.
    { intros k r Ek. unfold l. cbn. rewrite nth_error_app1; [exact Ek|]. apply nth_error_Some. congruence. }
    assert (wf h') as W'.
    { intros r Lr. destruct (Nat.lt_ge_cases r n) as [Q|Q].
      - apply (grown_wf_cell h); [exact G|]. rewrite (grown_cell h h') by assumption. apply W. exact Q.
      - destruct (nth_error l (r - n)) as [x|] eqn:Ex; [|apply nth_error_None in Ex; lia].
        replace r with (n + (r - n)) by lia. rewrite (Ck _ _ Ex). apply (grown_wf_cell h); [exact G|]. apply convert_wf. apply W.
        apply Ll. eapply nth_error_In. exact Ex. }
    assert (forall r c, cell h' r = convert_cell p (cell h c) -> In c l -> record_value h' r = cell_value h (convert_cell p (cell h c))) as Vk.
    { intros r c Ec Ic. unfold record_value. rewrite Ec. apply grown_value; [exact G|]. apply convert_wf. apply W. apply Ll. exact Ic. }
    assert (forall c r s, shape (cell h c) = (s, negb p) -> cell h' r = convert_cell p (cell h c) -> shape (cell h' r) = (s, p)) as Sh.
    { intros c r s Sc Ec. rewrite Ec. destruct (cell h c); inversion Sc; reflexivity. }
    unfold fine. cbn [wHeap wFiles left_behind]. fold h. rewrite nth_error_upd_same by (apply nth_error_Some; congruence). rewrite Ef.
    assert (Bool.eqb (hfPacked f) (hfPacked f') = false) as -> by (rewrite Ep; destruct p; reflexivity).
    split; [|split; [|split; [|split]]].
    + pose proof Fi as (A & B & C). rewrite Ep in A, B, C. apply (inv_upd w left (slots f) i f f'); auto.
      * apply kept_grown. exact G.
      * apply (apart_copies left l (slots f) h h' p); auto.
        -- apply Forall_forall. exact Ll.
        -- intros r I J. apply (N r J). eapply slot_in_all; [exact Ef|]. apply Il. exact I.
        -- intros r I. apply Il. exact I.
      * split; [|split]; cbn [hfPacked hfHeader hfBases hfTrailer f'].
        -- split; [lia|]. apply (Sh (hfHeader f)); [apply A|]. rewrite <- (Ck 0 _ E0). f_equal. lia.
        -- apply Forall_forall. intros r I. apply in_seq in I. split; [lia|].
           destruct (nth_error (hfBases f) (r - S n)) as [x|] eqn:Ex; [|apply nth_error_None in Ex; lia].
           rewrite Forall_forall in B. apply (Sh x); [apply B; eapply nth_error_In; exact Ex|].
           rewrite <- (Ck _ _ (E1 _ _ Ex)). f_equal. lia.
        -- split; [lia|]. apply (Sh (hfTrailer f)); [apply C|]. rewrite <- (Ck _ _ E2). f_equal. lia.
      * unfold slots, f'. cbn [hfPacked hfHeader hfBases hfTrailer]. constructor; [|constructor; [|apply seq_NoDup]].
        -- intros [I|I]; [lia|]. apply in_seq in I. lia.
        -- intros I. apply in_seq in I. lia.
      * intros r I.
        assert (n <= r) as Q.
        { destruct I as [<-|[<-|I]]; cbn [hfHeader hfTrailer f']; [lia|lia|]. apply in_seq in I. lia. }
        split; [|split].
        -- intros J. rewrite Forall_forall in L. apply L in J. fold h in J. fold n in J. lia.
        -- intros J. apply Il in J. apply Ll in J. lia.
        -- right. intros J. apply in_flat_map in J as (g & Ig & Jg). rewrite Forall_forall in Fs.
           pose proof (file_in_slots _ _ _ (Fs g Ig) Jg). fold h in H. fold n in H. lia.
    + fold n. lia.
    + intros s Ls. reflexivity.
    + intros r Lr. apply grown_record; [exact G|apply V|exact Lr].
    + intros j g Ej. destruct (Nat.eq_dec i j) as [<-|Nj].
      * exists f'. split; [apply nth_error_upd_same; apply nth_error_Some; congruence|].
        cbn [file_effect]. rewrite Nat.eqb_refl. replace g with f by congruence. fold h. rewrite Ev. unfold file_value.
        cbn [hfPacked hfHeader hfBases hfTrailer f'].
        rewrite (Vk n (hfHeader f)); [|rewrite <- (Ck 0 _ E0); f_equal; lia|apply Il; left; reflexivity].
        rewrite (Vk (S n + length (hfBases f)) (hfTrailer f)); [|rewrite <- (Ck _ _ E2); f_equal; lia|apply Il; right; left; reflexivity].
        f_equal. assert (forall k x, nth_error (hfBases f) k = Some x -> record_value h' (S n + k) = cell_value h (convert_cell p (cell h x))) as Vb.
        { intros k x Ek. apply Vk; [rewrite <- (Ck _ _ (E1 _ _ Ek)); f_equal; lia|]. apply Il. right. right. eapply nth_error_In. exact Ek. }
        clear -Vb. revert Vb. clearbody h'. generalize (S n) as m. induction (hfBases f) as [|x b IH]; intros m Vb; [reflexivity|]. cbn [length seq map].
        f_equal; [rewrite <- (Vb 0 x eq_refl); f_equal; lia|]. apply IH. intros k y Ek. rewrite <- (Vb (S k) y Ek). f_equal. lia.
      * exists g. split; [rewrite nth_error_upd_other by exact Nj; exact Ej|]. cbn [file_effect].
        assert (Nat.eqb i j = false) as -> by (apply Nat.eqb_neq; exact Nj). apply (grown_file w left h' j); assumption.
Qed.

Lemma step_fine fuel w left c w' : inv w left -> considerate w left c -> h_step spare fuel w c = Some w' -> fine fuel w left c w'.
Proof.
  intros V K E. destruct c.
  - apply step_new_file; assumption.
  - cbn [h_step] in E. inversion E; subst. pose proof (inv_new w left (HHeader packed new_header) V I eq_refl) as [A B].
    apply fine_grown; auto.
  - cbn [h_step] in E.
    pose proof (inv_new w left (HBase packed (mkHBase (new_fields base_struct) Nil Nil None None None None None None)) V) as [A B];
      [repeat split|reflexivity|]. inversion E; subst. apply fine_grown; auto.
  - cbn [h_step] in E. inversion E; subst. pose proof (inv_new w left (HTrailer packed new_trailer) V I eq_refl) as [A B].
    apply fine_grown; auto.
  - cbn [h_step] in E. inversion E; subst. apply fine_grown; auto; [|apply grown_new_segment].
    apply inv_heap; auto; [apply wf_new_segment; apply V|apply (apart_parts left (wHeap w)); auto; apply V|apply kept_grown, grown_new_segment].
  - apply step_write_record; assumption.
  - apply step_write_segment; assumption.
  - apply step_add_segment; assumption.
  - apply step_set_record; assumption.
  - apply step_add_data; assumption.
  - apply step_set_type; assumption.
  - apply step_parse; assumption.
  - apply step_generate; assumption.
Qed.

Lemma inv_start : inv start [].
Proof.
  unfold inv, start. cbn. split; [intros r L; cbn in L; lia|]. split; [split; intros; cbn in *; lia|].
  repeat split; try constructor. auto.
Qed.

Lemma state_inv w left : state spare w left -> inv w left.
Proof.
  induction 1 as [|w left fuel c w' S IH K E]; [exact inv_start|]. apply (step_fine fuel w left c w' IH K E).
Qed.

Lemma state_fine fuel w left c w' : state spare w left -> considerate w left c -> h_step spare fuel w c = Some w' ->
  fine fuel w left c w'.
Proof. intros S. apply step_fine. apply state_inv. exact S. Qed.

End Spare.

(* what calls make *)
Lemma step_makes spare fuel w c w' : h_step spare fuel w c = Some w' -> call_makes w c w'.
Proof.
  assert (forall h c0, record_value (fst (new_record_at h c0)) (length (hRecords h)) = cell_value (fst (new_record_at h c0)) c0) as New.
  { intros h c0. unfold record_value, cell. cbn [new_record_at fst hRecords]. rewrite app_nth2, Nat.sub_diag by apply le_n. reflexivity. }
  assert (forall h c0, length (hRecords (fst (new_record_at h c0))) = S (length (hRecords h))) as Len.
  { intros h c0. cbn. rewrite app_length. cbn. lia. }
  intros E. destruct c; cbn [h_step] in E; cbn [call_makes]; auto.
  - change (new_record_at (wHeap w) (HHeader packed new_header)) with
      (fst (new_record_at (wHeap w) (HHeader packed new_header)), length (hRecords (wHeap w))) in E.
    set (h1 := fst (new_record_at (wHeap w) (HHeader packed new_header))) in *.
    change (new_record_at h1 (HTrailer packed new_trailer)) with
      (fst (new_record_at h1 (HTrailer packed new_trailer)), length (hRecords h1)) in E.
    set (h2 := fst (new_record_at h1 (HTrailer packed new_trailer))) in *.
    injection E as <-. cbn [wHeap wFiles]. eexists. split; [reflexivity|].
    assert (length (hRecords h1) = S (length (hRecords (wHeap w)))) as L1 by apply Len. split.
    + unfold slots. cbn [hfHeader hfTrailer hfBases]. apply Forall_cons; [lia|].
      apply Forall_cons; [exact (Nat.le_trans _ _ _ (Nat.le_succ_diag_r _) (Nat.eq_le_incl _ _ (eq_sym L1)))|]. constructor.
    + unfold file_value. cbn [hfPacked hfHeader hfBases hfTrailer map]. f_equal.
      * transitivity (record_value h1 (length (hRecords (wHeap w)))); [|apply New].
        unfold record_value, cell, h2. cbn [new_record_at fst hRecords]. rewrite app_nth1 by (exact (Nat.eq_le_incl _ _ (eq_sym L1))).
        unfold h1. cbn [new_record_at fst hRecords]. rewrite !app_nth2, !Nat.sub_diag by apply le_n. reflexivity.
      * exact (New h1 (HTrailer packed new_trailer)).
  - injection E as <-. cbn [wHeap]. split; [apply Len|apply New].
  - injection E as <-. cbn [wHeap]. split; [apply Len|]. exact (New (wHeap w) (HBase packed (mkHBase (new_fields base_struct) Nil Nil None None None None None None))).
  - injection E as <-. cbn [wHeap]. split; [apply Len|apply New].
  - injection E as <-. reflexivity.
  - unfold with_file in E. destruct (nth_error (wFiles w) i) as [f|]; [|discriminate]. unfold h_generate in E.
    destruct (file_generate_trailer (file_value (wHeap w) f)) as [[p z|p b|p z]| |] eqn:G; try discriminate.
    inversion E; subst; clear E. cbn [wHeap]. split; [apply (Len (wHeap w))|]. intros g Eg. injection Eg as <-. rewrite G.
    f_equal. symmetry. apply (New (wHeap w) (HTrailer p z)).
Qed.

(* the parts of fine, one by one *)
Lemma state_segments spare fuel w left c w' s : state spare w left -> considerate w left c ->
  h_step spare fuel w c = Some w' -> s < length (hSegments (wHeap w)) -> segment_effect w c s (seg_value (wHeap w') s).
Proof. intros S K E. apply (state_fine spare fuel w left c w' S K E). Qed.

Lemma state_records spare fuel w left c w' r : state spare w left -> considerate w left c ->
  h_step spare fuel w c = Some w' -> r < length (hRecords (wHeap w)) -> record_effect w c r (record_value (wHeap w') r).
Proof. intros S K E. apply (state_fine spare fuel w left c w' S K E). Qed.

Lemma state_files spare fuel w left c w' i f : state spare w left -> considerate w left c ->
  h_step spare fuel w c = Some w' -> nth_error (wFiles w) i = Some f ->
  exists f', nth_error (wFiles w') i = Some f' /\ file_effect fuel w c i f (file_value (wHeap w') f').
Proof. intros S K E. apply (state_fine spare fuel w left c w' S K E). Qed.
