(* Programs with objects of the client *)
From Coq Require Import ZArith NArith Bool Arith Ascii String List Lia Relations.
From Verif Require Import GoBase GoTime Tables JsonTables Codec Records Json JsonFile ClientTypes ClientAccess ClientMemory
  SpecCodec SpecJson SpecSchema SpecClientTypes SpecAccess SpecMemory ClientTypesFacts MemoryFacts.
From Coq Require Import List.
Import ListNotations.
Local Open Scope string_scope.
Local Open Scope list_scope.
Local Notation length := List.length.

Definition m_from (m : memory) (l : list mcall) : memory := fold_left (fun m c => fst (m_step m c)) l m.
Lemma run_app l l' : m_run (l ++ l') = m_from (m_run l) l'.
Proof. unfold m_run, m_from. apply fold_left_app. Qed.
Lemma run_last l c : m_run (l ++ [c]) = fst (m_step (m_run l) c).
Proof. rewrite run_app. reflexivity. Qed.

Lemma start_sound : sound [] (fun _ => Own 0 "") memory0.
Proof. split; try reflexivity; cbn; try discriminate; intros; discriminate. Qed.

Lemma from_sound l' : forall l lab m, sound l lab m ->
  exists lab', sound (l ++ l') lab' (m_from m l') /\ extends m lab lab' /\ later m (m_from m l').
Proof.
  induction l' as [|c l' IH]; intros l lab m S.
  - exists lab. rewrite app_nil_r. split; [assumption|]. split; [intros ? ?; reflexivity|apply later_refl].
  - destruct (step_sound l lab m c S) as (lab1 & S1 & E1 & L1). destruct (IH _ _ _ S1) as (lab2 & S2 & E2 & L2).
    exists lab2. rewrite <- app_assoc in S2. split; [exact S2|]. split.
    + intros a H. rewrite E2 by (pose proof (l_next _ _ L1); lia). auto.
    + eapply later_trans; eassumption.
Qed.
Lemma run_sound l : exists lab, sound l lab (m_run l).
Proof. destruct (from_sound l [] _ _ start_sound) as (lab & S & _). exists lab. exact S. Qed.

(* ---- types ---- *)

Lemma from_type m l i o : later m (m_from m l) -> mObject m i = Some o -> exists o', mObject (m_from m l) i = Some o' /\ mTable o' = mTable o.
Proof. intros L H. destruct (l_type _ _ L i o H) as (o' & H' & T & _). eauto. Qed.

Lemma typed_object l i o : typed l i o -> exists ob, mObject (m_run l) i = Some ob /\ mTable ob = client_table o.
Proof.
  induction 1 as [before o params args after|before i o after T (ob & H & E)]; destruct (run_sound before) as (lab & S).
  - change (PNew (client_table o) params args :: after) with ([PNew (client_table o) params args] ++ after).
    rewrite app_assoc, run_app.
    assert (exists ob, mObject (m_run (before ++ [PNew (client_table o) params args])) (made_by makes_object before) = Some ob /\ mTable ob = client_table o) as (ob & H & E).
    { rewrite run_last. cbn [m_step fst]. unfold m_new. set (m := m_run before) in *. set (m1 := m_struct _ _ _ m).
      assert (S1 : sound (before ++ [PCopy 0]) (struct_label m (client_table o) lab) m1).
      { apply struct_sound; try reflexivity; [assumption|]. intros; discriminate. }
      destruct (assign_sound (mObjects m) params args _ _ _ S1) as (? & _ & _ & L).
      rewrite <- (s_objects _ _ _ S).
      destruct (l_type _ _ L (mObjects m) (mkMObject (client_table o) (fun k => match m_field k (client_table o) with Some c => if cPtr c then None else Some (mNext m + m_index k (client_table o))%nat | None => None end))) as (o' & H' & T' & _).
      - unfold m1, m_struct. cbn [mObject]. apply put_same.
      - exists o'. split; [assumption|]. rewrite T'. reflexivity. }
    destruct (run_sound (before ++ [PNew (client_table o) params args])) as (lab' & S').
    destruct (from_sound after _ _ _ S') as (? & _ & _ & L). destruct (from_type _ _ _ _ L H) as (o' & H' & E'). exists o'. split; [assumption|congruence].
  - change (PCopy i :: after) with ([PCopy i] ++ after). rewrite app_assoc, run_app.
    destruct (run_sound (before ++ [PCopy i])) as (lab' & S'). destruct (from_sound after _ _ _ S') as (? & _ & _ & L).
    assert (exists ob', mObject (m_run (before ++ [PCopy i])) (made_by makes_object before) = Some ob' /\ mTable ob' = mTable ob) as (ob' & H' & E').
    { rewrite run_last. cbn [m_step fst]. unfold m_copy. rewrite H, <- (s_objects _ _ _ S). unfold m_struct. cbn [mObject]. rewrite put_same. eexists. split; reflexivity. }
    destruct (from_type _ _ _ _ L H') as (o' & H2 & E2). exists o'. split; [assumption|congruence].
Qed.

Lemma typed_field l i o q : typed l i o -> In q (obj_schema o) -> exists ob, mObject (m_run l) i = Some ob /\ mTable ob = client_table o
  /\ m_field (pKey q) (mTable ob) = Some (client_field q).
Proof. intros T I. destruct (typed_object _ _ _ T) as (ob & H & E). exists ob. split; [assumption|]. split; [assumption|]. rewrite E. now apply field_of. Qed.

(* ---- what calls leave alone ---- *)

Lemma set_object_other m i k v j : j <> i -> mObject (m_set i k v m) j = mObject m j.
Proof.
  intros N. unfold m_set. destruct (mObject m i) as [o|]; [|reflexivity]. destruct (m_field k (mTable o)) as [c|]; [|reflexivity].
  destruct (cPtr c); [cbn [mObject]; now apply put_other|]. destruct (mSlot o k); reflexivity.
Qed.
Lemma assign_object_other i ps : forall vs m j, j <> i -> mObject (m_assign i ps vs m) j = mObject m j.
Proof.
  induction ps as [|k ps IH]; intros [|v vs] m j N; try reflexivity. cbn [m_assign]. rewrite IH by assumption. now apply set_object_other.
Qed.

Definition free (m : memory) (i a : nat) : Prop := forall o k c, mObject m i = Some o -> m_field k (mTable o) = Some c -> cPtr c = false -> mSlot o k <> Some a.

Lemma set_cell m i k v a : (a < mNext m)%nat -> (forall o c, mObject m i = Some o -> m_field k (mTable o) = Some c -> cPtr c = false -> mSlot o k <> Some a) ->
  mCell (m_set i k v m) a = mCell m a.
Proof.
  intros L H. unfold m_set. destruct (mObject m i) as [o|] eqn:O; [|reflexivity]. destruct (m_field k (mTable o)) as [c|] eqn:F; [|reflexivity].
  destruct (cPtr c) eqn:P; [cbn [mCell]; apply put_other; lia|]. destruct (mSlot o k) as [b|] eqn:Sl; [|reflexivity].
  cbn [m_write mCell]. apply put_other. intros ->. apply (H o c); auto.
Qed.
Lemma assign_cell i a ps : forall vs l lab m, sound l lab m -> (a < mNext m)%nat -> free m i a -> mCell (m_assign i ps vs m) a = mCell m a.
Proof.
  induction ps as [|k ps IH]; intros [|v vs] l lab m S L F; try reflexivity. cbn [m_assign].
  destruct (set_sound l lab m i k v S) as (lab' & S' & _ & La). rewrite (IH vs l lab' _ S').
  - apply set_cell; [assumption|]. intros o c H Fc P. eapply F; eassumption.
  - pose proof (l_next _ _ La). lia.
  - intros o' k' c' H' F' P'. destruct (mObject m i) as [o|] eqn:O.
    + destruct (l_type _ _ La i o O) as (o2 & H2 & T2 & R2). rewrite H2 in H'. injection H' as <-. rewrite T2 in F'. rewrite (R2 k' c' F' P'). eapply F; eassumption.
    + exfalso. unfold m_set in H'. rewrite O in H'. congruence.
Qed.

(* a place keeps what it holds, but for writing through pointers and setters of required properties *)
Lemma step_cell l lab m c a : sound l lab m -> (a < mNext m)%nat -> ~ writes_through c ->
  (forall i k, lab a = Own i k -> ~ sets i k c) -> mCell (fst (m_step m c)) a = mCell m a.
Proof.
  intros S L W N. destruct c as [tbl params args|i|i k v|i k|i k|i k|p v|p|i|n k|n k]; cbn [m_step fst]; try reflexivity.
  - unfold m_new. set (m1 := m_struct tbl _ _ m).
    assert (S1 : sound (l ++ [PCopy 0]) (struct_label m tbl lab) m1).
    { apply struct_sound; try reflexivity; [assumption|]. intros; discriminate. }
    rewrite (assign_cell _ a params args _ _ _ S1).
    + unfold m1, m_struct. cbn [mCell]. destruct (Nat.leb_spec (mNext m) a); [lia|reflexivity].
    + unfold m1, m_struct. cbn [mNext]. lia.
    + intros o k c H F P. unfold m1, m_struct in H. cbn [mObject] in H. rewrite put_same in H. injection H as <-. cbn [mTable mSlot] in *. rewrite F, P. intros E. injection E as E. lia.
  - unfold m_copy. destruct (mObject m i) as [o|]; [|reflexivity]. unfold m_struct. cbn [mCell]. destruct (Nat.leb_spec (mNext m) a); [lia|reflexivity].
  - apply set_cell; [assumption|]. intros o c H F P E. destruct (s_required _ _ _ S i o k c H F P) as (b & E' & _ & O). rewrite E in E'. injection E' as <-.
    apply (N i k O). now exists v.
  - exfalso. apply W. now exists p, v.
  - destruct (mPointer m p); reflexivity.
Qed.

(* a field keeps its place, but for the setter of an optional property *)
Lemma step_slot l lab m c i o k : sound l lab m -> mObject m i = Some o -> ~ sets i k c ->
  exists o', mObject (fst (m_step m c)) i = Some o' /\ mTable o' = mTable o /\ mSlot o' k = mSlot o k.
Proof.
  intros S H N. assert (i <> mObjects m) as Ni by (intros ->; rewrite (s_none _ _ _ S) in H by lia; discriminate).
  destruct c as [tbl params args|i'|i' k' v|i' k'|i' k'|i' k'|p v|p|i'|n k'|n k']; cbn [m_step fst]; try (exists o; auto; fail).
  - exists o. split; [|auto]. unfold m_new. rewrite assign_object_other by assumption. unfold m_struct. cbn [mObject]. now rewrite put_other.
  - exists o. split; [|auto]. unfold m_copy. destruct (mObject m i') as [o'|]; [|exact H]. unfold m_struct. cbn [mObject]. now rewrite put_other.
  - destruct (Nat.eq_dec i i') as [<-|Ni']; [|exists o; split; [now rewrite set_object_other|auto]].
    assert (k <> k') as Nk by (intros ->; apply N; now exists v). unfold m_set. rewrite H. destruct (m_field k' (mTable o)) as [c|]; [|exists o; auto].
    destruct (cPtr c); [|destruct (mSlot o k'); exists o; auto]. cbn [mObject]. rewrite put_same. eexists. split; [reflexivity|]. split; [reflexivity|]. cbn [mSlot]. now apply put_slot_other.
  - destruct (mPointer m p); exists o; auto.
  - destruct (mPointer m p); exists o; auto.
Qed.

Lemma from_slot i k l' : forall l lab m o, sound l lab m -> mObject m i = Some o -> Forall (fun c => ~ sets i k c) l' ->
  exists o', mObject (m_from m l') i = Some o' /\ mTable o' = mTable o /\ mSlot o' k = mSlot o k.
Proof.
  induction l' as [|c l' IH]; intros l lab m o S H F; [exists o; auto|]. inversion F as [|? ? F1 F2]; subst.
  destruct (step_slot l lab m c i o k S H F1) as (o1 & H1 & T1 & E1). destruct (step_sound l lab m c S) as (lab1 & S1 & _).
  destruct (IH _ _ _ o1 S1 H1 F2) as (o2 & H2 & T2 & E2). exists o2. split; [exact H2|]. split; congruence.
Qed.
Lemma from_cell a l' : forall l lab m, sound l lab m -> (a < mNext m)%nat -> Forall (fun c => ~ writes_through c) l' ->
  (forall i k, lab a = Own i k -> Forall (fun c => ~ sets i k c) l') -> mCell (m_from m l') a = mCell m a.
Proof.
  induction l' as [|c l' IH]; intros l lab m S L F G; [reflexivity|]. inversion F as [|? ? F1 F2]; subst.
  destruct (step_sound l lab m c S) as (lab1 & S1 & E1 & L1). change (m_from m (c :: l')) with (m_from (fst (m_step m c)) l').
  rewrite (IH _ _ _ S1); [|pose proof (l_next _ _ L1); lia|assumption|].
  - eapply step_cell; try eassumption. intros i k E. pose proof (G i k E) as H. now inversion H.
  - intros i k E. rewrite E1 in E by assumption. pose proof (G i k E) as H. now inversion H.
Qed.

(* ---- what getters show ---- *)

Lemma get_slot m i k o c : mObject m i = Some o -> m_field k (mTable o) = Some c ->
  m_get i k m = match mSlot o k with Some a => SValue (mCell m a) | None => SValue (c_zero_value (cType c)) end.
Proof. intros H F. unfold m_get. now rewrite H, F. Qed.
Lemma pointer_slot m i k o c : mObject m i = Some o -> m_field k (mTable o) = Some c -> m_pointer_of i k m = mSlot o k.
Proof. intros H F. unfold m_pointer_of. now rewrite H, F. Qed.
