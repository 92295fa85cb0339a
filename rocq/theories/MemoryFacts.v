(* Which pointers lead to which properties *)
From Coq Require Import ZArith NArith Bool Arith Ascii String List Lia Relations.
From Verif Require Import GoBase GoTime Tables JsonTables Codec Records Json JsonFile ClientTypes ClientAccess ClientMemory
  SpecCodec SpecJson SpecSchema SpecClientTypes SpecAccess SpecMemory ClientTypesFacts.
From Coq Require Import List.
Import ListNotations.
Local Open Scope string_scope.
Local Open Scope list_scope.
Local Notation length := List.length.

Lemma put_same {A} (f : nat -> A) n x : put f n x n = x.
Proof. unfold put. now rewrite Nat.eqb_refl. Qed.
Lemma put_other {A} (f : nat -> A) n x j : j <> n -> put f n x j = f j.
Proof. intros H. unfold put. apply Nat.eqb_neq in H. now rewrite H. Qed.
Lemma put_slot_same f k a : put_slot f k a k = Some a.
Proof. unfold put_slot. now rewrite String.eqb_refl. Qed.
Lemma put_slot_other f k a l : l <> k -> put_slot f k a l = f l.
Proof. intros H. unfold put_slot. apply String.eqb_neq in H. now rewrite H. Qed.

(* ---- fields ---- *)

Lemma field_of o q : In q (obj_schema o) -> m_field (pKey q) (client_table o) = Some (client_field q).
Proof.
  intros I. unfold m_field. rewrite client_types. pose proof (property_keys o) as N. revert N I.
  induction (obj_schema o) as [|p l IH]; [intros _ []|]. cbn [map find]. intros N I. inversion N as [|? ? N1 N2]; subst.
  cbn [client_field cKey]. destruct I as [->|I]; [now rewrite String.eqb_refl|].
  destruct (String.eqb_spec (pKey p) (pKey q)) as [E|E]; [|auto].
  exfalso. apply N1. rewrite E. now apply in_map.
Qed.

Lemma field_key k tbl c : m_field k tbl = Some c -> cKey c = k.
Proof. unfold m_field. intros H. apply find_some in H as [_ H]. now apply String.eqb_eq in H. Qed.
Lemma index_nth k tbl : forall c, m_field k tbl = Some c -> nth_error tbl (m_index k tbl) = Some c.
Proof.
  induction tbl as [|d r IH]; [discriminate|]. unfold m_field. cbn [find m_index]. intros c.
  destruct (String.eqb (cKey d) k); intros H; [exact H|]. now apply IH.
Qed.
Lemma index_bound k tbl c : m_field k tbl = Some c -> (m_index k tbl < length tbl)%nat.
Proof. intros H. apply nth_error_Some. rewrite (index_nth _ _ _ H). discriminate. Qed.
Lemma index_inj k l tbl c d : m_field k tbl = Some c -> m_field l tbl = Some d -> m_index k tbl = m_index l tbl -> k = l.
Proof.
  intros H G E. pose proof (index_nth _ _ _ H) as A. pose proof (index_nth _ _ _ G) as B. rewrite E, B in A. injection A as ->.
  rewrite <- (field_key _ _ _ H). symmetry. now rewrite <- (field_key _ _ _ G).
Qed.

(* ---- labels: whose place an address is ---- *)

Inductive label := Own (i : nat) (k : string) | Apart (k : string) (r : nat).

Record sound (l : list mcall) (lab : nat -> label) (m : memory) : Prop := mkSound {
  s_objects : mObjects m = made_by makes_object l;
  s_pointers : mPointers m = made_by makes_pointer l;
  s_maps : mMaps m = made_by makes_map l;
  s_none : forall i, (mObjects m <= i)%nat -> mObject m i = None;
  s_required : forall i o k c, mObject m i = Some o -> m_field k (mTable o) = Some c -> cPtr c = false ->
    exists a, mSlot o k = Some a /\ (a < mNext m)%nat /\ lab a = Own i k;
  s_optional : forall i o k c a, mObject m i = Some o -> m_field k (mTable o) = Some c -> cPtr c = true -> mSlot o k = Some a ->
    (a < mNext m)%nat /\ exists r, lab a = Apart k r /\ akin l r i;
  s_nopointer : forall p, (mPointers m <= p)%nat -> mPointer m p = None;
  s_pointer : forall p a, mPointer m p = Some a -> (a < mNext m)%nat;
  s_nomap : forall n, (mMaps m <= n)%nat -> mMap m n = None;
  s_map : forall n k a, m_element n k m = Some (EPointer a) -> (a < mNext m)%nat /\ exists r, lab a = Apart k r }.

Lemma copied_app l l' i j : copied l i j -> copied (l ++ l') i j.
Proof. intros (b & a & -> & ->). exists b, (a ++ l'). now rewrite <- app_assoc. Qed.
Lemma akin_app l l' i j : akin l i j -> akin (l ++ l') i j.
Proof.
  unfold akin. induction 1.
  - apply rst_step. now apply copied_app.
  - apply rst_refl.
  - now apply rst_sym.
  - eapply rst_trans; eassumption.
Qed.
Lemma made_app f l l' : made_by f (l ++ l') = (made_by f l + made_by f l')%nat.
Proof. unfold made_by. now rewrite filter_app, app_length. Qed.

(* what a call leaves as it was *)
Record later (m m' : memory) : Prop := mkLater {
  l_next : (mNext m <= mNext m')%nat;
  l_type : forall i o, mObject m i = Some o -> exists o', mObject m' i = Some o' /\ mTable o' = mTable o
    /\ forall k c, m_field k (mTable o) = Some c -> cPtr c = false -> mSlot o' k = mSlot o k;
  l_pointer : forall p, (p < mPointers m)%nat -> mPointer m' p = mPointer m p;
  l_map : forall n k, (n < mMaps m)%nat -> m_element n k m' = m_element n k m;
  l_count : (mPointers m <= mPointers m')%nat /\ (mMaps m <= mMaps m')%nat }.

Lemma later_refl m : later m m.
Proof. split; auto. intros i o H. exists o. auto. Qed.
Lemma later_trans m1 m2 m3 : later m1 m2 -> later m2 m3 -> later m1 m3.
Proof.
  intros [a b c d e] [a' b' c' d' e']. split.
  - lia.
  - intros i o H. destruct (b i o H) as (o1 & H1 & T1 & R1). destruct (b' i o1 H1) as (o2 & H2 & T2 & R2).
    exists o2. split; [assumption|]. split; [congruence|]. intros k f F P. rewrite (R2 k f); [|now rewrite T1|assumption]. eauto.
  - intros p H. rewrite c' by lia. auto.
  - intros n k H. rewrite d' by lia. auto.
  - lia.
Qed.

(* ---- setters ---- *)

Lemma set_required l lab m i o k c v : sound l lab m -> mObject m i = Some o -> m_field k (mTable o) = Some c -> cPtr c = false ->
  exists a, mSlot o k = Some a /\ (a < mNext m)%nat /\ lab a = Own i k /\ m_set i k v m = m_write a v m.
Proof.
  intros S H F P. destruct (s_required _ _ _ S i o k c H F P) as (a & E & L & O).
  exists a. repeat split; try assumption. unfold m_set. now rewrite H, F, P, E.
Qed.

Lemma write_sound l lab m a v : sound l lab m -> sound l lab (m_write a v m).
Proof. intros []. split; assumption. Qed.
Lemma write_later m a v : later m (m_write a v m).
Proof. split; cbn; auto. intros i o H. exists o. auto. Qed.

Definition optional_set (i : nat) (k : string) (v : value) (o : mobject) (m : memory) : memory :=
  mkMemory (put (mCell m) (mNext m) v) (Datatypes.S (mNext m))
    (put (mObject m) i (Some (mkMObject (mTable o) (put_slot (mSlot o) k (mNext m))))) (mObjects m)
    (mPointer m) (mPointers m) (mMap m) (mMaps m).

Lemma set_optional m i o k c v : mObject m i = Some o -> m_field k (mTable o) = Some c -> cPtr c = true ->
  m_set i k v m = optional_set i k v o m.
Proof. intros H F P. unfold m_set. now rewrite H, F, P. Qed.

Lemma optional_set_sound l lab m i o k c v : sound l lab m -> mObject m i = Some o -> m_field k (mTable o) = Some c -> cPtr c = true ->
  sound l (put lab (mNext m) (Apart k i)) (optional_set i k v o m).
Proof.
  intros S H F P. pose proof S as [A1 A2 A3 A4 A5 A6 A7 A8 A9 A10]. unfold optional_set. split; cbn [mObjects mPointers mMaps mObject mNext mPointer mMap]; try assumption.
  - intros j J. destruct (Nat.eq_dec j i) as [->|N]; [|rewrite put_other by assumption; auto]. rewrite A4 in H by assumption. discriminate.
  - intros j o' l' c' H' F' P'. destruct (Nat.eq_dec j i) as [->|N].
    + rewrite put_same in H'. injection H' as <-. cbn [mTable mSlot] in *.
      assert (l' <> k) by congruence. rewrite put_slot_other by assumption.
      destruct (A5 i o l' c' H F' P') as (a & E & L & O). exists a. split; [assumption|]. split; [lia|]. rewrite put_other by lia. assumption.
    + rewrite put_other in H' by assumption. destruct (A5 j o' l' c' H' F' P') as (a & E & L & O). exists a. split; [assumption|]. split; [lia|]. rewrite put_other by lia. assumption.
  - intros j o' l' c' a H' F' P' E'. destruct (Nat.eq_dec j i) as [->|N].
    + rewrite put_same in H'. injection H' as <-. cbn [mTable mSlot] in *. destruct (string_dec l' k) as [->|Nk].
      * rewrite put_slot_same in E'. injection E' as <-. split; [lia|]. exists i. rewrite put_same. split; [reflexivity|]. apply rst_refl.
      * rewrite put_slot_other in E' by assumption. destruct (A6 i o l' c' a H F' P' E') as (L & r & O & K). split; [lia|]. exists r. rewrite put_other by lia. auto.
    + rewrite put_other in H' by assumption. destruct (A6 j o' l' c' a H' F' P' E') as (L & r & O & K). split; [lia|]. exists r. rewrite put_other by lia. auto.
  - intros p a E. pose proof (A8 p a E). lia.
  - intros n l' a E. destruct (A10 n l' a E) as (L & r & O). split; [lia|]. exists r. now rewrite put_other by lia.
Qed.
Lemma optional_set_later m i o k c v : mObject m i = Some o -> m_field k (mTable o) = Some c -> cPtr c = true -> later m (optional_set i k v o m).
Proof.
  intros H F P. split; cbn [mObjects mPointers mMaps mObject mNext mPointer mMap optional_set]; auto; try lia.
  intros j o' H'. destruct (Nat.eq_dec j i) as [->|N].
  - rewrite put_same. rewrite H in H'. injection H' as <-. eexists. split; [reflexivity|]. split; [reflexivity|].
    intros l' c' F' P'. cbn [mSlot]. apply put_slot_other. congruence.
  - rewrite put_other by assumption. exists o'. auto.
Qed.

Definition extends (m : memory) (lab lab' : nat -> label) : Prop := forall a, (a < mNext m)%nat -> lab' a = lab a.

Lemma set_sound l lab m i k v : sound l lab m ->
  exists lab', sound l lab' (m_set i k v m) /\ extends m lab lab' /\ later m (m_set i k v m).
Proof.
  intros S. unfold m_set. destruct (mObject m i) as [o|] eqn:H; [|exists lab; split; [assumption|]; split; [intros ? ?; reflexivity|apply later_refl]].
  destruct (m_field k (mTable o)) as [c|] eqn:F; [|exists lab; split; [assumption|]; split; [intros ? ?; reflexivity|apply later_refl]].
  destruct (cPtr c) eqn:P.
  - exists (put lab (mNext m) (Apart k i)). split; [eapply optional_set_sound; eassumption|]. split.
    + intros a L. apply put_other. lia.
    + eapply optional_set_later; eassumption.
  - exists lab. destruct (mSlot o k) as [a|]; (split; [try apply write_sound; assumption|split; [intros ? ?; reflexivity|try apply write_later; apply later_refl]]).
Qed.

Lemma assign_sound i ps : forall vs l lab m, sound l lab m ->
  exists lab', sound l lab' (m_assign i ps vs m) /\ extends m lab lab' /\ later m (m_assign i ps vs m).
Proof.
  induction ps as [|k ps IH]; intros vs l lab m S; [exists lab; split; [destruct vs; assumption|]; split; [intros ? ?; reflexivity|destruct vs; apply later_refl]|].
  destruct vs as [|v vs]; [exists lab; split; [assumption|]; split; [intros ? ?; reflexivity|apply later_refl]|].
  cbn [m_assign]. destruct (set_sound l lab m i k v S) as (lab1 & S1 & E1 & L1). destruct (IH vs l lab1 _ S1) as (lab2 & S2 & E2 & L2).
  exists lab2. split; [assumption|]. split.
  - intros a H. rewrite E2 by (pose proof (l_next _ _ L1); lia). auto.
  - eapply later_trans; eassumption.
Qed.

(* ---- structs ---- *)

Definition struct_label (m : memory) (tbl : list cfield) (lab : nat -> label) : nat -> label :=
  fun a => if (mNext m <=? a)%nat then match nth_error tbl (a - mNext m) with Some c => Own (mObjects m) (cKey c) | None => lab a end else lab a.

Lemma struct_label_old m tbl lab a : (a < mNext m)%nat -> struct_label m tbl lab a = lab a.
Proof. intros H. unfold struct_label. destruct (Nat.leb_spec (mNext m) a); [lia|reflexivity]. Qed.
Lemma struct_label_new m tbl lab k c : m_field k tbl = Some c -> struct_label m tbl lab (mNext m + m_index k tbl) = Own (mObjects m) k.
Proof.
  intros F. unfold struct_label. destruct (Nat.leb_spec (mNext m) (mNext m + m_index k tbl)); [|lia].
  replace (mNext m + m_index k tbl - mNext m)%nat with (m_index k tbl) by lia. rewrite (index_nth _ _ _ F). f_equal. exact (field_key _ _ _ F).
Qed.

Lemma struct_sound l lab m tbl init shared call : sound l lab m ->
  makes_object call = true -> makes_pointer call = false -> makes_map call = false ->
  (forall k c a, m_field k tbl = Some c -> cPtr c = true -> shared k = Some a ->
     (a < mNext m)%nat /\ exists r, lab a = Apart k r /\ akin (l ++ [call]) r (mObjects m)) ->
  sound (l ++ [call]) (struct_label m tbl lab) (m_struct tbl init shared m).
Proof.
  intros [A1 A2 A3 A4 A5 A6 A7 A8 A9 A10] M1 M2 M3 Sh. unfold m_struct.
  split; cbn [mObjects mPointers mMaps mObject mNext mPointer mMap].
  - rewrite made_app, A1. unfold made_by at 3. cbn [filter]. rewrite M1. cbn. lia.
  - rewrite made_app, A2. unfold made_by at 3. cbn [filter]. rewrite M2. cbn. lia.
  - rewrite made_app, A3. unfold made_by at 3. cbn [filter]. rewrite M3. cbn. lia.
  - intros i J. rewrite put_other by lia. apply A4. lia.
  - intros i o k c H F P. destruct (Nat.eq_dec i (mObjects m)) as [->|N].
    + rewrite put_same in H. injection H as <-. cbn [mTable mSlot] in *. rewrite F, P. eexists. split; [reflexivity|].
      split; [pose proof (index_bound _ _ _ F); lia|]. eapply struct_label_new; eassumption.
    + rewrite put_other in H by assumption. destruct (A5 i o k c H F P) as (a & E & L & O). exists a. split; [assumption|]. split; [lia|].
      now rewrite struct_label_old.
  - intros i o k c a H F P E. destruct (Nat.eq_dec i (mObjects m)) as [->|N].
    + rewrite put_same in H. injection H as <-. cbn [mTable mSlot] in *. rewrite F, P in E. destruct (Sh k c a F P E) as (L & r & O & K).
      split; [lia|]. exists r. rewrite struct_label_old by assumption. auto.
    + rewrite put_other in H by assumption. destruct (A6 i o k c a H F P E) as (L & r & O & K). split; [lia|]. exists r.
      rewrite struct_label_old by assumption. split; [assumption|]. now apply akin_app.
  - assumption.
  - intros p a E. pose proof (A8 p a E). lia.
  - assumption.
  - intros n k a E. destruct (A10 n k a E) as (L & r & O). split; [lia|]. exists r. now rewrite struct_label_old.
Qed.
Lemma struct_later m tbl init shared : (forall i, (mObjects m <= i)%nat -> mObject m i = None) -> later m (m_struct tbl init shared m).
Proof.
  intros A4. split; cbn [mObjects mPointers mMaps mObject mNext mPointer mMap m_struct]; auto; try lia.
  intros i o H. exists o. split; [|auto]. rewrite put_other; [assumption|]. intros ->. rewrite A4 in H by lia. discriminate.
Qed.

(* ---- calls ---- *)

Lemma step_sound l lab m c : sound l lab m -> let m' := fst (m_step m c) in
  exists lab', sound (l ++ [c]) lab' m' /\ extends m lab lab' /\ later m m'.
Proof.
  assert (Q : makes_object c = false -> makes_pointer c = false -> makes_map c = false -> forall lab' m', sound l lab' m' -> sound (l ++ [c]) lab' m').
  { intros M1 M2 M3 lab' m' [A1 A2 A3 A4 A5 A6 A7 A8 A9 A10].
    assert (Z : forall f, f c = false -> made_by f (l ++ [c]) = made_by f l).
    { intros f Hf. rewrite made_app. unfold made_by at 2. cbn [filter]. rewrite Hf. cbn. lia. }
    split; rewrite ?Z by assumption; try assumption. intros i o k d a H F P E. destruct (A6 i o k d a H F P E) as (L & r & O & K). split; [assumption|]. exists r. split; [assumption|]. now apply akin_app. }
  intros S. cbn zeta. destruct c as [tbl params args|i|i k v|i k|i k|i k|p v|p|i|n k|n k]; cbn [m_step fst].
  - unfold m_new.
    assert (S1 : sound (l ++ [PNew tbl params args]) (struct_label m tbl lab) (m_struct tbl (fun c => c_zero_value (cType c)) (fun _ => None) m)).
    { apply struct_sound; try reflexivity; [assumption|]. intros k c a _ _ E. discriminate. }
    destruct (assign_sound (mObjects m) params args _ _ _ S1) as (lab2 & S2 & E2 & L2). exists lab2. split; [assumption|]. split.
    + intros a H. rewrite E2 by (cbn [m_struct mNext]; lia). now apply struct_label_old.
    + eapply later_trans; [|eassumption]. apply struct_later. apply (s_none _ _ _ S).
  - unfold m_copy. destruct (mObject m i) as [o|] eqn:H.
    + exists (struct_label m (mTable o) lab). split; [|split].
      * apply struct_sound; try reflexivity; [assumption|]. intros k c a F P E. destruct (s_optional _ _ _ S i o k c a H F P E) as (L & r & O & K).
        split; [assumption|]. exists r. split; [assumption|]. apply rst_trans with i; [now apply akin_app|]. apply rst_step. exists l, []. split; [reflexivity|]. apply (s_objects _ _ _ S).
      * intros a L. now apply struct_label_old.
      * apply struct_later. apply (s_none _ _ _ S).
    + exists lab. split; [|split; [intros ? ?; reflexivity|split; cbn; auto; intros j o' J; exists o'; auto]].
      destruct S as [A1 A2 A3 A4 A5 A6 A7 A8 A9 A10]. unfold m_no_object. split; cbn [mObjects mPointers mMaps mObject mNext mPointer mMap]; try assumption.
      * rewrite made_app, A1. cbn. lia.
      * rewrite made_app, A2. cbn. lia.
      * rewrite made_app, A3. cbn. lia.
      * intros j J. apply A4. lia.
      * intros j o k d a J F P E. destruct (A6 j o k d a J F P E) as (L & r & O & K). split; [assumption|]. exists r. split; [assumption|]. now apply akin_app.
  - destruct (set_sound l lab m i k v S) as (lab' & S' & E & L). exists lab'. split; [now apply Q|]. auto.
  - exists lab. split; [now apply Q|]. split; [intros ? ?; reflexivity|apply later_refl].
  - exists lab. split; [now apply Q|]. split; [intros ? ?; reflexivity|apply later_refl].
  - exists lab. split; [|split; [intros ? ?; reflexivity|]].
    + destruct S as [A1 A2 A3 A4 A5 A6 A7 A8 A9 A10]. unfold m_keep_pointer. split; cbn [mObjects mPointers mMaps mObject mNext mPointer mMap]; try assumption.
      * rewrite made_app, A1. cbn. lia.
      * rewrite made_app, A2. cbn. lia.
      * rewrite made_app, A3. cbn. lia.
      * intros j o k' d a J F P E. destruct (A6 j o k' d a J F P E) as (L & r & O & K). split; [assumption|]. exists r. split; [assumption|]. now apply akin_app.
      * intros p H. rewrite put_other by lia. apply A7. lia.
      * intros p a E. destruct (Nat.eq_dec p (mPointers m)) as [->|N]; [|rewrite put_other in E by assumption; eauto].
        rewrite put_same in E. unfold m_pointer_of in E. destruct (mObject m i) as [o|] eqn:H; [|discriminate]. destruct (m_field k (mTable o)) as [c|] eqn:F; [|discriminate].
        destruct (cPtr c) eqn:P; [now destruct (A6 i o k c a H F P E)|]. destruct (A5 i o k c H F P) as (a' & E' & L & _). rewrite E' in E. now injection E as <-.
    + split; cbn [mObjects mPointers mMaps mObject mNext mPointer mMap m_keep_pointer]; auto; try (intros j o J; exists o; now auto).
      intros p H. apply put_other. lia.
  - destruct (mPointer m p) as [a|]; cbn [fst]; exists lab.
    + split; [apply Q; try reflexivity; now apply write_sound|]. split; [intros ? ?; reflexivity|apply write_later].
    + split; [now apply Q|]. split; [intros ? ?; reflexivity|apply later_refl].
  - exists lab. assert (fst (match mPointer m p with Some a => (m, SValue (mCell m a)) | None => (m, SPanic) end) = m) as -> by (destruct (mPointer m p); reflexivity).
    split; [now apply Q|]. split; [intros ? ?; reflexivity|apply later_refl].
  - exists lab. split; [|split; [intros ? ?; reflexivity|]].
    + pose proof S as [A1 A2 A3 A4 A5 A6 A7 A8 A9 A10]. unfold m_to_map. split; cbn [mObjects mPointers mMaps mObject mNext mPointer mMap]; try assumption.
      * rewrite made_app, A1. cbn. lia.
      * rewrite made_app, A2. cbn. lia.
      * rewrite made_app, A3. cbn. lia.
      * intros j o k' d a J F P E. destruct (A6 j o k' d a J F P E) as (L & r & O & K). split; [assumption|]. exists r. split; [assumption|]. now apply akin_app.
      * intros n H. rewrite put_other by lia. apply A9. lia.
      * intros n k a E. unfold m_element in E. cbn [mMap] in E. destruct (Nat.eq_dec n (mMaps m)) as [->|N].
        -- rewrite put_same in E. destruct (mObject m i) as [o|] eqn:H; [|discriminate]. unfold m_entries in E.
           destruct (m_field k (mTable o)) as [c|] eqn:F; [|discriminate]. destruct (mSlot o k) as [b|] eqn:Sl; [|discriminate].
           destruct (cPtr c) eqn:P; [|discriminate]. injection E as ->. destruct (A6 i o k c a H F P Sl) as (L & r & O & _). eauto.
        -- rewrite put_other in E by assumption. apply (A10 n k a). exact E.
    + split; cbn [mObjects mPointers mMaps mObject mNext mPointer mMap m_to_map]; auto; try (intros j o J; exists o; now auto).
      intros n k H. unfold m_element. cbn [mMap m_to_map]. now rewrite put_other by lia.
  - exists lab. split; [now apply Q|]. split; [intros ? ?; reflexivity|apply later_refl].
  - exists lab. split; [|split; [intros ? ?; reflexivity|]].
    + destruct S as [A1 A2 A3 A4 A5 A6 A7 A8 A9 A10]. unfold m_keep_pointer. split; cbn [mObjects mPointers mMaps mObject mNext mPointer mMap]; try assumption.
      * rewrite made_app, A1. cbn. lia.
      * rewrite made_app, A2. cbn. lia.
      * rewrite made_app, A3. cbn. lia.
      * intros j o k' d a J F P E. destruct (A6 j o k' d a J F P E) as (L & r & O & K). split; [assumption|]. exists r. split; [assumption|]. now apply akin_app.
      * intros p H. rewrite put_other by lia. apply A7. lia.
      * intros p a E. destruct (Nat.eq_dec p (mPointers m)) as [->|N]; [|rewrite put_other in E by assumption; eauto].
        rewrite put_same in E. unfold m_taken in E. destruct (m_element n k m) as [[v|b]|] eqn:M; try discriminate. injection E as ->. now destruct (A10 n k a M).
    + split; cbn [mObjects mPointers mMaps mObject mNext mPointer mMap m_keep_pointer]; auto; try (intros j o J; exists o; now auto).
      intros p H. apply put_other. lia.
Qed.
