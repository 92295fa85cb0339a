(* Pointers, copies and maps of objects of the client *)
From Coq Require Import ZArith NArith Bool Arith Ascii String List Lia Relations.
From Verif Require Import GoBase GoTime Tables JsonTables Codec Records Json JsonFile ClientTypes ClientAccess ClientMemory
  SpecCodec SpecJson SpecSchema SpecClientTypes SpecAccess SpecMemory ClientTypesFacts AccessFacts MemoryFacts MemoryRuns.
From Coq Require Import List.
Import ListNotations.
Local Open Scope string_scope.
Local Open Scope list_scope.
Local Notation length := List.length.

Lemma cons_app {A} (l : list A) x l' : l ++ x :: l' = (l ++ [x]) ++ l'.
Proof. now rewrite <- app_assoc. Qed.

(* the pointer of a getter *)
Lemma pointer_kept before i k after : let L := before ++ PGetOk i k :: after in
  mPointer (m_run L) (made_by makes_pointer before) = m_pointer_of i k (m_run before).
Proof.
  cbn zeta. rewrite cons_app, run_app. destruct (run_sound before) as (lab & S). destruct (run_sound (before ++ [PGetOk i k])) as (lab' & S').
  destruct (from_sound after _ _ _ S') as (? & _ & _ & L).
  rewrite (l_pointer _ _ L) by (rewrite (s_pointers _ _ _ S'), made_app; cbn; lia).
  rewrite run_last. cbn [m_step fst m_keep_pointer mPointer]. rewrite <- (s_pointers _ _ _ S). apply put_same.
Qed.

Lemma getok_same m i k : mObject (fst (m_step m (PGetOk i k))) = mObject m.
Proof. reflexivity. Qed.

Lemma slot_kept before i o q after : typed before i o -> In q (obj_schema o) ->
  pRequired q = true \/ Forall (fun c => ~ sets i (pKey q) c) after ->
  exists ob, mObject (m_run (before ++ after)) i = Some ob /\ m_field (pKey q) (mTable ob) = Some (client_field q)
    /\ mSlot ob (pKey q) = m_pointer_of i (pKey q) (m_run before).
Proof.
  intros T I R. destruct (typed_field _ _ _ _ T I) as (ob & H & E & F). destruct (run_sound before) as (lab & S).
  rewrite run_app, (pointer_slot _ _ _ _ _ H F). destruct R as [R|R].
  - destruct (from_sound after _ _ _ S) as (? & _ & _ & L). destruct (l_type _ _ L i ob H) as (o' & H' & T' & Q).
    exists o'. split; [assumption|]. split; [now rewrite T'|]. apply (Q _ _ F). cbn. now rewrite R.
  - destruct (from_slot i (pKey q) after _ _ _ ob S H R) as (o' & H' & T' & Q). exists o'. split; [assumption|]. split; [now rewrite T'|assumption].
Qed.

Lemma getok_answer before i k : m_answer before (PGetOk i k) = SBool match m_pointer_of i k (m_run before) with Some _ => true | None => false end.
Proof. reflexivity. Qed.

Lemma not_sets_getok i k j l : ~ sets i k (PGetOk j l).
Proof. intros [v E]. discriminate. Qed.

Lemma memory_view before i o q after : typed before i o -> In q (obj_schema o) ->
  pRequired q = true \/ Forall (fun c => ~ sets i (pKey q) c) after ->
  m_answer before (PGetOk i (pKey q)) = SBool true ->
  let L := before ++ PGetOk i (pKey q) :: after in let p := made_by makes_pointer before in
  (exists v, m_answer L (PRead p) = SValue v /\ m_answer L (PGet i (pKey q)) = SValue v)
  /\ forall w, m_answer (L ++ [PWrite p w]) (PGet i (pKey q)) = SValue w /\ m_answer (L ++ [PWrite p w]) (PRead p) = SValue w.
Proof.
  intros T I R B. cbn zeta. pose proof (pointer_kept before i (pKey q) after) as K. cbn zeta in K.
  destruct (slot_kept before i o q (PGetOk i (pKey q) :: after) T I) as (ob & H & F & E).
  { destruct R as [R|R]; [now left|right]. constructor; [apply not_sets_getok|assumption]. }
  rewrite getok_answer in B. destruct (m_pointer_of i (pKey q) (m_run before)) as [a|] eqn:P; [|discriminate].
  split.
  - exists (mCell (m_run (before ++ PGetOk i (pKey q) :: after)) a). unfold m_answer. cbn [m_step snd]. rewrite K. split; [reflexivity|].
    now rewrite (get_slot _ _ _ _ _ H F), E.
  - intros w. unfold m_answer. rewrite run_last. cbn [m_step]. rewrite K. cbn [fst snd]. split.
    + rewrite (get_slot (m_write a w _) i (pKey q) ob (client_field q)) by assumption. rewrite E. cbn [m_write mCell]. now rewrite put_same.
    + cbn [m_write mPointer mCell]. rewrite K. cbn [snd]. now rewrite put_same.
Qed.

Lemma memory_required_pointer before i o q : typed before i o -> In q (obj_schema o) -> pRequired q = true ->
  m_answer before (PGetOk i (pKey q)) = SBool true.
Proof.
  intros T I R. destruct (typed_field _ _ _ _ T I) as (ob & H & E & F). destruct (run_sound before) as (lab & S).
  destruct (s_required _ _ _ S i ob (pKey q) _ H F) as (a & Sl & _); [cbn; now rewrite R|].
  rewrite getok_answer, (pointer_slot _ _ _ _ _ H F), Sl. reflexivity.
Qed.
Lemma memory_nil_pointer before i k after w : m_answer before (PGetOk i k) = SBool false ->
  let L := before ++ PGetOk i k :: after in let p := made_by makes_pointer before in
  m_answer L (PRead p) = SPanic /\ m_answer L (PWrite p w) = SPanic.
Proof.
  intros B. cbn zeta. pose proof (pointer_kept before i k after) as K. cbn zeta in K. rewrite getok_answer in B.
  destruct (m_pointer_of i k (m_run before)); [discriminate|]. unfold m_answer. cbn [m_step]. rewrite K. split; reflexivity.
Qed.

(* ---- setters ---- *)

Lemma has_slot m m' j r o o' : mObject m j = Some o -> mObject m' j = Some o' -> mTable o' = mTable o -> mSlot o' r = mSlot o r ->
  m_has j r m' = m_has j r m.
Proof. intros H H' T E. unfold m_has. rewrite H, H', T, E. reflexivity. Qed.

Lemma step_none m i k v j : mObject m j = None -> mObject (m_set i k v m) j = None.
Proof.
  intros H. destruct (Nat.eq_dec j i) as [->|N]; [|now rewrite set_object_other]. unfold m_set. now rewrite H.
Qed.

Lemma memory_set l i o q v : typed l i o -> In q (obj_schema o) ->
  let L := l ++ [PSet i (pKey q) v] in
  m_answer L (PGet i (pKey q)) = SValue v
  /\ (pRequired q = false -> m_answer L (PHas i (pKey q)) = SBool true)
  /\ (forall j r, (j, r) <> (i, pKey q) -> m_answer L (PGet j r) = m_answer l (PGet j r) /\ m_answer L (PHas j r) = m_answer l (PHas j r))
  /\ (forall n r, m_answer L (PEntry n r) = m_answer l (PEntry n r))
  /\ (pRequired q = false -> forall p, m_answer L (PRead p) = m_answer l (PRead p)).
Proof.
  intros T I. cbn zeta. destruct (typed_field _ _ _ _ T I) as (ob & H & E & F). destruct (run_sound l) as (lab & S).
  unfold m_answer. rewrite run_last. cbn [m_step fst snd]. set (m := m_run l) in *.
  destruct (set_sound l lab m i (pKey q) v S) as (lab' & S' & Ex & La).
  assert (Cell : forall a, (a < mNext m)%nat -> lab a <> Own i (pKey q) -> mCell (m_set i (pKey q) v m) a = mCell m a).
  { intros a Ba N. apply set_cell; [assumption|]. intros o' c H' F' P' Sl. destruct (s_required _ _ _ S i o' _ c H' F' P') as (b & E' & _ & O). congruence. }
  split; [|split; [|split; [|split]]].
  - destruct (pRequired q) eqn:R.
    + destruct (set_required l lab m i ob (pKey q) _ v S H F) as (a & Sl & _ & _ & ->); [cbn; now rewrite R|].
      rewrite (get_slot (m_write a v m) i (pKey q) ob _ H F), Sl. cbn [m_write mCell]. now rewrite put_same.
    + rewrite (set_optional m i ob _ _ v H F) by (cbn; now rewrite R). unfold m_get, optional_set. cbn [mObject mCell]. rewrite put_same. cbn [mTable mSlot]. rewrite F, put_slot_same, put_same. reflexivity.
  - intros R. rewrite (set_optional m i ob _ _ v H F) by (cbn; now rewrite R). unfold m_has, optional_set. cbn [mObject]. rewrite put_same. cbn [mTable mSlot]. rewrite F. cbn [client_field cPtr]. rewrite R, put_slot_same. reflexivity.
  - intros j r N. assert (~ sets j r (PSet i (pKey q) v)) as Ns by (intros [w Ew]; injection Ew as -> <- _; now apply N).
    destruct (mObject m j) as [o1|] eqn:H1.
    + destruct (step_slot l lab m (PSet i (pKey q) v) j o1 r S H1 Ns) as (o2 & H2 & T2 & E2). cbn [m_step fst] in H2. split; [|eapply has_slot; eassumption].
      unfold m_get. rewrite H1, H2, T2, E2. destruct (m_field r (mTable o1)) as [c|] eqn:F1; [|reflexivity]. destruct (mSlot o1 r) as [a|] eqn:Sl; [|reflexivity].
      f_equal. destruct (cPtr c) eqn:P.
      * destruct (s_optional _ _ _ S j o1 r c a H1 F1 P Sl) as (Ba & x & O & _). apply Cell; [assumption|]. rewrite O. discriminate.
      * destruct (s_required _ _ _ S j o1 r c H1 F1 P) as (b & Sb & Ba & O). rewrite Sl in Sb. injection Sb as <-. apply Cell; [assumption|]. rewrite O. congruence.
    + unfold m_get, m_has. rewrite (step_none m i (pKey q) v j H1), H1. auto.
  - intros n r. unfold m_entry.
    assert (m_element n r (m_set i (pKey q) v m) = m_element n r m) as ->.
    { destruct (Nat.lt_ge_cases n (mMaps m)) as [Ln|Gn]; [now apply (l_map _ _ La)|]. unfold m_element.
      rewrite (s_nomap _ _ _ S n Gn), (s_nomap _ _ _ S' n); [reflexivity|]. rewrite (s_maps _ _ _ S'), <- (s_maps _ _ _ S). exact Gn. }
    destruct (m_element n r m) as [[x|a]|] eqn:M; try reflexivity. f_equal. destruct (s_map _ _ _ S n r a M) as (Ba & x & O). apply Cell; [assumption|]. rewrite O. discriminate.
  - intros R p. rewrite (set_optional m i ob _ _ v H F) by (cbn; now rewrite R). unfold optional_set. cbn [mPointer]. destruct (mPointer m p) as [a|] eqn:P; [|reflexivity].
    cbn [snd mCell]. rewrite put_other; [reflexivity|]. pose proof (s_pointer _ _ _ S p a P). lia.
Qed.

(* ---- writing through a pointer ---- *)

Lemma pointer_label before i o q after : typed before i o -> In q (obj_schema o) ->
  let L := before ++ PGetOk i (pKey q) :: after in
  exists lab, sound L lab (m_run L) /\ forall a, mPointer (m_run L) (made_by makes_pointer before) = Some a ->
    if pRequired q then lab a = Own i (pKey q) else exists r, lab a = Apart (pKey q) r /\ akin L r i.
Proof.
  intros T I. cbn zeta. pose proof (pointer_kept before i (pKey q) after) as K. cbn zeta in K.
  destruct (typed_field _ _ _ _ T I) as (ob & H & E & F). destruct (run_sound before) as (lab & S).
  destruct (from_sound (PGetOk i (pKey q) :: after) _ _ _ S) as (lab' & S' & Ex & La). rewrite <- run_app in S'.
  exists lab'. split; [exact S'|]. intros a Pa. rewrite K, (pointer_slot _ _ _ _ _ H F) in Pa. destruct (pRequired q) eqn:R.
  - destruct (s_required _ _ _ S i ob _ _ H F) as (b & Sb & Lb & O); [cbn; now rewrite R|]. rewrite Sb in Pa. injection Pa as ->. now rewrite Ex.
  - destruct (s_optional _ _ _ S i ob _ _ a H F) as (Lb & r & O & Ak); [cbn; now rewrite R|assumption|]. exists r. rewrite Ex by assumption. split; [assumption|]. now apply akin_app.
Qed.

Lemma memory_write before i o q after w : typed before i o -> In q (obj_schema o) ->
  let L := before ++ PGetOk i (pKey q) :: after in let M := L ++ [PWrite (made_by makes_pointer before) w] in
  (forall j r, r <> pKey q \/ ~ akin L i j \/ pRequired q = true /\ j <> i -> m_answer M (PGet j r) = m_answer L (PGet j r))
  /\ (forall j r, m_answer M (PHas j r) = m_answer L (PHas j r))
  /\ (forall n r, r <> pKey q \/ pRequired q = true -> m_answer M (PEntry n r) = m_answer L (PEntry n r)).
Proof.
  intros T I. cbn zeta. destruct (pointer_label before i o q after T I) as (lab & S & Lab). set (L := before ++ PGetOk i (pKey q) :: after) in *.
  unfold m_answer. rewrite run_last. cbn [m_step snd]. set (m := m_run L) in *. destruct (mPointer m (made_by makes_pointer before)) as [a|]; cbn [fst]; [|auto].
  specialize (Lab a eq_refl). split; [|split].
  - intros j r N. unfold m_get. cbn [m_write mObject mCell]. destruct (mObject m j) as [ob|] eqn:H; [|reflexivity].
    destruct (m_field r (mTable ob)) as [c|] eqn:F; [|reflexivity]. destruct (mSlot ob r) as [b|] eqn:Sl; [|reflexivity]. f_equal. apply put_other. intros ->.
    destruct (cPtr c) eqn:P.
    + destruct (s_optional _ _ _ S j ob r c a H F P Sl) as (_ & x & O & Ak). destruct (pRequired q); [congruence|]. destruct Lab as (y & O' & Ak').
      rewrite O in O'. injection O' as -> ->. destruct N as [N|[N|[N _]]]; [congruence| |congruence]. apply N. apply rst_trans with y; [now apply rst_sym|assumption].
    + destruct (s_required _ _ _ S j ob r c H F P) as (b & Sb & _ & O). rewrite Sl in Sb. injection Sb as <-. destruct (pRequired q); [|destruct Lab as (y & O' & _); congruence].
      rewrite O in Lab. injection Lab as -> ->. destruct N as [N|[N|[_ N]]]; [congruence| |congruence]. apply N. apply rst_refl.
  - reflexivity.
  - intros n r N. unfold m_entry, m_element. cbn [m_write mMap mCell]. change (match mMap m n with Some f => f r | None => None end) with (m_element n r m).
    destruct (m_element n r m) as [[x|b]|] eqn:M; try reflexivity. f_equal. apply put_other. intros ->. destruct (s_map _ _ _ S n r a M) as (_ & x & O).
    destruct (pRequired q); [congruence|]. destruct Lab as (y & O' & _). rewrite O in O'. injection O' as -> _. destruct N; congruence.
Qed.

(* ---- a pointer from before the setter ---- *)

Lemma detached_step l lab m i k c x : sound l lab m -> (x < mNext m)%nat -> m_pointer_of i k m <> Some x -> (exists o f, mObject m i = Some o /\ m_field k (mTable o) = Some f /\ cPtr f = true) ->
  let m' := fst (m_step m c) in m_pointer_of i k m' <> Some x /\ exists o f, mObject m' i = Some o /\ m_field k (mTable o) = Some f /\ cPtr f = true.
Proof.
  intros S B N (o & f & H & F & P). cbn zeta. assert (D : sets i k c \/ ~ sets i k c).
  { destruct c as [| |i' k' v| | | | | | | |]; try (right; intros [w E]; discriminate). destruct (Nat.eq_dec i' i) as [->|Ni]; [|right; intros [w E]; congruence].
    destruct (string_dec k' k) as [->|Nk]; [left; now exists v|right; intros [w E]; congruence]. }
  rewrite (pointer_slot _ _ _ _ _ H F) in N. destruct D as [[v ->]|D].
  - cbn [m_step fst]. rewrite (set_optional m i o k f v H F P). unfold m_pointer_of, optional_set. cbn [mObject]. rewrite put_same. cbn [mTable mSlot]. rewrite F, put_slot_same. split.
    + intros E. injection E as E. lia.
    + exists (mkMObject (mTable o) (put_slot (mSlot o) k (mNext m))), f. auto.
  - destruct (step_slot l lab m c i o k S H D) as (o' & H' & T' & E'). split; [|exists o', f; rewrite T'; auto].
    rewrite (pointer_slot _ _ _ _ f H'); [now rewrite E'|now rewrite T'].
Qed.
Lemma detached_from i k x l' : forall l lab m, sound l lab m -> (x < mNext m)%nat -> m_pointer_of i k m <> Some x -> (exists o f, mObject m i = Some o /\ m_field k (mTable o) = Some f /\ cPtr f = true) ->
  m_pointer_of i k (m_from m l') <> Some x.
Proof.
  induction l' as [|c l' IH]; intros l lab m S B N X; [exact N|]. destruct (detached_step l lab m i k c x S B N X) as [N' X'].
  destruct (step_sound l lab m c S) as (lab1 & S1 & _ & L1). apply (IH _ _ _ S1); auto. pose proof (l_next _ _ L1). lia.
Qed.

Lemma get_other_cell m i k a w : m_pointer_of i k m <> Some a -> m_get i k (m_write a w m) = m_get i k m.
Proof.
  unfold m_pointer_of, m_get. cbn [m_write mObject mCell]. destruct (mObject m i) as [o|]; [|reflexivity]. destruct (m_field k (mTable o)); [|reflexivity].
  intros N. destruct (mSlot o k) as [b|]; [|reflexivity]. f_equal. apply put_other. congruence.
Qed.

Lemma memory_detached before i o q A v B w : typed before i o -> In q (obj_schema o) -> pRequired q = false ->
  let L := before ++ PGetOk i (pKey q) :: A ++ PSet i (pKey q) v :: B in
  m_answer (L ++ [PWrite (made_by makes_pointer before) w]) (PGet i (pKey q)) = m_answer L (PGet i (pKey q)).
Proof.
  intros T I R. cbn zeta. set (L := before ++ PGetOk i (pKey q) :: A ++ PSet i (pKey q) v :: B).
  unfold m_answer. rewrite run_last. cbn [m_step snd]. destruct (mPointer (m_run L) (made_by makes_pointer before)) as [x|] eqn:P; cbn [fst]; [|reflexivity].
  apply get_other_cell. set (C := before ++ PGetOk i (pKey q) :: A).
  assert (EL : L = (C ++ [PSet i (pKey q) v]) ++ B) by (unfold L, C; now rewrite <- !app_assoc).
  destruct (typed_field _ _ _ _ T I) as (ob & H & E & F).
  destruct (run_sound before) as (lab0 & S0). destruct (from_sound (PGetOk i (pKey q) :: A) _ _ _ S0) as (lab & S & _ & La). rewrite <- run_app in S, La. fold C in S, La.
  destruct (l_type _ _ La i ob H) as (o1 & H1 & T1 & _). assert (F1 : m_field (pKey q) (mTable o1) = Some (client_field q)) by now rewrite T1.
  assert (P1 : cPtr (client_field q) = true) by (cbn; now rewrite R).
  assert (Px : mPointer (m_run C) (made_by makes_pointer before) = Some x).
  { unfold C. rewrite pointer_kept. rewrite <- P. unfold L. now rewrite pointer_kept. }
  destruct (step_sound C lab _ (PSet i (pKey q) v) S) as (lab2 & S2 & _ & L2). cbn zeta in S2. rewrite <- run_last in S2, L2.
  pose proof (s_pointer _ _ _ S _ _ Px) as Bx. rewrite EL, run_app. eapply detached_from; [exact S2|pose proof (l_next _ _ L2); lia| |].
  - rewrite run_last. cbn [m_step fst]. rewrite (set_optional _ i o1 _ _ v H1 F1 P1). unfold m_pointer_of, optional_set. cbn [mObject]. rewrite put_same. cbn [mTable mSlot]. rewrite F1, put_slot_same. intros Ex. injection Ex as Ex. lia.
  - rewrite run_last. cbn [m_step fst]. rewrite (set_optional _ i o1 _ _ v H1 F1 P1). unfold optional_set. cbn [mObject]. rewrite put_same. do 2 eexists. split; [reflexivity|]. cbn [mTable]. split; eassumption.
Qed.

(* ---- what stays ---- *)

Lemma memory_kept before j o q after : typed before j o -> In q (obj_schema o) ->
  Forall (fun c => ~ sets j (pKey q) c) after -> Forall (fun c => ~ writes_through c) after ->
  m_answer (before ++ after) (PGet j (pKey q)) = m_answer before (PGet j (pKey q)).
Proof.
  intros T I N W. destruct (typed_field _ _ _ _ T I) as (ob & H & E & F). destruct (run_sound before) as (lab & S).
  destruct (slot_kept before j o q after T I (or_intror N)) as (o' & H' & F' & E'). unfold m_answer. cbn [m_step snd].
  rewrite (get_slot _ _ _ _ _ H' F'), (get_slot _ _ _ _ _ H F), E', (pointer_slot _ _ _ _ _ H F). destruct (mSlot ob (pKey q)) as [a|] eqn:Sl; [|reflexivity].
  f_equal. rewrite run_app. destruct (cPtr (client_field q)) eqn:P.
  - destruct (s_optional _ _ _ S j ob _ _ a H F P Sl) as (B & r & O & _). eapply from_cell; try eassumption. intros i k Q. congruence.
  - destruct (s_required _ _ _ S j ob _ _ H F P) as (b & Sb & B & O). rewrite Sl in Sb. injection Sb as <-. eapply from_cell; try eassumption. intros i k Q. rewrite O in Q. now injection Q as <- <-.
Qed.

Lemma memory_copy l i o q : typed l i o -> In q (obj_schema o) -> let n := made_by makes_object l in
  m_answer (l ++ [PCopy i]) (PGet n (pKey q)) = m_answer l (PGet i (pKey q))
  /\ m_answer (l ++ [PCopy i]) (PHas n (pKey q)) = m_answer l (PHas i (pKey q)).
Proof.
  intros T I. cbn zeta. destruct (typed_field _ _ _ _ T I) as (ob & H & E & F). destruct (run_sound l) as (lab & S).
  unfold m_answer. rewrite run_last. cbn [m_step fst snd]. rewrite <- (s_objects _ _ _ S). set (m := m_run l) in *.
  unfold m_copy. rewrite H. unfold m_struct, m_get, m_has. cbn [mObject mCell]. rewrite put_same, H. cbn [mTable mSlot]. rewrite F.
  destruct (cPtr (client_field q)) eqn:P.
  - split; [|reflexivity]. destruct (mSlot ob (pKey q)) as [a|] eqn:Sl; [|reflexivity]. destruct (s_optional _ _ _ S i ob _ _ a H F P Sl) as (B & _).
    destruct (Nat.leb_spec (mNext m) a); [lia|reflexivity].
  - split; [|reflexivity]. destruct (s_required _ _ _ S i ob _ _ H F P) as (a & Sl & _). rewrite Sl.
    destruct (Nat.leb_spec (mNext m) (mNext m + m_index (pKey q) (mTable ob))); [|lia].
    replace (mNext m + m_index (pKey q) (mTable ob) - mNext m)%nat with (m_index (pKey q) (mTable ob)) by lia. rewrite (index_nth _ _ _ F). cbn [client_field cKey]. now rewrite Sl.
Qed.

Lemma map_kept before i k after : let L := before ++ PMap i :: after in
  m_element (made_by makes_map before) k (m_run L) = match mObject (m_run before) i with Some o => m_entries o (m_run before) k | None => None end.
Proof.
  cbn zeta. rewrite cons_app, run_app. destruct (run_sound before) as (lab & S). destruct (run_sound (before ++ [PMap i])) as (lab' & S').
  destruct (from_sound after _ _ _ S') as (? & _ & _ & L).
  rewrite (l_map _ _ L) by (rewrite (s_maps _ _ _ S'), made_app; cbn; lia).
  rewrite run_last. cbn [m_step fst]. unfold m_to_map, m_element. cbn [mMap]. rewrite <- (s_maps _ _ _ S). rewrite put_same. destruct (mObject (m_run before) i); reflexivity.
Qed.

Lemma memory_map before i o q after : typed before i o -> In q (obj_schema o) ->
  let L := before ++ PMap i :: after in let n := made_by makes_map before in
  (pRequired q = true -> m_answer L (PEntry n (pKey q)) = m_answer before (PGet i (pKey q)))
  /\ (m_answer before (PHas i (pKey q)) = SBool false -> m_answer L (PEntry n (pKey q)) = SNothing)
  /\ (m_answer before (PHas i (pKey q)) = SBool true -> Forall (fun c => ~ writes_through c) after ->
        m_answer L (PEntry n (pKey q)) = m_answer before (PGet i (pKey q))).
Proof.
  intros T I. cbn zeta. destruct (typed_field _ _ _ _ T I) as (ob & H & E & F). destruct (run_sound before) as (lab & S).
  unfold m_answer. cbn [m_step snd]. unfold m_entry. rewrite map_kept, H. unfold m_entries, m_has, m_get. rewrite H, F. split; [|split].
  - intros R. destruct (s_required _ _ _ S i ob _ _ H F) as (a & Sl & _); [cbn; now rewrite R|]. rewrite Sl. cbn [client_field cPtr]. rewrite R. reflexivity.
  - destruct (cPtr (client_field q)) eqn:P; [|discriminate]. destruct (mSlot ob (pKey q)); [discriminate|reflexivity].
  - destruct (cPtr (client_field q)) eqn:P; [|discriminate]. destruct (mSlot ob (pKey q)) as [a|] eqn:Sl; [|discriminate]. intros _ W. f_equal.
    destruct (s_optional _ _ _ S i ob _ _ a H F P Sl) as (B & r & O & _). rewrite run_app. eapply from_cell; try eassumption.
    + constructor; [|assumption]. intros (p & v & Ec). discriminate.
    + intros j k Q. congruence.
Qed.

(* ---- constructors ---- *)

Definition settings (i : nat) (ps : list string) (vs : list value) : list mcall := map (fun kv => PSet i (fst kv) (snd kv)) (combine ps vs).
Lemma assign_run i ps : forall vs L, m_assign i ps vs (m_run L) = m_run (L ++ settings i ps vs).
Proof.
  induction ps as [|k ps IH]; intros [|v vs] L; try (unfold settings; cbn; now rewrite app_nil_r).
  unfold settings in *. cbn [m_assign combine map fst snd]. rewrite cons_app, <- IH, run_last. reflexivity.
Qed.
Lemma settings_not i j k ps : forall vs, ~ In k ps -> Forall (fun c => ~ sets j k c) (settings i ps vs).
Proof.
  induction ps as [|l ps IH]; intros [|v vs] N; try constructor.
  - intros [w E]. cbn in E. injection E as _ E _. apply N. now left.
  - apply IH. intros I. apply N. now right.
Qed.
Lemma settings_quiet i ps : forall vs, Forall (fun c => ~ writes_through c) (settings i ps vs).
Proof. induction ps as [|l ps IH]; intros [|v vs]; constructor; [|apply IH]. intros (p & w & E). discriminate. Qed.

Lemma new_run l o ps vs : m_run (l ++ [PNew (client_table o) ps vs]) = m_run ((l ++ [PNew (client_table o) [] []]) ++ settings (made_by makes_object l) ps vs).
Proof.
  destruct (run_sound l) as (lab & S). rewrite <- assign_run, !run_last. cbn [m_step fst m_new m_assign]. unfold m_new. cbn [m_assign]. now rewrite (s_objects _ _ _ S).
Qed.

Lemma typed_app L L' i o : typed L i o -> typed (L ++ L') i o.
Proof. intros T. inversion T as [? ? ? ? after E1|? ? ? after T' E1]; subst; rewrite <- app_assoc; cbn [app]; [apply TypedNew|now apply TypedCopy]. Qed.
Lemma settings_get i o q v rs : In q (obj_schema o) -> forall args D n, typed D i o -> NoDup (map pKey rs) ->
  nth_error rs n = Some q -> nth_error args n = Some v -> m_answer (D ++ settings i (map pKey rs) args) (PGet i (pKey q)) = SValue v.
Proof.
  intros Iq. induction rs as [|r rs IH]; intros args D n TD ND Hq Hv; [destruct n; discriminate|].
  destruct args as [|x args]; [destruct n; discriminate|]. unfold settings. cbn [map combine fst snd]. rewrite cons_app.
  fold (settings i (map pKey rs) args). cbn [map] in ND. inversion ND as [|? ? N1 N2]; subst.
  pose proof (typed_app D [PSet i (pKey r) x] i o TD) as TD'. destruct n as [|n]; cbn [nth_error] in Hq, Hv.
  - injection Hq as ->. injection Hv as ->. rewrite (memory_kept (D ++ [PSet i (pKey q) v]) i o q _ TD' Iq); [|now apply settings_not|apply settings_quiet].
    exact (proj1 (memory_set D i o q v TD Iq)).
  - exact (IH args _ n TD' N2 Hq Hv).
Qed.
Lemma key_unique l : NoDup (map pKey l) -> forall p q, In p l -> In q l -> pKey p = pKey q -> p = q.
Proof.
  induction l as [|r l IH]; [intros _ p q []|]. cbn [map]. intros N p q [->|I] [->|J] E; inversion N as [|? ? N1 N2]; subst; auto.
  - exfalso. apply N1. rewrite E. now apply in_map.
  - exfalso. apply N1. rewrite <- E. now apply in_map.
Qed.

Lemma memory_new l o args : let L := l ++ [PNew (client_table o) (params_of o) args] in let i := made_by makes_object l in
  (forall n q v, nth_error (required_of o) n = Some q -> nth_error args n = Some v -> m_answer L (PGet i (pKey q)) = SValue v)
  /\ (forall q, In q (obj_schema o) -> pRequired q = false ->
        m_answer L (PHas i (pKey q)) = SBool false /\ m_answer L (PGet i (pKey q)) = SValue (c_zero_value (ctype_of (pType q)))).
Proof.
  cbn zeta. set (i := made_by makes_object l). set (D := l ++ [PNew (client_table o) [] []]).
  assert (TD : typed D i o) by (unfold D; apply TypedNew).
  assert (Ans : forall c, m_answer (l ++ [PNew (client_table o) (params_of o) args]) c = m_answer (D ++ settings i (params_of o) args) c) by (intros c; unfold m_answer; now rewrite new_run).
  split.
  - intros n q v Hq Hv. rewrite Ans. destruct (nth_required o n q Hq) as [Iq Rq]. rewrite params_required. pose proof (required_keys o) as ND.
    now apply (settings_get i o q v (required_of o) Iq args D n TD).
  - intros q Iq Rq. rewrite !Ans. assert (NI : ~ In (pKey q) (params_of o)).
    { rewrite params_required. intros J. apply in_map_iff in J as (r & Er & Ir). apply required_in in Ir as [Ir Rr].
      assert (r = q); [|congruence]. pose proof (property_keys o) as ND. exact (key_unique _ ND r q Ir Iq Er). }
    destruct (slot_kept D i o q (settings i (params_of o) args) TD Iq) as (ob & H & F & E); [right; now apply settings_not|].
    assert (m_pointer_of i (pKey q) (m_run D) = None) as Z.
    { unfold D. rewrite run_last. cbn [m_step fst]. unfold m_new. cbn [m_assign]. destruct (run_sound l) as (lab & S). unfold i. rewrite <- (s_objects _ _ _ S).
      unfold m_pointer_of, m_struct. cbn [mObject]. rewrite put_same. cbn [mTable mSlot]. rewrite (field_of o q Iq). cbn [client_field cPtr]. now rewrite Rq. }
    rewrite Z in E. unfold m_answer. cbn [m_step snd]. rewrite (get_slot _ _ _ _ _ H F), E. split; [|reflexivity].
    unfold m_has. rewrite H, F, E. cbn [client_field cPtr]. now rewrite Rq.
Qed.

(* ---- the pointers in a map ---- *)

Lemma taken_kept before n k after : let L := before ++ PTake n k :: after in
  mPointer (m_run L) (made_by makes_pointer before) = m_taken n k (m_run before).
Proof.
  cbn zeta. rewrite cons_app, run_app. destruct (run_sound before) as (lab & S). destruct (run_sound (before ++ [PTake n k])) as (lab' & S').
  destruct (from_sound after _ _ _ S') as (? & _ & _ & L).
  rewrite (l_pointer _ _ L) by (rewrite (s_pointers _ _ _ S'), made_app; cbn; lia).
  rewrite run_last. cbn [m_step fst m_keep_pointer mPointer]. rewrite <- (s_pointers _ _ _ S). apply put_same.
Qed.

Lemma memory_taken before i o q A B : typed before i o -> In q (obj_schema o) ->
  m_answer before (PHas i (pKey q)) = SBool true -> Forall (fun c => ~ sets i (pKey q) c) (A ++ B) ->
  let n := made_by makes_map before in let C := before ++ PMap i :: A in let p := made_by makes_pointer C in
  let L := C ++ PTake n (pKey q) :: B in
  m_answer C (PTake n (pKey q)) = SBool true /\ m_answer L (PRead p) = m_answer L (PGet i (pKey q))
  /\ forall w, m_answer (L ++ [PWrite p w]) (PGet i (pKey q)) = SValue w /\ m_answer (L ++ [PWrite p w]) (PEntry n (pKey q)) = SValue w.
Proof.
  intros T I Hs N. cbn zeta. set (n := made_by makes_map before). set (C := before ++ PMap i :: A). set (L := C ++ PTake n (pKey q) :: B).
  destruct (typed_field _ _ _ _ T I) as (ob & H & E & F).
  assert (exists a, mSlot ob (pKey q) = Some a /\ cPtr (client_field q) = true) as (a & Sl & P).
  { unfold m_answer in Hs. cbn [m_step snd] in Hs. unfold m_has in Hs. rewrite H, F in Hs. destruct (cPtr (client_field q)); [|discriminate]. destruct (mSlot ob (pKey q)) as [a|]; [eauto|discriminate]. }
  assert (El : forall X, m_element n (pKey q) (m_run (before ++ PMap i :: X)) = Some (EPointer a)).
  { intros X. unfold n. rewrite map_kept, H. unfold m_entries. now rewrite F, Sl, P. }
  assert (Tk : m_taken n (pKey q) (m_run C) = Some a) by (unfold m_taken, C; now rewrite El).
  assert (Pt : mPointer (m_run L) (made_by makes_pointer C) = Some a) by (unfold L; now rewrite taken_kept).
  assert (EL : L = before ++ PMap i :: A ++ PTake n (pKey q) :: B) by (unfold L, C; now rewrite <- app_assoc).
  apply Forall_app in N as [N1 N2].
  destruct (slot_kept before i o q (PMap i :: A ++ PTake n (pKey q) :: B) T I) as (o' & H' & F' & E').
  { right. constructor; [intros [w Ew]; discriminate|]. apply Forall_app. split; [assumption|]. constructor; [intros [w Ew]; discriminate|assumption]. }
  rewrite (pointer_slot _ _ _ _ _ H F), Sl in E'. rewrite <- EL in H'.
  split; [|split].
  - unfold m_answer. cbn [m_step snd]. now rewrite Tk.
  - unfold m_answer. cbn [m_step snd]. rewrite Pt. cbn [snd]. now rewrite (get_slot _ _ _ _ _ H' F'), E'.
  - intros w. unfold m_answer. rewrite run_last. cbn [m_step snd]. rewrite Pt. cbn [fst]. split.
    + rewrite (get_slot (m_write a w _) i (pKey q) o' _ H' F'), E'. cbn [m_write mCell]. now rewrite put_same.
    + unfold m_entry. change (m_element n (pKey q) (m_write a w (m_run L))) with (m_element n (pKey q) (m_run L)). rewrite EL, El. cbn [m_write mCell]. now rewrite put_same.
Qed.

(* what is no pointer in the map cannot be taken *)
Lemma memory_not_taken before i o q A : typed before i o -> In q (obj_schema o) ->
  pRequired q = true \/ m_answer before (PHas i (pKey q)) = SBool false ->
  let n := made_by makes_map before in let C := before ++ PMap i :: A in
  m_answer C (PTake n (pKey q)) = SPanic.
Proof.
  intros T I H. cbn zeta. destruct (typed_field _ _ _ _ T I) as (ob & Ho & E & F). unfold m_answer. cbn [m_step snd]. unfold m_taken. rewrite map_kept, Ho. unfold m_entries. rewrite F.
  destruct H as [R|H].
  - destruct (mSlot ob (pKey q)); [|reflexivity]. cbn [client_field cPtr]. rewrite R. reflexivity.
  - unfold m_answer in H. cbn [m_step snd] in H. unfold m_has in H. rewrite Ho, F in H. destruct (cPtr (client_field q)); [|discriminate]. destruct (mSlot ob (pKey q)); [discriminate|reflexivity].
Qed.
