(* What objects of the client hold *)
From Coq Require Import ZArith NArith Bool Ascii String List Lia Permutation.
From Verif Require Import GoBase GoBaseFacts GoTime Tables JsonTables Codec Records Json JsonFile ClientTypes ClientAccess
  SpecCodec SpecJson SpecSchema SpecClientTypes SpecAccess JsonMapFacts SchemaFacts JsonFacts ClientTypesFacts.
From Coq Require Import List.
Import ListNotations.
Local Open Scope string_scope.
Local Open Scope Z_scope.
Local Open Scope list_scope.
Local Notation length := List.length.

(* ---- fields ---- *)

Lemma get_set_same k v o : In k (map fst o) -> c_get k (c_set k v o) = v.
Proof.
  unfold c_get, c_set. induction o as [|[k' x] o IH]; [intros []|]. cbn [map fst find]. intros [->|I].
  - rewrite String.eqb_refl. cbn [fst]. rewrite String.eqb_refl. reflexivity.
  - destruct (String.eqb_spec k' k) as [->|N]; cbn [fst]; [rewrite String.eqb_refl; reflexivity|].
    apply String.eqb_neq in N. rewrite N. apply IH, I.
Qed.
Lemma get_set_other k k' v o : k <> k' -> c_get k' (c_set k v o) = c_get k' o.
Proof.
  intros D. unfold c_get, c_set. induction o as [|[k1 x] o IH]; [reflexivity|]. cbn [map fst find].
  destruct (String.eqb_spec k1 k) as [->|N]; cbn [fst find].
  - apply String.eqb_neq in D. rewrite D. exact IH.
  - destruct (String.eqb k1 k'); [reflexivity|exact IH].
Qed.
Lemma get_in k x o : NoDup (map fst o) -> In (k, x) o -> c_get k o = x.
Proof.
  unfold c_get. induction o as [|[k1 x1] o IH]; [intros _ []|]. cbn [map fst find]. intros N [[= -> ->]|I].
  - rewrite String.eqb_refl. reflexivity.
  - inversion N as [|? ? Nk No]; subst. destruct (String.eqb_spec k1 k) as [->|_]; [|apply IH; assumption].
    elim Nk. apply (in_map fst) in I. exact I.
Qed.
Lemma in_get k v o : c_get k o = Some v -> In (k, Some v) o.
Proof.
  unfold c_get. destruct (find _ o) as [[k1 x]|] eqn:F; [|discriminate]. cbn [snd]. intros ->.
  apply find_some in F as [I E]. apply String.eqb_eq in E. cbn [fst] in E. now subst.
Qed.

Lemma get_zero o p : In p (obj_schema o) ->
  c_get (pKey p) (c_zero (client_table o)) = if pRequired p then Some (c_zero_value (ctype_of (pType p))) else None.
Proof.
  intros I. apply get_in; [rewrite zero_keys; apply property_keys|]. rewrite client_types. unfold c_zero. rewrite map_map.
  apply in_map_iff. exists p. split; [|exact I]. cbn [client_field cKey cPtr cType]. destruct (pRequired p); reflexivity.
Qed.

(* ---- constructors ---- *)

Lemma params_required o : params_of o = map pKey (required_of o).
Proof. destruct o as [| | |[]]; reflexivity. Qed.

Lemma required_in o p : In p (required_of o) <-> In p (obj_schema o) /\ pRequired p = true.
Proof. apply filter_In. Qed.

Lemma assign_keys ps : forall vs o, map fst (assign ps vs o) = map fst o.
Proof. induction ps as [|k ps IH]; intros [|v vs] o; try reflexivity. cbn [assign]. now rewrite IH, set_keys. Qed.

Lemma assign_other ps : forall vs o k, ~ In k ps -> c_get k (assign ps vs o) = c_get k o.
Proof.
  induction ps as [|k1 ps IH]; intros [|v vs] o k N; try reflexivity. cbn [assign]. cbn [In] in N.
  rewrite IH by tauto. apply get_set_other. tauto.
Qed.

Lemma assign_nth ps : forall vs o n k v, NoDup ps -> (forall k, In k ps -> In k (map fst o)) -> nth_error ps n = Some k -> nth_error vs n = Some v ->
  c_get k (assign ps vs o) = Some v.
Proof.
  induction ps as [|k1 ps IH]; intros [|v1 vs] o [|n] k v N K P V; try discriminate; cbn [nth_error] in P, V; inversion N as [|? ? Nk Np]; subst; cbn [assign].
  - injection P as ->. injection V as ->. rewrite assign_other by assumption. apply get_set_same, K. now left.
  - apply (IH vs _ n k v Np); [|assumption|assumption]. intros k' I. rewrite set_keys. apply K. now right.
Qed.

Lemma required_keys o : NoDup (map pKey (required_of o)).
Proof.
  unfold required_of. pose proof (property_keys o) as N. induction (obj_schema o) as [|p l IH]; [constructor|].
  cbn [map] in N. inversion N as [|? ? Np Nl]; subst. cbn [filter]. destruct (pRequired p); [|now apply IH].
  cbn [map]. constructor; [|now apply IH]. intros I. apply Np. apply in_map_iff in I as (q & E & I). rewrite <- E. apply in_map.
  now apply filter_In in I as [I _].
Qed.

Lemma nth_required o n p : nth_error (required_of o) n = Some p -> In p (obj_schema o) /\ pRequired p = true.
Proof. intros H. apply required_in. eapply nth_error_In, H. Qed.

Lemma forall2_nth {A B} (P : A -> B -> Prop) l m : Forall2 P l m -> forall n a, nth_error l n = Some a -> exists b, nth_error m n = Some b /\ P a b.
Proof.
  induction 1 as [|a b l m H F IH]; intros [|n] x E; try discriminate; [injection E as <-; exists b; split; [reflexivity|assumption]|]. apply (IH n), E.
Qed.

Lemma new_get o args p : arguments o args -> In p (obj_schema o) ->
  forall v, c_get (pKey p) (c_new (client_table o) (params_of o) args) = Some v <-> held o args p [] v.
Proof.
  intros A I v. unfold c_new. rewrite params_required.
  assert (K : forall k, In k (map pKey (required_of o)) -> In k (map fst (c_zero (client_table o)))).
  { intros k J. rewrite zero_keys. apply in_map_iff in J as (q & <- & J). apply required_in in J as [J _]. now apply in_map. }
  destruct (pRequired p) eqn:R.
  - assert (In p (required_of o)) as J by (apply required_in; split; assumption). apply In_nth_error in J as [n Nth].
    destruct (forall2_nth _ _ _ A n p Nth) as (w & Nw & _).
    assert (Np : nth_error (map pKey (required_of o)) n = Some (pKey p)) by (apply map_nth_error; exact Nth).
    rewrite (assign_nth _ _ _ n _ w (required_keys o) K Np Nw). split.
    + intros [= <-]. econstructor; eassumption.
    + intros H. inversion H as [m x Nm Nx| |]; subst. assert (m = n) as ->; [|congruence].
      assert (Nm' : nth_error (map pKey (required_of o)) m = Some (pKey p)) by (apply map_nth_error; exact Nm).
      pose proof (required_keys o) as ND. rewrite NoDup_nth_error in ND. apply ND; [|congruence]. apply nth_error_Some. congruence.
  - rewrite assign_other.
    + rewrite get_zero by assumption. rewrite R. split; [discriminate|]. intros H. inversion H as [m x Nm Nx| |]; subst.
      apply nth_required in Nm as [_ Nm]. congruence.
    + intros J. apply in_map_iff in J as (q & E & J). apply required_in in J as [Iq Rq]. apply (property_unique o) in E; [|assumption|assumption]. congruence.
Qed.

(* ---- calls ---- *)

Lemma after_ok o args l : arguments o args -> Forall (setting o) l ->
  exists st, after_calls o args l = Ok st /\ map fst st = map pKey (obj_schema o)
  /\ forall p, In p (obj_schema o) -> forall v, c_get (pKey p) st = Some v <-> held o args p l v.
Proof.
  intros A F. induction F as [|[q w] l [Iq _] F (st & E & K & H)].
  - exists (c_new (client_table o) (params_of o) args). split; [reflexivity|]. split; [unfold c_new; rewrite assign_keys; apply zero_keys|].
    intros p I v. exact (new_get o args p A I v).
  - cbn [after_calls]. rewrite E. cbn [c_setter]. eexists. split; [reflexivity|]. split; [now rewrite set_keys|].
    cbn [fst] in Iq. cbn [client_field cKey]. intros p I v. destruct (String.eqb_spec (pKey q) (pKey p)) as [Eq|Nq].
    + apply (property_unique o) in Eq as ->; [|assumption|assumption]. rewrite get_set_same by (rewrite K; now apply in_map). split.
      * intros [= ->]. constructor.
      * intros X. inversion X; subst; [reflexivity|congruence].
    + rewrite get_set_other by assumption. rewrite (H p I v). split; [intros X; now apply ByEarlier|].
      intros X. inversion X; subst; [elim Nq; reflexivity|assumption].
Qed.

Lemma held_fits o args l p v : arguments o args -> Forall (setting o) l -> In p (obj_schema o) -> held o args p l v -> fits_type (pType p) v.
Proof.
  intros A F I H. induction H as [n v Nn Nv|v l|q v l w N H IH].
  - destruct (forall2_nth _ _ _ A n p Nn) as (w & Nw & Fw). congruence.
  - inversion F as [|? ? [_ X] _]; subst. exact X.
  - inversion F; subst. now apply IH.
Qed.

Lemma held_required o args l p : arguments o args -> Forall (setting o) l -> In p (obj_schema o) -> pRequired p = true -> exists v, held o args p l v.
Proof.
  intros A F I R. induction F as [|[q w] l [Iq _] F (v & H)].
  - assert (In p (required_of o)) as J by (apply required_in; split; assumption). apply In_nth_error in J as [n Nth].
    destruct (forall2_nth _ _ _ A n p Nth) as (w & Nw & _). exists w. econstructor; eassumption.
  - destruct (String.eqb_spec (pKey q) (pKey p)) as [E|N]; [|exists v; now apply ByEarlier].
    cbn [fst] in Iq. apply (property_unique o) in E as ->; [|assumption|assumption]. exists w. constructor.
Qed.

Lemma object_of_entries o (st : cobject) : map fst st = map pKey (obj_schema o) ->
  (forall p x, In p (obj_schema o) -> In (pKey p, x) st -> match x with Some v => fits_type (pType p) v | None => pRequired p = false end) ->
  client_object o st.
Proof.
  unfold client_object. generalize (obj_schema o). intros sc. revert st. induction sc as [|p sc IH]; intros [|[k x] st] E H; try discriminate; [constructor|].
  cbn [map fst] in E. injection E as -> E. constructor.
  - split; [reflexivity|]. apply (H p x); now left.
  - apply IH; [assumption|]. intros q y I J. apply (H q y); now right.
Qed.

Lemma after_typed o args l st : arguments o args -> Forall (setting o) l -> after_calls o args l = Ok st -> client_object o st.
Proof.
  intros A F E. destruct (after_ok o args l A F) as (st' & E' & K & H). rewrite E in E'. injection E' as <-.
  assert (N : NoDup (map fst st)) by (rewrite K; apply property_keys).
  apply object_of_entries; [assumption|]. intros p x I J. apply (get_in _ _ _ N) in J. destruct x as [v|].
  - apply (held_fits o args l); [assumption..|]. now apply H.
  - destruct (pRequired p) eqn:R; [|reflexivity]. destruct (held_required o args l p A F I R) as (v & Hv). apply (H p I) in Hv. congruence.
Qed.

(* ---- the statements of C95 ---- *)

Lemma access_object o args l : arguments o args -> Forall (setting o) l ->
  exists st, after_calls o args l = Ok st /\ client_object o st /\
  forall p, In p (obj_schema o) -> let c := client_field p in
    (forall v, held o args p l v ->
       c_getter c (Some st) = v /\ c_getter_ok c (Some st) = (Some v, true) /\ c_has c (Some st) = true) /\
    ((forall v, ~ held o args p l v) ->
       pRequired p = false /\ c_getter c (Some st) = c_zero_value (ctype_of (pType p))
       /\ c_getter_ok c (Some st) = (None, false) /\ c_has c (Some st) = false).
Proof.
  intros A F. destruct (after_ok o args l A F) as (st & E & K & H). exists st. split; [exact E|]. split; [exact (after_typed o args l st A F E)|].
  intros p I c. unfold c, c_getter, c_getter_ok, c_has. cbn [client_field cKey cType]. split.
  - intros v Hv. apply (H p I) in Hv. rewrite Hv. auto.
  - intros Hn. destruct (c_get (pKey p) st) as [v|] eqn:G; [elim (Hn v); now apply H|].
    split; [|auto]. destruct (pRequired p) eqn:R; [|reflexivity]. destruct (held_required o args l p A F I R) as (v & Hv). elim (Hn v Hv).
Qed.

Lemma held_portable o args l p v : Forall portable args -> Forall (fun c => portable (snd c)) l -> held o args p l v -> portable v.
Proof.
  intros A F H. induction H as [n v Nn Nv|v l|q v l w N H IH].
  - rewrite Forall_forall in A. apply A. eapply nth_error_In, Nv.
  - inversion F; subst. assumption.
  - inversion F; subst. now apply IH.
Qed.

Lemma access_good o args l st : arguments o args -> Forall (setting o) l -> Forall portable args -> Forall (fun c => portable (snd c)) l ->
  after_calls o args l = Ok st -> good_object o st.
Proof.
  intros A F PA PF E. pose proof (after_typed o args l st A F E) as T. split; [exact T|].
  intros k v I. destruct (client_entries o st k _ T I) as (p & Ip & -> & _).
  destruct (after_ok o args l A F) as (st' & E' & K & H). rewrite E in E'. injection E' as <-.
  apply (held_portable o args l p v PA PF). apply (H p Ip). apply get_in; [rewrite K; apply property_keys|exact I].
Qed.

Lemma members_keys c : forall l, c_members c = Some l -> forall k, In k (map fst l) <-> exists key v, k = lit key /\ In (key, Some v) c.
Proof.
  induction c as [|[k0 [v0|]] c IH]; intros l E k; cbn [c_members] in E.
  - injection E as <-. split; [intros []|intros (? & ? & _ & [])].
  - destruct (c_value v0) as [j|]; [|discriminate]. destruct (c_members c) as [m|]; [|discriminate]. injection E as <-. cbn [map fst In].
    rewrite (IH m eq_refl). split.
    + intros [<-|(key & v & -> & I)]; [exists k0, v0; auto|exists key, v; auto].
    + intros (key & v & -> & [[= -> ->]|I]); [now left|right; eauto].
  - rewrite (IH l E). split; intros (key & v & -> & I); exists key, v; (split; [reflexivity|]); [now right|].
    destruct I as [[= ]|I]. exact I.
Qed.
Lemma members_nodup c : NoDup (map fst c) -> forall l, c_members c = Some l -> NoDup (map fst l).
Proof.
  induction c as [|[k0 [v0|]] c IH]; intros N l E; cbn [c_members] in E; cbn [map fst] in N.
  - injection E as <-. constructor.
  - destruct (c_value v0) as [j|]; [|discriminate]. destruct (c_members c) as [m|] eqn:M; [|discriminate]. injection E as <-.
    inversion N as [|? ? Nk Nc]; subst. cbn [map fst]. constructor; [|now apply IH]. rewrite (members_keys c m M).
    intros (key & v & Ek & I). apply lit_inj in Ek as <-. apply Nk. apply (in_map fst) in I. exact I.
  - inversion N; subst. now apply IH.
Qed.

Lemma access_written o args l st ms : arguments o args -> Forall (setting o) l -> after_calls o args l = Ok st -> c_object st = Some (JObj ms) ->
  forall k, In k (map fst ms) <-> exists p v, In p (obj_schema o) /\ k = lit (pKey p) /\ held o args p l v.
Proof.
  intros A F E W k. destruct (after_ok o args l A F) as (st' & E' & K & H). rewrite E in E'. injection E' as <-.
  assert (N : NoDup (map fst st)) by (rewrite K; apply property_keys).
  unfold c_object in W. destruct (c_members st) as [m|] eqn:M; [|discriminate]. injection W as <-.
  pose proof (put_members_perm m (members_nodup st N m M)) as P. apply (Permutation_map fst) in P.
  assert (In k (map fst (put_members m)) <-> In k (map fst m)) as ->.
  { split; [apply Permutation_in; now apply Permutation_sym|now apply Permutation_in]. }
  rewrite (members_keys st m M). pose proof (after_typed o args l st A F E) as T. split.
  - intros (key & v & -> & I). destruct (client_entries o st key _ T I) as (p & Ip & -> & _). exists p, v. split; [assumption|]. split; [reflexivity|].
    apply (H p Ip). now apply get_in.
  - intros (p & v & Ip & -> & Hv). exists (pKey p), v. split; [reflexivity|]. apply in_get. now apply H.
Qed.

Lemma access_nil c v : c_getter c None = c_zero_value (cType c) /\ c_getter_ok c None = (None, false) /\ c_has c None = false /\ c_setter c v None = Panic.
Proof. repeat split. Qed.

(* ---- records ---- *)

Lemma record_calls b l : exists r, record_after b l = Ok r.
Proof. induction l as [|c l (r & E)]; [eexists; reflexivity|]. cbn [record_after]. rewrite E. eexists. reflexivity. Qed.

Ltac parts_of r := destruct r as [b0 j10 j20 k10 k20 k30 k40 l10 n10].

Lemma record_base b l r : record_after b l = Ok r -> base_held b l (crBase r).
Proof.
  revert r. induction l as [|c l IH]; intros r E; cbn [record_after] in E; [injection E as <-; constructor|].
  destruct (record_after b l) as [x| |]; try discriminate. injection E as <-. specialize (IH x eq_refl). parts_of x.
  destruct c as [v|k v|k v]; [constructor|constructor; [discriminate|destruct k; exact IH]|constructor; [discriminate|destruct k; exact IH]].
Qed.
Lemma record_many k b l r : repeats k -> Forall rcall_exists l -> record_after b l = Ok r -> many_held k l (many_of k r).
Proof.
  intros Rk F. revert r. induction F as [|c l C F IH]; intros r E; cbn [record_after] in E.
  { injection E as <-. destruct Rk as [-> | ->]; constructor. }
  destruct (record_after b l) as [x| |]; try discriminate. injection E as <-. specialize (IH x eq_refl). parts_of x.
  destruct c as [v|k' v|k' v].
  - constructor; [discriminate|destruct k; exact IH].
  - destruct C as [-> | ->], Rk as [-> | ->]; try constructor; try discriminate; exact IH.
  - constructor; [discriminate|]. destruct Rk as [-> | ->]; destruct k'; exact IH.
Qed.
Lemma record_one k b l r : ~ repeats k -> Forall rcall_exists l -> record_after b l = Ok r -> one_held k l (one_of k r).
Proof.
  intros Rk F. revert r. induction F as [|c l C F IH]; intros r E; cbn [record_after] in E.
  { injection E as <-. destruct k; constructor. }
  destruct (record_after b l) as [x| |]; try discriminate. injection E as <-. specialize (IH x eq_refl). parts_of x.
  destruct c as [v|k' v|k' v].
  - constructor; [discriminate|destruct k; exact IH].
  - constructor; [discriminate|]. destruct C as [-> | ->]; destruct k; exact IH.
  - cbn [rcall_exists] in C. destruct k', k; try (elim C; unfold repeats; tauto); try (elim Rk; unfold repeats; tauto);
      try (apply OneCall); (apply OneEarlier; [discriminate|exact IH]).
Qed.

Lemma access_record b l r : Forall rcall_exists l -> record_after b l = Ok r ->
  (exists v, base_held b l v /\ get_base (Some r) = v /\ get_base_ok (Some r) = (Some v, true)) /\
  (forall k, repeats k -> exists v, many_held k l v /\ get_many k (Some r) = v
     /\ get_many_ok k (Some r) = (v, match v with Some _ => true | None => false end)
     /\ has_many k (Some r) = match v with Some _ => true | None => false end) /\
  (forall k, ~ repeats k -> exists v, one_held k l v /\ get_one k (Some r) = match v with Some x => x | None => c_zero (c_segment k) end
     /\ get_one_ok k (Some r) = (v, match v with Some _ => true | None => false end)
     /\ has_one k (Some r) = match v with Some _ => true | None => false end).
Proof.
  intros F E. split; [|split].
  - exists (crBase r). split; [exact (record_base b l r E)|]. split; reflexivity.
  - intros k Rk. exists (many_of k r). split; [exact (record_many k b l r Rk F E)|]. unfold get_many, get_many_ok, has_many.
    destruct (many_of k r); auto.
  - intros k Rk. exists (one_of k r). split; [exact (record_one k b l r Rk F E)|]. unfold get_one, get_one_ok, has_one.
    destruct (one_of k r); auto.
Qed.

Lemma access_good_record b l r : good_object OBase b -> Forall rcall_exists l -> Forall good_rcall l -> record_after b l = Ok r -> good_record r.
Proof.
  intros B F. revert r. induction F as [|c l C F IH]; intros r G E; cbn [record_after] in E.
  { injection E as <-. unfold good_record, good_many, good_one. cbn. repeat split; try apply B; discriminate. }
  destruct (record_after b l) as [x| |]; try discriminate. injection E as <-. inversion G as [|? ? Gc Gl]; subst.
  specialize (IH x Gl eq_refl). parts_of x. unfold good_record in *. cbn in IH. destruct IH as (G0 & G1 & G2 & G3 & G4 & G5 & G6 & G7 & G8).
  assert (S : forall k v, good_object (OSegment k) v -> good_one k (Some v)) by (intros k v Gv w [= <-]; exact Gv).
  destruct c as [v|[] v|[] v]; cbn [good_rcall] in Gc; cbn; repeat (split; [first [assumption|now apply S]|]); first [assumption|now apply S].
Qed.

(* ---- files ---- *)

Lemma file_calls h t l : exists f, file_after h t l = Ok f.
Proof. induction l as [|c l (r & E)]; [eexists; reflexivity|]. cbn [file_after]. rewrite E. eexists. reflexivity. Qed.

Lemma access_file h t l f : file_after h t l = Ok f ->
  (exists v, header_held h l v /\ get_header (Some f) = v /\ get_header_ok (Some f) = (Some v, true)) /\
  (exists v, trailer_held t l v /\ get_trailer (Some f) = v /\ get_trailer_ok (Some f) = (Some v, true)) /\
  (exists v, data_held l v /\ get_data (Some f) = v /\ get_data_ok (Some f) = (v, match v with Some _ => true | None => false end)
     /\ has_data (Some f) = match v with Some _ => true | None => false end).
Proof.
  intros E. assert (header_held h l (cfHeader f) /\ trailer_held t l (cfTrailer f) /\ data_held l (cfData f)) as (H & T & D).
  { revert f E. induction l as [|c l IH]; intros f E; cbn [file_after] in E; [injection E as <-; repeat constructor|].
    destruct (file_after h t l) as [x| |]; try discriminate. injection E as <-. destruct (IH x eq_refl) as (H & T & D).
    destruct c; cbn [set_file_part cfHeader cfTrailer cfData];
      (split; [|split]); first [apply HeaderCall|apply TrailerCall|apply DataCall
        |apply HeaderEarlier; [discriminate|assumption]|apply TrailerEarlier; [discriminate|assumption]|apply DataEarlier; [discriminate|assumption]]. }
  split; [|split].
  - exists (cfHeader f). auto.
  - exists (cfTrailer f). auto.
  - exists (cfData f). split; [exact D|]. unfold get_data, get_data_ok, has_data. destruct (cfData f); auto.
Qed.

Lemma access_good_file h t l f : good_object OHeader h -> good_object OTrailer t -> Forall good_fcall l -> file_after h t l = Ok f -> good_file f.
Proof.
  intros Gh Gt F. revert f. induction F as [|c l C F IH]; intros f E; cbn [file_after] in E.
  { injection E as <-. split; [exact Gh|]. split; [exact Gt|]. discriminate. }
  destruct (file_after h t l) as [x| |]; try discriminate. injection E as <-. destruct (IH x eq_refl) as (A & B & D).
  destruct c; cbn [good_fcall] in C; (split; [|split]); assumption.
Qed.

(* ---- Nullable types ---- *)

Lemma nullable_calls {A} (n : nullable A) v :
  n_get (n_set v n) = v /\ n_is_set (n_set v n) = true /\ n_get (n_unset n) = None /\ n_is_set (n_unset n) = false
  /\ n_new v = n_set v nullable0 /\ n_unset n = nullable0.
Proof. repeat split. Qed.

Lemma nullable_json zone o v : (forall c, v = Some c -> good_object o c) ->
  exists j, n_marshal c_object (n_new v) = Some j /\ n_unmarshal zone (client_table o) j nullable0 = Some (n_new v).
Proof.
  intros G. destruct v as [c|].
  - destruct (object_survives zone o c (G c eq_refl)) as (j & E & N & D). exists j. split; [exact E|]. unfold n_unmarshal, c_decode_ptr. cbn [nValue nullable0].
    destruct j; try congruence; cbv iota; rewrite D; reflexivity.
  - exists JNull. split; reflexivity.
Qed.

Lemma nullable_unset_lost zone o : exists j, n_marshal c_object (nullable0 : nullable cobject) = Some j
  /\ n_unmarshal zone (client_table o) j nullable0 = Some (n_new None) /\ n_new None <> (nullable0 : nullable cobject).
Proof. exists JNull. split; [reflexivity|]. split; [reflexivity|discriminate]. Qed.

Lemma access_nil_parts k c fc :
  (get_base None = c_zero c_base /\ get_base_ok None = (None, false)) /\
  (get_many k None = None /\ get_many_ok k None = (None, false) /\ has_many k None = false) /\
  (get_one k None = c_zero (c_segment k) /\ get_one_ok k None = (None, false) /\ has_one k None = false) /\
  (get_header None = c_zero c_header /\ get_header_ok None = (None, false)) /\
  (get_trailer None = c_zero c_trailer /\ get_trailer_ok None = (None, false)) /\
  (get_data None = None /\ get_data_ok None = (None, false) /\ has_data None = false) /\
  set_record c None = Panic /\ set_file fc None = Panic.
Proof. repeat split. Qed.

(* the published types of NullableInt32, NullableInt64, NullableString, NullableTime *)
Lemma nullable_value_json zone t v n : (forall x, v = Some x -> portable x /\ fits_type t x) -> (ctype_of t = CStamp -> v <> None) ->
  exists j, n_marshal_value (ctype_of t) (n_new v) = Ok j /\ n_unmarshal_value zone (ctype_of t) j n = Some (n_new v).
Proof.
  intros G T. destruct v as [x|].
  - destruct (G x eq_refl) as [P F]. destruct (value_writes x P) as (j & E & S). exists j.
    split; [unfold n_marshal_value; cbn [n_new nValue]; rewrite E; destruct (ctype_of t); reflexivity|].
    unfold n_unmarshal_value. rewrite (said_reads zone "" true t j x (nValue n) S F). reflexivity.
  - exists JNull. unfold n_marshal_value, n_unmarshal_value. destruct (ctype_of t); split; try reflexivity. contradiction (T eq_refl eq_refl).
Qed.

Lemma nil_time_panics b : n_marshal_value CStamp (mkNullable None b) = Panic.
Proof. reflexivity. Qed.

