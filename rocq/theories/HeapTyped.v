(* Careful programs: the files are those of SpecApi *)
From Coq Require Import ZArith NArith Bool Ascii String List Lia.
Import ListNotations.
From Verif Require Import GoBase GoBaseFacts GoTime Tables Codec Records File
  SpecCodec SpecLayouts SpecRecords SpecFile SpecValidate SpecCounters SpecApi Heap SpecHeap
  ParseFacts AgreeFacts ApiFacts HeapFacts HeapSteps HeapCalls HeapRuns HeapMain.
Local Open Scope string_scope.
Local Open Scope nat_scope.
Local Open Scope list_scope.
Local Notation length := List.length.

Lemma base_ok_iff b : base_ok b <-> has_type base_struct (bFields b) /\ forall k, Forall (fun s => sKind s = k /\ seg_typed s) (segs_of k b).
Proof.
  destruct b as [st j1 j2 k1 k2 k3 k4 l1 n1]. unfold base_ok, base_typed, segs_placed, segments_of. cbn [bFields bJ1 bJ2 bK1 bK2 bK3 bK4 bL1 bN1].
  rewrite !Forall_app. split.
  - intros ((T & P1 & P2 & P3 & P4 & P5 & P6 & P7 & P8) & F1 & F2 & F3 & F4 & F5 & F6 & F7 & F8). split; [exact T|].
    intros k. destruct k; cbn [segs_of bJ1 bJ2 bK1 bK2 bK3 bK4 bL1 bN1].
    1: clear -P1 F1; induction j1; inversion P1; inversion F1; subst; constructor; auto.
    1: clear -P2 F2; induction j2; inversion P2; inversion F2; subst; constructor; auto.
    all: match goal with |- Forall _ (opt_list ?o) => destruct o as [s|]; constructor; [|constructor] end.
    all: split; [eauto|]; match goal with H : Forall seg_typed (opt_to_list (Some ?s)) |- seg_typed ?s => inversion H; assumption end.
  - intros (T & K). repeat match goal with |- _ /\ _ => split end; try exact T.
    all: try (specialize (K J1); cbn [segs_of bJ1] in K; revert K; apply Forall_impl; tauto).
    all: try (specialize (K J2); cbn [segs_of bJ2] in K; revert K; apply Forall_impl; tauto).
    all: try (intros s E; subst).
    + specialize (K K1). inversion K; tauto.
    + specialize (K K2). inversion K; tauto.
    + specialize (K K3). inversion K; tauto.
    + specialize (K K4). inversion K; tauto.
    + specialize (K L1). inversion K; tauto.
    + specialize (K N1). inversion K; tauto.
    + specialize (K K1). destruct k1; constructor; [inversion K; tauto|constructor].
    + specialize (K K2). destruct k2; constructor; [inversion K; tauto|constructor].
    + specialize (K K3). destruct k3; constructor; [inversion K; tauto|constructor].
    + specialize (K K4). destruct k4; constructor; [inversion K; tauto|constructor].
    + specialize (K L1). destruct l1; constructor; [inversion K; tauto|constructor].
    + specialize (K N1). destruct n1; constructor; [inversion K; tauto|constructor].
Qed.

Lemma opt_list_inj {A} (o o' : option A) : opt_list o = opt_list o' -> o = o'.
Proof. destruct o, o'; cbn; congruence. Qed.

Lemma base_eq b b' : bFields b = bFields b' -> (forall k, segs_of k b = segs_of k b') -> b = b'.
Proof.
  intros F K. destruct b as [st j1 j2 k1 k2 k3 k4 l1 n1], b' as [st' j1' j2' k1' k2' k3' k4' l1' n1']. cbn in F.
  pose proof (K J1) as E1. pose proof (K J2) as E2. pose proof (opt_list_inj _ _ (K K1)) as E3. pose proof (opt_list_inj _ _ (K K2)) as E4.
  pose proof (opt_list_inj _ _ (K K3)) as E5. pose proof (opt_list_inj _ _ (K K4)) as E6. pose proof (opt_list_inj _ _ (K L1)) as E7.
  pose proof (opt_list_inj _ _ (K N1)) as E8. cbn in *. subst. reflexivity.
Qed.

Lemma pointers_values h r p b : record_value h r = RBase p b -> forall k, segs_of k b = map (seg_value h) (pointers h k r).
Proof.
  unfold record_value, pointers. intros E k. destruct (cell h r) as [q st|q c|q st]; inversion E; subst.
  destruct k; cbn; try reflexivity; destruct c as [f j1 j2 k1 k2 k3 k4 l1 n1]; cbn;
    match goal with |- opt_list (option_map _ ?o) = _ => destruct o; reflexivity end.
Qed.

Definition typed_heap (h : heap) : Prop :=
  (forall s, s < length (hSegments h) -> seg_typed (seg_value h s))
  /\ forall r, r < length (hRecords h) -> record_ok (record_value h r).

Lemma written_segment_ok h s st r v : seg_typed (seg_value h s) -> has_type (seg_struct (sKind (seg_value h s))) st ->
  record_ok (record_value h r) -> segment_written h s st r v -> record_ok v.
Proof.
  intros Ts T O X. unfold segment_written in X. destruct (record_value h r) as [p z|p b|p z] eqn:E; [subst; exact O| |subst; exact O].
  destruct v as [|q b'|]; try discriminate. destruct X as (_ & F & K). cbn [record_ok] in *. apply base_ok_iff in O as [Tf Ok]. apply base_ok_iff.
  split; [rewrite <- F; exact Tf|]. intros k. rewrite K. specialize (Ok k). rewrite (pointers_values h r p b E) in Ok.
  induction (pointers h k r) as [|x l IH]; [constructor|]. cbn in Ok |- *. inversion_clear Ok as [|? ? AB C]. destruct AB as [A B]. constructor; [|apply IH; exact C].
  destruct (Nat.eqb_spec x s) as [->|]; [|auto]. split; [exact A|exact T].
Qed.

Lemma written_segment_elsewhere h s st r v : ~ attached_in h s r -> segment_written h s st r v -> v = record_value h r.
Proof.
  intros N X. unfold segment_written in X. destruct (record_value h r) as [p z|p b|p z] eqn:E; [exact X| |exact X].
  destruct v as [|q b'|]; try discriminate. destruct X as (-> & F & K). f_equal. apply base_eq; [auto|]. intros k. rewrite K.
  rewrite (pointers_values h r q b E). apply map_ext_in. intros x I. destruct (Nat.eqb_spec x s) as [->|]; [|reflexivity].
  exfalso. apply N. exists k. exact I.
Qed.

Lemma add_segment_record_ok s r : seg_typed s -> record_ok r -> record_ok (fst (record_add_segment s r)).
Proof.
  intros T O. destruct r as [p st|p b|p st]; try exact O. apply (add_segment_ok s (RBase p b) p T); [exists b; reflexivity|exact O].
Qed.

Section Spare.
Variable spare : nat -> nat.

Lemma with_file_length w i g w' : with_file w i g = Some w' -> length (wFiles w') = length (wFiles w).
Proof.
  unfold with_file. destruct (nth_error _ _) as [f|]; [|discriminate]. destruct (g f) as [[h f']|]; [|discriminate].
  intros E. inversion E. cbn. apply upd_length.
Qed.

(* the files there are not before a call *)
Lemma new_files fuel w c w' i f' : h_step spare fuel w c = Some w' -> nth_error (wFiles w') i = Some f' ->
  (exists f, nth_error (wFiles w) i = Some f) \/ exists p, file_value (wHeap w') f' = new_file_p p.
Proof.
  intros E Ei. assert (length (wFiles w') = length (wFiles w) -> exists f, nth_error (wFiles w) i = Some f) as K.
  { intros L. assert (i < length (wFiles w)) as Li by (rewrite <- L; apply nth_error_Some; congruence).
    apply nth_error_Some in Li. destruct (nth_error (wFiles w) i); [eauto|congruence]. }
  destruct c; cbn [h_step] in E.
  1: { inversion E; subst; clear E K. cbn [wFiles wHeap] in *. destruct (Nat.lt_ge_cases i (length (wFiles w))) as [L|L].
       - left. apply nth_error_Some in L. destruct (nth_error (wFiles w) i); [eauto|congruence].
       - right. rewrite nth_error_app2 in Ei by exact L. destruct (i - length (wFiles w)) as [|[|]]; inversion Ei; subst. exists packed.
         unfold file_value, record_value, cell. cbn [hRecords hfPacked hfHeader hfBases hfTrailer map].
         rewrite (app_nth1 _ [HTrailer packed new_trailer]) by (rewrite app_length; cbn; lia).
         rewrite (app_nth2 (hRecords (wHeap w)) _) by lia. rewrite Nat.sub_diag. rewrite app_nth2, Nat.sub_diag by lia. reflexivity. }
  all: left; apply K; clear K Ei.
  1-4: inversion E; reflexivity.
  all: repeat match type of E with (if ?b then _ else _) = _ => destruct b; [|discriminate] end.
  1-3: inversion E; reflexivity.
  all: apply with_file_length in E; exact E.
Qed.

(* the records there are not before a call *)
Lemma new_records fuel w left c w' r : inv w left -> typed_heap (wHeap w) -> h_step spare fuel w c = Some w' ->
  length (hRecords (wHeap w)) <= r -> r < length (hRecords (wHeap w')) ->
  (exists i f, nth_error (wFiles w') i = Some f /\ In r (slots f)) \/ record_ok (record_value (wHeap w') r).
Proof.
  intros V [TS TR] E Lo Hi.
  assert (forall c0, wHeap w' = fst (new_record_at (wHeap w) c0) -> record_value (wHeap w') r = cell_value (wHeap w') c0) as New.
  { intros c0 Eh. rewrite Eh in *. cbn in Hi. rewrite app_length in Hi. cbn in Hi. assert (r = length (hRecords (wHeap w))) as -> by lia.
    unfold record_value. pose proof (new_record_cell (wHeap w) c0) as X. cbn [snd new_record_at] in X. rewrite X. reflexivity. }
  assert (length (hRecords (wHeap w')) = length (hRecords (wHeap w)) -> False) as Same by lia.
  destruct c; cbn [h_step] in E.
  - left. inversion E; subst; clear E. cbn [wHeap hRecords wFiles] in *. rewrite !app_length in Hi. cbn in Hi.
    exists (length (wFiles w)). eexists. split; [rewrite nth_error_app2, Nat.sub_diag by lia; reflexivity|]. cbn. rewrite app_length. cbn. lia.
  - right. rewrite (New (HHeader packed new_header)); [reflexivity|]. inversion E; reflexivity.
  - right. rewrite (New (HBase packed (mkHBase (new_fields base_struct) Nil Nil None None None None None None))); [|inversion E; reflexivity].
    exact new_base_ok.
  - right. rewrite (New (HTrailer packed new_trailer)); [reflexivity|]. inversion E; reflexivity.
  - exfalso. inversion E; subst. apply Same. reflexivity.
  - exfalso. destruct (Nat.ltb _ _); [|discriminate]. inversion E; subst. apply Same. apply set_cell_length.
  - exfalso. destruct (Nat.ltb _ _); [|discriminate]. inversion E; subst. apply Same. reflexivity.
  - exfalso. destruct (Nat.ltb _ _); [|discriminate]. destruct (Nat.ltb _ _); [|discriminate]. inversion E; subst. apply Same. clear.
    cbn [wHeap]. unfold h_add_segment. destruct (cell (wHeap w) r0) as [?|p b|?]; try reflexivity. destruct (seg_validate _); [reflexivity|].
    destruct (h_put _ _ _ _ _) as [h1 b'] eqn:Ep. rewrite set_cell_length. f_equal.
    destruct b as [z j1 j2 k1 k2 k3 k4 l1 n1]. destruct (sKind (seg_value (wHeap w) s)); cbn [h_put] in Ep; try (inversion Ep; reflexivity).
    all: destruct (slice_append spare (wHeap w) _ s) as [h2 sl] eqn:A; inversion Ep; subst; clear Ep; unfold slice_append in A.
    all: match type of A with match ?j with _ => _ end = _ => destruct j as [|a n] end;
      [inversion A; reflexivity|destruct (Nat.ltb _ _); inversion A; reflexivity].
  - exfalso. destruct (Nat.ltb _ _); [|discriminate]. unfold with_file in E. destruct (nth_error _ _); [|discriminate]. inversion E; subst.
    apply Same. reflexivity.
  - exfalso. destruct (Nat.ltb _ _); [|discriminate]. unfold with_file in E. destruct (nth_error _ _); [|discriminate]. inversion E; subst.
    apply Same. reflexivity.
  - left. unfold with_file in E. destruct (nth_error (wFiles w) i) as [f|] eqn:Ef; [|discriminate].
    pose proof (file_in_nth _ _ _ _ V Ef) as Fi. exists i.
    destruct (type_cases f t) as [T|(p & -> & Ep)].
    + destruct (set_type_same_spec (wHeap w) f t T) as [Es _]. rewrite Es in E. inversion E; subst. exfalso. apply Same. reflexivity.
    + destruct (set_type_spec (wHeap w) f p Fi Ep) as [Es _]. rewrite Es in E. inversion E; subst. cbn [wHeap hRecords wFiles] in *.
      eexists. split; [apply nth_error_upd_same; apply nth_error_Some; congruence|]. rewrite app_length in Hi. cbn [map length] in Hi.
      rewrite map_length, app_length in Hi. cbn [length] in Hi. unfold slots. cbn [hfHeader hfTrailer hfBases In]. rewrite in_seq. lia.
  - left. unfold with_file in E. destruct (nth_error (wFiles w) i) as [f|] eqn:Ef; [|discriminate].
    destruct (h_parse spare fuel (wHeap w) f input isVariableLength) as [[h' f']|] eqn:Ep; [|discriminate]. inversion E; subst; clear E.
    pose proof (file_in_nth _ _ _ _ V Ef) as Fi. pose proof V as (W & P & _ & D & _). pose proof (slots_of_one _ _ _ Ef D) as Ds.
    assert (hfHeader f <> hfTrailer f) as Ne by (inversion Ds as [|? ? A B]; intros Eq; apply A; left; congruence).
    destruct (parse_spec spare left fuel (wHeap w) f _ _ h' f' W P Fi Ne Ep) as [(_ & _ & _ & _ & _ & _ & _ & _ & _ & _ & _ & Nw) _].
    exists i, f'. split; [apply nth_error_upd_same; apply nth_error_Some; congruence|]. right. right. apply Nw; assumption.
  - right. unfold with_file in E. destruct (nth_error (wFiles w) i) as [f|] eqn:Ef; [|discriminate].
    pose proof (file_in_nth _ _ _ _ V Ef) as Fi. unfold h_generate in E.
    assert (file_ok (file_value (wHeap w) f)) as Ok.
    { destruct Fi as ([A0 A] & B & [C0 C]). unfold file_ok. cbn [file_value flPacked flHeader flBases flTrailer].
      split; [|split; [apply TR; exact A0|split; [|split; [|apply TR; exact C0]]]].
      - unfold is_header, record_value. destruct (cell (wHeap w) (hfHeader f)); inversion A; cbn; eauto.
      - apply Forall_forall. intros v I. apply in_map_iff in I as (x & <- & I). rewrite Forall_forall in B. destruct (B x I) as [Lx Sx].
        split; [|apply TR; exact Lx]. unfold is_base, record_value. destruct (cell (wHeap w) x); inversion Sx; cbn; eauto.
      - unfold is_trailer, record_value. destruct (cell (wHeap w) (hfTrailer f)); inversion C; cbn; eauto. }
    destruct (generate_trailer_any _ Ok) as (t & Et & Tt). rewrite Et in E.
    rewrite (New (HTrailer (flPacked (file_value (wHeap w) f)) t)); [exact Tt|]. inversion E; reflexivity.
Qed.

Lemma replaced (h : heap) (g : record -> record) r l : NoDup l ->
  (~ In r l /\ map (fun x => if Nat.eqb x r then g (record_value h x) else record_value h x) l = map (record_value h) l)
  \/ exists k, nth_error l k = Some r /\
     map (fun x => if Nat.eqb x r then g (record_value h x) else record_value h x) l = replace_nth k (g (record_value h r)) (map (record_value h) l).
Proof.
  induction 1 as [|x l N D IH]; [left; split; [intros []|reflexivity]|]. destruct (Nat.eq_dec x r) as [->|Ne].
  - right. exists 0. split; [reflexivity|]. cbn. rewrite Nat.eqb_refl. f_equal. apply map_ext_in. intros y I.
    destruct (Nat.eqb_spec y r) as [->|]; [contradiction|reflexivity].
  - pose proof Ne as Nb. apply Nat.eqb_neq in Nb. destruct IH as [[A B]|(k & A & B)].
    + left. split; [intros [I|I]; auto|]. cbn. rewrite Nb, B. reflexivity.
    + right. exists (S k). split; [exact A|]. cbn. rewrite Nb, B. reflexivity.
Qed.

Lemma Forall2_map_eq {A B} (g : A -> B) l m : Forall2 (fun x y => y = g x) l m -> m = map g l.
Proof. induction 1; cbn; congruence. Qed.

Lemma file_eq (u v : file) : flPacked u = flPacked v -> flHeader u = flHeader v -> flBases u = flBases v -> flTrailer u = flTrailer v -> u = v.
Proof. destruct u, v. cbn. intros; subst. reflexivity. Qed.

(* one call, one file *)
Lemma careful_file fuel w left c w' i f v : inv w left -> typed_heap (wHeap w) -> written_ok w c ->
  h_step spare fuel w c = Some w' -> nth_error (wFiles w) i = Some f -> file_effect fuel w c i f v ->
  reachable (file_value (wHeap w) f) -> reachable v.
Proof.
  intros V [TS TR] Wo E Ef X R. pose proof (file_in_nth _ _ _ _ V Ef) as Fi.
  pose proof V as (W & P & _ & D & _). pose proof (slots_of_one _ _ _ Ef D) as Ds.
  assert (forall r, In r (slots f) -> in_files w r) as Inf by (intros r I; exists f; split; [eapply nth_error_In; eauto|exact I]).
  assert (match c with HWriteRecord _ _ | HWriteSegment _ _ => True | _ => False end -> v = file_value (wHeap w) f) as Unw.
  { intros Hc. assert (forall r u, In r (slots f) -> record_effect w c r u -> u = record_value (wHeap w) r) as K.
    { intros r u I Y. destruct c; try contradiction; cbn [record_effect written_ok] in *.
      - destruct Wo as [_ Nf]. destruct (Nat.eqb_spec r r0) as [->|]; [|exact Y]. exfalso. apply Nf. apply Inf. exact I.
      - destruct Wo as [_ Nf]. eapply written_segment_elsewhere; [apply Nf, Inf; exact I|exact Y]. }
    assert (flPacked v = flPacked (file_value (wHeap w) f) /\ record_effect w c (hfHeader f) (flHeader v)
      /\ Forall2 (record_effect w c) (hfBases f) (flBases v) /\ record_effect w c (hfTrailer f) (flTrailer v)) as (A & B & C & F).
    { destruct c; try contradiction; exact X. }
    apply file_eq; [exact A|apply K; [left; reflexivity|exact B]| |apply K; [right; left; reflexivity|exact F]].
    cbn [flBases file_value]. apply Forall2_map_eq. assert (forall r, In r (hfBases f) -> In r (slots f)) as Is by (intros r I; right; right; exact I).
    clear -C K Is. induction C as [|x y l m Y C IH]; constructor; [apply K; [apply Is; left; reflexivity|exact Y]|].
    apply IH. intros r I. apply Is. right. exact I. }
  destruct c; cbn [h_step] in E.
  - cbn in X. subst v. exact R.
  - cbn in X. subst v. exact R.
  - cbn in X. subst v. exact R.
  - cbn in X. subst v. exact R.
  - cbn in X. subst v. exact R.
  - rewrite Unw by exact I. exact R.
  - rewrite Unw by exact I. exact R.
  - destruct (Nat.ltb_spec r (length (hRecords (wHeap w)))) as [Lr|]; [|discriminate].
    destruct (Nat.ltb_spec s (length (hSegments (wHeap w)))) as [Ls|]; [|discriminate]. clear E.
    destruct X as (A & B & C & F). cbn [record_effect] in *. set (h := wHeap w) in *.
    set (g := fun u => fst (record_add_segment (seg_value h s) u)).
    assert (flHeader v = record_value h (hfHeader f)) as Eh.
    { rewrite B. destruct (Nat.eqb (hfHeader f) r); [|reflexivity]. destruct Fi as ([_ S0] & _). unfold record_value.
      destruct (cell h (hfHeader f)); inversion S0. reflexivity. }
    assert (flTrailer v = record_value h (hfTrailer f)) as Et.
    { rewrite F. destruct (Nat.eqb (hfTrailer f) r); [|reflexivity]. destruct Fi as (_ & _ & [_ S0]). unfold record_value.
      destruct (cell h (hfTrailer f)); inversion S0. reflexivity. }
    assert (flBases v = map (fun x => if Nat.eqb x r then g (record_value h x) else record_value h x) (hfBases f)) as C' by (apply Forall2_map_eq; exact C).
    assert (NoDup (hfBases f)) as Db by (unfold slots in Ds; inversion Ds as [|? ? _ Q]; inversion Q; assumption).
    destruct (replaced h g r (hfBases f) Db) as [[_ Q]|(k & Ek & Q)]; rewrite Q in C'.
    + replace v with (file_value h f); [exact R|]. apply file_eq; auto.
    + apply (reach_call (file_value h f) (CallAddSegment k (seg_value h s))); [exact R|exact (TS s Ls)|].
      replace v with (set_bases (file_value h f) (replace_nth k (fst (record_add_segment (seg_value h s) (record_value h r))) (flBases (file_value h f)))).
      * constructor. cbn [flBases file_value]. exact (map_nth_error (record_value h) _ _ Ek).
      * apply file_eq; auto.
  - destruct (Nat.ltb_spec r (length (hRecords (wHeap w)))) as [Lr|]; [|discriminate]. cbn [file_effect] in X.
    destruct (Nat.eqb i0 i); subst v; [|exact R]. apply (reach_call _ (CallSetRecord (record_value (wHeap w) r)) _ R); [exact (TR r Lr)|constructor].
  - destruct (Nat.ltb_spec r (length (hRecords (wHeap w)))) as [Lr|]; [|discriminate]. cbn [file_effect] in X.
    destruct (Nat.eqb i0 i); subst v; [|exact R]. apply (reach_call _ (CallAddDataRecord (record_value (wHeap w) r)) _ R); [exact (TR r Lr)|constructor].
  - cbn [file_effect] in X. destruct (Nat.eqb i0 i); subst v; [|exact R]. apply (reach_call _ (CallSetType t) _ R); [exact I|constructor].
  - cbn [file_effect] in X. destruct (Nat.eqb i0 i); [|subst v; exact R]. destruct X as [x X].
    apply (reach_call _ (CallParse input isVariableLength) _ R); [exact I|]. econstructor. exact X.
  - cbn in X. subst v. exact R.
Qed.

Lemma new_file_reachable p : reachable (new_file_p p).
Proof. apply (reach_new (type_name p)). destruct p; reflexivity. Qed.

(* the segments there are not before a call *)
Lemma new_segments fuel w left c w' s : inv w left -> written_ok w c -> h_step spare fuel w c = Some w' ->
  length (hSegments (wHeap w)) <= s -> s < length (hSegments (wHeap w')) -> seg_typed (seg_value (wHeap w') s).
Proof.
  intros V Wo E Lo Hi. assert (length (hSegments (wHeap w')) = length (hSegments (wHeap w)) -> False) as Same by lia.
  destruct c; cbn [h_step] in E.
  - exfalso. inversion E; subst. apply Same. reflexivity.
  - exfalso. inversion E; subst. apply Same. reflexivity.
  - exfalso. inversion E; subst. apply Same. reflexivity.
  - exfalso. inversion E; subst. apply Same. reflexivity.
  - inversion E; subst; clear E. cbn in Hi |- *. rewrite app_length in Hi. cbn in Hi. assert (s = length (hSegments (wHeap w))) as -> by lia.
    unfold seg_value. cbn [hSegments]. rewrite app_nth2, Nat.sub_diag by lia. exact Wo.
  - exfalso. destruct (Nat.ltb _ _); [|discriminate]. inversion E; subst. apply Same. reflexivity.
  - exfalso. destruct (Nat.ltb _ _); [|discriminate]. inversion E; subst. apply Same. apply upd_length.
  - exfalso. destruct (Nat.ltb _ _); [|discriminate]. destruct (Nat.ltb _ _); [|discriminate]. inversion E; subst. apply Same. clear.
    cbn [wHeap]. unfold h_add_segment. destruct (cell (wHeap w) r) as [?|p b|?]; try reflexivity. destruct (seg_validate _); [reflexivity|].
    destruct (h_put _ _ _ _ _) as [h1 b'] eqn:Ep. cbn [set_cell hSegments]. f_equal.
    destruct b as [z j1 j2 k1 k2 k3 k4 l1 n1]. destruct (sKind (seg_value (wHeap w) s0)); cbn [h_put] in Ep; try (inversion Ep; reflexivity).
    all: destruct (slice_append spare (wHeap w) _ s0) as [h2 sl] eqn:A; inversion Ep; subst; clear Ep; unfold slice_append in A.
    all: match type of A with match ?j with _ => _ end = _ => destruct j as [|a n] end;
      [inversion A; reflexivity|destruct (Nat.ltb _ _); inversion A; reflexivity].
  - exfalso. destruct (Nat.ltb _ _); [|discriminate]. unfold with_file in E. destruct (nth_error _ _); [|discriminate]. inversion E; subst.
    apply Same. reflexivity.
  - exfalso. destruct (Nat.ltb _ _); [|discriminate]. unfold with_file in E. destruct (nth_error _ _); [|discriminate]. inversion E; subst.
    apply Same. reflexivity.
  - exfalso. unfold with_file in E. destruct (nth_error (wFiles w) i) as [f|] eqn:Ef; [|discriminate].
    pose proof (file_in_nth _ _ _ _ V Ef) as Fi. destruct (type_cases f t) as [T|(p & -> & Ep)].
    + destruct (set_type_same_spec (wHeap w) f t T) as [Es _]. rewrite Es in E. inversion E; subst. apply Same. reflexivity.
    + destruct (set_type_spec (wHeap w) f p Fi Ep) as [Es _]. rewrite Es in E. inversion E; subst. apply Same. reflexivity.
  - unfold with_file in E. destruct (nth_error (wFiles w) i) as [f|] eqn:Ef; [|discriminate].
    destruct (h_parse spare fuel (wHeap w) f input isVariableLength) as [[h' f']|] eqn:Ep; [|discriminate]. inversion E; subst; clear E.
    pose proof (file_in_nth _ _ _ _ V Ef) as Fi. pose proof V as (W & P & _ & D & _). pose proof (slots_of_one _ _ _ Ef D) as Ds.
    assert (hfHeader f <> hfTrailer f) as Ne by (inversion Ds as [|? ? A B]; intros Eq; apply A; left; congruence).
    destruct (parse_spec spare left fuel (wHeap w) f _ _ h' f' W P Fi Ne Ep) as [(_ & _ & _ & (sg & Sg & T) & _) _].
    cbn [wHeap] in *. unfold seg_value. rewrite Sg in *. rewrite app_length in Hi. rewrite app_nth2 by exact Lo.
    rewrite Forall_forall in T. apply T. apply nth_In. lia.
  - exfalso. unfold with_file in E. destruct (nth_error (wFiles w) i) as [f|] eqn:Ef; [|discriminate]. unfold h_generate in E.
    destruct (file_generate_trailer _) as [[]| |]; try discriminate. inversion E; subst. apply Same. reflexivity.
Qed.

Lemma careful_is_state w left : careful_state spare w left -> state spare w left.
Proof. induction 1; econstructor; eassumption. Qed.

Lemma careful_facts w left : careful_state spare w left ->
  typed_heap (wHeap w) /\ forall i f, nth_error (wFiles w) i = Some f -> reachable (file_value (wHeap w) f).
Proof.
  induction 1 as [|w left fuel c w' S [T R] K Wo E].
  - split; [split; intros; cbn in *; lia|]. intros i f E. destruct i; discriminate.
  - apply careful_is_state in S. pose proof (state_inv spare w left S) as V.
    pose proof (state_fine spare fuel w left c w' S K E) as (V' & Ln & Se & Re & Fe).
    assert (forall i f, nth_error (wFiles w') i = Some f -> reachable (file_value (wHeap w') f)) as R'.
    { intros i f' Ei. destruct (new_files fuel w c w' i f' E Ei) as [[f Ef]|[p ->]]; [|apply new_file_reachable].
      destruct (Fe i f Ef) as (f2 & E2 & X). replace f2 with f' in X by congruence.
      eapply (careful_file fuel w left c w' i f); eauto. }
    split; [|exact R']. pose proof T as [TS TR]. split.
    + intros s Hi. destruct (Nat.lt_ge_cases s (length (hSegments (wHeap w)))) as [L|L]; [|exact (new_segments fuel w left c w' s V Wo E L Hi)].
      specialize (Se s L). destruct c; cbn [segment_effect] in Se; try (rewrite Se; exact (TS s L)).
      rewrite Se. destruct (Nat.eqb s s0) eqn:Q; [|exact (TS s L)]. apply Nat.eqb_eq in Q. rewrite Q. apply Wo.
    + intros r Hi. destruct (Nat.lt_ge_cases r (length (hRecords (wHeap w)))) as [L|L].
      * specialize (Re r L). specialize (TR r L). destruct c; cbn [record_effect] in Re; try (rewrite Re; exact TR).
        -- rewrite Re. destruct (Nat.eqb r r0) eqn:Q; [|exact TR]. apply Nat.eqb_eq in Q. subst r0. destruct Wo as [Wo _]. destruct (record_value (wHeap w) r) as [p z|p b|p z]; try exact Wo.
           cbn [fields_written record_ok] in *. apply base_ok_iff in TR as [_ Ts]. apply base_ok_iff. split; [exact Wo|].
           intros k. specialize (Ts k). destruct k; exact Ts.
        -- cbn [h_step] in E. destruct (Nat.ltb_spec s (length (hSegments (wHeap w)))) as [Ls|]; [|discriminate].
           eapply written_segment_ok; [exact (TS s Ls)|apply Wo|exact TR|exact Re].
        -- cbn [h_step] in E. destruct (Nat.ltb_spec r0 (length (hRecords (wHeap w)))) as [_|]; [|discriminate].
           destruct (Nat.ltb_spec s (length (hSegments (wHeap w)))) as [Ls|]; [|discriminate].
           rewrite Re. destruct (Nat.eqb r r0) eqn:Q; [|exact TR]. apply Nat.eqb_eq in Q. subst r0. apply add_segment_record_ok; [exact (TS s Ls)|exact TR].
        -- cbn [h_step] in E. unfold with_file in E. destruct (nth_error (wFiles w) i) as [f|] eqn:Ef; [|discriminate].
           destruct (Nat.eq_dec r (hfHeader f)) as [->|N1]; [|destruct (Nat.eq_dec r (hfTrailer f)) as [->|N2]].
           ++ destruct (h_parse spare fuel (wHeap w) f input isVariableLength) as [[h' f']|] eqn:Ep; [|discriminate]. inversion E; subst; clear E.
              pose proof (file_in_nth _ _ _ _ V Ef) as Fi. pose proof V as (W & P & _ & D & _). pose proof (slots_of_one _ _ _ Ef D) as Ds.
              assert (hfHeader f <> hfTrailer f) as Ne by (inversion Ds as [|? ? A B]; intros Eq; apply A; left; congruence).
              destruct (parse_spec spare left fuel (wHeap w) f _ _ h' f' W P Fi Ne Ep) as [(_ & _ & _ & _ & _ & Eh & Et & _) _].
              assert (nth_error (upd i f' (wFiles w)) i = Some f') as Ei by (apply nth_error_upd_same; apply nth_error_Some; congruence).
              pose proof (reachable_ok _ (R' i f' Ei)) as (_ & O & _). cbn [flHeader file_value] in O. rewrite Eh in O. exact O.
           ++ destruct (h_parse spare fuel (wHeap w) f input isVariableLength) as [[h' f']|] eqn:Ep; [|discriminate]. inversion E; subst; clear E.
              pose proof (file_in_nth _ _ _ _ V Ef) as Fi. pose proof V as (W & P & _ & D & _). pose proof (slots_of_one _ _ _ Ef D) as Ds.
              assert (hfHeader f <> hfTrailer f) as Ne by (inversion Ds as [|? ? A B]; intros Eq; apply A; left; congruence).
              destruct (parse_spec spare left fuel (wHeap w) f _ _ h' f' W P Fi Ne Ep) as [(_ & _ & _ & _ & _ & Eh & Et & _) _].
              assert (nth_error (upd i f' (wFiles w)) i = Some f') as Ei by (apply nth_error_upd_same; apply nth_error_Some; congruence).
              pose proof (reachable_ok _ (R' i f' Ei)) as (_ & _ & _ & _ & O). cbn [flTrailer file_value] in O. rewrite Et in O. exact O.
           ++ rewrite Re; [exact TR|]. intros g Eg. replace g with f by congruence. auto.
      * destruct (new_records fuel w left c w' r V T E L Hi) as [(i & f & Ei & I)|O]; [|exact O].
        pose proof (reachable_ok _ (R' i f Ei)) as (_ & O1 & O2 & _ & O3). cbn [flHeader flBases flTrailer file_value] in *.
        destruct I as [<-|[<-|I]]; [exact O1|exact O3|]. rewrite Forall_forall in O2. apply O2. apply in_map. exact I.
Qed.

End Spare.

Lemma careful_files spare w left i f : careful_state spare w left -> nth_error (wFiles w) i = Some f ->
  reachable (file_value (wHeap w) f).
Proof. intros S. apply (careful_facts spare w left S). Qed.
