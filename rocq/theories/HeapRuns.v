(* The states of considerate programs *)
From Coq Require Import ZArith NArith Bool Ascii String List Lia.
Import ListNotations.
From Verif Require Import GoBase GoBaseFacts GoTime Tables Codec Records File
  SpecCodec SpecLayouts SpecRecords SpecFile SpecValidate SpecCounters SpecApi Heap SpecHeap
  ParseFacts AgreeFacts ApiFacts HeapFacts HeapSteps HeapCalls.
Local Open Scope string_scope.
Local Open Scope nat_scope.
Local Open Scope list_scope.
Local Notation length := List.length.

Lemma inv_heap w left h' : inv w left -> wf h' -> apart left h' -> kept (wHeap w) h' -> inv (mkWorld h' (wFiles w)) left.
Proof.
  intros (W & P & F & D & N & L) W' P' K. unfold inv. cbn [wHeap wFiles].
  split; [exact W'|]. split; [exact P'|]. split; [apply (kept_files (wHeap w)); assumption|].
  split; [exact D|]. split; [exact N|]. revert L. apply Forall_impl. intros r L. apply (K r L).
Qed.

Lemma file_value_ext h h' f : (forall r, In r (slots f) -> record_value h' r = record_value h r) -> file_value h' f = file_value h f.
Proof.
  intros E. unfold file_value. rewrite (E (hfHeader f)), (E (hfTrailer f)) by (cbn; auto). f_equal.
  apply map_ext_in. intros r I. apply E. cbn. auto.
Qed.

(* one more record *)
Lemma inv_new w left c : inv w left -> wf_cell (wHeap w) c -> parts c = [] ->
  let h' := fst (new_record_at (wHeap w) c) in
  inv (mkWorld h' (wFiles w)) left /\ grown (wHeap w) h'.
Proof.
  intros V Wc Pc h'. assert (grown (wHeap w) h') as G by apply grown_new_record. split; [|exact G].
  pose proof V as (W & P & _). apply inv_heap; [exact V| | |].
  - apply wf_new_record; assumption.
  - apply (apart_fresh left (wHeap w) h' c); auto; rewrite Pc; [constructor|contradiction].
  - apply kept_grown. exact G.
Qed.

Lemma set_record_spec h f r : file_value h (h_set_record h f r) = fst (file_set_record (file_value h f) (record_value h r))
  /\ (h_set_record h f r = f
      \/ (h_set_record h f r = mkHFile (hfPacked f) r (hfBases f) (hfTrailer f) /\ shape (cell h r) = (0, hfPacked f))
      \/ (h_set_record h f r = mkHFile (hfPacked f) (hfHeader f) (hfBases f) r /\ shape (cell h r) = (2, hfPacked f))).
Proof.
  unfold h_set_record, file_set_record. destruct (record_validate (record_value h r)); [split; auto|].
  cbn [flPacked file_value]. unfold record_value. destruct (hfPacked f) eqn:Ep, (cell h r) as [[] st|[] b|[] st] eqn:C;
    cbn; unfold file_value, set_header, set_trailer; cbn; rewrite ?Ep; (split; [|tauto]); try reflexivity;
    unfold record_value; rewrite ?C; reflexivity.
Qed.

Lemma add_data_record_spec h f r :
  file_value h (h_add_data_record h f r) = fst (file_add_data_record (file_value h f) (record_value h r))
  /\ (h_add_data_record h f r = f
      \/ (h_add_data_record h f r = mkHFile (hfPacked f) (hfHeader f) (hfBases f ++ [r]) (hfTrailer f)
          /\ shape (cell h r) = (1, hfPacked f))).
Proof.
  unfold h_add_data_record, file_add_data_record. destruct (record_validate (record_value h r)); [split; auto|].
  cbn [flPacked file_value]. unfold record_value. destruct (hfPacked f) eqn:Ep, (cell h r) as [[] st|[] b|[] st] eqn:C;
    cbn; unfold file_value, set_bases; cbn; rewrite ?Ep; (split; [|tauto]); try reflexivity;
    rewrite map_app; cbn; unfold record_value; rewrite ?C; reflexivity.
Qed.

Lemma NoDup_snoc {A} (l : list A) x : NoDup l -> ~ In x l -> NoDup (l ++ [x]).
Proof.
  intros D N. induction D as [|y l Ny D IH]; [repeat constructor; auto|]. cbn. constructor.
  - intros I. apply in_app_or in I as [I|[I|[]]]; [auto|]. subst. apply N. left. reflexivity.
  - apply IH. intros I. apply N. right. exact I.
Qed.

(* ---- Parse ---- *)

Lemma write_header h r p st p' st' : r < length (hRecords h) -> cell h r = HHeader p st ->
  wf h -> forall left, apart left h -> p' = p ->
  let h' := write_back h r (RHeader p' st') in
  wf h' /\ apart left h' /\ kept h h' /\ length (hRecords h') = length (hRecords h) /\ hSegments h' = hSegments h
  /\ forall x, record_value h' x = if Nat.eqb x r then RHeader p' st' else record_value h x.
Proof.
  intros L C W left P -> h'. unfold h'. cbn [write_back].
  split; [apply wf_set; auto; exact I|]. split; [apply apart_set; auto; rewrite C; reflexivity|].
  split; [apply kept_set; auto; rewrite C; reflexivity|]. split; [apply set_cell_length|]. split; [reflexivity|].
  intros x. rewrite value_set by exact L. reflexivity.
Qed.

Lemma write_trailer h r p st p' st' : r < length (hRecords h) -> cell h r = HTrailer p st ->
  wf h -> forall left, apart left h -> p' = p ->
  let h' := write_back h r (RTrailer p' st') in
  wf h' /\ apart left h' /\ kept h h' /\ length (hRecords h') = length (hRecords h) /\ hSegments h' = hSegments h
  /\ forall x, record_value h' x = if Nat.eqb x r then RTrailer p' st' else record_value h x.
Proof.
  intros L C W left P -> h'. unfold h'. cbn [write_back].
  split; [apply wf_set; auto; exact I|]. split; [apply apart_set; auto; rewrite C; reflexivity|].
  split; [apply kept_set; auto; rewrite C; reflexivity|]. split; [apply set_cell_length|]. split; [reflexivity|].
  intros x. rewrite value_set by exact L. reflexivity.
Qed.

Section Spare.
Variable spare : nat -> nat.

(* what Parse does: the header and the trailer are written, new records are made *)
Definition parsed_heap (left : list nat) (h h' : heap) (f f' : hfile) : Prop :=
  wf h' /\ apart left h' /\ kept h h' /\ (exists l, hSegments h' = hSegments h ++ l /\ Forall seg_typed l)
  /\ hfPacked f' = hfPacked f /\ hfHeader f' = hfHeader f /\ hfTrailer f' = hfTrailer f
  /\ (forall x, x < length (hRecords h) -> x <> hfHeader f -> x <> hfTrailer f -> record_value h' x = record_value h x)
  /\ NoDup (hfBases f') /\ Forall (fun r => length (hRecords h) <= r) (hfBases f')
  /\ Forall (at_shape h' (1, hfPacked f)) (hfBases f')
  /\ forall r, length (hRecords h) <= r -> r < length (hRecords h') -> In r (hfBases f').

Lemma parse_spec left fuel h f input iv h' f' : wf h -> apart left h -> file_in h f -> hfHeader f <> hfTrailer f ->
  h_parse spare fuel h f input iv = Some (h', f') ->
  parsed_heap left h h' f f' /\ exists x, file_parse fuel (file_value h f) input iv = Some (file_value h' f', x).
Proof.
  intros W P ([L0 S0] & FB & [L2 S2]) Ne E. unfold h_parse in E.
  destruct (cell h (hfHeader f)) as [q0 st0|q0 b0|q0 st0] eqn:C0; inversion S0; subst q0.
  destruct (cell h (hfTrailer f)) as [q2 st2|q2 b2|q2 st2] eqn:C2; inversion S2; subst q2.
  assert (record_value h (hfHeader f) = RHeader (hfPacked f) st0) as V0 by (unfold record_value; rewrite C0; reflexivity).
  assert (record_value h (hfTrailer f) = RTrailer (hfPacked f) st2) as V2 by (unfold record_value; rewrite C2; reflexivity).
  unfold file_parse. cbn [set_bases flHeader flTrailer flPacked file_value].
  rewrite V0 in E |- *. set (record := strip input) in *.
  destruct (record_parse (RHeader (hfPacked f) st0) record iv) as [v x] eqn:R.
  destruct (record_parse_header _ _ _ _ _ _ R) as [st' ->].
  pose proof (write_header h (hfHeader f) _ _ (hfPacked f) st' L0 C0 W left P eq_refl) as (W1 & P1 & K1 & L1 & G1 & Y1).
  set (h1 := write_back h (hfHeader f) (RHeader (hfPacked f) st')) in *.
  assert (forall f1, hfPacked f1 = hfPacked f -> hfHeader f1 = hfHeader f -> hfTrailer f1 = hfTrailer f -> hfBases f1 = [] ->
    parsed_heap left h h1 f f1) as Q1.
  { intros f1 A B C D. unfold parsed_heap. rewrite D. repeat (split; [assumption|]). split; [exists []; rewrite app_nil_r; split; [assumption|constructor]|].
    repeat (split; [assumption|]). split; [|repeat (split; [constructor|]); intros r A' B'; lia].
    intros y Ly Ny _. rewrite Y1. apply Nat.eqb_neq in Ny. rewrite Ny. reflexivity. }
  assert (record_value h1 (hfTrailer f) = RTrailer (hfPacked f) st2) as V2'.
  { rewrite Y1. destruct (Nat.eqb_spec (hfTrailer f) (hfHeader f)); [congruence|exact V2]. }
  assert (record_value h1 (hfHeader f) = RHeader (hfPacked f) st') as V0' by (rewrite Y1, Nat.eqb_refl; reflexivity).
  destruct x as [head|e|].
  2,3: inversion E; subst h' f'; (split; [apply Q1; reflexivity|]); eexists; unfold file_value; cbn [hfPacked hfHeader hfBases hfTrailer map];
    rewrite V0', V2', V2; reflexivity.
  pose proof (parse_loop_ok (hfPacked f) record iv fuel head [] (Forall_nil _)) as PL.
  cbn [set_header flPacked flHeader flBases flTrailer set_bases].
  destruct (parse_loop fuel (hfPacked f) record iv head []) as [bs off|bs e| |]; [| |contradiction|discriminate].
  1,2: destruct (store_records spare h1 bs) as [h2 refs] eqn:St;
    pose proof (store_records_spec spare left bs _ _ _ W1 P1 St) as (G2 & W2 & P2 & Vb & Er & L3 & sg & Sg0 & Tg).
  all: assert (forall y, y < length (hRecords h) -> record_value h2 y = record_value h1 y) as Y2
    by (intros y Ly; apply grown_record; auto; lia).
  all: assert (Forall (at_shape h2 (1, hfPacked f)) refs) as Fr.
  1,3: apply Forall_forall; intros r Ir; split; [rewrite L3; rewrite Er in Ir; apply in_seq in Ir; lia|];
    assert (In (record_value h2 r) bs) as Iv by (rewrite <- Vb; apply in_map; exact Ir);
    rewrite Forall_forall in PL; destruct (PL _ Iv) as [[b Eb] _]; unfold record_value in Eb;
    destruct (cell h2 r); inversion Eb; reflexivity.
  all: assert (NoDup refs) as Dr by (rewrite Er; apply seq_NoDup).
  all: assert (Forall (fun r => length (hRecords h) <= r) refs) as Lr
    by (apply Forall_forall; intros r Ir; rewrite Er in Ir; apply in_seq in Ir; lia).
  all: assert (kept h h2) as K2 by (eapply kept_trans; [exact K1|apply kept_grown; exact G2]).
  all: assert (exists l, hSegments h2 = hSegments h ++ l /\ Forall seg_typed l) as Sg
    by (exists sg; split; [rewrite Sg0, G1; reflexivity|apply Tg; revert PL; apply Forall_impl; tauto]).
  all: assert (parsed_heap left h h2 f (mkHFile (hfPacked f) (hfHeader f) refs (hfTrailer f))) as Q2.
  1,3: unfold parsed_heap; cbn [hfPacked hfHeader hfBases hfTrailer]; repeat (split; [assumption || reflexivity|]);
    split; [|repeat (split; [assumption|]); intros r A' B'; rewrite Er; apply in_seq; lia];
    intros y Ly Ny _; rewrite Y2 by exact Ly; rewrite Y1; apply Nat.eqb_neq in Ny; rewrite Ny; reflexivity.
  - destruct (_ || _)%bool.
    { inversion E; subst h' f'. split; [exact Q2|]. eexists. unfold file_value. cbn [hfPacked hfHeader hfBases hfTrailer].
      rewrite Vb, !Y2, V0', V2', V2 by assumption. reflexivity. }
    rewrite Y2, V2' in E by assumption. cbn [set_header set_bases flPacked flHeader flBases flTrailer]. change (flTrailer (file_value h f)) with (record_value h (hfTrailer f)). rewrite V2.
    destruct (record_parse (RTrailer (hfPacked f) st2) (skipn (Z.to_nat off) record) iv) as [t x] eqn:Rt.
    destruct (record_parse_trailer _ _ _ _ _ _ Rt) as [st3 ->].
    inversion E; subst h' f'; clear E.
    change (set_cell h2 (hfTrailer f) (HTrailer (hfPacked f) st3)) with (write_back h2 (hfTrailer f) (RTrailer (hfPacked f) st3)).
    assert (cell h2 (hfTrailer f) = HTrailer (hfPacked f) st2) as C2'.
    { pose proof (Y2 _ L2) as Y. rewrite V2' in Y. unfold record_value in Y. destruct (cell h2 (hfTrailer f)); inversion Y; reflexivity. }
    assert (hfTrailer f < length (hRecords h2)) as L2' by (apply K2; exact L2).
    pose proof (write_trailer h2 (hfTrailer f) _ _ (hfPacked f) st3 L2' C2' W2 left P2 eq_refl) as (W3 & P3 & K3 & L4 & G3 & Y3).
    set (h3 := write_back h2 (hfTrailer f) (RTrailer (hfPacked f) st3)) in *.
    assert (file_value h3 (mkHFile (hfPacked f) (hfHeader f) refs (hfTrailer f)) =
            mkFile (hfPacked f) (RHeader (hfPacked f) st') bs (RTrailer (hfPacked f) st3)) as Fv.
    { unfold file_value. cbn [hfPacked hfHeader hfBases hfTrailer]. rewrite (Y3 (hfTrailer f)), Nat.eqb_refl, (Y3 (hfHeader f)).
      assert (Nat.eqb (hfHeader f) (hfTrailer f) = false) as -> by (apply Nat.eqb_neq; exact Ne). rewrite Y2, V0' by assumption.
      f_equal. rewrite <- Vb. apply map_ext_in. intros r Ir. rewrite Y3. destruct (Nat.eqb_spec r (hfTrailer f)) as [->|]; [|reflexivity].
      exfalso. rewrite Forall_forall in Lr. apply Lr in Ir. lia. }
    split.
    + destruct Q2 as (_ & _ & _ & _ & A1 & A2 & A3 & A4 & A5 & A6 & A7 & A8).
      split; [exact W3|]. split; [exact P3|]. split; [eapply kept_trans; eassumption|]. split; [rewrite G3; exact Sg|].
      repeat (split; [assumption|]). split; [|split; [exact A5|split; [exact A6|split]]].
      * intros y Ly Ny Ny'. rewrite Y3. apply Nat.eqb_neq in Ny'. rewrite Ny'. apply Nat.eqb_neq in Ny'. apply A4; assumption.
      * revert A7. apply Forall_impl. intros r. apply kept_at. exact K3.
      * intros r A B. apply A8; [exact A|]. rewrite <- L4. exact B.
    + rewrite Fv. destruct x as [n|e|]; [destruct (_ =? _)%Z|..]; eexists; reflexivity.
  - inversion E; subst h' f'. split; [exact Q2|]. eexists. unfold file_value. cbn [hfPacked hfHeader hfBases hfTrailer].
    rewrite Vb, !Y2, V0', V2', V2 by assumption. reflexivity.
Qed.

End Spare.
