(* What a generated trailer depends on, and how long File.Parse can run *)
From Coq Require Import ZArith NArith Bool Ascii String List Lia Permutation.
Import ListNotations.
From Verif Require Import GoBase GoBaseFacts GoTime Tables Codec Records File
  SpecCodec SpecLayouts SpecRecords SpecFile SpecValidate SpecCounters SpecApi
  TimeFacts FieldFacts RecordFacts RoundTrip FieldProps ValidateFacts CounterFacts CounterProps ApiFacts.
Local Open Scope string_scope.
Local Open Scope Z_scope.
Local Open Scope list_scope.
Local Notation length := List.length.

(* ---- the order of the data records ---- *)

Lemma set_field_commute n m v w st : n <> m ->
  set_field n v (set_field m w st) = set_field m w (set_field n v st).
Proof.
  intros N. induction st as [|[k x] st IH]; [reflexivity|]. cbn [set_field].
  destruct (String.eqb_spec m k) as [->|Nm], (String.eqb_spec n k) as [->|Nn]; try congruence; cbn [set_field];
    rewrite ?(proj2 (String.eqb_neq _ _) Nm), ?(proj2 (String.eqb_neq _ _) Nn), ?String.eqb_refl, ?IH; reflexivity.
Qed.

Lemma get_int_other n m v st : n <> m -> get_int n (set_field m v st) = get_int n st.
Proof. intros N. unfold get_int. rewrite lookup_set_field. rewrite (proj2 (String.eqb_neq _ _) N). reflexivity. Qed.

Lemma incr_commute st n m : incr (incr st n) m = incr (incr st m) n.
Proof.
  destruct (String.eqb_spec n m) as [->|N]; [reflexivity|]. unfold incr.
  rewrite !get_int_other by congruence. apply set_field_commute. congruence.
Qed.

Lemma incr_past l : forall st n, fold_left incr l (incr st n) = incr (fold_left incr l st) n.
Proof. induction l as [|m l IH]; intros st n; [reflexivity|]. cbn [fold_left]. rewrite <- IH, incr_commute. reflexivity. Qed.

Lemma incr_lists a : forall b st, fold_left incr a (fold_left incr b st) = fold_left incr b (fold_left incr a st).
Proof. induction a as [|n a IH]; intros b st; [reflexivity|]. cbn [fold_left]. rewrite <- incr_past. apply IH. Qed.

Lemma step_commute p acc r r' : step p (step p acc r) r' = step p (step p acc r') r.
Proof.
  destruct acc as [st|e|]; [|reflexivity|reflexivity].
  destruct r as [q h|q b|q t], r' as [q' h'|q' b'|q' t']; cbn [step];
    try (destruct (Bool.eqb q p) eqn:E; cbn [step]); try (destruct (Bool.eqb q' p) eqn:E'; cbn [step]);
    rewrite ?E, ?E'; try reflexivity.
  rewrite incr_lists. reflexivity.
Qed.

Lemma steps_permute p l l' : Permutation l l' -> forall acc, fold_left (step p) l acc = fold_left (step p) l' acc.
Proof.
  induction 1 as [|r l l' _ IH|r r' l|l l' l'' _ IH _ IH']; intros acc; cbn [fold_left].
  - reflexivity.
  - apply IH.
  - rewrite step_commute. reflexivity.
  - rewrite IH. apply IH'.
Qed.

Lemma information_permute p l l' : Permutation l l' -> generate_information p l = generate_information p l'.
Proof.
  intros P. unfold generate_information. rewrite (Permutation_length P). apply (steps_permute p l l' P).
Qed.

Lemma trailer_permute f f' : flPacked f = flPacked f' -> Permutation (flBases f) (flBases f') ->
  file_generate_trailer f = file_generate_trailer f'.
Proof.
  intros E P. unfold file_generate_trailer. rewrite E, (information_permute _ _ _ P). reflexivity.
Qed.

Lemma first_error_permute {A} (g : A -> option error) l l' : Permutation l l' ->
  first_error g l = None -> first_error g l' = None.
Proof. intros P. rewrite !first_error_none. apply Permutation_Forall. exact P. Qed.

Lemma validate_permute packed h t l l' : Permutation l l' ->
  file_validate (mkFile packed h l t) = Ok tt -> file_validate (mkFile packed h l' t) = Ok tt.
Proof.
  intros P. unfold file_validate. cbn [flHeader flTrailer flBases flPacked].
  destruct (record_validate h); [auto|]. destruct (record_validate t); [auto|].
  destruct (first_error record_validate l) eqn:E; [discriminate|].
  rewrite (first_error_permute _ _ _ P E), (information_permute _ _ _ P). auto.
Qed.

(* ---- data records of two files put together ---- *)

Lemma data_ok_app p l l' : data_ok p l -> data_ok p l' -> data_ok p (l ++ l').
Proof. intros A B. apply Forall_app. split; assumption. Qed.

Lemma trailer_append f f1 f2 : flPacked f1 = flPacked f -> flPacked f2 = flPacked f ->
  flBases f = flBases f1 ++ flBases f2 ->
  data_ok (flPacked f) (flBases f1) -> data_ok (flPacked f) (flBases f2) ->
  exists t t1 t2, file_generate_trailer f = Ok (RTrailer (flPacked f) t)
    /\ file_generate_trailer f1 = Ok (RTrailer (flPacked f) t1)
    /\ file_generate_trailer f2 = Ok (RTrailer (flPacked f) t2)
    /\ (forall n P a b, In (n, P) counters -> holds t1 n (VInt a) -> holds t2 n (VInt b) -> holds t n (VInt (a + b)))
    /\ (forall a b, holds t1 "BlockCount" (VInt a) -> holds t2 "BlockCount" (VInt b) ->
          holds t "BlockCount" (VInt (a + b - 2))).
Proof.
  intros E1 E2 E D1 D2.
  assert (data_ok (flPacked f) (flBases f)) as D by (rewrite E; apply data_ok_app; assumption).
  destruct (generated f D) as (t & Gt & Tt & Rt & _).
  rewrite <- E1 in D1. rewrite <- E2 in D2.
  destruct (generated f1 D1) as (t1 & G1 & T1 & R1 & _).
  destruct (generated f2 D2) as (t2 & G2 & T2 & R2 & _).
  rewrite E1 in G1. rewrite E2 in G2. exists t, t1, t2.
  split; [exact Gt|]. split; [exact G1|]. split; [exact G2|]. split.
  - intros n P a b I A B.
    pose proof (counter_value _ _ _ _ _ T1 R1 I A) as C1. pose proof (counter_value _ _ _ _ _ T2 R2 I B) as C2.
    destruct Rt as [Rt _]. destruct (Rt n P I) as (c & C & H).
    assert (c = a + b) as <-; [|exact H].
    apply (counted_unique _ _ _ _ C). rewrite E. unfold parts. rewrite flat_map_app. apply counted_app; assumption.
  - intros a b A B. destruct R1 as [_ B1]. destruct R2 as [_ B2]. destruct Rt as [_ Bt].
    assert (forall (u : fields) x y, has_type trailer_struct u -> holds u "BlockCount" (VInt x) -> holds u "BlockCount" (VInt y) -> x = y) as U.
    { intros u x y Tu X Y. apply (In_lookup _ _ _ (trailer_nodup _ Tu)) in X, Y. congruence. }
    rewrite (U _ _ _ T1 A B1), (U _ _ _ T2 B B2). rewrite E, app_length, Nat2Z.inj_add in Bt.
    replace (_ - 2) with (Z.of_nat (length (flBases f1)) + Z.of_nat (length (flBases f2)) + 2) by lia. exact Bt.
Qed.

(* ---- files of the other format ---- *)

(* a valid file of the packed format has no month with code Z *)
Lemma packed_no_new f : file_ok f -> file_times f -> flPacked f = true -> file_validate f = Ok tt -> no_new_accounts f.
Proof.
  intros O G P V. apply file_validate_spec in V as (_ & _ & V & _); [|exact O|exact G].
  destruct O as (_ & _ & Ob & _). rewrite P in Ob. unfold no_new_accounts.
  rewrite Forall_forall in *. intros r I. destruct (Ob r I) as [[b ->] _]. specialize (V _ I).
  destruct V as [_ (_ & _ & _ & _ & _ & _ & _ & R & _)]. intros s H Iz. destruct (R s H) as [_ F].
  rewrite Forall_forall in F. specialize (F _ Iz). cbn in F. intuition discriminate.
Qed.

Lemma no_new_same l l' : Forall2 same_record l l' ->
  Forall (fun r => match r with
    | RBase _ b => forall s, holds (bFields b) "PaymentHistoryProfile" (VStr s) -> ~ In "Z"%char s
    | _ => True end) l' ->
  Forall (fun r => match r with
    | RBase _ b => forall s, holds (bFields b) "PaymentHistoryProfile" (VStr s) -> ~ In "Z"%char s
    | _ => True end) l.
Proof.
  induction 1 as [|r r' l l' S _ IH]; intros F; [constructor|]. inversion F; subst. constructor; [|auto].
  destruct r, r'; cbn in S; try contradiction; subst; auto.
Qed.

Lemma set_type_valid_iff f p f' : file_ok f -> file_times f -> file_validate f = Ok tt ->
  file_set_type f (type_name p) = (f', None) ->
  (file_validate f' = Ok tt <-> (p = true -> no_new_accounts f)).
Proof.
  intros O G V E. split.
  - intros V' ->. destruct (set_type_same f true O) as (g & E' & P & S & O'). rewrite E in E'. injection E' as <-.
    destruct S as (S1 & S2 & S3). apply (no_new_same _ (flBases f')); [exact S2|].
    apply packed_no_new; auto. destruct G as (G1 & G2 & G3).
    split; [apply (same_times _ _ S1 G1)|]. split; [|apply (same_times _ _ S3 G3)].
    clear -S2 G2. induction S2; inversion G2; subst; constructor; auto. eapply same_times; eauto.
  - intros Z. apply (set_type_valid f p f' O G V); auto.
Qed.

(* ---- how long File.Parse runs ---- *)

(* the next offset of the loop *)
Definition next_offset (p : bool) (record : bytes) (iv : bool) (o : Z) : option Z :=
  if (o <=? 0) || (Z.of_nat (length record) <=? o) then None
  else match record_parse (new_data_record p) (skipn (Z.to_nat o) record) iv with
       | (_, Ok n) => Some (o + n)
       | _ => None
       end.

Fixpoint offsets (p : bool) (record : bytes) (iv : bool) (n : nat) (o : Z) : option Z :=
  match n with
  | O => Some o
  | S n' => match next_offset p record iv o with Some o' => offsets p record iv n' o' | None => None end
  end.

Lemma loop_offsets p record iv : forall n o acc,
  parse_loop n p record iv o acc = LFuel <-> offsets p record iv n o <> None.
Proof.
  induction n as [|n IH]; intros o acc; [split; [discriminate|reflexivity]|]. cbn [parse_loop offsets]. unfold next_offset.
  destruct (_ || _); [split; [discriminate|intros H; contradiction H; reflexivity]|].
  destruct (record_parse _ _ _) as [b [r|e|]]; [apply IH|..];
    (split; [discriminate|intros H; contradiction H; reflexivity]).
Qed.

Lemma offsets_add p record iv : forall n m o, offsets p record iv (n + m) o =
  match offsets p record iv n o with Some o' => offsets p record iv m o' | None => None end.
Proof.
  induction n as [|n IH]; intros m o; [reflexivity|]. cbn [Nat.add offsets].
  destruct (next_offset _ _ _ _); [apply IH|reflexivity].
Qed.

Lemma offsets_less p record iv n m o : (m <= n)%nat -> offsets p record iv n o <> None -> offsets p record iv m o <> None.
Proof.
  intros L H E. apply H. replace n with (m + (n - m))%nat by lia. rewrite offsets_add, E. reflexivity.
Qed.

Lemma offsets_again p record iv d o : (0 < d)%nat -> offsets p record iv d o = Some o ->
  forall n, offsets p record iv n o <> None.
Proof.
  intros D E. assert (forall k, offsets p record iv (k * d) o = Some o) as A.
  { induction k as [|k IH]; [reflexivity|]. cbn [Nat.mul]. rewrite offsets_add, E. exact IH. }
  intros n. apply (offsets_less p record iv (n * d)); [nia|]. rewrite A. discriminate.
Qed.

Lemma repeats (l : list nat) : NoDup l \/ exists a x b c, l = a ++ x :: b ++ x :: c.
Proof.
  induction l as [|x l [ND|(a & y & b & c & ->)]]; [left; constructor|..].
  - destruct (in_dec Nat.eq_dec x l) as [I|N]; [|left; constructor; assumption].
    apply in_split in I as (b & c & ->). right. exists [], x, b, c. reflexivity.
  - right. exists (x :: a), y, b, c. reflexivity.
Qed.

(* the offsets of the first n iterations *)
Definition visited (p : bool) (record : bytes) (iv : bool) (n : nat) (o : Z) : list nat :=
  map (fun k => match offsets p record iv k o with Some z => Z.to_nat z | None => O end) (seq 0 n).

Lemma offsets_cycle p record iv o : offsets p record iv (S (length record)) o <> None ->
  forall n, offsets p record iv n o <> None.
Proof.
  intros H. set (m := length record) in *.
  assert (forall k, (k <= m)%nat -> exists z, offsets p record iv k o = Some z /\ 0 < z < Z.of_nat m) as In_range.
  { intros k L. destruct (offsets p record iv k o) as [z|] eqn:E.
    - exists z. split; [reflexivity|].
      assert (offsets p record iv (S k) o <> None) as N by (apply (offsets_less _ _ _ (S m)); [lia|exact H]).
      replace (S k) with (k + 1)%nat in N by lia. rewrite offsets_add, E in N. cbn [offsets] in N. unfold next_offset in N.
      destruct (Z.leb_spec z 0); [contradiction N; reflexivity|].
      destruct (Z.leb_spec (Z.of_nat (length record)) z); [contradiction N; reflexivity|]. unfold m. lia.
    - exfalso. apply (offsets_less p record iv (S m) k o); [lia|exact H|exact E]. }
  destruct (repeats (visited p record iv (S m) o)) as [ND|(a & x & b & c & E)].
  - exfalso. assert (length (visited p record iv (S m) o) <= length (seq 0 m))%nat as L.
    { apply NoDup_incl_length; [exact ND|]. intros x I. apply in_map_iff in I as (k & <- & I). apply in_seq in I.
      destruct (In_range k) as (z & -> & B); [lia|]. apply in_seq. lia. }
    unfold visited in L. rewrite map_length, !seq_length in L. lia.
  - assert (forall k, (k < S m)%nat -> nth_error (visited p record iv (S m) o) k
      = Some (match offsets p record iv k o with Some z => Z.to_nat z | None => O end)) as At.
    { intros k L. unfold visited. apply (map_nth_error (fun k => match offsets p record iv k o with Some z => Z.to_nat z | None => O end)).
      rewrite (nth_error_nth' _ O) by (rewrite seq_length; lia). rewrite seq_nth by lia. reflexivity. }
    assert (length (visited p record iv (S m) o) = S m) as L by (unfold visited; rewrite map_length, seq_length; reflexivity).
    rewrite E in L, At. rewrite !app_length in L. cbn [length] in L. rewrite app_length in L. cbn [length] in L.
    pose proof (At (length a)) as A1. pose proof (At (length a + S (length b))%nat) as A2.
    rewrite nth_error_app2, Nat.sub_diag in A1 by lia. cbn [nth_error] in A1.
    rewrite nth_error_app2 in A2 by lia. replace (length a + S (length b) - length a)%nat with (S (length b)) in A2 by lia.
    cbn [nth_error] in A2. rewrite nth_error_app2, Nat.sub_diag in A2 by lia. cbn [nth_error] in A2.
    destruct (In_range (length a)) as (z1 & E1 & B1); [lia|]. destruct (In_range (length a + S (length b))%nat) as (z2 & E2 & B2); [lia|].
    rewrite E1 in A1. rewrite E2 in A2. specialize (A1 ltac:(lia)). specialize (A2 ltac:(lia)).
    injection A1 as A1. injection A2 as A2. assert (z2 = z1) as -> by lia.
    rewrite offsets_add, E1 in E2.
    pose proof (offsets_again p record iv (S (length b)) z1 ltac:(lia) E2) as Ever.
    intros n. apply (offsets_less _ _ _ (length a + n)); [lia|]. rewrite offsets_add, E1. apply Ever.
Qed.

Lemma parse_decided f input iv :
  (exists f' r, file_parse (S (length input)) f input iv = Some (f', r))
  \/ forall fuel, file_parse fuel f input iv = None.
Proof.
  destruct (file_parse (S (length input)) f input iv) as [[f' r]|] eqn:E; [left; eauto|right]. intros fuel.
  unfold file_parse in *. cbn [set_bases flHeader flTrailer flPacked] in *.
  destruct (record_parse (flHeader f) _ _) as [h [hd| |]]; [|discriminate|discriminate].
  destruct (parse_loop (S (length input)) (flPacked f) (strip input) iv hd []) as [bs off|bs e| |] eqn:Pl; try discriminate.
  { destruct (_ || _); [discriminate|]. destruct (record_parse (flTrailer _) _ _) as [t [tl| |]]; try discriminate.
    destruct (_ =? _); discriminate. }
  apply loop_offsets in Pl.
  assert (offsets (flPacked f) (strip input) iv (S (length (strip input))) hd <> None) as Pl'.
  { apply (offsets_less _ _ _ (S (length input))); [|exact Pl]. unfold strip.
    apply le_n_S. clear. induction input as [|c s IH]; [apply le_n|]. cbn [filter]. destruct (negb _); cbn [length]; lia. }
  pose proof (offsets_cycle _ _ _ _ Pl' fuel) as F. apply (loop_offsets _ _ _ _ _ []) in F. rewrite F. reflexivity.
Qed.
