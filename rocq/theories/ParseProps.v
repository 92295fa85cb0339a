(* Consequences of reading: no panics on writing, texts rewritten identically,
   second reading gives the same record *)
From Coq Require Import ZArith NArith Bool Ascii String List Lia Permutation.
Import ListNotations.
From Verif Require Import GoBase GoTime Regex Tables Codec Records File GoBaseFacts SpecCodec SpecLayouts
  SpecRecords SpecFile TimeFacts FieldFacts RecordFacts RoundTrip Layout FieldRead RecordRead ParseFacts.
Local Open Scope string_scope.
Local Open Scope Z_scope.
Local Open Scope list_scope.
Local Notation length := List.length.

(* ---- writing does not panic ---- *)

(* entries that may panic are of integer type in the struct *)
Definition panic_safe (l : layout) (s : structure) : bool :=
  forallb (fun p =>
    match lookup (fst p) s with
    | Some KInt => true
    | Some _ => negb (has (fType (snd p)) omitted) && negb (has (fType (snd p)) descriptor)
                && negb (has (fType (snd p)) packedNumber)
    | None => true
    end) l.

Lemma lookup_types st n : lookup n (types st) = option_map kind_of (lookup n st).
Proof.
  induction st as [|[m v] st IH]; [reflexivity|]. cbn. destruct (String.eqb n m); [reflexivity|exact IH].
Qed.

Lemma panic_safe_ok l s st : panic_safe l s = true -> has_type s st -> fields_panic l st = false.
Proof.
  intros P T. unfold fields_panic. destruct (existsb _ l) eqn:E; [|reflexivity]. exfalso.
  apply existsb_exists in E as ((n & f) & Hin & E). cbn [fst snd] in E.
  unfold panic_safe in P. rewrite forallb_forall in P. specialize (P _ Hin). cbn [fst snd] in P.
  unfold has_type in T. change (types st = s) in T. rewrite <- T, lookup_types in P.
  destruct (lookup n st) as [v|]; [|discriminate]. cbn [option_map] in P. unfold to_string_panics in E.
  destruct v; cbn [kind_of negb andb orb] in *.
  - rewrite andb_false_r in E.
    repeat match type of E with context [if ?b then _ else _] => destruct b; try discriminate end.
  - apply andb_prop in P as [P Pn]. apply andb_prop in P as [Po Pd].
    apply negb_true_iff in Po, Pd, Pn. rewrite Po, Pd, Pn in E. cbn [andb] in E.
    repeat match type of E with context [if ?b then _ else _] => destruct b; try discriminate end.
  - apply andb_prop in P as [P Pn]. apply andb_prop in P as [Po Pd].
    apply negb_true_iff in Po, Pd, Pn. rewrite Po, Pd, Pn in E. cbn [andb] in E.
    repeat match type of E with context [if ?b then _ else _] => destruct b; try discriminate end.
Qed.

Lemma seg_panic_safe k : panic_safe (seg_layout k) (seg_struct k) = true.
Proof. destruct k; vm_compute; reflexivity. Qed.

Lemma seg_no_panic s : seg_typed s -> seg_panics s = false.
Proof. intros T. apply (panic_safe_ok _ (seg_struct (sKind s))); [apply seg_panic_safe|exact T]. Qed.

Lemma record_no_panic r : record_ok r -> record_panics r = false.
Proof.
  destruct r as [p h|p b|p t]; cbn [record_ok record_panics].
  - apply panic_safe_ok. destruct p; vm_compute; reflexivity.
  - intros [[T P] F]. apply orb_false_iff. split.
    + apply (panic_safe_ok _ base_struct); [destruct p; vm_compute; reflexivity|exact T].
    + destruct (existsb seg_panics _) eqn:E; [|reflexivity]. exfalso.
      apply existsb_exists in E as (s & Hin & E). rewrite base_segments_of in Hin.
      rewrite Forall_forall in F. rewrite seg_no_panic in E by auto. discriminate.
  - apply panic_safe_ok. destruct p; vm_compute; reflexivity.
Qed.

(* ---- from reading to fitting ---- *)

Lemma reads_settled_fits doc st : record_reads doc st -> NoDup (map fst st) -> settled doc st -> record_fits doc st.
Proof.
  intros R ND S d Hd K. destruct (R d Hd K) as (v & Hv & F). exists v. split; [exact Hv|].
  specialize (S d v Hd Hv). destruct v as [z|s|t]; cbn [read_fits] in F.
  - destruct F as [F|[_ F]]; [exact F|lia].
  - unfold fits in *. cbn [dKind dWidth dMust] in F. destruct (dKind d); auto.
  - unfold fits in *. cbn [dKind dWidth dMust] in F. destruct (dKind d); auto; destruct F as [F _]; split; auto.
Qed.

Lemma seg_good_read s p : seg_read_from s p -> seg_settled s -> seg_good s.
Proof.
  intros (_ & _ & T & R & H & V) S. split; [|split; assumption]. split; [exact T|].
  apply reads_settled_fits; auto. apply seg_nodup, T.
Qed.

Lemma segs_size_app a b : segs_size (a ++ b) = (segs_size a + segs_size b)%nat.
Proof. induction a as [|s a IH]; [reflexivity|]. cbn. rewrite IH. lia. Qed.

Lemma put_size s b : (segs_size (segments_of (put_segment s b)) <= segs_size (segments_of b) + seg_size (sKind s))%nat.
Proof.
  unfold segments_of, put_segment. destruct (sKind s) eqn:K; cbn [bJ1 bJ2 bK1 bK2 bK3 bK4 bL1 bN1 opt_to_list];
    rewrite !segs_size_app; cbn [segs_size]; rewrite ?K; cbn [segs_size]; lia.
Qed.

Lemma fold_put_size segs : forall b,
  (segs_size (segments_of (fold_left (fun b s => put_segment s b) segs b)) <= segs_size (segments_of b) + segs_size segs)%nat.
Proof.
  induction segs as [|s segs IH]; intros b; cbn [fold_left segs_size]; [lia|].
  specialize (IH (put_segment s b)). pose proof (put_size s b). lia.
Qed.

Lemma base_fits_read p b : base_reads p b -> base_settled p b -> base_fits p b.
Proof.
  intros (T & R & F) [S1 S2]. split; [exact T|]. split.
  - apply reads_settled_fits; auto. apply base_nodup, T.
  - revert F S2. generalize (segments_of b). intros l F. induction F as [|s l (q & Hq) F IH]; intros G; constructor.
    + inversion G; subst. eapply seg_good_read; eauto.
    + apply IH. inversion G; assumption.
Qed.

Lemma word_reads (p : bool) doc st z : record_reads doc st ->
  (exists doc', doc = Doc "RecordDescriptorWord" 4 (if p then FWord else FNumber) true :: doc') ->
  NoDup (map fst st) -> holds st "RecordDescriptorWord" (VInt z) -> z < (if p then 65536 else 10000).
Proof.
  intros R [doc' ->] ND H. destruct (R _ (or_introl eq_refl)) as [v [Hv F]]; [destruct p; discriminate|].
  cbn in Hv. apply (In_lookup _ _ _ ND) in Hv. apply (In_lookup _ _ _ ND) in H. rewrite H in Hv.
  injection Hv as <-. cbn [read_fits] in F. destruct p; cbn in F; lia.
Qed.

Lemma holds_inj st n a b : NoDup (map fst st) -> holds st n (VInt a) -> holds st n (VInt b) -> a = b.
Proof.
  intros ND A B. apply (In_lookup _ _ _ ND) in A, B. congruence.
Qed.

(* ---- reading the written record again ---- *)

Lemma seg_again s0 data iv s n s1 rest iv' : seg_typed s0 -> seg_parse s0 data iv = (s, Ok n) ->
  seg_settled s -> sKind s1 = sKind s -> seg_typed s1 ->
  seg_parse s1 (seg_string s ++ rest) iv' = (s, Ok n).
Proof.
  intros T0 P S K1' T1. pose proof (seg_read _ _ _ _ _ T0 P) as (K & -> & L & T & R & _).
  rewrite <- K. apply seg_round_trip; auto. split; [exact T|]. rewrite <- K in R.
  apply reads_settled_fits; auto. apply seg_nodup, T.
Qed.

Lemma base_again_fixed data b n rest : base_parse_char new_base data false = (b, Ok n) -> base_settled false b ->
  (base_size false b < n \/ no_segment rest) ->
  base_parse_char new_base (base_string_char b ++ rest) false = (b, Ok n).
Proof.
  intros P S Ns.
  pose proof (base_read_char _ _ _ _ _ (new_base_with _) P)
    as (R & L4 & bdw & rdw & z' & pre & segs & parts & rest' & Hb & Hr & _ & Hb0 & _ & _ & Lp & Eb & _ & En & Hn & _).
  assert (bdw = 0) as ->.
  { eapply holds_inj; [apply (base_nodup (bFields new_base)); reflexivity|exact Hb0|].
    unfold holds. cbv. left. reflexivity. }
  change (0 <? 0) with false in *. cbv iota in Lp, En. subst n.
  apply base_round_trip_fixed; auto using base_fits_read.
  assert (segs_size (segments_of b) <= segs_size segs)%nat as Sz.
  { rewrite Eb. pose proof (fold_put_size segs (clear_j (set_bFields new_base (bFields b)))) as Q. cbn in Q. exact Q. }
  unfold base_size. cbn [record_size]. specialize (Hn ltac:(lia)). rewrite Lp in Hn. lia.
Qed.

Lemma base_again_variable data b n rest bdw rdw : base_parse_char new_base data true = (b, Ok n) -> base_settled false b ->
  base_bdw_is b bdw -> 0 < bdw -> base_rdw_is b rdw ->
  (base_size false b + 4 < rdw \/ no_segment rest) ->
  base_parse_char new_base (base_string_char b ++ rest) true = (b, Ok n).
Proof.
  intros P S Hbd Pos Hrd Ns.
  pose proof (base_read_char _ _ _ _ _ (new_base_with _) P)
    as (R & L4 & bdw' & rdw' & z' & pre & segs & parts & rest' & Hb & Hr & Pv & Hb0 & _ & _ & Lp & Eb & _ & En & Hn & _).
  assert (NoDup (map fst (bFields b))) as ND by (apply base_nodup, R).
  assert (bdw' = bdw) as -> by (eapply holds_inj; eauto).
  destruct (Z.ltb_spec 0 bdw) as [_|]; [|lia]. subst n.
  apply base_round_trip_variable with (r := rdw); auto using base_fits_read.
  assert (segs_size (segments_of b) <= segs_size segs)%nat as Sz.
  { rewrite Eb. pose proof (fold_put_size segs (clear_j (set_bFields new_base (bFields b)))) as Q. cbn in Q. exact Q. }
  unfold base_size. cbn [record_size]. specialize (Hn ltac:(lia)). rewrite Lp in Hn.
  assert (bdw < 10000).
  { subst z'. unfold parse_value in Pv. cbn [bdw_field fType has] in Pv.
    change (has (bdw_type false) numeric) with true in Pv. cbv iota in Pv.
    destruct (parse_int 64 (firstn 4 data)) as [v [e|]] eqn:Pi; [discriminate|]. injection Pv as ->.
    destruct (parse_int_bounds 4 (firstn 4 data) _ ltac:(rewrite firstn_length; lia) Pi) as [B _]. exact B. }
  lia.
Qed.

Lemma base_again_packed data b n rest rdw : base_parse_packed new_base data true = (b, Ok n) -> base_settled true b ->
  base_rdw_is b rdw -> (base_size true b < rdw <= 65531 \/ no_segment rest) ->
  base_parse_packed new_base (base_string_packed b ++ rest) true = (b, Ok n).
Proof.
  intros P S Hrd Ns.
  pose proof (base_read_packed _ _ _ _ _ (new_base_with _) P)
    as (_ & R & L4 & bdw & rdw' & pre & segs & parts & rest' & Hb & Hr & Pv & _ & _ & Lp & Eb & _ & -> & Hn & _).
  apply base_round_trip_packed with (r := rdw); auto using base_fits_read.
  assert (segs_size (segments_of b) <= segs_size segs)%nat as Sz.
  { rewrite Eb. pose proof (fold_put_size segs (clear_j (set_bFields new_base (bFields b)))) as Q. cbn in Q. exact Q. }
  unfold base_size. cbn [record_size]. rewrite Lp in Hn.
  assert (bdw < 65536).
  { destruct data as [|c1 [|c2 data]]; try (cbn in L4; lia). cbn in Pv. injection Pv as <-.
    pose proof (bval_range c1). pose proof (bval_range c2). lia. }
  lia.
Qed.

Lemma header_again_fixed data h0 h n rest h1 : has_type header_struct h0 -> holds h0 BDW (VInt 0) ->
  header_parse_char h0 data false = (h, Ok n) -> settled (header_doc false) h ->
  has_type header_struct h1 -> holds h1 BDW (VInt 0) ->
  header_parse_char h1 (header_string false h ++ rest) false = (h, Ok n).
Proof.
  intros T0 B0 P S T1 B1.
  pose proof (header_read false _ _ _ _ _ T0 P) as (T & R & L & bdw & rdw & z' & Hb & Hr & Pv & Hz & -> & _).
  assert (bdw = 0) as -> by (eapply holds_inj; [apply (header_nodup h0 T0)|exact Hz|exact B0]).
  apply header_round_trip_fixed; auto. split; [exact T|]. apply reads_settled_fits; auto. apply header_nodup, T.
Qed.

Lemma header_again_variable data h0 h n bdw rest h1 : has_type header_struct h0 ->
  header_parse_char h0 data true = (h, Ok n) -> settled (header_doc false) h ->
  holds h BDW (VInt bdw) -> 0 < bdw -> has_type header_struct h1 ->
  header_parse_char h1 (header_string false h ++ rest) true = (h, Ok n).
Proof.
  intros T0 P S B0 Pos T1.
  pose proof (header_read false _ _ _ _ _ T0 P) as (T & R & L & bdw' & rdw & z' & Hb & Hr & Pv & Hz & -> & _).
  assert (bdw' = bdw) as -> by (eapply holds_inj; [apply (header_nodup h T)|exact Hb|exact B0]).
  destruct (Z.ltb_spec 0 bdw) as [_|]; [|lia].
  apply header_round_trip_variable; auto.
  - split; [exact T|]. apply reads_settled_fits; auto. apply header_nodup, T.
  - subst z'. unfold parse_value in Pv. cbn [bdw_field fType has] in Pv.
    change (has (bdw_type false) numeric) with true in Pv. cbv iota in Pv.
    destruct (parse_int 64 (firstn 4 data)) as [v [e|]] eqn:Pi; [discriminate|]. injection Pv as ->.
    cbn [record_size] in L.
    destruct (parse_int_bounds 4 (firstn 4 data) _ ltac:(rewrite firstn_length; lia) Pi) as [B _]. lia.
Qed.

Lemma trailer_again (p : bool) data t0 t n iv rest t1 iv' : has_type trailer_struct t0 ->
  (if p then trailer_parse_packed else trailer_parse_char) t0 data iv = (t, Ok n) ->
  settled (trailer_doc p) t -> has_type trailer_struct t1 ->
  (if p then trailer_parse_packed else trailer_parse_char) t1 (trailer_string p t ++ rest) iv' = (t, Ok n).
Proof.
  intros T0 P S T1. pose proof (trailer_read p _ _ _ _ _ T0 P) as (T & R & _ & H & _).
  apply trailer_round_trip; auto. split; [exact T|]. apply reads_settled_fits; auto. apply trailer_nodup, T.
Qed.

Lemma header_again_packed data h0 h n bdw id iv rest h1 iv' : has_type header_struct h0 ->
  header_parse_packed h0 data iv = (h, Ok n) -> settled (header_doc true) h ->
  holds h BDW (VInt bdw) -> 0 < bdw -> holds h "RecordIdentifier" (VStr id) -> to_upper id = lit "HEADER" ->
  has_type header_struct h1 ->
  header_parse_packed h1 (header_string true h ++ rest) iv' = (h, Ok n).
Proof.
  intros T0 P S B0 Pos Hid Hup T1.
  pose proof (header_read true _ _ _ _ _ T0 P) as (T & R & L & bdw' & rdw & z' & Hb & Hr & Pv & [Hv Hz] & -> & _).
  assert (bdw' = bdw) as -> by (eapply holds_inj; [apply (header_nodup h T)|exact Hb|exact B0]).
  destruct (Z.ltb_spec 0 bdw) as [_|]; [|lia].
  apply header_round_trip_packed with (id := id); auto.
  - split; [exact T|]. apply reads_settled_fits; auto. apply header_nodup, T.
  - cbn [record_size] in L. subst z'. destruct data as [|c1 [|c2 data]]; try (cbn in L; lia).
    cbn in Pv. injection Pv as <-.
    pose proof (bval_range c1). pose proof (bval_range c2). lia.
Qed.

(* ---- canonical texts are rewritten identically ---- *)

Lemma canonical_body_length doc s : canonical_body doc s -> length s = doc_width doc.
Proof.
  intros (parts & -> & F). induction F as [|d p doc parts [L _] _ IH]; [reflexivity|].
  cbn. rewrite app_length, L. f_equal. exact IH.
Qed.

Lemma seg_canonical_again s0 p rest iv s n : seg_typed s0 -> seg_parse s0 (p ++ rest) iv = (s, Ok n) ->
  canonical_body (seg_doc (sKind s0)) p -> seg_string s = p.
Proof.
  intros T P C. pose proof (seg_read _ _ _ _ _ T P) as (_ & _ & _ & _ & _ & K & _).
  apply (K p rest eq_refl C).
Qed.

Lemma pad_exact (n : Z) (a pad : bytes) : blanks pad -> Z.of_nat (length (a ++ pad)) = n -> 0 < n <= 65535 ->
  pad_block (clampedBlockSize n) a = a ++ pad.
Proof.
  intros [k ->] L R. rewrite clamped_range by exact R. unfold pad_block. f_equal.
  rewrite app_length, repeat_length in L. f_equal. lia.
Qed.

Lemma trailer_canonical_again (p : bool) t0 body pad iv t n : has_type trailer_struct t0 ->
  (if p then trailer_parse_packed else trailer_parse_char) t0 (body ++ pad) iv = (t, Ok n) ->
  canonical_body (trailer_doc p) body -> blanks pad -> n = Z.of_nat (length (body ++ pad)) ->
  trailer_string p t = body ++ pad.
Proof.
  intros T0 P C B En. pose proof (trailer_read p _ _ _ _ _ T0 P) as (T & R & L & Hr & K).
  destruct (K body pad eq_refl C) as [F W]. unfold trailer_string. rewrite W.
  unfold trailer_rdw. rewrite (get_int_holds _ _ n (trailer_nodup _ T) Hr).
  apply pad_exact; auto.
  assert (n < 65536).
  { destruct (trailer_doc p) as [|d doc'] eqn:E; [destruct p; discriminate|].
    assert (d = Doc "RecordDescriptorWord" 4 (if p then FWord else FNumber) true) as -> by (destruct p; injection E as <- _; reflexivity).
    pose proof (word_reads p _ t n R (ex_intro _ doc' eq_refl) (trailer_nodup _ T) Hr). destruct p; lia. }
  assert (0 < length (body ++ pad))%nat by (destruct p; cbn [record_size] in L; lia). lia.
Qed.

Lemma header_canonical_again_fixed h0 body pad h n : has_type header_struct h0 -> holds h0 BDW (VInt 0) ->
  header_parse_char h0 (body ++ pad) false = (h, Ok n) ->
  canonical_body (header_doc false) body -> blanks pad -> n = Z.of_nat (length (body ++ pad)) ->
  header_string false h = body ++ pad.
Proof.
  intros T0 B0 P C B En.
  pose proof (header_read false _ _ _ _ _ T0 P) as (T & R & L & bdw & rdw & z' & Hb & Hr & Pv & Hz & En' & K).
  assert (bdw = 0) as -> by (eapply holds_inj; [apply (header_nodup h0 T0)|exact Hz|exact B0]).
  change (0 <? 0) with false in En'. cbv iota in En'. subst rdw.
  destruct (write_fields_bdw false _ _ _ h 0 (header_scheme false) T Hb) as (sp & s' & Sp & _ & _ & _ & _ & W).
  destruct (K sp [] body pad Sp eq_refl eq_refl C) as [F Tx].
  unfold header_string. rewrite W, bdw_text_zero, Tx. cbn [app].
  unfold header_bdw, header_rdw. rewrite (get_int_holds _ _ 0 (header_nodup _ T) Hb), (get_int_holds _ _ n (header_nodup _ T) Hr).
  change (0 =? 0) with true. cbv iota. apply pad_exact; auto.
  pose proof (word_reads false _ h n R (doc_word_header false) (header_nodup _ T) Hr) as Q.
  cbv iota in Q. cbn [record_size] in L. lia.
Qed.

Lemma mark_inj k k' : seg_mark k = seg_mark k' -> k = k'.
Proof. destruct k, k'; cbn; congruence. Qed.

Lemma same_parts ks parts pad : Forall2 (fun k p => firstn 2 p = seg_mark k /\ length p = seg_size k) ks parts -> blanks pad ->
  forall ks' parts' rest', Forall2 (fun k p => firstn 2 p = seg_mark k /\ length p = seg_size k) ks' parts' ->
  no_segment rest' -> List.concat parts ++ pad = List.concat parts' ++ rest' ->
  ks = ks' /\ parts = parts' /\ pad = rest'.
Proof.
  intros F [m ->]. induction F as [|k p ks parts [M L] F IH]; intros ks' parts' rest' F' N E.
  - destruct F' as [|k' p' ks' parts' [M' L'] F']; [auto|]. exfalso. cbn in E.
    rewrite <- app_assoc in E.
    assert (firstn 2 (repeat " "%char m) = seg_mark k') as Q.
    { rewrite E, firstn_app. replace (2 - length p')%nat with 0%nat by (pose proof (seg_size_ge k'); lia).
      cbn [firstn]. rewrite app_nil_r. exact M'. }
    destruct m as [|[|m]]; destruct k'; discriminate Q.
  - destruct F' as [|k' p' ks' parts' [M' L'] F'].
    + exfalso. cbn in E. rewrite <- app_assoc in E. destruct N as [N|N].
      * rewrite <- E, app_length in N. pose proof (seg_size_ge k); lia.
      * apply (N k). rewrite <- E, firstn_app.
        replace (2 - length p)%nat with 0%nat by (pose proof (seg_size_ge k); lia).
        cbn [firstn]. rewrite app_nil_r. exact M.
    + cbn in E. rewrite <- !app_assoc in E.
      assert (k = k') as ->.
      { apply mark_inj. rewrite <- M, <- M'. apply (f_equal (firstn 2)) in E. rewrite !firstn_app in E.
        replace (2 - length p)%nat with 0%nat in E by (pose proof (seg_size_ge k); lia).
        replace (2 - length p')%nat with 0%nat in E by (pose proof (seg_size_ge k'); lia).
        cbn [firstn] in E. rewrite !app_nil_r in E. exact E. }
      assert (p = p') as ->.
      { apply (f_equal (firstn (seg_size k'))) in E.
        rewrite <- L in E at 1. rewrite <- L' in E. rewrite !firstn_app_exact in E by reflexivity. exact E. }
      apply app_inv_head in E. destruct (IH _ _ _ F' N E) as (-> & -> & ->). auto.
Qed.

Lemma kinds_split (keep : segkind -> bool) k ks : forall l, map sKind l = filter keep (k :: ks) ->
  exists o l', l = opt_to_list o ++ l' /\ (forall s, o = Some s -> sKind s = k) /\ map sKind l' = filter keep ks.
Proof.
  intros l H. cbn in H. destruct (keep k).
  - destruct l as [|s l]; [discriminate|]. injection H as Hk H. exists (Some s), l. split; [reflexivity|].
    split; [intros s' [= <-]; exact Hk|exact H].
  - exists None, l. split; [reflexivity|]. split; [discriminate|exact H].
Qed.

Lemma kinds_repeat k n : forall l, map sKind l = repeat k n -> Forall (fun s => sKind s = k) l.
Proof.
  induction n as [|n IH]; intros [|s l] H; try discriminate; constructor; cbn in H; injection H; auto.
Qed.

Lemma in_order_segments segs st : in_order (map sKind segs) ->
  segments_of (fold_left (fun b s => put_segment s b) segs (mkBase st [] [] None None None None None None)) = segs.
Proof.
  intros (n1 & n2 & rest & E & keep & ->).
  apply map_eq_app in E as (l1 & l' & -> & E1 & E). apply map_eq_app in E as (l2 & l & -> & E2 & E).
  apply kinds_repeat in E1, E2.
  apply kinds_split in E as (o1 & m1 & -> & H1 & E). apply kinds_split in E as (o2 & m2 & -> & H2 & E).
  apply kinds_split in E as (o3 & m3 & -> & H3 & E). apply kinds_split in E as (o4 & m4 & -> & H4 & E).
  apply kinds_split in E as (o5 & m5 & -> & H5 & E). apply kinds_split in E as (o6 & m6 & -> & H6 & E).
  cbn in E. destruct m6; [|discriminate]. rewrite app_nil_r.
  set (b := mkBase st l1 l2 o1 o2 o3 o4 o5 o6).
  change (l1 ++ l2 ++ opt_to_list o1 ++ opt_to_list o2 ++ opt_to_list o3 ++ opt_to_list o4 ++ opt_to_list o5 ++ opt_to_list o6)
    with (segments_of b).
  change st with (bFields b). rewrite fold_put_segments; [reflexivity|]. repeat split; assumption.
Qed.

Lemma base_canonical_again_fixed body ks parts pad b n :
  base_parse_char new_base (body ++ List.concat parts ++ pad) false = (b, Ok n) ->
  canonical_body (base_doc false) body -> segs_text ks parts -> in_order ks -> blanks pad ->
  n = Z.of_nat (length (body ++ List.concat parts ++ pad)) ->
  base_string_char b = body ++ List.concat parts ++ pad.
Proof.
  intros P C St Io B En.
  pose proof (base_read_char _ _ _ _ _ (new_base_with _) P)
    as (R & L4 & bdw & rdw & z' & pre & segs & parts' & rest' & Hb & Hr & _ & Hb0 & Ed & Nr & Lp & Eb & F2 & En' & Hn & Cn).
  assert (bdw = 0) as ->.
  { eapply holds_inj; [apply (base_nodup (bFields new_base)); reflexivity|exact Hb0|].
    unfold holds. cbv. left. reflexivity. }
  change (0 <? 0) with false in *. cbv iota in Lp, En'. subst rdw.
  assert (length body = 426%nat) as Lb by (rewrite (canonical_body_length _ _ C); apply base_doc_width).
  assert (body = pre /\ List.concat parts ++ pad = List.concat parts' ++ rest') as [<- Ep].
  { pose proof (f_equal (firstn 426) Ed) as E1. pose proof (f_equal (skipn 426) Ed) as E2.
    rewrite !firstn_app_exact in E1 by congruence. rewrite !skipn_app_exact in E2 by congruence. auto. }
  destruct (same_parts ks parts pad) with (ks' := map sKind segs) (parts' := parts') (rest' := rest') as (-> & <- & <-); auto.
  { clear - St. induction St as [|k p ks parts [M C] _ IH]; constructor; auto. split; [exact M|].
    rewrite (canonical_body_length _ _ C). apply seg_doc_width. }
  { clear - F2. induction F2 as [|s p segs parts [H _] _ IH]; constructor; auto.
    destruct H as (L & M & _). auto. }
  assert (flat_map seg_string segs = List.concat parts) as Ws.
  { clear - F2 St. revert St. induction F2 as [|s p segs parts [_ H] _ IH]; intros St; [reflexivity|].
    inversion St; subst. cbn. rewrite IH by assumption. destruct H as [_ ->]; [|reflexivity]. tauto. }
  assert (segments_of b = segs) as Es.
  { rewrite Eb. change (clear_j (set_bFields new_base (bFields b)))
      with (mkBase (bFields b) [] [] None None None None None None). apply in_order_segments, Io. }
  assert (has_type base_struct (bFields b)) as T by apply R.
  destruct (write_fields_bdw false _ _ _ (bFields b) 0 (base_scheme false) T Hb) as (sp & s' & Sp & _ & _ & _ & _ & W).
  destruct (Cn sp [] body (List.concat parts ++ pad) Sp eq_refl eq_refl C) as [F Tx].
  unfold base_string_char. change baseSegmentCharacterFormat with (base_layout false).
  rewrite W, bdw_text_zero, Tx, base_segments_of, Es, Ws. cbn [app].
  unfold base_rdw. rewrite (get_int_holds _ _ n (base_nodup _ T) Hr). rewrite app_assoc.
  rewrite app_assoc in En. apply pad_exact; auto.
  pose proof (word_reads false _ _ n (proj1 (proj2 R)) (doc_word_base false) (base_nodup _ T) Hr) as Q.
  cbv iota in Q. rewrite !app_length in En. lia.
Qed.

(* ---- summaries ---- *)

Lemma seg_reads_well s0 data iv s n : seg_typed s0 -> seg_parse s0 data iv = (s, Ok n) ->
  sKind s = sKind s0 /\ n = seg_size (sKind s) /\ seg_typed s /\ record_reads (seg_doc (sKind s)) (sFields s).
Proof.
  intros T P. pose proof (seg_read _ _ _ _ _ T P) as (K & -> & _ & Ts & R & _). rewrite K. auto.
Qed.

Lemma base_reads_well (p : bool) b0 data iv b n : base_typed b0 ->
  Forall (fun s => exists p, seg_read_from s p) (segments_of b0) ->
  (if p then base_parse_packed else base_parse_char) b0 data iv = (b, Ok n) -> base_reads p b.
Proof.
  intros T F P. destruct p.
  - pose proof (base_read_packed _ _ _ _ _ (conj T F) P) as (_ & R & _). exact R.
  - pose proof (base_read_char _ _ _ _ _ (conj T F) P) as (R & _). exact R.
Qed.

Lemma header_reads_well (p : bool) h0 data iv h n : has_type header_struct h0 ->
  (if p then header_parse_packed else header_parse_char) h0 data iv = (h, Ok n) ->
  has_type header_struct h /\ record_reads (header_doc p) h.
Proof. intros T P. pose proof (header_read _ _ _ _ _ _ T P) as (A & B & _). auto. Qed.

Lemma trailer_reads_well (p : bool) t0 data iv t n : has_type trailer_struct t0 ->
  (if p then trailer_parse_packed else trailer_parse_char) t0 data iv = (t, Ok n) ->
  has_type trailer_struct t /\ record_reads (trailer_doc p) t.
Proof. intros T P. pose proof (trailer_read _ _ _ _ _ _ T P) as (A & B & _). auto. Qed.
