(* The streaming reader accepts what it is specified to accept, and agrees with File.Parse *)
From Coq Require Import ZArith NArith Bool Ascii String List Lia.
Import ListNotations.
From Verif Require Import GoBase GoBaseFacts GoTime Tables Codec Records File
  SpecCodec SpecLayouts SpecRecords SpecFile SpecFiles Reader SpecReader SpecAgree
  FieldFacts RecordFacts RoundTrip Layout FieldRead RecordRead ParseFacts ParseProps FileFacts BreakFacts FileRoundTrip FileProps ReaderFacts ReaderProps.
Local Open Scope string_scope.
Local Open Scope Z_scope.
Local Open Scope list_scope.
Local Notation length := List.length.
Local Opaque window.

(* ---- the first record ---- *)

Lemma is_nul_spec h i : is_nul h i = true <-> nul_at h i.
Proof.
  unfold is_nul, nul_at. destruct (nth_error h i) as [c|]; [|split; discriminate].
  rewrite Z.eqb_eq. split; [intros E; f_equal; apply bval_inj; exact E|intros E; injection E as ->; reflexivity].
Qed.

Lemma is_packed_spec h : is_packed h = true <-> says_packed h.
Proof. unfold is_packed, says_packed. rewrite orb_true_iff, !andb_true_iff, !is_nul_spec. reflexivity. Qed.

Lemma blocked_spec h : is_variable_length h = true <-> says_blocked h.
Proof.
  unfold is_variable_length, says_blocked. rewrite andb_true_iff, Nat.ltb_lt, bytes_eqb_eq. split.
  - intros [L E]. split; [exact L|]. exists (firstn 8 h), (firstn 6 (skipn 8 h)), (skipn 6 (skipn 8 h)).
    rewrite !firstn_skipn, !firstn_length, skipn_length. repeat split; [lia|lia|exact E].
  - intros (L & a & id & b & -> & La & Li & E). split; [exact L|].
    rewrite skipn_app, skipn_all2, La by lia. cbn [app skipn Nat.sub].
    rewrite firstn_app, Li, Nat.sub_diag, firstn_all2 by lia. cbn [firstn]. rewrite app_nil_r. exact E.
Qed.

Lemma metro_file_spec h : sized_record h -> (is_metro_file h = true <-> says_header h).
Proof.
  intros G. split; [apply metro_file_marked|]. intros (a & b & E & L).
  assert (366 <= length h)%nat as L3.
  { destruct G as (w & r & _ & _ & W). apply word_says_min in W. lia. }
  unfold is_metro_file. apply andb_true_iff. split.
  { apply negb_true_iff, Nat.ltb_ge. unfold PackedRecordLength. lia. }
  apply orb_true_iff. rewrite !bytes_eqb_eq. rewrite E.
  destruct L as [L|L]; [left|right]; rewrite skipn_app, skipn_all2, L by lia; cbn [app skipn Nat.sub];
    rewrite firstn_app; cbn [length]; reflexivity.
Qed.

(* ---- what the reader accepts ---- *)

Lemma bases_of_failed p iv line more : (exists b e, record_parse (RBase p new_base) line iv = (b, Err e)) ->
  forall ds new acc, Forall2 (fun d b => exists n, record_parse (RBase p new_base) d iv = (b, Ok n)) ds new ->
  bases_of p iv (ds ++ line :: more) acc = inl (Some (acc ++ new, line)).
Proof.
  intros (b & e & E) ds new acc F. revert acc. induction F as [|d x ds new (n & P) _ IH]; intros acc; cbn [app bases_of].
  - unfold new_data_record. rewrite E, app_nil_r. reflexivity.
  - unfold new_data_record. rewrite P, IH, <- app_assoc. reflexivity.
Qed.

Lemma tokens_free_cons fuel t s : good_token t -> tokens_free (S fuel) (t ++ s) = t :: tokens_free fuel s.
Proof.
  intros G. cbn [tokens_free]. rewrite (proj2 (next_free_spec (t ++ s) t s)); [reflexivity|]. auto.
Qed.

Lemma tokens_free_list ds t more : Forall sized_record ds -> sized_record t -> forall fuel,
  (length ds < fuel)%nat -> exists ts, tokens_free fuel (List.concat ds ++ t ++ more) = ds ++ t :: ts.
Proof.
  intros F G. induction F as [|d ds Gd F IH]; intros fuel L; (destruct fuel as [|fuel]; [lia|]).
  - cbn [List.concat app]. exists (tokens_free fuel more). apply tokens_free_cons, good_sized, G.
  - cbn [List.concat]. rewrite <- app_assoc. destruct (IH fuel) as (ts & E); [cbn in L; lia|]. exists ts.
    rewrite tokens_free_cons by (apply good_sized, Gd). rewrite E. reflexivity.
Qed.

Lemma sized_long ds : Forall sized_record ds -> (length ds <= length (List.concat ds))%nat.
Proof.
  induction 1 as [|d ds G F IH]; [apply le_n|]. cbn [List.concat length]. rewrite app_length.
  destruct G as (w & r & -> & L & _). rewrite app_length. lia.
Qed.

Lemma streamed_outcome s f h ds t more blk : within_buffer s -> streamed s f h ds t more blk -> outcome s = Ok f.
Proof.
  intros W (U & Gh & Gd & Gt & Mh & Pk & Bl & (n & Ph) & F2 & Nt & (m & Pt)).
  rewrite (outcome_free s W). apply strip_unbroken in U. rewrite <- U.
  rewrite tokens_free_cons by (apply good_sized, Gh).
  assert (length ds < length (h ++ List.concat ds ++ t ++ more))%nat as L.
  { rewrite !app_length. pose proof (sized_long ds Gd). destruct Gh as (w & r & -> & L4 & _). rewrite app_length. lia. }
  destruct (tokens_free_list ds t more Gd Gt _ L) as (ts & ->).
  cbn [read_tokens]. rewrite read_header_new.
  rewrite (proj2 (metro_file_spec h Gh) Mh). cbn [negb].
  assert (is_packed h = flPacked f) as Ep.
  { apply eq_true_iff_eq. rewrite is_packed_spec. tauto. }
  assert (is_variable_length h = blk) as Eb.
  { apply eq_true_iff_eq. rewrite blocked_spec. tauto. }
  rewrite Ep, Eb, Ph. cbn [set_header flPacked new_file_p].
  rewrite (bases_of_failed _ _ t ts Nt ds (flBases f) [] F2). cbn [app].
  unfold read_trailer. cbn [set_bases set_header new_file_p flPacked flHeader flBases flTrailer]. rewrite Pt.
  destruct f; reflexivity.
Qed.

Lemma bases_of_trailer p iv : forall toks acc bs line, bases_of p iv toks acc = inl (Some (bs, line)) ->
  exists b e, record_parse (RBase p new_base) line iv = (b, Err e).
Proof.
  induction toks as [|t toks IH]; intros acc bs line H; [discriminate|]. cbn [bases_of] in H.
  destruct (record_parse (new_data_record p) t iv) as [b [n|e|]] eqn:E; [eapply IH; exact H| |discriminate].
  injection H as _ <-. eauto.
Qed.

Lemma accepted_streamed evs s f : patient evs -> read_from evs s = Some (Ok f) ->
  exists h ds t more blk, streamed s f h ds t more blk.
Proof.
  intros P H. apply (read_from_outcome _ _ _ P) in H. unfold outcome in H.
  destruct (tokens (S (length s)) s) as [|line toks] eqn:E; [discriminate|].
  destruct (tokens_cut _ _ _ _ E) as (raw & rest & fuel & -> & R & G & E'). apply raw_record_spec in R as [Rt _].
  cbn [read_tokens] in H. rewrite read_header_new in H. destruct (is_metro_file line) eqn:Mf; [cbn [negb] in H|discriminate].
  apply (metro_file_spec line G) in Mf.
  destruct (record_parse (RHeader (is_packed line) new_header) line (is_variable_length line)) as [h [n|e|]] eqn:Ph; [|discriminate..].
  cbn [set_header flPacked new_file_p] in H.
  destruct (bases_of (is_packed line) (is_variable_length line) toks []) as [[[bs lt]|]|] eqn:B; [|discriminate..].
  pose proof (bases_of_trailer _ _ _ _ _ _ B) as Nt.
  rewrite <- E' in B. destruct (bases_of_success _ _ _ _ _ _ _ B) as (ds & more & new & U & Fd & Gl & -> & F2).
  unfold read_trailer in H. cbn [set_bases set_header new_file_p flPacked flHeader flBases flTrailer] in H.
  destruct (record_parse (RTrailer (is_packed line) new_trailer) lt (is_variable_length line)) as [t [m|e|]] eqn:Pt; [|discriminate..].
  apply strip_unbroken in U. assert (f = set_trailer (set_bases (set_header (new_file_p (is_packed line)) h) ([] ++ new)) t) as Ef
    by (injection H as ->; reflexivity).
  assert (flPacked f = is_packed line) as Fp by (rewrite Ef; reflexivity).
  assert (flHeader f = h) as Fh by (rewrite Ef; reflexivity).
  assert (flBases f = new) as Fb by (rewrite Ef; reflexivity).
  assert (flTrailer f = t) as Ft by (rewrite Ef; reflexivity). clear Ef H.
  exists line, ds, lt, more, (is_variable_length line). unfold streamed. rewrite Fp, Fh, Fb, Ft.
  split; [apply strip_unbroken; rewrite strip_app, <- Rt, <- U; reflexivity|].
  split; [exact G|]. split; [exact Fd|]. split; [exact Gl|]. split; [exact Mf|].
  split; [apply is_packed_spec|]. split; [apply blocked_spec|].
  split; [exists n; exact Ph|]. split; [exact F2|]. split; [exact Nt|]. exists m. exact Pt.
Qed.

Lemma reader_exactly evs s f : patient evs -> (length s < useful evs)%nat -> within_buffer s ->
  (read_from evs s = Some (Ok f) <-> exists h ds t more blk, streamed s f h ds t more blk).
Proof.
  intros P U W. split; [apply accepted_streamed; exact P|]. intros (h & ds & t & more & blk & S).
  rewrite (read_from_some evs s P U). f_equal. eapply streamed_outcome; eauto.
Qed.

(* ---- reading a record from a longer text ---- *)

Lemma slice_more s rest a b d : slice s a b = Some d -> slice (s ++ rest) a b = Some d.
Proof.
  unfold slice. destruct (Nat.leb_spec a b) as [L|L]; [|discriminate]. destruct (Nat.leb_spec b (length s)) as [L'|L']; [|discriminate].
  cbn [andb]. intros E. injection E as <-. rewrite app_length. destruct (Nat.leb_spec b (length s + length rest)); [|lia].
  f_equal. rewrite skipn_app, firstn_app, skipn_length.
  replace (b - a - (length s - a))%nat with O by lia. cbn [firstn]. apply app_nil_r.
Qed.

Lemma parse_fields_more pol chk l rn record rest : forall names off st st',
  parse_fields pol chk l rn record names off st = (st', Ok tt) ->
  parse_fields pol chk l rn (record ++ rest) names off st = (st', Ok tt).
Proof.
  induction names as [|n names IH]; intros off st st' H; [exact H|]. cbn [parse_fields] in *.
  destruct (lookup n l) as [f|]; [|discriminate].
  destruct (chk && Nat.ltb (length record) (fStart f + fLength f + off)) eqn:C; [discriminate|].
  assert (chk && Nat.ltb (length (record ++ rest)) (fStart f + fLength f + off) = false) as ->.
  { destruct chk; [|reflexivity]. cbn [andb] in *. apply Nat.ltb_ge in C. apply Nat.ltb_ge. rewrite app_length. lia. }
  destruct (slice record _ _) as [d|] eqn:Sl; [|discriminate]. rewrite (slice_more _ rest _ _ _ Sl).
  destruct (is_valid_type f d n rn); [discriminate|].
  destruct (parse_value f d n rn) as [v|e|]; [|discriminate|discriminate].
  destruct v as [z|x|u]; [|destruct (can_assign _ _ _); [apply IH; exact H|discriminate]..].
  destruct (String.eqb n "BlockDescriptorWord"); [|destruct (can_assign _ _ _); [apply IH; exact H|discriminate]].
  destruct pol; [apply IH; exact H|destruct (can_assign _ _ _); [apply IH; exact H|discriminate]|discriminate|
    destruct (can_assign _ _ _); [apply IH; exact H|discriminate]].
Qed.

Lemma seg_parse_more s record rest iv s' n : seg_parse s record iv = (s', Ok n) -> seg_parse s (record ++ rest) iv = (s', Ok n).
Proof.
  unfold seg_parse. destruct (Nat.ltb_spec (length record) (seg_length (sKind s))) as [L|L]; [discriminate|].
  rewrite app_length. destruct (Nat.ltb_spec (length record + length rest) (seg_length (sKind s))); [lia|].
  destruct (parse_fields (char_policy iv) true (seg_layout (sKind s)) (seg_rname (sKind s)) record (map fst (sFields s)) 0 (sFields s))
    as [st [[]|e|]] eqn:P; [|discriminate|discriminate].
  rewrite (parse_fields_more _ _ _ _ _ rest _ _ _ _ P). auto.
Qed.

Lemma no_segment_prefix tail rest : no_segment (tail ++ rest) -> no_segment tail.
Proof.
  intros N. destruct (Nat.le_gt_cases (length tail) 2) as [L|L]; [left; exact L|right].
  destruct N as [N|N]; [rewrite app_length in N; lia|]. intros k E. apply (N k). rewrite firstn_app.
  replace (2 - length tail)%nat with O by lia. cbn [firstn]. rewrite app_nil_r. exact E.
Qed.

Lemma read_segments_stop fuel rest off b iv : no_segment rest -> read_segments (S fuel) rest off b iv = (b, Ok off).
Proof.
  intros N. cbn [read_segments]. destruct (Nat.ltb_spec 2 (length rest)) as [L|L]; [|reflexivity].
  destruct (kind_of_identifier (firstn 2 rest)) as [k|] eqn:K; [|reflexivity].
  apply kind_of_identifier_mark in K. destruct N as [N|N]; [lia|]. exfalso. apply (N k K).
Qed.

Lemma read_segments_more iv tail rest : no_segment (tail ++ rest) -> forall ks parts,
  Forall2 (fun k p => length p = seg_size k /\ firstn 2 p = seg_mark k) ks parts ->
  forall fuel fuel' off b b' n, read_segments fuel (List.concat parts ++ tail) off b iv = (b', Ok n) ->
  (length parts < fuel')%nat ->
  read_segments fuel' (List.concat parts ++ tail ++ rest) off b iv = (b', Ok n).
Proof.
  intros N ks parts F. induction F as [|k p ks parts (Lp & Mp) F IH]; intros fuel fuel' off b b' n H L;
    (destruct fuel' as [|fuel']; [lia|]); (destruct fuel as [|fuel]; [discriminate|]).
  - cbn [List.concat app] in *. rewrite (read_segments_stop fuel' (tail ++ rest) _ _ _ N).
    rewrite (read_segments_stop fuel tail _ _ _ (no_segment_prefix _ _ N)) in H. exact H.
  - cbn [List.concat] in *. rewrite <- app_assoc in *. cbn [read_segments] in *.
    assert (forall x, firstn 2 (p ++ x) = seg_mark k) as Fx.
    { intros x. rewrite firstn_app, Lp. replace (2 - seg_size k)%nat with O by (destruct k; reflexivity).
      cbn [firstn]. rewrite app_nil_r. exact Mp. }
    assert (forall x, Nat.ltb 2 (length (p ++ x)) = true) as Lx.
    { intros x. apply Nat.ltb_lt. rewrite app_length, Lp. destruct k; cbn; lia. }
    rewrite Lx, Fx, kind_of_mark in H. rewrite Lx, Fx, kind_of_mark.
    destruct (seg_parse (new_segment k) (p ++ List.concat parts ++ tail) iv) as [s [r|e|]] eqn:Sp; [|discriminate|discriminate].
    pose proof (seg_parse_more _ _ rest _ _ _ Sp) as Sp'. rewrite <- !app_assoc in Sp'. rewrite Sp'.
    assert (r = seg_size k) as Er.
    { unfold seg_parse in Sp. cbn [new_segment sKind] in Sp.
      destruct (Nat.ltb _ _); [discriminate|]. destruct (parse_fields _ _ _ _ _ _ _ _) as [st [u|e|]]; [|discriminate|discriminate].
      injection Sp as _ <-. apply seg_length_size. }
    assert (forall x, skipn r (p ++ x) = x) as Sk.
    { intros x. rewrite Er, <- Lp, skipn_app, skipn_all, Nat.sub_diag. reflexivity. }
    rewrite Sk in H. rewrite Sk.
    destruct (base_add_segment s b) as [b1 [e|]]; [discriminate|].
    apply (IH fuel fuel' _ _ _ _ H). cbn in L. lia.
Qed.

Lemma parts_long ks parts : Forall2 (fun k p => length p = seg_size k /\ firstn 2 p = seg_mark k) ks parts ->
  (length parts <= length (List.concat parts))%nat.
Proof.
  induction 1 as [|k p ks parts (L & _) F IH]; [apply le_n|]. cbn [List.concat length]. rewrite app_length, L.
  destruct k; cbn; lia.
Qed.

Lemma base_bdw_final b bdw : base_typed b -> base_bdw_is b bdw -> base_bdw b = bdw.
Proof. intros [T _] H. unfold base_bdw. apply get_int_holds; [apply (base_nodup _ T)|exact H]. Qed.

Lemma base_char_more d rest iv b n : base_parse_char new_base d iv = (b, Ok n) -> base_typed b ->
  ends_before false b d rest -> base_parse_char new_base (d ++ rest) iv = (b, Ok n).
Proof.
  intros H T (bdw & body & ks & parts & tail & Hb & Ed & Lb & F & N). apply (base_bdw_final b bdw T) in Hb.
  unfold base_parse_char in *.
  destruct (Nat.ltb_spec (length d) UnpackedRecordLength) as [L|L]; [discriminate|].
  rewrite app_length. destruct (Nat.ltb_spec (length d + length rest) UnpackedRecordLength); [lia|].
  destruct (parse_fields (char_policy iv) true baseSegmentCharacterFormat "base segment" d (map fst (bFields new_base)) 0 (bFields new_base))
    as [st [[]|e|]] eqn:P; [|discriminate|discriminate].
  rewrite (parse_fields_more _ _ _ _ _ rest _ _ _ _ P).
  set (b1 := set_bFields new_base st) in *. set (off := if 0 <? base_bdw b1 then _ else _) in *. cbv zeta in *.
  destruct (Nat.ltb_spec (length d) off) as [L1|L1]; [discriminate|].
  destruct (Nat.ltb_spec (length d + length rest) off); [lia|].
  destruct (read_segments (S (length d)) (skipn off d) 0 (clear_j b1) iv) as [b3 [r|e|]] eqn:R; [|discriminate|discriminate].
  assert (base_bdw b1 = bdw) as E1.
  { assert (bFields b3 = bFields b1) as Ef.
    { pose proof (read_segments_fields iv (S (length d)) (skipn off d) 0 (clear_j b1)) as X. rewrite R in X. exact X. }
    assert (b = b3) as ->.
    { destruct (_ && _); [discriminate|]. destruct (_ && _); [discriminate|]. destruct (0 <? base_bdw b3); congruence. }
    unfold base_bdw in *. rewrite Ef in Hb. exact Hb. }
  assert (off = length body) as Eo by (unfold off; rewrite E1, Lb; cbn [record_size]; destruct (0 <? bdw); reflexivity).
  assert (skipn off d = List.concat parts ++ tail) as Es.
  { rewrite Ed, Eo, skipn_app, skipn_all, Nat.sub_diag. reflexivity. }
  rewrite skipn_app. replace (off - length d)%nat with O by lia. cbn [skipn].
  rewrite Es in *. rewrite <- app_assoc.
  rewrite (read_segments_more iv tail rest N ks parts F _ _ _ _ _ _ R); [exact H|].
  pose proof (parts_long _ _ F). rewrite Ed, !app_length. lia.
Qed.

Lemma base_packed_more d rest iv b n : base_parse_packed new_base d iv = (b, Ok n) -> base_typed b ->
  ends_before true b d rest -> base_parse_packed new_base (d ++ rest) iv = (b, Ok n).
Proof.
  intros H T (bdw & body & ks & parts & tail & Hb & Ed & Lb & F & N).
  unfold base_parse_packed in *.
  destruct (Nat.ltb_spec (length d) PackedRecordLength) as [L|L]; [discriminate|].
  rewrite app_length. destruct (Nat.ltb_spec (length d + length rest) PackedRecordLength); [lia|].
  destruct (parse_fields (if iv then BdwShift else BdwError) true baseSegmentPackedFormat "packed base segment" d (map fst (bFields new_base)) 0 (bFields new_base))
    as [st [[]|e|]] eqn:P; [|discriminate|discriminate].
  rewrite (parse_fields_more _ _ _ _ _ rest _ _ _ _ P).
  set (b1 := set_bFields new_base st) in *. set (off := (PackedRecordLength + 4)%nat) in *. cbv zeta in *.
  destruct (Nat.ltb_spec (length d) off) as [L1|L1]; [discriminate|].
  destruct (Nat.ltb_spec (length d + length rest) off); [lia|].
  destruct (read_segments (S (length d)) (skipn off d) 0 (clear_j b1) iv) as [b3 [r|e|]] eqn:R; [|discriminate|discriminate].
  assert (off = length body) as Eo by (rewrite Lb; reflexivity).
  assert (skipn off d = List.concat parts ++ tail) as Es.
  { rewrite Ed, Eo, skipn_app, skipn_all, Nat.sub_diag. reflexivity. }
  rewrite skipn_app. replace (off - length d)%nat with O by lia. cbn [skipn].
  rewrite Es in *. rewrite <- app_assoc.
  rewrite (read_segments_more iv tail rest N ks parts F _ _ _ _ _ _ R); [exact H|].
  pose proof (parts_long _ _ F). rewrite Ed, !app_length. lia.
Qed.

Lemma base_record_more p b d rest iv n : record_parse (RBase p new_base) d iv = (RBase p b, Ok n) -> base_typed b ->
  ends_before p b d rest -> record_parse (RBase p new_base) (d ++ rest) iv = (RBase p b, Ok n).
Proof.
  cbn [record_parse]. intros H T E.
  destruct ((if p then base_parse_packed else base_parse_char) new_base d iv) as [b' x] eqn:P. injection H as -> ->.
  destruct p; [rewrite (base_packed_more d rest iv b n P T E)|rewrite (base_char_more d rest iv b n P T E)]; reflexivity.
Qed.

Lemma blocked_more h rest : (15 < length h)%nat -> is_variable_length (h ++ rest) = is_variable_length h.
Proof.
  intros L. unfold is_variable_length. rewrite app_length.
  rewrite (proj2 (Nat.ltb_lt 15 (length h)) L), (proj2 (Nat.ltb_lt 15 (length h + length rest)) ltac:(lia)). cbn [andb].
  rewrite skipn_app, firstn_app, skipn_length. replace (6 - (length h - 8))%nat with O by lia. cbn [firstn]. rewrite app_nil_r. reflexivity.
Qed.

Lemma header_record_more p h0 h d rest iv n : record_parse (RHeader p h0) d iv = (h, Ok n) ->
  record_parse (RHeader p h0) (d ++ rest) iv = (h, Ok n).
Proof.
  cbn [record_parse]. destruct p.
  - unfold header_parse_packed. destruct (Nat.ltb_spec (length d) PackedRecordLength) as [L|L]; [discriminate|].
    rewrite app_length. destruct (Nat.ltb_spec (length d + length rest) PackedRecordLength); [lia|].
    rewrite blocked_more by (unfold PackedRecordLength in L; lia).
    destruct (parse_fields _ true headerRecordPackedFormat "packed header record" d (map fst h0) 0 h0) as [st [[]|e|]] eqn:P;
      [|discriminate|discriminate].
    rewrite (parse_fields_more _ _ _ _ _ rest _ _ _ _ P). auto.
  - unfold header_parse_char. destruct (Nat.ltb_spec (length d) UnpackedRecordLength) as [L|L]; [discriminate|].
    rewrite app_length. destruct (Nat.ltb_spec (length d + length rest) UnpackedRecordLength); [lia|].
    destruct (parse_fields _ true headerRecordCharacterFormat "header record" d (map fst h0) 0 h0) as [st [[]|e|]] eqn:P;
      [|discriminate|discriminate].
    rewrite (parse_fields_more _ _ _ _ _ rest _ _ _ _ P). auto.
Qed.

(* ---- File.Parse on a stream ---- *)

Lemma base_announced_unique p b n m : base_typed b -> announces (RBase p b) n -> announces (RBase p b) m -> n = m.
Proof.
  intros [T _] A B. destruct b as [st ? ? ? ? ? ? ? ?]. cbn [announces bFields] in *.
  destruct A as (x & y & Hx & Hy & A1 & A2), B as (x' & y' & Hx' & Hy' & B1 & B2).
  assert (x = x') as <- by (eapply holds_inj; [apply (base_nodup _ T)|exact Hx|exact Hx']).
  assert (y = y') as <- by (eapply holds_inj; [apply (base_nodup _ T)|exact Hy|exact Hy']).
  destruct (Z.lt_ge_cases 0 x) as [L|L]; [rewrite A1, B1 by lia|rewrite A2, B2 by lia]; reflexivity.
Qed.

Lemma base_read_typed p b d iv n : record_parse (RBase p new_base) d iv = (RBase p b, Ok n) -> base_typed b.
Proof.
  intros H. pose proof (record_parse_ok (RBase p new_base) d iv new_base_ok) as [O _]. rewrite H in O. exact (proj1 O).
Qed.

Lemma sized_pos r : sized_record r -> (0 < length r)%nat.
Proof. intros (w & rest & _ & _ & W). apply word_says_min in W. lia. Qed.

Lemma parse_loop_streamed p iv t : sized_record t -> (exists b e, record_parse (RBase p new_base) t iv = (b, Err e)) ->
  forall ds bs, apart p t ds bs -> Forall sized_record ds ->
  Forall2 (fun d b => exists n, record_parse (RBase p new_base) d iv = (b, Ok n)) ds bs ->
  Forall2 (fun d b => announces b (Z.of_nat (length d))) ds bs ->
  forall acc pre fuel, (0 < length pre)%nat -> (length ds < fuel)%nat ->
  parse_loop fuel p (pre ++ List.concat ds ++ t) iv (Z.of_nat (length pre)) acc
  = LBreak (acc ++ bs) (Z.of_nat (length pre + length (List.concat ds))).
Proof.
  intros Gt (bt & e & Et) ds bs Ap. induction Ap as [|d ds b bs E Ap IH]; intros Gd F2 An acc pre fuel Lp Lf;
    (destruct fuel as [|fuel]; [lia|]); cbn [parse_loop].
  - cbn [List.concat app length]. pose proof (sized_pos t Gt).
    assert ((Z.of_nat (length pre) <=? 0) || (Z.of_nat (length (pre ++ t)) <=? Z.of_nat (length pre)) = false) as ->.
    { rewrite app_length. apply orb_false_iff. split; apply Z.leb_gt; lia. }
    rewrite Nat2Z.id, skipn_app, skipn_all, Nat.sub_diag. cbn [skipn app].
    unfold new_data_record. rewrite Et, app_nil_r, Nat.add_0_r. reflexivity.
  - inversion Gd as [|? ? Gd1 Gd2]; subst. inversion F2 as [|? ? ? ? (n & P) F2']; subst. inversion An as [|? ? ? ? A An']; subst.
    pose proof (sized_pos d Gd1). cbn [List.concat]. rewrite <- app_assoc.
    assert ((Z.of_nat (length pre) <=? 0) || (Z.of_nat (length (pre ++ d ++ List.concat ds ++ t)) <=? Z.of_nat (length pre)) = false) as ->.
    { rewrite !app_length. apply orb_false_iff. split; apply Z.leb_gt; lia. }
    rewrite Nat2Z.id, skipn_app, skipn_all, Nat.sub_diag. cbn [skipn app].
    pose proof (base_read_typed _ _ _ _ _ P) as T.
    assert (n = Z.of_nat (length d)) as ->.
    { eapply base_announced_unique; [exact T| |exact A]. apply (base_announces p b d iv n P). }
    unfold new_data_record. rewrite (base_record_more p b d _ iv _ P T E).
    rewrite <- Nat2Z.inj_add, <- app_length, app_assoc.
    rewrite IH; [|assumption..|rewrite app_length; lia|cbn in Lf; lia].
    rewrite <- app_assoc. cbn [app]. f_equal. rewrite !app_length. lia.
Qed.

Lemma header_read_size p st d iv n m : record_parse (RHeader p new_header) d iv = (RHeader p st, Ok n) ->
  announces (RHeader p st) m -> n = m.
Proof.
  intros H (x & y & Hx & Hy & A1 & A2).
  pose proof (record_parse_ok (RHeader p new_header) d iv new_header_typed) as [T _]. rewrite H in T. cbn [fst record_ok] in T.
  pose proof (get_int_holds _ _ _ (header_nodup _ T) Hx) as Gx. pose proof (get_int_holds _ _ _ (header_nodup _ T) Hy) as Gy.
  cbn [record_parse] in H. assert (header_result st = Ok n) as R.
  { destruct p; [unfold header_parse_packed in H|unfold header_parse_char in H];
      destruct (Nat.ltb _ _); try discriminate; destruct (parse_fields _ _ _ _ _ _ _ _) as [st' [u|e|]]; try discriminate;
      injection H as -> H; exact H. }
  unfold header_result, header_bdw, header_rdw in R. rewrite Gx, Gy in R.
  destruct (Z.ltb_spec 0 x) as [L|L]; injection R as <-; [rewrite A1|rewrite A2]; auto.
Qed.

Lemma trailer_read_size p st d iv n m : record_parse (RTrailer p new_trailer) d iv = (RTrailer p st, Ok n) ->
  announces (RTrailer p st) m -> n = m.
Proof.
  intros H A. cbn [announces] in A.
  pose proof (record_parse_ok (RTrailer p new_trailer) d iv new_trailer_typed) as [T _]. rewrite H in T. cbn [fst record_ok] in T.
  pose proof (get_int_holds _ _ _ (trailer_nodup _ T) A) as G. cbn [record_parse] in H.
  destruct p; [unfold trailer_parse_packed in H|unfold trailer_parse_char in H];
    destruct (Nat.ltb _ _); try discriminate; destruct (parse_fields _ _ _ _ _ _ _ _) as [st' [u|e|]]; try discriminate;
    injection H as -> H; unfold trailer_rdw in H; congruence.
Qed.

Lemma record_parse_header p h data iv r x : record_parse (RHeader p h) data iv = (r, x) -> exists st, r = RHeader p st.
Proof. cbn [record_parse]. destruct ((if p then _ else _) _ _ _). intros [= <- <-]. eauto. Qed.

Lemma record_parse_trailer p h data iv r x : record_parse (RTrailer p h) data iv = (r, x) -> exists st, r = RTrailer p st.
Proof. cbn [record_parse]. destruct ((if p then _ else _) _ _ _). intros [= <- <-]. eauto. Qed.

Lemma streamed_parsed s f h ds t blk : streamed s f h ds t [] blk ->
  announces (flHeader f) (Z.of_nat (length h)) ->
  Forall2 (fun d b => announces b (Z.of_nat (length d))) ds (flBases f) ->
  announces (flTrailer f) (Z.of_nat (length t)) ->
  apart (flPacked f) t ds (flBases f) ->
  forall fuel, (length ds < fuel)%nat -> file_parse fuel (new_file_p (flPacked f)) s blk = Some (f, Ok tt).
Proof.
  destruct f as [p fh fb ft]. cbn [flPacked flHeader flBases flTrailer].
  intros (U & Gh & Gd & Gt & _ & _ & _ & (n & Ph) & F2 & Nt & (m & Pt)) Ah Ab At Ap fuel Lf.
  cbn [flPacked flHeader flBases flTrailer] in *.
  destruct (record_parse_header _ _ _ _ _ _ Ph) as (hs & ->). destruct (record_parse_trailer _ _ _ _ _ _ Pt) as (ts & ->).
  pose proof (header_read_size _ _ _ _ _ _ Ph Ah) as ->. pose proof (trailer_read_size _ _ _ _ _ _ Pt At) as ->.
  pose proof (sized_pos h Gh). pose proof (sized_pos t Gt).
  apply strip_unbroken in U. rewrite app_nil_r in U. unfold file_parse. rewrite <- U.
  cbn [set_bases new_file_p flHeader flPacked flTrailer].
  rewrite (header_record_more p _ _ h (List.concat ds ++ t) blk _ Ph).
  rewrite (parse_loop_streamed p blk t Gt Nt ds fb Ap Gd F2 Ab [] h fuel); [|assumption..].
  cbn [app set_header set_bases flTrailer].
  assert ((Z.of_nat (length h + length (List.concat ds)) <=? 0)
    || (Z.of_nat (length (h ++ List.concat ds ++ t)) <=? Z.of_nat (length h + length (List.concat ds))) = false) as ->.
  { rewrite !app_length. apply orb_false_iff. split; apply Z.leb_gt; lia. }
  assert (skipn (length h + length (List.concat ds)) (h ++ List.concat ds ++ t) = t) as Sk.
  { rewrite <- app_length, app_assoc, skipn_app, skipn_all, Nat.sub_diag. reflexivity. }
  rewrite Nat2Z.id, Sk. unfold set_bases, set_header, new_file_p. cbn [flTrailer flPacked flHeader flBases]. rewrite Pt.
  assert (Z.of_nat (length h + length (List.concat ds)) + Z.of_nat (length t) = Z.of_nat (length (h ++ List.concat ds ++ t))) as ->
    by (rewrite !app_length; lia).
  rewrite Z.eqb_refl. reflexivity.
Qed.

(* ---- a record read from a longer text can be read by itself ---- *)

Lemma slice_less s rest a b : (b <= length s)%nat -> slice (s ++ rest) a b = slice s a b.
Proof.
  intros L. unfold slice. rewrite app_length. destruct (Nat.leb_spec a b) as [L1|L1]; [|reflexivity].
  destruct (Nat.leb_spec b (length s + length rest)); [|lia]. destruct (Nat.leb_spec b (length s)); [|lia]. cbn [andb]. f_equal.
  rewrite skipn_app, firstn_app, skipn_length. replace (b - a - (length s - a))%nat with O by lia. cbn [firstn]. apply app_nil_r.
Qed.

(* how far the block descriptor words push the fields *)
Definition shifts (pol : bdw_policy) (names : list string) : nat :=
  match pol with BdwShift => 4 * count_occ string_dec names "BlockDescriptorWord" | _ => 0 end%nat.

Lemma shifts_cons pol n names : (shifts pol names <= shifts pol (n :: names))%nat.
Proof. unfold shifts. destruct pol; try apply le_n. cbn [count_occ]. destruct (string_dec _ _); lia. Qed.

Lemma parse_fields_less pol chk l rn record rest m :
  (forall n f, lookup n l = Some f -> (fStart f + fLength f <= m)%nat) ->
  forall names off st, (m + off + shifts pol names <= length record)%nat ->
  parse_fields pol chk l rn (record ++ rest) names off st = parse_fields pol chk l rn record names off st.
Proof.
  intros B. induction names as [|n names IH]; intros off st L; [reflexivity|]. cbn [parse_fields].
  destruct (lookup n l) as [f|] eqn:Lk; [|reflexivity]. specialize (B n f Lk).
  pose proof (shifts_cons pol n names) as Sc.
  assert (Nat.ltb (length (record ++ rest)) (fStart f + fLength f + off) = false) as -> by (apply Nat.ltb_ge; rewrite app_length; lia).
  assert (Nat.ltb (length record) (fStart f + fLength f + off) = false) as -> by (apply Nat.ltb_ge; lia).
  rewrite slice_less by lia. rewrite andb_false_r.
  destruct (slice record _ _) as [d|]; [|reflexivity]. destruct (is_valid_type f d n rn); [reflexivity|].
  destruct (parse_value f d n rn) as [v|e|]; [|reflexivity|reflexivity]. cbv zeta.
  rewrite !(IH off) by lia. destruct v as [z|x|u]; [|reflexivity|reflexivity].
  destruct (String.eqb_spec n "BlockDescriptorWord") as [->|Ne]; [|reflexivity].
  destruct pol; try reflexivity. rewrite (IH (off + 4)%nat); [reflexivity|].
  unfold shifts in *. cbn [count_occ] in L. destruct (string_dec _ _); [lia|congruence].
Qed.

Lemma layout_ends_spec l m : forallb (fun x => Nat.leb (fStart (snd x) + fLength (snd x)) m) l = true ->
  forall n f, lookup n l = Some f -> (fStart f + fLength f <= m)%nat.
Proof.
  intros H n f Lk. apply lookup_In in Lk. rewrite forallb_forall in H. specialize (H _ Lk). apply Nat.leb_le in H. exact H.
Qed.

Lemma seg_ends k : forall n f, lookup n (seg_layout k) = Some f -> (fStart f + fLength f <= seg_size k)%nat.
Proof. apply layout_ends_spec. destruct k; vm_compute; reflexivity. Qed.

Lemma seg_no_shift k iv : shifts (char_policy iv) (map fst (sFields (new_segment k))) = 0%nat.
Proof. destruct k, iv; vm_compute; reflexivity. Qed.

Lemma seg_parse_less k x y iv : (seg_size k <= length x)%nat ->
  seg_parse (new_segment k) (x ++ y) iv = seg_parse (new_segment k) x iv.
Proof.
  intros L. unfold seg_parse. assert (sKind (new_segment k) = k) as -> by reflexivity. rewrite seg_length_size, app_length.
  destruct (Nat.ltb_spec (length x + length y) (seg_size k)); [lia|]. destruct (Nat.ltb_spec (length x) (seg_size k)); [lia|].
  rewrite (parse_fields_less _ _ _ _ x y (seg_size k) (seg_ends k)); [reflexivity|]. rewrite seg_no_shift. lia.
Qed.

Lemma seg_parse_size k x iv s r : seg_parse (new_segment k) x iv = (s, Ok r) -> r = seg_size k /\ (seg_size k <= length x)%nat.
Proof.
  unfold seg_parse. assert (sKind (new_segment k) = k) as -> by reflexivity. rewrite seg_length_size.
  destruct (Nat.ltb_spec (length x) (seg_size k)); [discriminate|].
  destruct (parse_fields _ _ _ _ _ _ _ _) as [st [u|e|]]; [|discriminate|discriminate]. intros [= _ <-]. auto.
Qed.

Lemma read_segments_grow iv : forall fuel x off b b' n, read_segments fuel x off b iv = (b', Ok n) -> (off <= n)%nat.
Proof.
  induction fuel as [|fuel IH]; intros x off b b' n H; [discriminate|]. cbn [read_segments] in H.
  destruct (Nat.ltb _ _); [|injection H as _ <-; lia]. destruct (kind_of_identifier _) as [k|]; [|injection H as _ <-; lia].
  destruct (seg_parse _ _ _) as [s [r|e|]]; [|discriminate|discriminate].
  destruct (base_add_segment s b) as [b1 [e|]]; [discriminate|]. apply IH in H. lia.
Qed.

Lemma read_segments_less iv y : forall fuel x off b b' n, read_segments fuel (x ++ y) off b iv = (b', Ok n) ->
  (n <= off + length x)%nat -> forall fuel', (length x < fuel')%nat -> read_segments fuel' x off b iv = (b', Ok n).
Proof.
  induction fuel as [|fuel IH]; intros x off b b' n H L fuel' Lf; [discriminate|].
  destruct fuel' as [|fuel']; [lia|]. cbn [read_segments] in *.
  destruct (Nat.ltb_spec 2 (length x)) as [L2|L2].
  - assert (firstn 2 (x ++ y) = firstn 2 x) as F2.
    { rewrite firstn_app. replace (2 - length x)%nat with O by lia. cbn [firstn]. apply app_nil_r. }
    assert (Nat.ltb 2 (length (x ++ y)) = true) as Lt by (apply Nat.ltb_lt; rewrite app_length; lia).
    rewrite Lt, F2 in H. destruct (kind_of_identifier (firstn 2 x)) as [k|]; [|exact H].
    destruct (seg_parse (new_segment k) (x ++ y) iv) as [s [r|e|]] eqn:Sp; [|discriminate|discriminate].
    destruct (seg_parse_size _ _ _ _ _ Sp) as [-> _].
    destruct (base_add_segment s b) as [b1 [e|]] eqn:Ad; [discriminate|].
    pose proof (read_segments_grow _ _ _ _ _ _ _ H) as G.
    assert (seg_size k <= length x)%nat as Lk by lia.
    rewrite (seg_parse_less k x y iv Lk) in Sp. rewrite Sp, Ad.
    rewrite skipn_app in H. replace (seg_size k - length x)%nat with O in H by lia. cbn [skipn] in H.
    assert (0 < seg_size k)%nat as Lk0 by (destruct k; cbn; lia).
    apply (IH _ _ _ _ _ H); rewrite skipn_length; lia.
  - destruct (Nat.ltb 2 (length (x ++ y))); [|exact H].
    destruct (kind_of_identifier (firstn 2 (x ++ y))) as [k|]; [|exact H]. exfalso.
    destruct (seg_parse (new_segment k) (x ++ y) iv) as [s [r|e|]] eqn:Sp; [|discriminate|discriminate].
    destruct (seg_parse_size _ _ _ _ _ Sp) as [-> _].
    destruct (base_add_segment s b) as [b1 [e|]] eqn:Ad; [discriminate|].
    apply read_segments_grow in H. destruct k; cbn in H; lia.
Qed.

Lemma body_shift iv : (shifts (char_policy iv) (map fst (bFields new_base)) = if iv then 4 else 0)%nat.
Proof. destruct iv; vm_compute; reflexivity. Qed.

Lemma base_char_ends : forall n f, lookup n baseSegmentCharacterFormat = Some f -> (fStart f + fLength f <= UnpackedRecordLength)%nat.
Proof. apply layout_ends_spec. vm_compute. reflexivity. Qed.

Lemma base_packed_ends : forall n f, lookup n baseSegmentPackedFormat = Some f -> (fStart f + fLength f <= PackedRecordLength)%nat.
Proof. apply layout_ends_spec. vm_compute. reflexivity. Qed.

Lemma base_char_less d rest iv b : (iv = true -> 0 < base_bdw b) ->
  base_parse_char new_base (d ++ rest) iv = (b, Ok (Z.of_nat (length d))) ->
  base_parse_char new_base d iv = (b, Ok (Z.of_nat (length d))).
Proof.
  intros Iv H.
  assert (iv = false -> base_bdw b = 0) as Z0.
  { intros ->. assert (base_parse_char new_base (d ++ rest) false = (b, Ok (Z.of_nat (length d)))) as E by exact H.
    apply base_read_char in E; [|apply new_base_with].
    destruct E as ([[T _] _] & _ & bdw & rdw & z' & pre & segs & parts & r & B & R & _ & Hz & _).
    apply (get_int_holds _ _ _ (base_nodup _ T)) in B. unfold base_bdw. rewrite B.
    eapply (holds_inj _ BDW); [|exact Hz|].
    - apply (nodupb_NoDup (map fst (bFields new_base))). vm_compute. reflexivity.
    - apply lookup_In. vm_compute. reflexivity. }
  unfold base_parse_char in *. rewrite app_length in H.
  destruct (Nat.ltb_spec (length d + length rest) UnpackedRecordLength) as [L|L]; [discriminate|].
  destruct (parse_fields (char_policy iv) true baseSegmentCharacterFormat "base segment" (d ++ rest) (map fst (bFields new_base)) 0 (bFields new_base))
    as [st [u|e|]] eqn:P; [|discriminate|discriminate].
  set (b1 := set_bFields new_base st) in *. set (off := if 0 <? base_bdw b1 then _ else _) in *. cbv zeta in *.
  destruct (Nat.ltb_spec (length d + length rest) off) as [L1|L1]; [discriminate|].
  destruct (read_segments (S (length d + length rest)) (skipn off (d ++ rest)) 0 (clear_j b1) iv) as [b3 [r|e|]] eqn:R; [|discriminate|discriminate].
  assert (base_bdw b3 = base_bdw b1) as E3.
  { pose proof (read_segments_fields iv (S (length d + length rest)) (skipn off (d ++ rest)) 0 (clear_j b1)) as X. rewrite R in X.
    unfold base_bdw. cbn [fst] in X. rewrite X. reflexivity. }
  destruct ((0 <? base_bdw b3) && (base_bdw b3 <? Z.of_nat (r + off))) eqn:C1; [discriminate|].
  destruct ((base_bdw b3 =? 0) && (base_rdw b3 <? Z.of_nat (r + off))) eqn:C2; [discriminate|].
  assert (b3 = b) as Eb by (destruct (0 <? base_bdw b3); congruence).
  assert (off = if iv then UnpackedRecordLength + 4 else UnpackedRecordLength)%nat as Eo.
  { unfold off. rewrite <- E3, Eb. destruct iv; [specialize (Iv eq_refl)|specialize (Z0 eq_refl)];
      destruct (Z.ltb_spec 0 (base_bdw b)); try reflexivity; lia. }
  assert (r + off <= length d)%nat as Lr.
  { destruct (Z.ltb_spec 0 (base_bdw b3)) as [Lb|Lb]; cbn [andb] in C1; injection H as _ H.
    - apply Z.ltb_ge in C1. lia.
    - destruct iv; [specialize (Iv eq_refl); rewrite <- Eb in Iv; lia|]. specialize (Z0 eq_refl). rewrite <- Eb in Z0.
      rewrite Z0 in C2. cbn [Z.eqb andb] in C2. apply Z.ltb_ge in C2. lia. }
  assert (UnpackedRecordLength <= off)%nat as Lo by (rewrite Eo; destruct iv; lia).
  destruct (Nat.ltb_spec (length d) UnpackedRecordLength); [lia|].
  rewrite (parse_fields_less _ _ _ _ d rest UnpackedRecordLength base_char_ends) in P
    by (rewrite body_shift; rewrite Eo in Lr; destruct iv; lia).
  rewrite P. fold b1. fold off. cbv zeta.
  destruct (Nat.ltb_spec (length d) off); [lia|].
  rewrite skipn_app in R. replace (off - length d)%nat with O in R by lia. cbn [skipn] in R.
  rewrite (read_segments_less iv rest _ _ _ _ _ _ R); [|rewrite skipn_length; lia..].
  rewrite C1, C2. exact H.
Qed.

Lemma base_packed_less d rest iv b :
  base_parse_packed new_base (d ++ rest) iv = (b, Ok (Z.of_nat (length d))) ->
  base_parse_packed new_base d iv = (b, Ok (Z.of_nat (length d))).
Proof.
  intros H. unfold base_parse_packed in *. rewrite app_length in H.
  destruct (Nat.ltb_spec (length d + length rest) PackedRecordLength) as [L|L]; [discriminate|].
  destruct (parse_fields (if iv then BdwShift else BdwError) true baseSegmentPackedFormat "packed base segment" (d ++ rest) (map fst (bFields new_base)) 0 (bFields new_base))
    as [st [u|e|]] eqn:P; [|discriminate|discriminate].
  set (b1 := set_bFields new_base st) in *. set (off := (PackedRecordLength + 4)%nat) in *. cbv zeta in *.
  destruct (Nat.ltb_spec (length d + length rest) off) as [L1|L1]; [discriminate|].
  destruct (read_segments (S (length d + length rest)) (skipn off (d ++ rest)) 0 (clear_j b1) iv) as [b3 [r|e|]] eqn:R; [|discriminate|discriminate].
  destruct (base_bdw b3 <? Z.of_nat (r + off)) eqn:C1; [discriminate|].
  assert (r + off <= length d)%nat as Lr by (apply Z.ltb_ge in C1; injection H as _ H; lia).
  assert (PackedRecordLength + 4 <= length d)%nat as Ld by (fold off; lia).
  destruct (Nat.ltb_spec (length d) PackedRecordLength); [lia|].
  rewrite (parse_fields_less _ _ _ _ d rest PackedRecordLength base_packed_ends) in P.
  2:{ replace (shifts (if iv then BdwShift else BdwError) (map fst (bFields new_base))) with (if iv then 4 else 0)%nat
        by (destruct iv; vm_compute; reflexivity). destruct iv; lia. }
  rewrite P. fold b1. cbv zeta.
  destruct (Nat.ltb_spec (length d) off); [lia|].
  rewrite skipn_app in R. replace (off - length d)%nat with O in R by lia. cbn [skipn] in R.
  rewrite (read_segments_less iv rest _ _ _ _ _ _ R); [|rewrite skipn_length; lia..].
  rewrite C1. exact H.
Qed.

Lemma loop_extends p record iv : forall fuel o acc bs off, parse_loop fuel p record iv o acc = LBreak bs off ->
  exists new, bs = acc ++ new.
Proof.
  induction fuel as [|fuel IH]; intros o acc bs off H; [discriminate|]. cbn [parse_loop] in H.
  destruct (_ || _); [discriminate|].
  destruct (record_parse _ _ _) as [b [n|e|]]; [|injection H as <- _; exists []; symmetry; apply app_nil_r|discriminate].
  apply IH in H as (new & ->). exists (b :: new). rewrite <- app_assoc. reflexivity.
Qed.

Lemma loop_inside p record iv fuel o acc bs off : parse_loop fuel p record iv o acc = LBreak bs off ->
  0 < o < Z.of_nat (length record).
Proof.
  destruct fuel as [|fuel]; [discriminate|]. cbn [parse_loop]. destruct (_ || _) eqn:E; [discriminate|]. intros _.
  apply orb_false_iff in E as [A B]. apply Z.leb_gt in A, B. lia.
Qed.

Lemma block_given_bdw p b : base_typed b -> block_given (RBase p b) -> 0 < base_bdw b.
Proof.
  intros T (q & b' & z & E & B & L). injection E as _ ->. rewrite (base_bdw_final _ _ T B). exact L.
Qed.

Lemma base_record_less p b d rest iv : (iv = true -> block_given (RBase p b)) ->
  record_parse (RBase p new_base) (d ++ rest) iv = (RBase p b, Ok (Z.of_nat (length d))) ->
  record_parse (RBase p new_base) d iv = (RBase p b, Ok (Z.of_nat (length d))).
Proof.
  intros Iv H. pose proof (base_read_typed _ _ _ _ _ H) as T. cbn [record_parse] in *.
  destruct ((if p then base_parse_packed else base_parse_char) new_base (d ++ rest) iv) as [b' x] eqn:P. injection H as -> ->.
  destruct p; [rewrite (base_packed_less d rest iv b P)|rewrite (base_char_less d rest iv b)]; [reflexivity|reflexivity| |exact P].
  intros E. apply (block_given_bdw false); auto.
Qed.

Lemma base_read_positive p b d iv n : (iv = true -> block_given (RBase p b)) ->
  record_parse (RBase p new_base) d iv = (RBase p b, Ok n) -> 0 < n.
Proof.
  intros Iv H. pose proof (base_read_typed _ _ _ _ _ H) as T. destruct (base_announces p b d iv n H) as [A Pos].
  destruct p; [apply Pos; auto|]. destruct iv; [|apply Pos; auto].
  destruct (Iv eq_refl) as (q & b' & z & E & B & L). injection E as _ <-.
  assert (n = z) as ->; [|exact L].
  destruct b as [st ? ? ? ? ? ? ? ?]. destruct A as (x & y & Hx & Hy & A1 & A2).
  assert (x = z) as -> by (eapply holds_inj; [apply (base_nodup _ (proj1 T))|exact Hx|exact B]). auto.
Qed.

Lemma parse_loop_split p iv : forall fuel pre x acc bs off,
  parse_loop fuel p (pre ++ x) iv (Z.of_nat (length pre)) acc = LBreak bs off ->
  (iv = true -> Forall block_given bs) ->
  exists ds t new, x = List.concat ds ++ t /\ bs = acc ++ new
    /\ off = Z.of_nat (length pre + length (List.concat ds))
    /\ Forall2 (fun d b => record_parse (RBase p new_base) d iv = (b, Ok (Z.of_nat (length d)))) ds new
    /\ (exists b e, record_parse (RBase p new_base) t iv = (b, Err e)).
Proof.
  induction fuel as [|fuel IH]; intros pre x acc bs off H F; [discriminate|]. cbn [parse_loop] in H.
  destruct (_ || _); [discriminate|].
  rewrite Nat2Z.id, skipn_app, skipn_all, Nat.sub_diag in H. cbn [skipn app] in H.
  destruct (record_parse (new_data_record p) x iv) as [r [n|e|]] eqn:P; [| |discriminate].
  2:{ injection H as <- <-. exists [], x, []. cbn [List.concat app length]. rewrite app_nil_r, Nat.add_0_r.
      repeat split; [constructor|]. exists r, e. exact P. }
  destruct (record_parse_base _ _ _ _ _ P) as (b & ->). unfold new_data_record in P.
  pose proof (loop_extends _ _ _ _ _ _ _ _ H) as (new' & Eb).
  assert (iv = true -> block_given (RBase p b)) as Bg.
  { intros E. specialize (F E). rewrite Eb in F. rewrite Forall_forall in F. apply F. rewrite !in_app_iff. left. right. left. reflexivity. }
  pose proof (base_read_positive _ _ _ _ _ Bg P) as Pos.
  pose proof (loop_inside _ _ _ _ _ _ _ _ H) as In. rewrite app_length in In.
  set (d := firstn (Z.to_nat n) x). set (y := skipn (Z.to_nat n) x).
  assert (x = d ++ y) as Ex by (symmetry; apply firstn_skipn).
  assert (length d = Z.to_nat n) as Ld by (unfold d; rewrite firstn_length; lia).
  assert (n = Z.of_nat (length d)) as En by lia.
  rewrite En, <- Nat2Z.inj_add, <- app_length in H. rewrite Ex, app_assoc in H.
  apply IH in H; [|exact F]. destruct H as (ds & t & new & Ey & Eb' & Eo & F2 & Nt).
  exists (d :: ds), t, (RBase p b :: new). cbn [List.concat]. split; [rewrite <- app_assoc, <- Ey; exact Ex|].
  split; [rewrite Eb', <- app_assoc; reflexivity|]. split; [rewrite Eo, !app_length; f_equal; lia|].
  split; [|exact Nt]. constructor; [|exact F2]. apply (base_record_less p b d y iv Bg). rewrite <- Ex, <- En. exact P.
Qed.

Lemma header_ends (p : bool) : forall n f, lookup n (if p then headerRecordPackedFormat else headerRecordCharacterFormat) = Some f ->
  (fStart f + fLength f <= record_size p)%nat.
Proof. apply layout_ends_spec. destruct p; vm_compute; reflexivity. Qed.

Lemma header_record_less p d rest (iv : bool) r n : (record_size p + (if iv then 4 else 0) <= length d)%nat ->
  (p = true -> iv = is_variable_length d) ->
  record_parse (RHeader p new_header) (d ++ rest) iv = (r, Ok n) -> record_parse (RHeader p new_header) d iv = (r, Ok n).
Proof.
  intros L Ev H. cbn [record_parse] in *. destruct p.
  - unfold header_parse_packed in *. change (record_size true) with PackedRecordLength in L.
    rewrite blocked_more in H by (unfold PackedRecordLength in L; lia). rewrite <- (Ev eq_refl) in *. rewrite app_length in H.
    destruct (Nat.ltb_spec (length d + length rest) PackedRecordLength); [discriminate|].
    destruct (Nat.ltb_spec (length d) PackedRecordLength); [lia|].
    rewrite (parse_fields_less _ _ _ _ d rest PackedRecordLength (header_ends true)) in H; [exact H|].
    replace (shifts (if iv then BdwShift else BdwError) (map fst new_header)) with (if iv then 4 else 0)%nat
      by (destruct iv; vm_compute; reflexivity). destruct iv; lia.
  - unfold header_parse_char in *. change (record_size false) with UnpackedRecordLength in L. rewrite app_length in H.
    destruct (Nat.ltb_spec (length d + length rest) UnpackedRecordLength); [discriminate|].
    destruct (Nat.ltb_spec (length d) UnpackedRecordLength); [lia|].
    rewrite (parse_fields_less _ _ _ _ d rest UnpackedRecordLength (header_ends false)) in H; [exact H|].
    replace (shifts (char_policy iv) (map fst new_header)) with (if iv then 4 else 0)%nat
      by (destruct iv; vm_compute; reflexivity). destruct iv; lia.
Qed.

Lemma header_announces p st d iv n : record_parse (RHeader p new_header) d iv = (RHeader p st, Ok n) -> announces (RHeader p st) n.
Proof.
  intros H. cbn [record_parse] in H. destruct ((if p then header_parse_packed else header_parse_char) new_header d iv) as [h' x] eqn:E. injection H as -> ->.
  apply header_read in E as (_ & _ & _ & bdw & rdw & z' & B & R & _ & _ & En & _); [|exact new_header_typed].
  exists bdw, rdw. split; [exact B|]. split; [exact R|]. subst n.
  destruct (Z.ltb_spec 0 bdw); split; intros; (reflexivity || lia).
Qed.

Lemma trailer_announces p st d iv n : record_parse (RTrailer p new_trailer) d iv = (RTrailer p st, Ok n) -> announces (RTrailer p st) n.
Proof.
  intros H. cbn [record_parse] in H. destruct ((if p then trailer_parse_packed else trailer_parse_char) new_trailer d iv) as [h' x] eqn:E. injection H as -> ->.
  apply trailer_read in E as (_ & _ & _ & R & _); [exact R|exact new_trailer_typed].
Qed.

Lemma parsed_streamed fuel p s blk f : file_parse fuel (new_file_p p) s blk = Some (f, Ok tt) ->
  (blk = true -> Forall block_given (flBases f)) ->
  exists h ds t, unbroken s (h ++ List.concat ds ++ t) /\ flPacked f = p
    /\ announces (flHeader f) (Z.of_nat (length h))
    /\ Forall2 (fun d b => announces b (Z.of_nat (length d))) ds (flBases f)
    /\ announces (flTrailer f) (Z.of_nat (length t))
    /\ (says_header h -> (p = true <-> says_packed h) -> (blk = true <-> says_blocked h) ->
        sized_record h -> Forall sized_record ds -> sized_record t ->
        (record_size p + (if blk then 4 else 0) <= length h)%nat -> streamed s f h ds t [] blk).
Proof.
  intros H Bg. unfold file_parse in H. cbn [set_bases new_file_p flHeader flPacked flTrailer] in H.
  destruct (record_parse (RHeader p new_header) (strip s) blk) as [fh [hd|e|]] eqn:Ph; [|discriminate|discriminate].
  destruct (parse_loop fuel p (strip s) blk hd []) as [bs off|bs e| |] eqn:Pl; try discriminate.
  destruct (_ || _) eqn:Eo; [discriminate|].
  unfold set_bases, set_header, set_trailer, new_file_p in H. cbn [flTrailer flPacked flHeader flBases] in H.
  destruct (record_parse (RTrailer p new_trailer) (skipn (Z.to_nat off) (strip s)) blk) as [ft [tl|e|]] eqn:Pt; [|discriminate|discriminate].
  destruct (Z.eqb_spec (off + tl) (Z.of_nat (length (strip s)))) as [Es|]; [|discriminate].
  assert (f = mkFile p fh bs ft) as -> by (injection H as ->; reflexivity). clear H. cbn [flPacked flHeader flBases flTrailer] in *.
  destruct (record_parse_header _ _ _ _ _ _ Ph) as (hs & ->). destruct (record_parse_trailer _ _ _ _ _ _ Pt) as (ts & ->).
  pose proof (loop_inside _ _ _ _ _ _ _ _ Pl) as In.
  set (h := firstn (Z.to_nat hd) (strip s)). set (x := skipn (Z.to_nat hd) (strip s)).
  assert (strip s = h ++ x) as Ex by (symmetry; apply firstn_skipn).
  assert (hd = Z.of_nat (length h)) as Eh by (unfold h; rewrite firstn_length; lia).
  pose proof Pl as Pl'. rewrite Ex, Eh in Pl'. apply parse_loop_split in Pl'; [|exact Bg].
  destruct Pl' as (ds & t & new & Exx & Eb & Eoff & F2 & Nt). cbn [app] in Eb. subst new.
  assert (skipn (Z.to_nat off) (strip s) = t) as Et.
  { rewrite Eoff, Nat2Z.id, Ex, Exx, <- app_length, app_assoc, skipn_app, skipn_all, Nat.sub_diag. reflexivity. }
  rewrite Et in Pt. assert (tl = Z.of_nat (length t)) as El.
  { rewrite Ex, Exx, !app_length in Es. lia. }
  rewrite Eh in Ph. rewrite El in Pt.
  assert (unbroken s (h ++ List.concat ds ++ t)) as U by (apply strip_unbroken; rewrite Ex, Exx; reflexivity).
  exists h, ds, t. split; [exact U|]. split; [reflexivity|].
  split; [eapply header_announces; exact Ph|]. split.
  { clear -F2. induction F2 as [|d b ds bs P F2 IH]; [constructor|]. constructor; [|exact IH].
    destruct (record_parse_base p d blk b _ P) as (b' & ->). apply (base_announces p b' d blk _ P). }
  split; [eapply trailer_announces; exact Pt|].
  intros Mh Pk Bl Gh Gd Gt Lh. unfold streamed. cbn [flPacked flHeader flBases flTrailer]. rewrite app_nil_r.
  split; [exact U|]. split; [exact Gh|]. split; [exact Gd|]. split; [exact Gt|]. split; [exact Mh|]. split; [exact Pk|]. split; [exact Bl|].
  split.
  { eexists. rewrite Ex in Ph. eapply header_record_less; [exact Lh| |exact Ph].
    intros _. apply eq_true_iff_eq. rewrite blocked_spec. exact Bl. }
  split; [clear -F2; induction F2; constructor; eauto|]. split; [exact Nt|]. eexists. exact Pt.
Qed.

(* ---- both ways ---- *)

Lemma readers_agree evs s f h ds t blk fuel : streamed s f h ds t [] blk ->
  announces (flHeader f) (Z.of_nat (length h)) ->
  Forall2 (fun d b => announces b (Z.of_nat (length d))) ds (flBases f) ->
  announces (flTrailer f) (Z.of_nat (length t)) ->
  apart (flPacked f) t ds (flBases f) ->
  patient evs -> (length s < useful evs)%nat -> within_buffer s -> (length ds < fuel)%nat ->
  read_from evs s = Some (Ok f) /\ file_parse fuel (new_file_p (flPacked f)) s blk = Some (f, Ok tt).
Proof.
  intros S Ah Ab At Ap P U W L. split; [|eapply streamed_parsed; eassumption].
  apply reader_exactly; [assumption..|]. exists h, ds, t, [], blk. exact S.
Qed.

Lemma parsed_read fuel p s blk f : file_parse fuel (new_file_p p) s blk = Some (f, Ok tt) ->
  (blk = true -> Forall block_given (flBases f)) ->
  exists h ds t, unbroken s (h ++ List.concat ds ++ t) /\ flPacked f = p
    /\ announces (flHeader f) (Z.of_nat (length h))
    /\ Forall2 (fun d b => announces b (Z.of_nat (length d))) ds (flBases f)
    /\ announces (flTrailer f) (Z.of_nat (length t))
    /\ (says_header h -> (p = true <-> says_packed h) -> (blk = true <-> says_blocked h) ->
        sized_record h -> Forall sized_record ds -> sized_record t ->
        (record_size p + (if blk then 4 else 0) <= length h)%nat ->
        forall evs, patient evs -> (length s < useful evs)%nat -> within_buffer s -> read_from evs s = Some (Ok f)).
Proof.
  intros H B. destruct (parsed_streamed _ _ _ _ _ H B) as (h & ds & t & U & Ep & Ah & Ab & At & K).
  exists h, ds, t. repeat (split; [assumption|]). intros Mh Pk Bl Gh Gd Gt L evs P Us W.
  apply reader_exactly; [assumption..|]. exists h, ds, t, [], blk. auto.
Qed.
