(* Properties of File.Parse on arbitrary inputs *)
From Coq Require Import ZArith NArith Bool Ascii String List Lia.
Import ListNotations.
From Verif Require Import GoBase GoTime Regex Tables Codec Records File GoBaseFacts SpecCodec SpecLayouts
  SpecRecords FieldFacts RecordFacts RoundTrip Layout FieldRead RecordRead SpecFile ParseFacts ParseProps
  SpecFiles FileFacts BreakFacts FileRoundTrip.
Local Open Scope string_scope.
Local Open Scope Z_scope.
Local Open Scope list_scope.
Local Notation length := List.length.

(* ---- line breaks ---- *)

Lemma parse_broken_up fuel f s s' iv : broken_up s s' -> file_parse fuel f s' iv = file_parse fuel f s iv.
Proof. intros B. unfold file_parse. rewrite (strip_broken_up s s' B). reflexivity. Qed.

Lemma text_unbroken f g g' : no_breaks (record_string (flHeader f)) -> no_breaks (record_string (flTrailer f)) ->
  Forall (fun r => no_breaks (record_string r)) (flBases f) ->
  unbroken (concurrent_string f true g) (concurrent_string f false g').
Proof.
  intros H T B. rewrite !concurrent_text. apply strip_unbroken. symmetry. apply strip_file_text; assumption.
Qed.

(* ---- the caller's buffer ---- *)

Lemma filter_length_all {A} (p : A -> bool) l : length (filter p l) = length l -> forall x, In x l -> p x = true.
Proof.
  induction l as [|a l IH]; [intros _ x []|]. cbn [filter]. intros E.
  assert (length (filter p l) <= length l)%nat as L.
  { clear. induction l as [|a l IH]; [apply le_n|]. cbn. destruct (p a); cbn; lia. }
  destruct (p a) eqn:Pa; cbn [length] in E; [|lia].
  intros x [<-|I]; [exact Pa|]. apply IH; [lia|exact I].
Qed.

Lemma strip_same s : strip s = s -> no_breaks s.
Proof. intros E. rewrite <- E. apply strip_no_breaks. Qed.

Lemma buffer_kept s : delete_func_buffer s = s <-> no_breaks s.
Proof.
  unfold delete_func_buffer. split.
  - induction s as [|c s IH]; [intros _; split; intros []|].
    cbn [strip filter]. fold (strip s). destruct (is_crlf c) eqn:E; cbn [negb].
    + intros H. exfalso.
      (* the first byte kept or the zero byte replaces a line break *)
      assert (exists d r, strip s ++ repeat (zbyte 0) (length (c :: s) - length (strip s)) = d :: r /\ is_crlf d = false) as (d & r & Eq & Nd).
      { destruct (strip s) as [|d r] eqn:Es.
        - cbn [app length]. cbn [Nat.sub repeat]. exists (zbyte 0), (repeat (zbyte 0) (length s)). split; reflexivity.
        - exists d, (r ++ repeat (zbyte 0) (length (c :: s) - length (d :: r))). split; [reflexivity|].
          pose proof (strip_no_breaks s) as [N1 N2]. rewrite Es in N1, N2.
          destruct (is_crlf d) eqn:Ed; [|reflexivity]. exfalso.
          apply is_crlf_spec in Ed as [->| ->]; [apply N1|apply N2]; left; reflexivity. }
      rewrite Eq in H. injection H as -> _. congruence.
    + cbn [app length Nat.sub]. intros [= H]. apply IH in H.
      destruct H as [H1 H2]. split; intros [->|I]; try contradiction; vm_compute in E; discriminate.
  - intros N. rewrite strip_plain by exact N. rewrite Nat.sub_diag. apply app_nil_r.
Qed.

(* ---- lengths add up ---- *)

Lemma announces_base b bdw rdw n p : base_bdw_is b bdw -> base_rdw_is b rdw ->
  n = (if 0 <? bdw then bdw else rdw) -> announces (RBase p b) n.
Proof.
  intros B R ->. destruct b as [st ? ? ? ? ? ? ? ?]. exists bdw, rdw. split; [exact B|]. split; [exact R|].
  destruct (Z.ltb_spec 0 bdw); split; intros; (reflexivity || lia).
Qed.

Lemma base_announces p b data iv n : record_parse (new_data_record p) data iv = (RBase p b, Ok n) ->
  announces (RBase p b) n /\ (p = true \/ iv = false -> 0 < n).
Proof.
  intros H. cbn [new_data_record record_parse] in H.
  destruct ((if p then base_parse_packed else base_parse_char) new_base data iv) as [b' x] eqn:E.
  injection H as -> ->. destruct p.
  - apply base_read_packed in E; [|apply new_base_with].
    destruct E as (_ & _ & _ & bdw & rdw & pre & segs & parts & rest & B & R & _ & _ & _ & Lp & _ & _ & En & Ln & _).
    rewrite Lp in Ln. split; [|intros _; lia].
    eapply announces_base; [exact B|exact R|]. destruct (Z.ltb_spec 0 bdw); lia.
  - apply base_read_char in E; [|apply new_base_with].
    destruct E as (_ & _ & bdw & rdw & z' & pre & segs & parts & rest & B & R & _ & Hz & _ & _ & Lp & _ & _ & En & Ln & _).
    split; [eapply announces_base; eassumption|]. intros [| ->]; [discriminate|].
    assert (bdw = 0) as ->.
    { eapply (holds_inj _ BDW); [|exact Hz|].
      - apply (nodupb_NoDup (map fst (bFields new_base))). vm_compute. reflexivity.
      - apply lookup_In. vm_compute. reflexivity. }
    specialize (Ln ltac:(lia)). cbn in Lp. rewrite Lp in Ln. lia.
Qed.

Lemma record_parse_base p data iv r x : record_parse (new_data_record p) data iv = (r, x) -> exists b, r = RBase p b.
Proof.
  cbn [new_data_record record_parse]. destruct ((if p then _ else _) _ _ _). intros [= <- <-]. eauto.
Qed.

Lemma loop_announces p record iv : forall fuel offset acc bs off,
  parse_loop fuel p record iv offset acc = LBreak bs off ->
  exists new ns, bs = acc ++ new /\ Forall2 announces new ns /\ off = offset + total ns.
Proof.
  induction fuel as [|fuel IH]; intros offset acc bs off H; [discriminate|]. cbn [parse_loop] in H.
  destruct (_ || _); [discriminate|].
  destruct (record_parse _ _ _) as [r [n| |]] eqn:E; [| |discriminate].
  - pose proof (record_parse_base _ _ _ _ _ E) as [b ->]. apply base_announces in E as [A _].
    apply IH in H as (new & ns & -> & F & ->). exists (RBase p b :: new), (n :: ns).
    split; [rewrite <- app_assoc; reflexivity|]. split; [constructor; assumption|]. cbn [total fold_right]. unfold total. lia.
  - injection H as <- <-. exists [], []. split; [symmetry; apply app_nil_r|]. split; [constructor|]. cbn. lia.
Qed.

Lemma parse_adds_up fuel f input iv f' : file_ok f -> file_parse fuel f input iv = Some (f', Ok tt) ->
  exists text hd ns tl, unbroken input text /\ announces (flHeader f') hd /\ Forall2 announces (flBases f') ns
    /\ announces (flTrailer f') tl /\ hd + total ns + tl = Z.of_nat (length text).
Proof.
  intros (H1 & H2 & H3 & H4 & H5) H. exists (strip input).
  destruct H1 as [h0 Eh]. destruct H4 as [t0 Et].
  unfold file_parse in H. cbn [set_bases flHeader flTrailer flPacked] in H. rewrite Eh in H, H2.
  destruct (record_parse (RHeader _ h0) _ _) as [h [hd| |]] eqn:Ph; try discriminate.
  destruct (parse_loop _ _ _ _ _ _) as [bs off| | |] eqn:Pl; try discriminate.
  destruct (_ || _); [discriminate|]. cbn [set_header set_bases flTrailer] in H. rewrite Et in H, H5.
  destruct (record_parse (RTrailer _ t0) _ _) as [t [tl| |]] eqn:Pt; try discriminate.
  destruct (Z.eqb_spec (off + tl) (Z.of_nat (length (strip input)))) as [Es|]; [|discriminate].
  injection H as <-. cbn [set_trailer set_bases set_header flHeader flBases flTrailer].
  apply loop_announces in Pl as (new & ns & -> & F & ->). cbn [app].
  exists hd, ns, tl. split; [apply strip_unbroken; reflexivity|].
  cbn [record_parse] in Ph, Pt.
  destruct ((if flPacked f then _ else _) h0 _ _) as [h' xh] eqn:Eh' in Ph. injection Ph as <- ->.
  destruct ((if flPacked f then _ else _) t0 _ _) as [t' xt] eqn:Et' in Pt. injection Pt as <- ->.
  apply header_read in Eh' as (_ & _ & _ & bdw & rdw & z' & B & R & _ & _ & En & _); [|exact H2].
  apply trailer_read in Et' as (_ & _ & _ & R' & _); [|exact H5].
  split.
  { exists bdw, rdw. split; [exact B|]. split; [exact R|]. subst hd.
    destruct (Z.ltb_spec 0 bdw); split; intros; (reflexivity || lia). }
  split; [exact F|]. split; [exact R'|]. lia.
Qed.

(* ---- termination ---- *)

Lemma loop_ends p record iv :
  (forall k r n, record_parse (new_data_record p) (skipn k record) iv = (r, Ok n) -> 0 < n) ->
  forall fuel offset acc, (Z.to_nat (Z.of_nat (length record) - offset) < fuel)%nat ->
  parse_loop fuel p record iv offset acc <> LFuel.
Proof.
  intros P. induction fuel as [|fuel IH]; intros offset acc L; [lia|]. cbn [parse_loop].
  destruct (Z.leb_spec offset 0) as [|L0]; [discriminate|].
  destruct (Z.leb_spec (Z.of_nat (length record)) offset) as [|L1]; [discriminate|]. cbn [orb].
  destruct (record_parse _ _ _) as [r [n| |]] eqn:E; [|discriminate|discriminate].
  apply P in E. apply IH. lia.
Qed.

Lemma strip_length s : (length (strip s) <= length s)%nat.
Proof.
  unfold strip. induction s as [|c s IH]; [apply le_n|]. cbn [filter]. destruct (negb _); cbn [length]; lia.
Qed.

Lemma parse_ends fuel f input iv :
  (forall k r n, record_parse (new_data_record (flPacked f)) (skipn k (strip input)) iv = (r, Ok n) -> 0 < n) ->
  (length input < fuel)%nat -> exists f' r, file_parse fuel f input iv = Some (f', r).
Proof.
  intros P L. unfold file_parse. cbn [set_bases flHeader flTrailer flPacked].
  destruct (record_parse (flHeader f) _ _) as [h [hd| |]]; [|eauto|eauto].
  destruct (Z.leb_spec hd 0) as [Hn|Hp].
  { destruct fuel as [|fuel]; [lia|]. cbn [parse_loop].
    destruct (Z.leb_spec hd 0); [|lia]. cbn [orb]. eauto. }
  pose proof (loop_ends _ _ _ P fuel hd []) as N. pose proof (strip_length input).
  destruct (parse_loop _ _ _ _ _ _); [| eauto | eauto | exfalso; apply N; [lia|reflexivity]].
  destruct (_ || _); [eauto|].
  destruct (record_parse (flTrailer _) _ _) as [t [tl| |]]; [|eauto|eauto]. destruct (_ =? _); eauto.
Qed.

Lemma parse_ends_fixed fuel f input iv : flPacked f = true \/ iv = false ->
  (length input < fuel)%nat -> exists f' r, file_parse fuel f input iv = Some (f', r).
Proof.
  intros D. apply parse_ends. intros k r n E. pose proof (record_parse_base _ _ _ _ _ E) as [b ->].
  apply base_announces in E as [_ A]. apply A. exact D.
Qed.

(* the result does not depend on the fuel once there is one *)
Lemma loop_more p record iv : forall fuel k offset acc,
  parse_loop fuel p record iv offset acc <> LFuel ->
  parse_loop (fuel + k) p record iv offset acc = parse_loop fuel p record iv offset acc.
Proof.
  induction fuel as [|fuel IH]; intros k offset acc N; [contradiction N; reflexivity|].
  cbn [Nat.add parse_loop] in *. destruct (_ || _); [reflexivity|].
  destruct (record_parse _ _ _) as [r [n| |]]; [|reflexivity|reflexivity]. apply IH. exact N.
Qed.

Lemma parse_more fuel fuel' f input iv x : file_parse fuel f input iv = Some x -> (fuel <= fuel')%nat ->
  file_parse fuel' f input iv = Some x.
Proof.
  intros H L. replace fuel' with (fuel + (fuel' - fuel))%nat by lia.
  unfold file_parse in *. cbn [set_bases flHeader flTrailer flPacked] in *.
  destruct (record_parse (flHeader f) _ _) as [h [hd| |]]; [|exact H|exact H].
  rewrite loop_more; [exact H|]. intros E. rewrite E in H. discriminate.
Qed.

(* ---- numbers without minus signs are not negative ---- *)

Local Notation minus := ("-"%char : byte).

Lemma dval_acc_nonneg s : forall acc, 0 <= acc -> forallb is_digit s = true -> 0 <= dval_acc acc s.
Proof.
  induction s as [|c s IH]; intros acc A H; [exact A|]. cbn [forallb dval_acc] in *.
  apply andb_prop in H as [D H]. apply IH; [|exact H].
  unfold digit_val, is_digit, in_range in *. lia.
Qed.

Lemma parse_int_nonneg bits s z : ~ In minus s -> parse_int bits s = (z, None) -> 0 <= z.
Proof.
  intros N H. unfold parse_int in H. destruct s as [|c s]; [discriminate|].
  destruct (byte_eqb c "+"%char).
  - destruct s as [|d s]; [discriminate|]. destruct (forallb is_digit (d :: s)) eqn:F; [|discriminate].
    cbn [negb andb] in H. destruct (_ <=? _); [discriminate|]. injection H as <-. apply dval_acc_nonneg; [lia|exact F].
  - destruct (byte_eqb c "-"%char) eqn:E.
    + exfalso. apply N. left. apply byte_eqb_eq in E. exact E.
    + destruct (forallb is_digit (c :: s)) eqn:F; [|discriminate].
      cbn [negb andb] in H. destruct (_ <=? _); [discriminate|]. injection H as <-. apply dval_acc_nonneg; [lia|exact F].
Qed.

Lemma parse_value_nonneg f data n rn z : ~ In minus data -> parse_value f data n rn = Ok (VInt z) -> 0 <= z.
Proof.
  intros N. unfold parse_value. destruct (has (fType f) numeric).
  { destruct (parse_int 64 data) as [v [e|]] eqn:E; [discriminate|]. intros [= <-]. eapply parse_int_nonneg; eassumption. }
  repeat match goal with |- context [if ?b then _ else _] => destruct b end; try discriminate;
    match goal with |- res_map _ ?r = _ -> _ => destruct r as [w| |] eqn:E; try discriminate end.
  - unfold uint16 in E. destruct data as [|c [|d ?]]; try discriminate. injection E as <-.
    intros [= <-]. pose proof (bval_range c). pose proof (bval_range d). lia.
  - intros [= <-]. unfold packed_number_from_string, safecast_i64 in E.
    pose proof (be_val_range (firstn 8 (repeat (zbyte 0) (8 - length data) ++ data))).
    destruct (_ <? _) in E; [|discriminate]. injection E as <-. apply H.
Qed.

Definition nonneg (st : fields) : Prop := forall n z, lookup n st = Some (VInt z) -> 0 <= z.

Lemma slice_In s i j d c : slice s i j = Some d -> In c d -> In c s.
Proof.
  unfold slice. destruct (_ && _)%bool; [|discriminate]. intros [= <-] I.
  rewrite <- (firstn_skipn i s). apply in_or_app. right.
  rewrite <- (firstn_skipn (j - i) (skipn i s)). apply in_or_app. left. exact I.
Qed.

Lemma parse_fields_nonneg pol chk l rn record : ~ In minus record -> forall names off st,
  nonneg st -> nonneg (fst (parse_fields pol chk l rn record names off st)).
Proof.
  intros N. induction names as [|n names IH]; intros off st P; [exact P|]. cbn [parse_fields].
  destruct (lookup n l) as [f|]; [|exact P].
  destruct (chk && _); [exact P|].
  destruct (slice _ _ _) as [data|] eqn:Sl; [|exact P].
  destruct (is_valid_type _ _ _ _); [exact P|].
  destruct (parse_value _ _ _ _) as [v| |] eqn:Pv; [|exact P|exact P].
  assert (nonneg (set_field n v st)) as Ps.
  { intros m z. rewrite lookup_set_field. destruct (String.eqb m n); [|apply P].
    destruct (lookup n st); [|discriminate]. intros [= ->].
    eapply parse_value_nonneg; [|exact Pv]. intros I. apply N. eapply slice_In; eassumption. }
  assert (forall o, nonneg (fst (if can_assign n v st
      then parse_fields pol chk l rn record names o (set_field n v st) else (st, Panic)))) as C.
  { intros o. destruct (can_assign n v st); [apply IH; exact Ps|exact P]. }
  destruct v; auto. destruct (String.eqb n _); auto. destruct pol; auto.
Qed.

Lemma base_positive data iv b n : ~ In minus data ->
  record_parse (new_data_record false) data iv = (RBase false b, Ok n) -> 0 < n.
Proof.
  intros N H. cbn [new_data_record record_parse] in H.
  destruct (base_parse_char new_base data iv) as [b' x] eqn:E. injection H as -> ->.
  assert (nonneg (bFields b)) as Nb.
  { unfold base_parse_char in E. destruct (Nat.ltb _ _); [discriminate|].
    pose proof (parse_fields_nonneg (char_policy iv) true baseSegmentCharacterFormat "base segment" data N
      (map fst (bFields new_base)) 0 (bFields new_base)) as K.
    destruct (parse_fields _ _ _ _ _ _ _ _) as [st r]. cbn [fst] in K.
    assert (nonneg st) as Ks.
    { apply K. intros m z L. apply lookup_In in L. vm_compute in L.
      repeat (destruct L as [L|L]; [first [discriminate L|injection L as <- <-; lia]|]). contradiction. }
    destruct r; try discriminate. destruct (Nat.ltb _ _); [discriminate|].
    destruct (read_segments _ _ _ _ _) as [b3 r3] eqn:Rs. destruct r3 as [read| |]; try discriminate.
    apply read_segments_inv in Rs as (segs & parts & rest & _ & _ & _ & Eb3 & _).
    assert (bFields b3 = st) as Ef by (rewrite Eb3, fold_put_fields; reflexivity).
    destruct (_ && _) in E; [discriminate|]. destruct (_ && _) in E; [discriminate|].
    destruct (0 <? _) in E; injection E as <- _; rewrite Ef; exact Ks. }
  apply base_read_char in E; [|apply new_base_with].
  destruct E as ((T & R & _) & _ & bdw & rdw & z' & pre & segs & parts & rest & Hb & Hr & _ & _ & _ & _ & _ & _ & _ & En & _).
  subst n. destruct (Z.ltb_spec 0 bdw); [assumption|].
  destruct (R (Doc "RecordDescriptorWord" 4 FNumber true)) as (v & Hv & Fv); [left; reflexivity|discriminate|].
  assert (NoDup (map fst (bFields b))) as ND by (rewrite (has_type_names _ _ (proj1 T)); apply nodupb_NoDup; vm_compute; reflexivity).
  assert (v = VInt rdw) as ->.
  { apply (In_lookup _ _ _ ND) in Hv. apply (In_lookup _ _ _ ND) in Hr. cbn [dName] in Hv. congruence. }
  cbn in Fv. destruct Fv as [[Fv Fn]|[_ Fv]]; [specialize (Fn eq_refl); lia|].
  apply (In_lookup _ _ _ ND) in Hr. apply Nb in Hr. lia.
Qed.

Lemma skipn_In {A} (x : A) k l : In x (skipn k l) -> In x l.
Proof. intros I. rewrite <- (firstn_skipn k l). apply in_or_app. right. exact I. Qed.

Lemma parse_ends_no_minus fuel f input iv : ~ In minus input ->
  (length input < fuel)%nat -> exists f' r, file_parse fuel f input iv = Some (f', r).
Proof.
  intros N. destruct (flPacked f) eqn:Ep; [apply parse_ends_fixed; left; exact Ep|].
  apply parse_ends. rewrite Ep. intros k r n E. pose proof (record_parse_base _ _ _ _ _ E) as [b ->].
  eapply base_positive; [|exact E]. intros I. apply N. apply skipn_In in I.
  apply filter_In in I as [I _]. exact I.
Qed.

(* ---- independence of previous contents ---- *)

Definition agree (D : list string) (a b : fields) : Prop := forall n, In n D -> lookup n a = lookup n b.

Lemma parse_fields_agree pol chk l rn record : forall names D off a b, types a = types b -> agree D a b ->
  snd (parse_fields pol chk l rn record names off a) = snd (parse_fields pol chk l rn record names off b)
  /\ agree D (fst (parse_fields pol chk l rn record names off a)) (fst (parse_fields pol chk l rn record names off b))
  /\ (snd (parse_fields pol chk l rn record names off a) = Ok tt ->
      forall n, In n names -> (n = BDW -> pol <> BdwSkip \/ In n D) ->
      lookup n (fst (parse_fields pol chk l rn record names off a))
      = lookup n (fst (parse_fields pol chk l rn record names off b))).
Proof.
  induction names as [|m names IH]; intros D off a b T A; [split; [reflexivity|]; split; [exact A|intros _ n []]|].
  cbn [parse_fields].
  destruct (lookup m l) as [f|]; [|split; [reflexivity|]; split; [exact A|discriminate]].
  destruct (chk && _); [split; [reflexivity|]; split; [exact A|discriminate]|].
  destruct (slice _ _ _) as [data|]; [|split; [reflexivity|]; split; [exact A|discriminate]].
  destruct (is_valid_type _ _ _ _); [split; [reflexivity|]; split; [exact A|discriminate]|].
  destruct (parse_value _ _ _ _) as [v| |];
    [|split; [reflexivity|]; split; [exact A|discriminate]|split; [reflexivity|]; split; [exact A|discriminate]].
  rewrite (can_assign_types m v a b T).
  assert (forall o,
    let ra := if can_assign m v b then parse_fields pol chk l rn record names o (set_field m v a) else (a, Panic) in
    let rb := if can_assign m v b then parse_fields pol chk l rn record names o (set_field m v b) else (b, Panic) in
    snd ra = snd rb /\ agree D (fst ra) (fst rb) /\
    (snd ra = Ok tt -> forall n, In n (m :: names) -> (n = BDW -> pol <> BdwSkip \/ In n D) ->
       lookup n (fst ra) = lookup n (fst rb))) as K.
  { intros o. cbn zeta. destruct (can_assign m v b) eqn:Ca.
    2:{ split; [reflexivity|]. split; [exact A|discriminate]. }
    assert (types (set_field m v a) = types (set_field m v b)) as T'.
    { rewrite !set_field_types; auto. rewrite (can_assign_types m v a b T). exact Ca. }
    assert (agree (m :: D) (set_field m v a) (set_field m v b)) as A'.
    { intros n I. rewrite !lookup_set_field. destruct (String.eqb_spec n m) as [->|Ne].
      - pose proof (can_assign_types m v a b T) as E. rewrite Ca in E.
        apply can_assign_spec in E as (w & -> & _). apply can_assign_spec in Ca as (w' & -> & _). reflexivity.
      - destruct I as [I|I]; [congruence|apply A; exact I]. }
    specialize (IH (m :: D) o _ _ T' A') as (E1 & E2 & E3).
    split; [exact E1|]. split; [intros n I; apply E2; right; exact I|].
    intros R n [<-|I] Hb; [apply E2; left; reflexivity|]. apply E3; auto.
    intros E. destruct (Hb E) as [|Hd]; [left; assumption|right; right; exact Hd]. }
  destruct v as [z| |]; [|apply K|apply K].
  destruct (String.eqb_spec m "BlockDescriptorWord") as [Em|Em]; [|apply K].
  destruct pol; [|apply K|split; [reflexivity|]; split; [exact A|discriminate]|apply K].
  specialize (IH D off _ _ T A) as (E1 & E2 & E3). split; [exact E1|]. split; [exact E2|].
  intros R n [<-|I] Hb; [|auto].
  destruct (Hb Em) as [X|X]; [congruence|]. apply E2. exact X.
Qed.

Lemma parse_fields_same pol chk l rn record D s a b off : has_type s a -> has_type s b -> NoDup (map fst s) ->
  agree D a b -> pol <> BdwSkip \/ In BDW D \/ ~ In BDW (map fst s) ->
  snd (parse_fields pol chk l rn record (map fst a) off a) = snd (parse_fields pol chk l rn record (map fst b) off b)
  /\ (snd (parse_fields pol chk l rn record (map fst a) off a) = Ok tt ->
      parse_fields pol chk l rn record (map fst a) off a = parse_fields pol chk l rn record (map fst b) off b).
Proof.
  intros Ta Tb ND A Hp. pose proof (has_type_names _ _ Ta) as Na. pose proof (has_type_names _ _ Tb) as Nb.
  rewrite Nb, Na.
  assert (types a = types b) as T by (unfold has_type in Ta, Tb; unfold types; congruence).
  pose proof (parse_fields_agree pol chk l rn record (map fst s) D off a b T A) as (E1 & E2 & E3).
  pose proof (parse_fields_types pol chk l rn record (map fst s) off a) as Ya.
  pose proof (parse_fields_types pol chk l rn record (map fst s) off b) as Yb.
  destruct (parse_fields _ _ _ _ _ _ _ a) as [sa ra] eqn:Ea.
  destruct (parse_fields _ _ _ _ _ _ _ b) as [sb rb] eqn:Eb. cbn [fst snd] in *.
  split; [exact E1|]. intros ->. rewrite <- E1. f_equal.
  assert (map fst sa = map fst s) as Fa.
  { rewrite <- Na. apply (f_equal (map fst)) in Ya. unfold types in Ya. rewrite !map_map in Ya. exact Ya. }
  assert (map fst sb = map fst s) as Fb.
  { rewrite <- Nb. apply (f_equal (map fst)) in Yb. unfold types in Yb. rewrite !map_map in Yb. exact Yb. }
  apply fields_ext; [congruence|rewrite Fa; exact ND|].
  intros n. destruct (in_dec string_dec n (map fst s)) as [I|I].
  - apply E3; auto. intros ->. destruct Hp as [Hp|[Hp|Hp]]; auto.
  - assert (forall st : fields, map fst st = map fst s -> lookup n st = None) as No.
    { intros st F. destruct (lookup n st) eqn:L; [|reflexivity]. exfalso. apply I. rewrite <- F.
      apply lookup_In in L. apply (in_map fst) in L. exact L. }
    rewrite (No sa Fa), (No sb Fb). reflexivity.
Qed.

(* headers and trailers: the same outcome, and the same record on success *)
Lemma header_parse_same (p : bool) a b data iv : has_type header_struct a -> has_type header_struct b ->
  p = true \/ iv = true \/ lookup BDW a = lookup BDW b ->
  let ra := (if p then header_parse_packed else header_parse_char) a data iv in
  let rb := (if p then header_parse_packed else header_parse_char) b data iv in
  snd ra = snd rb /\ forall n, snd ra = Ok n -> ra = rb.
Proof.
  intros Ta Tb Hp. assert (NoDup (map fst header_struct)) as ND by (apply nodupb_NoDup; vm_compute; reflexivity).
  destruct p; cbn zeta.
  - unfold header_parse_packed. destruct (Nat.ltb _ _); [split; [reflexivity|discriminate]|].
    match goal with |- context [parse_fields ?pol ?c ?l ?rn ?d (map fst a) ?o a] =>
      pose proof (parse_fields_same pol c l rn d [] header_struct a b o Ta Tb ND (fun n I => match I with end)) as K end.
    destruct K as [K1 K2]. { left. destruct (is_variable_length data); discriminate. }
    destruct (parse_fields _ _ _ _ _ _ _ a) as [sa ra]. destruct (parse_fields _ _ _ _ _ _ _ b) as [sb rb].
    cbn [fst snd] in *. subst rb. destruct ra as [[]| |].
    + specialize (K2 eq_refl). injection K2 as ->. split; reflexivity.
    + split; [reflexivity|discriminate].
    + split; [reflexivity|discriminate].
  - unfold header_parse_char. destruct (Nat.ltb _ _); [split; [reflexivity|discriminate]|].
    assert (char_policy iv <> BdwSkip \/ lookup BDW a = lookup BDW b) as Hq.
    { destruct Hp as [Hp|[->|Hp]]; [discriminate|left; discriminate|right; exact Hp]. }
    assert (exists D, agree D a b /\ (char_policy iv <> BdwSkip \/ In BDW D \/ ~ In BDW (map fst header_struct)))
      as (D & AD & HD).
    { destruct Hq as [Hq|Hq].
      - exists []. split; [intros n []|left; exact Hq].
      - exists [BDW]. split; [intros n [<-|[]]; exact Hq|right; left; left; reflexivity]. }
    match goal with |- context [parse_fields ?pol ?c ?l ?rn ?d (map fst a) ?o a] =>
      pose proof (parse_fields_same pol c l rn d D header_struct a b o Ta Tb ND AD HD) as [K1 K2] end.
    destruct (parse_fields _ _ _ _ _ _ _ a) as [sa ra]. destruct (parse_fields _ _ _ _ _ _ _ b) as [sb rb].
    cbn [fst snd] in *. subst rb. destruct ra as [[]| |].
    + specialize (K2 eq_refl). injection K2 as ->. split; reflexivity.
    + split; [reflexivity|discriminate].
    + split; [reflexivity|discriminate].
Qed.

Lemma trailer_parse_same (p : bool) a b data iv : has_type trailer_struct a -> has_type trailer_struct b ->
  let ra := (if p then trailer_parse_packed else trailer_parse_char) a data iv in
  let rb := (if p then trailer_parse_packed else trailer_parse_char) b data iv in
  snd ra = snd rb /\ forall n, snd ra = Ok n -> ra = rb.
Proof.
  intros Ta Tb. assert (NoDup (map fst trailer_struct)) as ND by (apply nodupb_NoDup; vm_compute; reflexivity).
  assert (~ In BDW (map fst trailer_struct)) as NB.
  { destruct (in_dec string_dec BDW (map fst trailer_struct)) as [I|I]; [vm_compute in I; repeat destruct I as [I|I]; discriminate || contradiction|exact I]. }
  destruct p; cbn zeta; unfold trailer_parse_packed, trailer_parse_char;
    (destruct (Nat.ltb _ _); [split; [reflexivity|discriminate]|]);
    match goal with |- context [parse_fields ?pol ?c ?l ?rn ?d (map fst a) ?o a] =>
      pose proof (parse_fields_same pol c l rn d [] trailer_struct a b o Ta Tb ND (fun n I => match I with end)
        (or_intror (or_intror NB))) as [K1 K2] end;
    destruct (parse_fields _ _ _ _ _ _ _ a) as [sa ra]; destruct (parse_fields _ _ _ _ _ _ _ b) as [sb rb];
    cbn [fst snd] in *; subst rb; destruct ra as [[]| |];
    [specialize (K2 eq_refl); injection K2 as ->; split; reflexivity
    |split; [reflexivity|discriminate]|split; [reflexivity|discriminate]
    |specialize (K2 eq_refl); injection K2 as ->; split; reflexivity
    |split; [reflexivity|discriminate]|split; [reflexivity|discriminate]].
Qed.

Lemma parse_same fuel f g input iv : file_ok f -> file_ok g -> flPacked f = flPacked g ->
  flPacked f = true \/ iv = true \/ (exists z, header_block f z /\ header_block g z) ->
  option_map snd (file_parse fuel f input iv) = option_map snd (file_parse fuel g input iv)
  /\ forall f', file_parse fuel f input iv = Some (f', Ok tt) -> file_parse fuel g input iv = Some (f', Ok tt).
Proof.
  intros (H1 & H2 & _ & H4 & H5) (G1 & G2 & _ & G4 & G5) Ep Hp.
  destruct H1 as [h Eh]. destruct G1 as [h' Eh']. destruct H4 as [t Et]. destruct G4 as [t' Et'].
  rewrite Eh in H2. rewrite Eh' in G2. rewrite Et in H5. rewrite Et' in G5. cbn [record_ok] in *.
  assert (flPacked f = true \/ iv = true \/ lookup BDW h = lookup BDW h') as Hq.
  { destruct Hp as [Hp|[Hp|(z & (p1 & k1 & E1 & Z1) & (p2 & k2 & E2 & Z2))]]; auto.
    right. right. rewrite Eh in E1. rewrite Eh' in E2. injection E1 as <- <-. injection E2 as <- <-.
    assert (forall x, has_type header_struct x -> NoDup (map fst x)) as ND.
    { intros x Hx. rewrite (has_type_names _ _ Hx). apply nodupb_NoDup. vm_compute. reflexivity. }
    rewrite (In_lookup _ _ _ (ND _ H2) Z1), (In_lookup _ _ _ (ND _ G2) Z2). reflexivity. }
  pose proof (header_parse_same (flPacked f) h h' (strip input) iv H2 G2 Hq) as K. cbn zeta in K.
  unfold file_parse. cbn [set_bases flHeader flTrailer flPacked]. rewrite Eh, Eh', <- Ep. cbn [record_parse].
  destruct ((if flPacked f then header_parse_packed else header_parse_char) h _ _) as [x rx].
  destruct ((if flPacked f then header_parse_packed else header_parse_char) h' _ _) as [y ry].
  cbn [fst snd] in K. destruct K as [<- K]. destruct rx as [n| |].
  2:{ split; [reflexivity|discriminate]. } 2:{ split; [reflexivity|discriminate]. }
  specialize (K n eq_refl). injection K as <-.
  destruct (parse_loop _ _ _ _ _ _) as [bs off|bs e| |].
  2:{ split; [reflexivity|discriminate]. } 2:{ split; [reflexivity|discriminate]. } 2:{ split; [reflexivity|discriminate]. }
  destruct (_ || _); [split; [reflexivity|discriminate]|].
  cbn [set_header set_bases flTrailer flPacked]. rewrite Et, Et', <- Ep. cbn [record_parse].
  pose proof (trailer_parse_same (flPacked f) t t' (skipn (Z.to_nat off) (strip input)) iv H5 G5) as K. cbn zeta in K.
  destruct ((if flPacked f then trailer_parse_packed else trailer_parse_char) t _ _) as [u ru].
  destruct ((if flPacked f then trailer_parse_packed else trailer_parse_char) t' _ _) as [w rw].
  cbn [fst snd] in K. destruct K as [<- K]. destruct ru as [m| |].
  2:{ split; [reflexivity|discriminate]. } 2:{ split; [reflexivity|discriminate]. }
  specialize (K m eq_refl). injection K as <-.
  destruct (_ =? _); [|split; [reflexivity|discriminate]].
  split; [reflexivity|]. intros f' [= <-]. unfold set_trailer, set_bases, set_header. cbn [flPacked flHeader flBases flTrailer].
  rewrite <- Ep. reflexivity.
Qed.

(* ---- newline mode ---- *)

Lemma first_line_inj (a b r s : bytes) : ~ In lf_char a -> ~ In lf_char b ->
  a ++ lf_char :: r = b ++ lf_char :: s -> a = b /\ r = s.
Proof.
  revert b. induction a as [|c a IH]; intros [|d b] Na Nb E; cbn [app] in E.
  - injection E as ->. auto.
  - injection E as <- _. exfalso. apply Nb. left. reflexivity.
  - injection E as -> _. exfalso. apply Na. left. reflexivity.
  - injection E as <- E. destruct (IH b) as [-> ->]; auto; intros I; [apply Na|apply Nb]; right; exact I.
Qed.

Lemma lines_inj : forall (l l' : list bytes) (t t' : bytes),
  Forall (fun x => ~ In lf_char x) l -> Forall (fun x => ~ In lf_char x) l' -> ~ In lf_char t -> ~ In lf_char t' ->
  List.concat (map (fun x => x ++ [lf_char]) l) ++ t = List.concat (map (fun x => x ++ [lf_char]) l') ++ t' ->
  l = l' /\ t = t'.
Proof.
  induction l as [|a l IH]; intros [|b l'] t t' F F' N N' E; cbn [map List.concat] in E.
  - auto.
  - exfalso. apply N. cbn [app] in E. rewrite E, <- !app_assoc. apply in_or_app. right. left. reflexivity.
  - exfalso. apply N'. cbn [app] in E. rewrite <- E, <- !app_assoc. apply in_or_app. right. left. reflexivity.
  - inversion F; inversion F'; subst. rewrite <- !app_assoc in E. cbn [app] in E.
    apply first_line_inj in E as [-> E]; auto. apply IH in E as [-> ->]; auto.
Qed.

Lemma texts_plain f : char_record (flHeader f) -> char_record (flTrailer f) -> Forall char_record (flBases f) ->
  file_breakless f ->
  no_breaks (record_string (flHeader f)) /\ no_breaks (record_string (flTrailer f))
  /\ Forall (fun r => no_breaks (record_string r)) (flBases f).
Proof.
  intros C1 C2 C3 (B1 & B2 & B3). repeat split; try (apply record_plain; assumption).
  rewrite Forall_forall in *. intros r I. apply record_plain; auto.
Qed.

Lemma file_ok_char f : file_ok f -> flPacked f = false ->
  char_record (flHeader f) /\ char_record (flTrailer f) /\ Forall char_record (flBases f).
Proof.
  intros ((h & H1) & _ & H3 & (t & H4) & _) E. rewrite H1, H4, E. repeat split.
  eapply Forall_impl; [|exact H3]. intros r [[b ->] _]. exact E.
Qed.

Lemma newline_text_inj f g m n : file_ok f -> flPacked f = false -> file_breakless f ->
  file_ok g -> flPacked g = false -> file_breakless g ->
  concurrent_string f true m = concurrent_string g true n ->
  record_string (flHeader f) = record_string (flHeader g)
  /\ map record_string (flBases f) = map record_string (flBases g)
  /\ record_string (flTrailer f) = record_string (flTrailer g).
Proof.
  intros O P B O' P' B' E. rewrite !concurrent_text in E.
  pose proof (file_ok_char f O P) as (C1 & C2 & C3). pose proof (file_ok_char g O' P') as (D1 & D2 & D3).
  pose proof (texts_plain f C1 C2 C3 B) as (H1 & H2 & H3). pose proof (texts_plain g D1 D2 D3 B') as (G1 & G2 & G3).
  assert (forall x, file_text true x = List.concat (map (fun x => x ++ [lf_char]) (record_string (flHeader x) :: map record_string (flBases x))) ++ record_string (flTrailer x)) as K.
  { intros x. unfold file_text. cbn [map List.concat line_break]. rewrite map_map, <- !app_assoc. reflexivity. }
  rewrite !K in E. apply lines_inj in E as [E1 E2].
  - injection E1 as E1 E3. auto.
  - constructor; [apply H1|]. rewrite Forall_map. eapply Forall_impl; [|exact H3]. intros r [_ X]. exact X.
  - constructor; [apply G1|]. rewrite Forall_map. eapply Forall_impl; [|exact G3]. intros r [_ X]. exact X.
  - apply H2.
  - apply G2.
Qed.

(* data records that were read *)
Lemma base_parse_breakless p data iv r n : record_parse (new_data_record p) data iv = (r, Ok n) -> record_breakless r.
Proof.
  intros H. cbn [new_data_record record_parse] in H.
  destruct ((if p then base_parse_packed else base_parse_char) new_base data iv) as [b x] eqn:E.
  injection H as <- ->. destruct p.
  - apply base_read_packed in E as (_ & R & _); [|apply new_base_with]. eapply base_reads_breakless; exact R.
  - apply base_read_char in E as (R & _); [|apply new_base_with]. eapply base_reads_breakless; exact R.
Qed.

Lemma header_parse_breakless (p : bool) h0 data iv r n : has_type header_struct h0 ->
  record_parse (RHeader p h0) data iv = (r, Ok n) -> record_breakless r.
Proof.
  intros T H. cbn [record_parse] in H.
  destruct ((if p then header_parse_packed else header_parse_char) h0 data iv) as [h x] eqn:E.
  injection H as <- ->. apply header_read in E as (T' & R & _); [|exact T]. eapply header_reads_breakless; eassumption.
Qed.

Lemma trailer_parse_breakless (p : bool) h0 data iv r n : has_type trailer_struct h0 ->
  record_parse (RTrailer p h0) data iv = (r, Ok n) -> record_breakless r.
Proof.
  intros T H. cbn [record_parse] in H.
  destruct ((if p then trailer_parse_packed else trailer_parse_char) h0 data iv) as [h x] eqn:E.
  injection H as <- ->. apply trailer_read in E as (T' & R & _); [|exact T]. eapply trailer_reads_breakless; eassumption.
Qed.

Lemma loop_breakless p record iv : forall fuel offset acc bs off, Forall record_breakless acc ->
  parse_loop fuel p record iv offset acc = LBreak bs off -> Forall record_breakless bs.
Proof.
  induction fuel as [|fuel IH]; intros offset acc bs off F H; [discriminate|]. cbn [parse_loop] in H.
  destruct (_ || _); [discriminate|].
  destruct (record_parse _ _ _) as [r [n| |]] eqn:E; [| |discriminate].
  - apply base_parse_breakless in E. eapply IH; [|exact H]. apply Forall_app. auto.
  - injection H as <- <-. exact F.
Qed.

Lemma parse_breakless fuel f input iv f' : file_ok f -> file_parse fuel f input iv = Some (f', Ok tt) -> file_breakless f'.
Proof.
  intros (H1 & H2 & H3 & H4 & H5) H. destruct H1 as [h0 Eh]. destruct H4 as [t0 Et].
  unfold file_parse in H. cbn [set_bases flHeader flTrailer flPacked] in H. rewrite Eh in H, H2.
  destruct (record_parse (RHeader _ h0) _ _) as [h [hd| |]] eqn:Ph; try discriminate.
  destruct (parse_loop _ _ _ _ _ _) as [bs off| | |] eqn:Pl; try discriminate.
  destruct (_ || _); [discriminate|]. cbn [set_header set_bases flTrailer] in H. rewrite Et in H, H5.
  destruct (record_parse (RTrailer _ t0) _ _) as [t [tl| |]] eqn:Pt; try discriminate.
  destruct (_ =? _); [|discriminate].
  injection H as <-. unfold file_breakless. cbn [set_trailer set_bases set_header flHeader flBases flTrailer].
  split; [eapply header_parse_breakless; eassumption|]. split; [|eapply trailer_parse_breakless; eassumption].
  eapply loop_breakless; [|exact Pl]. constructor.
Qed.

Lemma file_in_breakless k f : file_in k f -> file_breakless f.
Proof.
  intros (h & bs & t & -> & (Fh & _) & Fb & (Ft & _) & _). unfold file_breakless, file_of. cbn [flHeader flBases flTrailer].
  split; [eapply header_fits_breakless; exact Fh|]. split; [|eapply trailer_fits_breakless; exact Ft].
  rewrite Forall_map. eapply Forall_impl; [|exact Fb]. intros b (F & _). eapply base_fits_breakless; exact F.
Qed.

(* ---- a valid record stays valid ---- *)

Lemma valid_again k b rest r n : base_in k b -> no_segment rest -> record_validate (RBase (packed_of k) b) = None ->
  record_parse (new_data_record (packed_of k)) (record_string (RBase (packed_of k) b) ++ rest) (blocked k) = (r, Ok n) ->
  record_validate r = None.
Proof.
  intros B N V H. destruct (base_in_reads k b rest B (or_introl N)) as (m & _ & _ & _ & E).
  cbn [new_data_record record_parse record_string] in H.
  replace (if packed_of k then base_string_packed b else base_string_char b) with
    ((if packed_of k then base_string_packed else base_string_char) b) in H by (destruct (packed_of k); reflexivity).
  rewrite E in H. injection H as <- _. exact V.
Qed.

(* ---- unpadded variable-blocked character records ---- *)

Lemma unpadded_length b rdw : base_fits false b -> base_bdw_is b (rdw + 4) -> base_rdw_is b rdw ->
  rdw = base_size false b -> Z.of_nat (length (record_string (RBase false b))) = rdw + 4.
Proof.
  intros F Hb Hr ->. pose proof (base_fits_sized _ _ F) as Sz.
  assert (0 < base_size false b) as Pos by (unfold base_size, record_size; lia).
  pose proof F as ([T P] & R & _). pose proof (base_nodup _ T) as ND.
  pose proof (word_range false _ _ _ R (doc_word_base _) ND Hr) as Rg.
  cbn [record_string]. change (base_string_char b) with (base_string false b).
  rewrite (base_length false b _ _ 4 (base_size false b) Sz Hb Hr); [lia| |].
  - unfold bdw_size. lia.
  - cbn [andb]. unfold pad_target. lia.
Qed.

(* the data records there were before do not matter *)
Lemma parse_forgets fuel p h l l' t input iv :
  file_parse fuel (mkFile p h l t) input iv = file_parse fuel (mkFile p h l' t) input iv.
Proof. reflexivity. Qed.
