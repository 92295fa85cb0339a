(* Positions and sizes of the written text, without assuming that values fit *)
From Coq Require Import ZArith NArith Bool Ascii String List Lia Permutation.
Import ListNotations.
From Verif Require Import GoBase GoBaseFacts GoTime Regex Tables Codec Records
  SpecCodec SpecLayouts SpecRecords TimeFacts FieldFacts RecordFacts RoundTrip.
Local Open Scope string_scope.
Local Open Scope Z_scope.
Local Open Scope list_scope.
Local Notation length := List.length.

Lemma code_ascii s : Forall (fun c => code c < 128) s <-> forallb is_ascii s = true.
Proof.
  rewrite forallb_Forall, !Forall_forall. unfold is_ascii. setoid_rewrite Z.ltb_lt. reflexivity.
Qed.

Lemma append_int_len w z : (0 < w)%nat -> 0 <= z < 10 ^ Z.of_nat w -> length (append_int w z) = w.
Proof.
  intros Hw H. unfold append_int. destruct (Z.ltb_spec z 0); [lia|].
  rewrite app_length, repeat_length. pose proof (utoa_length_le z w ltac:(lia)). lia.
Qed.

Lemma calendar_ranges t : calendar_time t ->
  0 <= tYear t < 10000 /\ 1 <= tMonth t < 100 /\ 1 <= tDay t < 100.
Proof. intros [C _]. apply calendar_date_ranges in C. lia. Qed.

Lemma format_date_len t : calendar_time t -> length (format_date t) = 8%nat.
Proof.
  intros C. pose proof (calendar_ranges t C). unfold format_date. rewrite !app_length.
  rewrite !append_int_len; try lia; try (change (10 ^ Z.of_nat 2) with 100; lia);
    change (10 ^ Z.of_nat 4) with 10000; lia.
Qed.

Lemma format_timestamp_len t : calendar_time t -> length (format_timestamp t) = 14%nat.
Proof.
  intros C. pose proof (format_date_len t C) as L. destruct C as (_ & H & M & S).
  unfold format_timestamp. rewrite !app_length, L.
  rewrite !append_int_len; try lia; change (10 ^ Z.of_nat 2) with 100; lia.
Qed.

Lemma itoa_is_ascii z : forallb is_ascii (itoa z) = true.
Proof. apply itoa_ascii. Qed.

Lemma to_string_len d f v : entry_ok d f = true -> dKind d <> FReserved ->
  kind_of v = fk_kind (dKind d) -> sized v -> length (to_string f (Some v)) = dWidth d.
Proof.
  intros E K Kv S. destruct d as [n w k must]. destruct f as [start len ty req].
  unfold entry_ok in E. cbn [fLength dWidth dKind fType dMust fRequired] in *.
  apply andb_prop in E as [E Er]. apply andb_prop in E as [E Ew]. apply andb_prop in E as [El Et].
  apply Nat.eqb_eq in El. subst len.
  destruct k; destruct v as [z|s|t]; try discriminate Kv; try contradiction; cbn [width_ok] in Ew.
  - apply andb_prop in Ew as [W1 _]. apply Nat.leb_le in W1.
    assert (to_string (mkField start w ty req) (Some (VInt z)) = fmt_zero_pad w (itoa z)) as ->
      by (split_type Et; reflexivity).
    apply fmt_zero_pad_length. apply itoa_is_ascii.
  - assert (to_string (mkField start w ty req) (Some (VStr s)) = fmt_left w s) as ->
      by (split_type Et; reflexivity).
    apply fmt_left_length. apply code_ascii. exact S.
  - apply Nat.eqb_eq in Ew. subst w.
    assert (to_string (mkField start 8 ty req) (Some (VTime t))
            = if is_zero t then repeat zero_char 8 else format_date t) as -> by (split_type Et; reflexivity).
    destruct (is_zero t); [reflexivity|]. apply format_date_len. exact S.
  - apply Nat.eqb_eq in Ew. subst w.
    assert (to_string (mkField start 14 ty req) (Some (VTime t))
            = if is_zero t then repeat zero_char 14 else format_timestamp t) as -> by (split_type Et; reflexivity).
    destruct (is_zero t); [reflexivity|]. apply format_timestamp_len. exact S.
  - apply Nat.eqb_eq in Ew. subst w. split_type Et; reflexivity.
  - assert (to_string (mkField start w ty req) (Some (VInt z)) = packed_number_string z w) as ->
      by (split_type Et; reflexivity).
    unfold packed_number_string. destruct (0 <? z); [apply be_bytes_length|apply repeat_length].
  - apply Nat.eqb_eq in Ew. subst w.
    assert (to_string (mkField start 5 ty req) (Some (VTime t)) = packed_time_string (VTime t) format_date 5) as ->
      by (split_type Et; reflexivity).
    unfold packed_time_string. destruct (0 <? _); reflexivity.
  - apply Nat.eqb_eq in Ew. subst w.
    assert (to_string (mkField start 8 ty req) (Some (VTime t)) = packed_time_string (VTime t) format_timestamp 8) as ->
      by (split_type Et; reflexivity).
    unfold packed_time_string. destruct (0 <? _); reflexivity.
Qed.

Definition typed_values (doc : list doc_field) (st : fields) : Prop :=
  forall d, In d doc ->
    if is_reserved d then lookup (dName d) st = None
    else exists v, lookup (dName d) st = Some v /\ kind_of v = fk_kind (dKind d).

Lemma typed_values_of doc s st pre : struct_ok doc s = true ->
  types st = pre ++ s -> (pre = [] \/ pre = [(BDW, KInt)]) -> typed_values doc st.
Proof.
  intros S T Hp d Hd. unfold struct_ok in S. repeat (apply andb_prop in S as [S ?]).
  assert (map fst st = map fst pre ++ map fst s) as Nm by (rewrite <- types_names, T, map_app; reflexivity).
  assert (dName d <> BDW) as Nb.
  { intros Eb. rewrite negb_true_iff in H. rewrite <- not_true_iff_false in H. apply H.
    apply existsb_exists. exists d. split; [assumption|]. rewrite Eb. apply String.eqb_refl. }
  rewrite forallb_forall in S. specialize (S d Hd). destruct (is_reserved d) eqn:K.
  - apply lookup_None. intros I. rewrite negb_true_iff in S. rewrite Nm in I. apply in_app_or in I as [I|I].
    + destruct Hp as [->| ->]; [destruct I|]. destruct I as [E|[]]. cbn in E. congruence.
    + apply existsb_string_In in I. congruence.
  - destruct (lookup (dName d) s) as [k|] eqn:L; [|discriminate].
    assert (lookup (dName d) (types st) = Some k) as Lt.
    { rewrite T. destruct Hp as [->| ->]; [exact L|]. cbn [app lookup].
      destruct (String.eqb_spec (dName d) BDW); [contradiction|exact L]. }
    rewrite lookup_types in Lt. destruct (lookup (dName d) st) as [v|]; [|discriminate].
    exists v. split; [reflexivity|]. cbn in Lt. injection Lt as <-.
    destruct (kind_of v), (fk_kind (dKind d)); try discriminate; reflexivity.
Qed.

Lemma firstn_pad w (s : bytes) : firstn w (s ++ repeat " "%char w) = firstn w s ++ repeat " "%char (w - length s).
Proof.
  rewrite firstn_app. f_equal. rewrite <- (firstn_all2 (n := w - length s) (repeat " "%char (w - length s)))
    at 1 by (rewrite repeat_length; lia).
  replace w with ((w - length s) + (w - (w - length s)))%nat at 2 by lia. rewrite repeat_app, firstn_app, repeat_length.
  replace (w - length s - (w - length s))%nat with 0%nat by lia. cbn. rewrite app_nil_r.
  rewrite !firstn_all2 by (rewrite repeat_length; lia). reflexivity.
Qed.

Lemma entry_laid_out d f st : entry_ok d f = true -> NoDup (map fst st) -> record_sized st ->
  (if is_reserved d then lookup (dName d) st = None
   else exists v, lookup (dName d) st = Some v /\ kind_of v = fk_kind (dKind d)) ->
  field_laid_out st d (to_string f (lookup (dName d) st)).
Proof.
  intros E ND Sz H. unfold is_reserved in H.
  assert ({dKind d = FReserved} + {dKind d <> FReserved}) as [K|K] by (destruct (dKind d); auto; right; discriminate).
  - rewrite K in H. unfold field_laid_out. rewrite H, (reserved_written d f E K), repeat_length.
    split; [reflexivity|]. split; [reflexivity|].
    split; intros x Hx; apply (In_lookup _ _ _ ND) in Hx; congruence.
  - assert (exists v, lookup (dName d) st = Some v /\ kind_of v = fk_kind (dKind d)) as [v [L Kv]]
      by (destruct (dKind d); auto; contradiction).
    assert (sized v) as Sv by (apply (Sz (dName d)); apply lookup_In; exact L).
    rewrite L. split; [apply to_string_len; assumption|]. split; [contradiction|]. split.
    + intros t Ht. apply (In_lookup _ _ _ ND) in Ht. rewrite L in Ht. injection Ht as ->.
      unfold entry_ok in E. apply andb_prop in E as [E _]. apply andb_prop in E as [E _].
      apply andb_prop in E as [El Et]. apply Nat.eqb_eq in El. destruct f as [start len ty req].
      cbn [fLength fType] in *. subst len.
      destruct (dKind d); try discriminate Kv; try contradiction.
      assert (to_string (mkField start (dWidth d) ty req) (Some (VStr t)) = fmt_left (dWidth d) t) as ->
        by (split_type Et; reflexivity).
      rewrite fmt_left_ascii by (apply code_ascii; exact Sv). rewrite firstn_pad. reflexivity.
    + intros w Hw F. apply (In_lookup _ _ _ ND) in Hw. rewrite L in Hw. injection Hw as <-.
      apply (field_written d f v E K F).
Qed.

Lemma text_laid_out doc : forall start sp st, layout_ok start doc sp = true -> NoDup (map fst st) ->
  record_sized st -> typed_values doc st ->
  body_laid_out doc st (text sp st) /\ length (text sp st) = doc_width doc.
Proof.
  induction doc as [|d doc IH]; intros start [|[n f] sp] st H ND Sz V; try discriminate.
  - split; [exists []; split; [reflexivity|constructor]|reflexivity].
  - cbn [layout_ok] in H. apply andb_prop in H as [H H4]. apply andb_prop in H as [H H3].
    apply andb_prop in H as [H1 _]. apply String.eqb_eq in H1. subst n.
    destruct (IH _ sp st H4 ND Sz) as [[parts [Ep Fp]] L].
    { intros d' Hd'. apply V. right. exact Hd'. }
    pose proof (entry_laid_out d f st H3 ND Sz (V d (or_introl eq_refl))) as W.
    change (text ((dName d, f) :: sp) st) with (to_string f (lookup (dName d) st) ++ text sp st). split.
    + exists (to_string f (lookup (dName d) st) :: parts). split; [cbn; rewrite Ep; reflexivity|].
      constructor; assumption.
    + rewrite app_length, L. destruct W as [-> _]. reflexivity.
Qed.

Lemma seg_laid_out s : seg_sized s ->
  body_laid_out (seg_doc (sKind s)) (sFields s) (seg_string s) /\ length (seg_string s) = seg_size (sKind s).
Proof.
  intros [T Sz]. unfold seg_string. rewrite <- seg_doc_width.
  pose proof (seg_scheme (sKind s)) as H. unfold scheme_plain in H.
  apply andb_prop in H as [H So]. apply andb_prop in H as [_ Lo].
  change (write_fields (seg_layout (sKind s)) (sFields s))
    with (text (to_specifications (seg_layout (sKind s))) (sFields s)).
  apply (text_laid_out _ 0); auto using seg_nodup.
  apply (typed_values_of _ (seg_struct (sKind s)) _ []); auto.
Qed.

Lemma trailer_laid_out p t : has_type trailer_struct t -> record_sized t ->
  body_laid_out (trailer_doc p) t (write_fields (trailer_layout p) t)
  /\ length (write_fields (trailer_layout p) t) = record_size p.
Proof.
  intros T Sz. rewrite <- trailer_doc_width.
  pose proof (trailer_scheme p) as H. unfold scheme_plain in H.
  apply andb_prop in H as [H So]. apply andb_prop in H as [_ Lo].
  change (write_fields (trailer_layout p) t) with (text (to_specifications (trailer_layout p)) t).
  apply (text_laid_out _ 0); auto using trailer_nodup.
  apply (typed_values_of _ trailer_struct _ []); auto.
Qed.

Lemma bdw_text_laid_out (p : bool) st z : NoDup (map fst st) -> holds st BDW (VInt z) -> z <> 0 ->
  field_laid_out st (Doc BDW 4 (if p then FWord else FNumber) false) (bdw_text p z).
Proof.
  intros ND H Nz.
  set (f := mkField 0 4 (if p then descriptor else numeric) applicable).
  assert (bdw_text p z = to_string f (Some (VInt z))) as ->.
  { unfold bdw_text, to_string, f, bdw_field, bdw_type. destruct p; cbn;
      destruct (Z.eqb_spec z 0); congruence || reflexivity. }
  assert (entry_ok (Doc BDW 4 (if p then FWord else FNumber) false) f = true) as E by (destruct p; reflexivity).
  split; [|split; [destruct p; discriminate|split]].
  - apply to_string_len; [exact E|destruct p; discriminate|destruct p; reflexivity|exact I].
  - intros t Ht. apply (In_lookup _ _ _ ND) in Ht, H. cbn [dName] in Ht. congruence.
  - intros v Hv F. apply (In_lookup _ _ _ ND) in Hv, H. cbn [dName] in Hv. rewrite H in Hv. injection Hv as <-.
    apply (field_written _ f); auto. destruct p; discriminate.
Qed.

Lemma bdw_scheme_laid_out p doc l s st : scheme_bdw p doc l s = true -> has_type s st -> record_sized st ->
  exists pre body z, write_fields l st = pre ++ body /\ holds st BDW (VInt z)
    /\ bdw_laid_out p st pre /\ body_laid_out doc st body
    /\ length body = doc_width doc /\ (exists n, bdw_size z n /\ Z.of_nat (length pre) = n).
Proof.
  intros H T Sz. pose proof (scheme_nodup _ _ _ _ _ H T) as ND.
  assert (exists z, holds st BDW (VInt z)) as [z Hz].
  { destruct (scheme_bdw_inv _ _ _ _ H) as (sp & s' & _ & -> & _). destruct (types_BDW _ _ T) as (z & st' & ->).
    exists z. left. reflexivity. }
  destruct (write_fields_bdw p doc l s st z H T Hz) as (sp & s' & Sp & -> & NDl & Lo & So & W).
  destruct (text_laid_out doc 0 sp st Lo ND Sz) as [B L].
  { apply (typed_values_of _ s' _ [(BDW, KInt)]); auto. }
  exists (bdw_text p z), (text sp st), z. split; [exact W|]. split; [exact Hz|]. split.
  - exists z. split; [exact Hz|]. split; [intros ->; apply bdw_text_zero|].
    intros Nz. apply bdw_text_laid_out; assumption.
  - split; [exact B|]. split; [exact L|]. destruct (Z.eq_dec z 0) as [->|Nz].
    + exists 0. split; [left; auto|]. rewrite bdw_text_zero. reflexivity.
    + exists 4. split; [right; auto|]. destruct (bdw_text_laid_out p st z ND Hz Nz) as [-> _]. reflexivity.
Qed.

(* ---- padding ---- *)

Lemma clamped_pad_target z : pad_target z (clampedBlockSize z).
Proof.
  unfold pad_target, clampedBlockSize. change maxRecordPad with 65535.
  destruct (Z.leb_spec z 0); [right; cbn; lia|]. destruct (Z.ltb_spec 65535 z); [right|left]; cbn; lia.
Qed.

Lemma clamped_le z : 0 <= clampedBlockSize z <= 65535.
Proof. destruct (clamped_pad_target z) as [[? ->]|[? ->]]; lia. Qed.

Lemma pad_block_length n buf : Z.of_nat (length (pad_block n buf)) = Z.max (Z.of_nat (length buf)) n.
Proof. unfold pad_block. rewrite app_length, repeat_length. lia. Qed.

Lemma pad_block_app n buf : exists pad, blanks pad /\ pad_block n buf = buf ++ pad.
Proof. eexists. split; [|reflexivity]. eexists. reflexivity. Qed.

Lemma pad_target_unique z a b : pad_target z a -> pad_target z b -> a = b.
Proof. unfold pad_target. lia. Qed.

Lemma bdw_size_unique z a b : bdw_size z a -> bdw_size z b -> a = b.
Proof. unfold bdw_size. lia. Qed.

(* ---- headers ---- *)

Lemma header_laid_out p h : has_type header_struct h -> record_sized h ->
  exists pre body pad, header_string p h = pre ++ body ++ pad /\ blanks pad
    /\ bdw_laid_out p h pre /\ body_laid_out (header_doc p) h body.
Proof.
  intros T Sz. destruct (bdw_scheme_laid_out p _ _ _ h (header_scheme p) T Sz)
    as (pre & body & z & W & _ & B1 & B2 & _).
  unfold header_string. destruct (pad_block_app (clampedBlockSize
    (if header_bdw h =? 0 then header_rdw h else header_bdw h)) (write_fields (header_layout p) h)) as (pad & Hp & ->).
  exists pre, body, pad. rewrite W, <- app_assoc. auto.
Qed.

Lemma header_length p h bdw rdw n t : has_type header_struct h -> record_sized h ->
  holds h BDW (VInt bdw) -> holds h "RecordDescriptorWord" (VInt rdw) ->
  bdw_size bdw n -> pad_target (if bdw =? 0 then rdw else bdw) t ->
  Z.of_nat (length (header_string p h)) = Z.max (n + Z.of_nat (record_size p)) t.
Proof.
  intros T Sz Hb Hr Hn Ht. destruct (bdw_scheme_laid_out p _ _ _ h (header_scheme p) T Sz)
    as (pre & body & z & W & Hz & B1 & B2 & L & n' & Hn' & Ln).
  pose proof (header_nodup h T) as ND.
  apply (In_lookup _ _ _ ND) in Hz. rewrite (In_lookup _ _ _ ND Hb) in Hz. injection Hz as <-.
  rewrite (bdw_size_unique _ _ _ Hn' Hn) in Ln.
  unfold header_string. rewrite pad_block_length, W, app_length, L, header_doc_width.
  unfold header_bdw, header_rdw. rewrite (get_int_holds _ _ _ ND Hb), (get_int_holds _ _ _ ND Hr).
  rewrite (pad_target_unique _ _ _ (clamped_pad_target _) Ht). lia.
Qed.

Lemma trailer_length p h rdw t : has_type trailer_struct h -> record_sized h ->
  holds h "RecordDescriptorWord" (VInt rdw) -> pad_target rdw t ->
  Z.of_nat (length (trailer_string p h)) = Z.max (Z.of_nat (record_size p)) t.
Proof.
  intros T Sz Hr Ht. destruct (trailer_laid_out p h T Sz) as [_ L].
  unfold trailer_string. rewrite pad_block_length, L.
  unfold trailer_rdw. rewrite (get_int_holds _ _ _ (trailer_nodup h T) Hr).
  rewrite (pad_target_unique _ _ _ (clamped_pad_target _) Ht). reflexivity.
Qed.

Lemma trailer_layout_text p h : has_type trailer_struct h -> record_sized h ->
  exists body pad, trailer_string p h = body ++ pad /\ blanks pad /\ body_laid_out (trailer_doc p) h body.
Proof.
  intros T Sz. destruct (trailer_laid_out p h T Sz) as [B _]. unfold trailer_string.
  destruct (pad_block_app (clampedBlockSize (trailer_rdw h)) (write_fields (trailer_layout p) h)) as (pad & Hp & ->).
  exists (write_fields (trailer_layout p) h), pad. auto.
Qed.

(* ---- base segments ---- *)

Definition base_string (p : bool) (b : base) : bytes :=
  if p then base_string_packed b else base_string_char b.

Lemma base_string_pad p b : base_string p b
  = pad_block (clampedBlockSize (if p && (0 <? base_bdw b) then base_rdw b + 4 else base_rdw b))
      (write_fields (base_layout p) (bFields b) ++ flat_map seg_string (segments_of b)).
Proof. destruct p; reflexivity. Qed.

Lemma base_laid_out p b : base_sized b ->
  exists pre body segs pad, base_string p b = pre ++ body ++ List.concat segs ++ pad /\ blanks pad
    /\ bdw_laid_out p (bFields b) pre /\ body_laid_out (base_doc p) (bFields b) body
    /\ Forall2 (fun s t => body_laid_out (seg_doc (sKind s)) (sFields s) t /\ length t = seg_size (sKind s))
         (segments_of b) segs.
Proof.
  intros ([T P] & Sz & Ss). destruct (bdw_scheme_laid_out p _ _ _ (bFields b) (base_scheme p) T Sz)
    as (pre & body & z & W & _ & B1 & B2 & _).
  rewrite base_string_pad. edestruct pad_block_app as (pad & Hp & ->).
  exists pre, body, (map seg_string (segments_of b)), pad.
  rewrite W, flat_map_concat_map, <- !app_assoc. split; [reflexivity|]. repeat (split; [assumption|]).
  clear - Ss. induction Ss; constructor; auto. apply seg_laid_out. assumption.
Qed.

Lemma segs_text_size segs : Forall seg_sized segs -> length (flat_map seg_string segs) = segs_size segs.
Proof.
  induction 1 as [|s segs G _ IH]; [reflexivity|]. cbn. rewrite app_length, IH.
  rewrite (proj2 (seg_laid_out s G)). reflexivity.
Qed.

Lemma base_length p b bdw rdw n t : base_sized b -> base_bdw_is b bdw -> base_rdw_is b rdw ->
  bdw_size bdw n -> pad_target (if p && (0 <? bdw) then rdw + 4 else rdw) t ->
  Z.of_nat (length (base_string p b)) = Z.max (n + base_size p b) t.
Proof.
  intros ([T P] & Sz & Ss) Hb Hr Hn Ht.
  destruct (bdw_scheme_laid_out p _ _ _ (bFields b) (base_scheme p) T Sz)
    as (pre & body & z & W & Hz & B1 & B2 & L & n' & Hn' & Ln).
  pose proof (base_nodup _ T) as ND.
  apply (In_lookup _ _ _ ND) in Hz. rewrite (In_lookup _ _ _ ND Hb) in Hz. injection Hz as <-.
  rewrite (bdw_size_unique _ _ _ Hn' Hn) in Ln.
  rewrite base_string_pad, pad_block_length, W, !app_length, L, base_doc_width, segs_text_size by assumption.
  unfold base_bdw, base_rdw. rewrite (get_int_holds _ _ _ ND Hb), (get_int_holds _ _ _ ND Hr).
  rewrite (pad_target_unique _ _ _ (clamped_pad_target _) Ht). unfold base_size. lia.
Qed.

(* C13 *)
Lemma pad_block_bound z buf : (length (pad_block (clampedBlockSize z) buf) <= Nat.max (length buf) (Z.to_nat 65535))%nat.
Proof. pose proof (pad_block_length (clampedBlockSize z) buf). pose proof (clamped_le z). lia. Qed.

Lemma base_bound p b : base_sized b ->
  Z.of_nat (length (base_string p b)) <= Z.max (base_size p b + 4) 65535.
Proof.
  intros S. pose proof S as ([T P] & Sz & Ss).
  destruct (bdw_scheme_laid_out p _ _ _ (bFields b) (base_scheme p) T Sz)
    as (pre & body & z & W & Hz & B1 & B2 & L & n' & Hn' & Ln).
  rewrite base_string_pad, pad_block_length, W, !app_length, L, base_doc_width, segs_text_size by assumption.
  pose proof (clamped_le (if p && (0 <? base_bdw b) then base_rdw b + 4 else base_rdw b)).
  unfold base_size. unfold bdw_size in Hn'. lia.
Qed.

Lemma header_bound p h : has_type header_struct h -> record_sized h ->
  (length (header_string p h) <= Z.to_nat 65535)%nat.
Proof.
  intros T Sz. destruct (bdw_scheme_laid_out p _ _ _ h (header_scheme p) T Sz)
    as (pre & body & z & W & Hz & B1 & B2 & L & n' & Hn' & Ln).
  apply Nat2Z.inj_le. unfold header_string. rewrite pad_block_length, W, app_length, L, header_doc_width.
  pose proof (clamped_le (if header_bdw h =? 0 then header_rdw h else header_bdw h)).
  unfold bdw_size in Hn'. destruct p; cbn [record_size]; lia.
Qed.

Lemma trailer_bound p h : has_type trailer_struct h -> record_sized h ->
  (length (trailer_string p h) <= Z.to_nat 65535)%nat.
Proof.
  intros T Sz. destruct (trailer_laid_out p h T Sz) as [_ L].
  apply Nat2Z.inj_le. unfold trailer_string. rewrite pad_block_length, L.
  pose proof (clamped_le (trailer_rdw h)). destruct p; cbn [record_size]; lia.
Qed.

(* ---- map iteration order ---- *)

Definition spec_lt (a b : string * field) : Prop :=
  (fStart (snd a) < fStart (snd b))%nat
  \/ (fStart (snd a) = fStart (snd b) /\ String.compare (fst a) (fst b) = Lt).

Lemma string_compare_trans a b c : String.compare a b = Lt -> String.compare b c = Lt -> String.compare a c = Lt.
Proof.
  revert b c. induction a as [|x a IH]; intros [|y b] [|z c]; cbn; try discriminate; auto.
  destruct (Ascii.compare x y) eqn:Exy; try discriminate; destruct (Ascii.compare y z) eqn:Eyz; try discriminate;
    unfold Ascii.compare in *.
  - apply N.compare_eq_iff in Exy, Eyz. rewrite Exy, Eyz, N.compare_refl. apply IH.
  - apply N.compare_eq_iff in Exy. rewrite Exy, Eyz. auto.
  - apply N.compare_eq_iff in Eyz. rewrite <- Eyz, Exy. auto.
  - intros _ _. rewrite N.compare_lt_iff in Exy, Eyz.
    assert (N_of_ascii x < N_of_ascii z)%N as Q by (eapply N.lt_trans; eassumption).
    apply N.compare_lt_iff in Q. rewrite Q. reflexivity.
Qed.

Lemma spec_le_lt a b : spec_le a b = true <-> ~ spec_lt b a.
Proof.
  unfold spec_le, spec_lt. destruct (Nat.eqb_spec (fStart (snd a)) (fStart (snd b))) as [E|E].
  - rewrite (String.compare_antisym (fst b) (fst a)).
    destruct (String.compare (fst a) (fst b)); cbn; split; try discriminate; intros H; try reflexivity.
    + intros [K|[K Q]]; [lia|discriminate].
    + intros [K|[K Q]]; [lia|discriminate].
    + exfalso. apply H. right. auto.
  - rewrite Nat.ltb_lt. intuition lia.
Qed.

Lemma spec_lt_trans a b c : spec_lt a b -> spec_lt b c -> spec_lt a c.
Proof.
  unfold spec_lt. intros [H|[H H']] [K|[K K']]; try (left; lia).
  right. split; [lia|]. eapply string_compare_trans; eassumption.
Qed.

Lemma spec_lt_total a b : fst a <> fst b -> spec_lt a b \/ spec_lt b a.
Proof.
  intros N. unfold spec_lt.
  destruct (Nat.lt_trichotomy (fStart (snd a)) (fStart (snd b))) as [H|[H|H]]; auto.
  rewrite (String.compare_antisym (fst b) (fst a)).
  destruct (String.compare (fst a) (fst b)) eqn:E; cbn; auto.
  apply String.compare_eq_iff in E. contradiction.
Qed.

Lemma spec_lt_irrefl a b : spec_lt a b -> spec_lt b a -> False.
Proof.
  unfold spec_lt. rewrite (String.compare_antisym (fst b) (fst a)).
  destruct (String.compare (fst a) (fst b)); cbn; intuition (try lia; try discriminate).
Qed.

(* the contract of sort.Slice with the comparison of converters.go:109-114 *)
Definition sorted_specs (p : layout) : Prop :=
  forall i j a b, (i < j)%nat -> nth_error p i = Some a -> nth_error p j = Some b -> ~ spec_lt b a.

Lemma sorted_cons x p : sorted_specs (x :: p) -> (forall y, In y p -> ~ spec_lt y x) /\ sorted_specs p.
Proof.
  intros S. split.
  - intros y Hy. apply In_nth_error in Hy as [k Hk]. apply (S 0%nat (Datatypes.S k) x y); [lia|reflexivity|exact Hk].
  - intros i j a b Hij Ha Hb. apply (S (Datatypes.S i) (Datatypes.S j) a b); [lia|exact Ha|exact Hb].
Qed.

Lemma cons_sorted x p : (forall y, In y p -> ~ spec_lt y x) -> sorted_specs p -> sorted_specs (x :: p).
Proof.
  intros H S [|i] [|j] a b Hij Ha Hb; try lia; cbn in *.
  - injection Ha as <-. apply H. eapply nth_error_In. exact Hb.
  - apply (S i j); auto; lia.
Qed.

Lemma insert_spec_sorted x l : (forall y, In y l -> fst y <> fst x) -> sorted_specs l -> sorted_specs (insert_spec x l).
Proof.
  induction l as [|y l IH]; intros N S; cbn [insert_spec].
  - apply cons_sorted; [intros ? []|exact S].
  - destruct (spec_le x y) eqn:E.
    + apply spec_le_lt in E. apply cons_sorted; [|exact S]. apply sorted_cons in S as [S1 S2].
      intros z [->|Hz]; [exact E|]. intros L.
      destruct (spec_lt_total x y) as [T|T]; [intros C; apply (N y); [left; reflexivity|congruence]| |contradiction].
      apply (S1 z Hz). eapply spec_lt_trans; eassumption.
    + apply sorted_cons in S as [S1 S2]. apply cons_sorted.
      * intros z Hz. apply (Permutation_in _ (Permutation_sym (insert_spec_perm x l))) in Hz.
        destruct Hz as [<-|Hz]; [|auto]. intros L.
        assert (spec_le x y = true) as Q; [|congruence]. apply spec_le_lt. intros K.
        exact (spec_lt_irrefl _ _ L K).
      * apply IH; [|exact S2]. intros z Hz. apply N. right. exact Hz.
Qed.

Lemma to_specifications_sorted l : NoDup (map fst l) -> sorted_specs (to_specifications l).
Proof.
  induction l as [|x l IH]; intros ND; cbn; [intros [] ? ? ? ? H; discriminate|].
  inversion ND as [|? ? Nx NDl]; subst. apply insert_spec_sorted; [|auto].
  intros y Hy E. apply Nx. rewrite <- E. apply in_map.
  eapply Permutation_in; [|exact Hy]. apply Permutation_sym, to_specifications_perm.
Qed.

Lemma sorted_unique p : forall q, NoDup (map fst p) -> Permutation p q -> sorted_specs p -> sorted_specs q -> p = q.
Proof.
  induction p as [|x p IH]; intros q ND P S1 S2.
  - apply Permutation_nil in P. subst. reflexivity.
  - destruct q as [|y q]; [apply Permutation_sym, Permutation_nil in P; discriminate|].
    apply sorted_cons in S1 as [A1 S1]. apply sorted_cons in S2 as [A2 S2].
    assert (x = y) as <-.
    { pose proof (Permutation_in x P (or_introl eq_refl)) as [E|Hx]; [auto|].
      pose proof (Permutation_in y (Permutation_sym P) (or_introl eq_refl)) as [E|Hy]; [auto|].
      exfalso. inversion ND as [|? ? Nx _]; subst.
      destruct (spec_lt_total x y) as [T|T].
      - intros E. apply Nx. rewrite E. apply in_map. exact Hy.
      - exact (A2 x Hx T).
      - exact (A1 y Hy T). }
    f_equal. inversion ND; subst. apply IH; auto. eapply Permutation_cons_inv. exact P.
Qed.

Lemma write_order_irrelevant l l' p st : NoDup (map fst l) -> Permutation l l' -> Permutation l' p ->
  sorted_specs p ->
  flat_map (fun e => to_string (snd e) (lookup (fst e) st)) p = write_fields l st.
Proof.
  intros ND P1 P2 S. unfold write_fields. f_equal. symmetry. apply sorted_unique.
  - eapply Permutation_NoDup; [apply Permutation_map; apply to_specifications_perm|exact ND].
  - rewrite <- P2, <- P1. apply Permutation_sym, to_specifications_perm.
  - apply to_specifications_sorted. exact ND.
  - exact S.
Qed.

Lemma layouts_nodup : Forall (fun l : layout => NoDup (map fst l))
  ([base_layout false; base_layout true; header_layout false; header_layout true;
    trailer_layout false; trailer_layout true] ++ map seg_layout all_kinds).
Proof.
  match goal with |- Forall _ ?ls =>
    assert (forallb (fun l : layout => nodupb (map fst l)) ls = true) as H by (vm_compute; reflexivity) end.
  apply forallb_Forall in H. eapply Forall_impl; [|exact H]. intros l. apply nodupb_NoDup.
Qed.

Lemma write_order_irrelevant_all l l' p st :
  In l ([base_layout false; base_layout true; header_layout false; header_layout true;
         trailer_layout false; trailer_layout true] ++ map seg_layout all_kinds) ->
  Permutation l l' -> Permutation l' p -> sorted_specs p ->
  flat_map (fun e => to_string (snd e) (lookup (fst e) st)) p = write_fields l st.
Proof.
  intros H. apply write_order_irrelevant. pose proof layouts_nodup as F. rewrite Forall_forall in F. auto.
Qed.
