(* Facts about reading and writing whole files *)
From Coq Require Import ZArith NArith Bool Ascii String List Lia.
Import ListNotations.
From Verif Require Import GoBase GoTime Tables Codec Records File GoBaseFacts SpecCodec SpecLayouts
  SpecRecords FieldFacts RecordFacts RoundTrip Layout RecordRead SpecFile ParseFacts ParseProps SpecFiles.
Local Open Scope string_scope.
Local Open Scope Z_scope.
Local Open Scope list_scope.
Local Notation length := List.length.

(* ---- fitting values have a defined width ---- *)

Lemma text_chars_ascii c : In c text_chars -> code c < 128.
Proof.
  assert (forallb (fun c => code c <? 128) text_chars = true) as H by (vm_compute; reflexivity).
  rewrite forallb_forall in H. intros I. apply Z.ltb_lt, H, I.
Qed.

Lemma fits_sized d v : fits d v -> sized v.
Proof.
  unfold fits. destruct (dKind d), v; try contradiction; cbn [sized]; auto.
  - intros (_ & F & _). eapply Forall_impl; [|exact F]. apply text_chars_ascii.
  - intros [(C & H) _]. unfold calendar_time. split; [exact C|]. lia.
  - intros [(C & H) _]. unfold calendar_time. split; [exact C|]. lia.
  - intros (C & H). unfold calendar_time. split; [exact C|]. lia.
  - intros (C & H). unfold calendar_time. split; [exact C|]. lia.
Qed.

Lemma struct_covered doc s n : struct_ok doc s = true -> In n (map fst s) ->
  exists d, In d doc /\ dName d = n /\ dKind d <> FReserved.
Proof.
  intros H I. unfold struct_ok in H. do 3 apply andb_prop in H as [H _]. apply andb_prop in H as [_ H].
  apply in_map_iff in I as ([m k] & <- & I). rewrite forallb_forall in H. specialize (H _ I).
  apply existsb_exists in H as (d & Hd & E). apply andb_prop in E as [E R]. apply String.eqb_eq in E.
  exists d. split; [exact Hd|]. split; [exact E|]. apply is_reserved_false, negb_true_iff, R.
Qed.

Lemma fits_record_sized doc s st pre : struct_ok doc s = true -> types st = pre ++ s ->
  (pre = [] \/ pre = [(BDW, KInt)]) -> NoDup (map fst st) -> record_fits doc st -> record_sized st.
Proof.
  intros So T Hp ND R n v Hv.
  assert (In n (map fst (pre ++ s))) as I.
  { rewrite <- T, types_names. apply in_map_iff. exists (n, v). auto. }
  rewrite map_app in I. apply in_app_or in I as [I|I].
  - destruct Hp as [->| ->]; [destruct I|]. destruct I as [<-|[]]. cbn in *.
    apply (In_lookup _ _ _ ND) in Hv.
    assert (lookup BDW (types st) = Some KInt) as L by (rewrite T; reflexivity).
    rewrite lookup_types, Hv in L. destruct v; try discriminate. exact I.
  - destruct (struct_covered _ _ _ So I) as (d & Hd & <- & K). destruct (R d Hd K) as (v' & Hv' & F).
    apply (In_lookup _ _ _ ND) in Hv, Hv'. rewrite Hv in Hv'. injection Hv' as <-. eapply fits_sized, F.
Qed.

Lemma bdw_fits_sized p doc l s st : scheme_bdw p doc l s = true -> has_type s st -> record_fits doc st -> record_sized st.
Proof.
  intros H T R. pose proof (scheme_nodup _ _ _ _ _ H T) as ND.
  destruct (scheme_bdw_inv _ _ _ _ H) as (sp & s' & _ & -> & _ & _ & So).
  eapply (fits_record_sized doc s' st [(BDW, KInt)]); eauto.
Qed.

Lemma plain_fits_sized doc l s st : scheme_plain doc l s = true -> has_type s st -> record_fits doc st -> record_sized st.
Proof.
  intros H T R. unfold scheme_plain in H. apply andb_prop in H as [_ So].
  destruct (struct_ok_nodup _ _ So) as [ND _]. rewrite <- (has_type_names _ _ T) in ND.
  eapply (fits_record_sized doc s st []); eauto.
Qed.

Lemma header_fits_sized p h : header_fits p h -> record_sized h.
Proof. intros [T R]. eapply bdw_fits_sized; eauto using header_scheme. Qed.
Lemma trailer_fits_sized p h : trailer_fits p h -> record_sized h.
Proof. intros [T R]. eapply plain_fits_sized; eauto using trailer_scheme. Qed.
Lemma seg_fits_sized s : seg_fits s -> seg_sized s.
Proof. intros [T R]. split; [exact T|]. eapply plain_fits_sized; eauto using seg_scheme. Qed.
Lemma base_fits_sized p b : base_fits p b -> base_sized b.
Proof.
  intros ([T P] & R & F). split; [split; assumption|]. split.
  - eapply bdw_fits_sized; eauto using base_scheme.
  - eapply Forall_impl; [|exact F]. intros s (Fs & _). apply seg_fits_sized, Fs.
Qed.

(* ---- the first word of each record ---- *)

Lemma begins_app p z a b : begins_with_word p z a -> begins_with_word p z (a ++ b).
Proof. intros (w & r & m & -> & H). exists w, (r ++ b), m. rewrite app_assoc. auto. Qed.

Lemma bdw_word (p : bool) z rest : 0 < z < (if p then 65536 else 10000) ->
  begins_with_word p z (bdw_text p z ++ rest).
Proof.
  intros H.
  destruct (bdw_text_written p z) as (L & W & _); [lia|unfold fits, bdw_doc; destruct p; cbn; lia|].
  exists (bdw_text p z), rest, false. auto.
Qed.

Lemma pad_block_begins p z n s : begins_with_word p z s -> begins_with_word p z (pad_block n s).
Proof. intros H. unfold pad_block. apply begins_app, H. Qed.

Lemma scheme_begins (p : bool) doc l s st bdw rdw : scheme_bdw p doc l s = true -> has_type s st -> record_fits doc st ->
  (exists doc', doc = Doc "RecordDescriptorWord" 4 (if p then FWord else FNumber) true :: doc') ->
  holds st BDW (VInt bdw) -> holds st "RecordDescriptorWord" (VInt rdw) ->
  0 <= bdw < (if p then 65536 else 10000) ->
  begins_with_word p (if 0 <? bdw then bdw else rdw) (write_fields l st).
Proof.
  intros H T R D Hb Hr Rg. destruct (write_fields_bdw _ _ _ _ _ _ H T Hb) as (sp & s' & Sp & _ & _ & _ & _ & ->).
  destruct (Z.ltb_spec 0 bdw).
  - apply bdw_word. lia.
  - assert (bdw = 0) as -> by lia. rewrite bdw_text_zero. cbn [app].
    destruct (text_starts_with_word _ _ _ _ _ _ H T R D Hr sp Sp) as (w & rest & -> & L & _ & W).
    exists w, rest, true. auto.
Qed.

Lemma trailer_head (p : bool) t rdw : trailer_fits p t -> holds t "RecordDescriptorWord" (VInt rdw) ->
  holds t "RecordIdentifier" (VStr (lit "TRAILER")) ->
  exists w more, write_fields (trailer_layout p) t = w ++ lit "TRAILER" ++ more /\ length w = 4%nat
    /\ written (Doc "RecordDescriptorWord" 4 (if p then FWord else FNumber) true) (VInt rdw) w.
Proof.
  intros [T R] Hr Hi. pose proof (trailer_nodup t T) as ND.
  destruct (R (Doc "RecordDescriptorWord" 4 (if p then FWord else FNumber) true)) as (v & Hv & F);
    [destruct p; left; reflexivity|destruct p; discriminate|].
  cbn in Hv. apply (In_lookup _ _ _ ND) in Hv. pose proof (In_lookup _ _ _ ND Hr) as Lr. rewrite Lr in Hv.
  injection Hv as <-.
  set (f := mkField 0 4 (if p then descriptor else numeric) required).
  destruct (field_written (Doc "RecordDescriptorWord" 4 (if p then FWord else FNumber) true) f (VInt rdw))
    as (L & W & _); [destruct p; reflexivity|destruct p; discriminate|exact F|].
  assert (exists sp, to_specifications (trailer_layout p) =
    ("RecordDescriptorWord", f) :: ("RecordIdentifier", mkField 4 7 alphanumeric required) :: sp) as [sp Sp].
  { destruct p; eexists; vm_compute; reflexivity. }
  exists (to_string f (Some (VInt rdw))).
  eexists. split; [|split; [exact L|exact W]].
  unfold write_fields. rewrite Sp. cbn [flat_map fst snd]. rewrite Lr, (In_lookup _ _ _ ND Hi). reflexivity.
Qed.

(* ---- a trailer is not taken for a data record ---- *)

Lemma bdw_body pol packed doc l s' st st' record rname sp : scheme_bdw packed doc l ((BDW, KInt) :: s') = true ->
  has_type ((BDW, KInt) :: s') st -> to_specifications l = (BDW, bdw_field packed) :: sp ->
  parse_fields pol true l rname record (map fst st) 0 st = (st', Ok tt) ->
  body_read sp (match pol with BdwShift => 4 | _ => 0 end) record rname (map fst s') st'.
Proof.
  intros H T Sp P. apply scheme_bdw_inv in H as (sp' & s'' & Sp' & Es & NDl & Lo & So).
  injection Es as <-. rewrite Sp in Sp'. injection Sp' as <-.
  destruct (struct_ok_nodup _ _ So) as [NDs NB].
  assert (map fst st = BDW :: map fst s') as Nm by (rewrite (has_type_names _ _ T); reflexivity).
  rewrite Nm in P. cbn [parse_fields] in P.
  assert (lookup BDW l = Some (bdw_field packed)) as Lb.
  { rewrite <- (lookup_specifications l _ NDl), Sp. reflexivity. }
  rewrite Lb in P. cbn [fStart fLength bdw_field andb] in P.
  destruct (Nat.ltb_spec (length record) (0 + 4 + 0)) as [|L4]; [discriminate|]. cbn in L4.
  destruct (slice record (0 + 0) (0 + 4 + 0)) as [data|] eqn:Sl; [|discriminate].
  assert (data = firstn 4 record) as ->.
  { unfold slice in Sl. destruct (_ && _)%bool in Sl; [|discriminate]. injection Sl as <-. reflexivity. }
  destruct (is_valid_type _ _ _ _) eqn:V; [discriminate|].
  destruct (parse_value (bdw_field packed) (firstn 4 record) BDW rname) as [v| |] eqn:Pv; try discriminate.
  destruct (types_BDW _ _ T) as (z0 & st0 & Est).
  assert (lookup BDW st = Some (VInt z0)) as L0 by (subst st; reflexivity).
  assert (exists z', v = VInt z') as [z' ->].
  { destruct (bdw_safe packed st rname z0 L0 (firstn 4 record)) as [_ Ca]; [rewrite firstn_length; cbn [bdw_field fLength]; lia|exact V|].
    specialize (Ca v Pv). apply can_assign_spec in Ca as (w & Lw & Kw). rewrite L0 in Lw. injection Lw as <-.
    destruct v; try discriminate. eauto. }
  assert (can_assign BDW (VInt z') st = true) as Ca by (apply can_assign_spec; eauto).
  rewrite Ca, String.eqb_refl in P.
  set (off := match pol with BdwShift => 4%nat | _ => 0%nat end).
  assert (exists st1, parse_fields pol true l rname record (map fst s') off st1 = (st', Ok tt)) as (st1 & P1).
  { destruct pol; try discriminate; unfold off; eauto. }
  clear P. apply parse_fields_inv in P1 as [P1 P2]; auto.
  intros n f Hn Lk. destruct (P1 n Hn) as (g & data & v & Lg & R).
  rewrite <- (lookup_specifications l n NDl), Sp in Lg. cbn [lookup] in Lg.
  destruct (String.eqb_spec n BDW) as [->|]; [contradiction|].
  rewrite Lg in Lk. injection Lk as ->. eauto.
Qed.

Lemma slice_mid (a b c : bytes) i j : length a = i -> length b = (j - i)%nat -> (i <= j)%nat ->
  slice (a ++ b ++ c) i j = Some b.
Proof.
  intros La Lb Lij. unfold slice. rewrite !app_length.
  assert ((i <=? j)%nat && (j <=? length a + (length b + length c))%nat = true) as ->.
  { apply andb_true_intro. split; apply Nat.leb_le; lia. }
  f_equal. rewrite skipn_app, skipn_all2 by lia. replace (i - length a)%nat with 0%nat by lia.
  cbn [skipn app]. rewrite firstn_app, <- Lb, firstn_all, Nat.sub_diag. cbn. apply app_nil_r.
Qed.

Lemma trailer_not_base k t rest : trailer_in k t ->
  exists b e, (if packed_of k then base_parse_packed else base_parse_char) new_base
    (trailer_string (packed_of k) t ++ rest) (blocked k) = (b, Err e).
Proof.
  intros (F & Hi & rdw & Hr & _).
  destruct (trailer_head _ _ _ F Hr Hi) as (w & more & W & L & _).
  pose proof (base_parse_no_panic (packed_of k) new_base (trailer_string (packed_of k) t ++ rest) (blocked k) eq_refl) as NP.
  set (res := (if packed_of k then base_parse_packed else base_parse_char) new_base
    (trailer_string (packed_of k) t ++ rest) (blocked k)) in *.
  assert (exists tail, trailer_string (packed_of k) t ++ rest = w ++ lit "TRAILER" ++ tail) as [tail E].
  { unfold trailer_string, pad_block. rewrite W, <- !app_assoc. eauto. }
  destruct res as [b [n|e|]] eqn:Er; [exfalso|eauto|contradiction]. subst res.
  rewrite E in Er. clear E W NP.
  assert (base_struct = (BDW, KInt) :: tl base_struct) as Es by reflexivity.
  assert (forall pol rn st', parse_fields pol true (base_layout (packed_of k)) rn
     (w ++ lit "TRAILER" ++ tail) (map fst (bFields new_base)) 0 (bFields new_base) = (st', Ok tt) ->
     pol = (match k with FixedFile => BdwSkip | _ => BdwShift end) -> False) as K.
  { intros pol rn st' P Hp.
    destruct (to_specifications (base_layout (packed_of k))) as [|q sp] eqn:Sp; [destruct k; discriminate|].
    assert (q = (BDW, bdw_field (packed_of k))) as -> by (destruct k; vm_compute in Sp; injection Sp as <- _; reflexivity).
    pose proof (base_scheme (packed_of k)) as Sch. rewrite Es in Sch.
    pose proof (bdw_body pol _ _ _ _ (bFields new_base) st' _ rn sp Sch eq_refl Sp P) as Br.
    destruct k; cbn [packed_of] in *; subst pol.
    - assert (lookup "ProcessingIndicator" sp = Some (mkField 4 1 numeric nullable)) as Lk.
      { vm_compute in Sp. injection Sp as <-. vm_compute. reflexivity. }
      destruct (Br "ProcessingIndicator" _ ltac:(vm_compute; tauto) Lk) as (d & v & Sl & V & Pv & _).
      cbn [fStart fLength] in Sl.
      change (lit "TRAILER") with (lit "T" ++ lit "RAILER") in Sl. rewrite <- app_assoc in Sl.
      rewrite slice_mid in Sl by (cbn; lia). injection Sl as <-. vm_compute in V. discriminate.
    - assert (lookup "RecordDescriptorWord" sp = Some (mkField 0 4 numeric required)) as Lk.
      { vm_compute in Sp. injection Sp as <-. vm_compute. reflexivity. }
      destruct (Br "RecordDescriptorWord" _ ltac:(vm_compute; tauto) Lk) as (d & v & Sl & V & Pv & _).
      cbn [fStart fLength] in Sl.
      change (lit "TRAILER") with (lit "TRAI" ++ lit "LER") in Sl. rewrite <- app_assoc in Sl.
      rewrite slice_mid in Sl by (cbn; lia). injection Sl as <-. vm_compute in V. discriminate.
    - assert (lookup "ProcessingIndicator" sp = Some (mkField 4 1 numeric nullable)) as Lk.
      { vm_compute in Sp. injection Sp as <-. vm_compute. reflexivity. }
      destruct (Br "ProcessingIndicator" _ ltac:(vm_compute; tauto) Lk) as (d & v & Sl & V & Pv & _).
      cbn [fStart fLength] in Sl.
      change (lit "TRAILER") with (lit "TRAI" ++ lit "LER") in Sl.
      change (w ++ (lit "TRAI" ++ lit "LER") ++ tail) with (w ++ lit "TRAI" ++ lit "L" ++ lit "ER" ++ tail) in Sl.
      rewrite app_assoc in Sl.
      rewrite slice_mid in Sl by (rewrite ?app_length; cbn; lia). injection Sl as <-. vm_compute in V. discriminate. }
  destruct k; cbn [packed_of blocked] in *; [unfold base_parse_char in Er|unfold base_parse_char in Er|unfold base_parse_packed in Er];
    (destruct (Nat.ltb _ _) in Er; [discriminate|]);
    match type of Er with context [parse_fields ?pol ?c ?l ?rn ?d ?ns ?o ?s] =>
      destruct (parse_fields pol c l rn d ns o s) as [st' [[]|e|]] eqn:P; try discriminate Er;
      apply (K pol rn st' P eq_refl) end.
Qed.

(* ---- records of a file read one at a time ---- *)

Lemma header_in_reads k h rest : header_in k h ->
  exists n, announces (RHeader (packed_of k) h) n /\ 0 < n /\
    Z.of_nat (length (header_string (packed_of k) h)) = n /\
    (if packed_of k then header_parse_packed else header_parse_char) new_header
      (header_string (packed_of k) h ++ rest) (blocked k) = (h, Ok n).
Proof.
  intros (F & bdw & rdw & Hb & Hr & D). pose proof F as [T R]. pose proof (header_nodup h T) as ND.
  pose proof (word_range _ _ _ _ R (doc_word_header _) ND Hr) as Rg.
  pose proof (header_fits_sized _ _ F) as Sz.
  exists (if 0 <? bdw then bdw else rdw).
  split; [exists bdw, rdw; split; [exact Hb|split; [exact Hr|]]; destruct (Z.ltb_spec 0 bdw); split; intros; lia|].
  destruct k; cbn [packed_of blocked] in *.
  - destruct D as [-> D]. change (0 <? 0) with false. cbv iota. split; [lia|]. split.
    + rewrite (header_length false h 0 rdw 0 rdw T Sz Hb Hr); [cbn; lia|left; auto|left; cbn; lia].
    + apply header_round_trip_fixed; auto using new_header_typed. left; reflexivity.
  - destruct (Z.ltb_spec 0 bdw); [|lia]. split; [lia|]. split.
    + rewrite (header_length false h bdw rdw 4 bdw T Sz Hb Hr); [cbn; lia|right; lia|left].
      destruct (Z.eqb_spec bdw 0); lia.
    + apply header_round_trip_variable; auto using new_header_typed. lia.
  - destruct D as (D & id & Hid & Up). destruct (Z.ltb_spec 0 bdw); [|lia]. split; [lia|]. split.
    + rewrite (header_length true h bdw rdw 4 bdw T Sz Hb Hr); [cbn; lia|right; lia|left].
      destruct (Z.eqb_spec bdw 0); lia.
    + apply header_round_trip_packed with (id := id); auto using new_header_typed. lia.
Qed.

Definition padded (p : bool) (b : base) : Prop := exists rdw, base_rdw_is b rdw /\ base_size p b < rdw.

Lemma base_in_reads k b rest : base_in k b -> no_segment rest \/ (k = PackedFile /\ padded true b) ->
  exists n, announces (RBase (packed_of k) b) n /\ 0 < n /\
    Z.of_nat (length ((if packed_of k then base_string_packed else base_string_char) b)) = n /\
    (if packed_of k then base_parse_packed else base_parse_char) new_base
      ((if packed_of k then base_string_packed else base_string_char) b ++ rest) (blocked k) = (b, Ok n).
Proof.
  intros (F & bdw & rdw & Hb & Hr & D) N. pose proof F as ([T P] & R & _). pose proof (base_nodup _ T) as ND.
  pose proof (word_range _ _ _ _ R (doc_word_base _) ND Hr) as Rg.
  pose proof (base_fits_sized _ _ F) as Sz.
  assert (forall p, 0 < base_size p b) as Pos by (intros p; unfold base_size, record_size; destruct p; lia).
  exists (if 0 <? bdw then bdw else rdw).
  split.
  { destruct b as [st j1 j2 xk1 xk2 xk3 xk4 xl1 xn1]. cbn [announces]. exists bdw, rdw.
    split; [exact Hb|]. split; [exact Hr|]. destruct (Z.ltb_spec 0 bdw); split; intros; lia. }
  destruct k; cbn [packed_of blocked] in *.
  - specialize (Pos false). destruct D as [-> D]. change (0 <? 0) with false. cbv iota. split; [lia|]. split.
    + change (base_string_char b) with (base_string false b).
      rewrite (base_length false b 0 rdw 0 rdw Sz Hb Hr); [lia|left; auto|left; cbn; lia].
    + apply base_round_trip_fixed; auto. right. destruct N as [N|[N _]]; [exact N|discriminate].
  - specialize (Pos false). destruct D as [D1 D2]. destruct (Z.ltb_spec 0 bdw); [|lia]. split; [lia|]. split.
    + change (base_string_char b) with (base_string false b).
      rewrite (base_length false b bdw rdw 4 (Z.max 0 rdw) Sz Hb Hr); [lia|right; lia|].
      cbn [andb]. destruct (Z.eq_dec rdw 0); [right; lia|left; lia].
    + apply base_round_trip_variable with (r := rdw); auto; [lia|]. right. destruct N as [N|[N _]]; [exact N|discriminate].
  - specialize (Pos true). destruct D as [D1 D2]. destruct (Z.ltb_spec 0 bdw); [|lia]. split; [lia|]. split.
    + change (base_string_packed b) with (base_string true b).
      rewrite (base_length true b bdw rdw 4 (rdw + 4) Sz Hb Hr); [lia|right; lia|].
      destruct (Z.ltb_spec 0 bdw); [|lia]. cbn [andb]. left. lia.
    + apply base_round_trip_packed with (r := rdw); auto; [lia|].
      destruct N as [N|[_ (r & Hr' & L)]]; [right; exact N|left].
      assert (r = rdw) as -> by (eapply holds_inj; [exact ND|exact Hr'|exact Hr]). lia.
Qed.

Lemma trailer_in_reads k t t0 rest : trailer_in k t -> has_type trailer_struct t0 ->
  exists n, announces (RTrailer (packed_of k) t) n /\ 0 < n /\
    Z.of_nat (length (trailer_string (packed_of k) t)) = n /\
    (if packed_of k then trailer_parse_packed else trailer_parse_char) t0
      (trailer_string (packed_of k) t ++ rest) (blocked k) = (t, Ok n).
Proof.
  intros (F & Hi & rdw & Hr & D) T0. pose proof F as [T R]. pose proof (trailer_nodup t T) as ND.
  assert (0 <= rdw < 65536) as Rg.
  { pose proof (word_range (packed_of k) t (trailer_doc (packed_of k)) rdw R) as W.
    assert (0 <= rdw < (if packed_of k then 65536 else 10000)) as Q.
    { apply W; auto. destruct k; eexists; reflexivity. }
    destruct (packed_of k); lia. }
  exists rdw. split; [exact Hr|]. assert (0 < rdw) by (unfold record_size in D; destruct (packed_of k); lia).
  split; [assumption|]. split.
  - rewrite (trailer_length (packed_of k) t rdw rdw T (trailer_fits_sized _ _ F) Hr); [lia|left; lia].
  - apply trailer_round_trip; auto.
Qed.

(* ---- what follows a record does not look like a segment ---- *)

Lemma digit_not_mark w rest kd : length w = 4%nat -> Forall (fun c => In c digits) w -> firstn 2 (w ++ rest) <> seg_mark kd.
Proof.
  intros L F E. destruct w as [|a [|b w]]; try discriminate. cbn in E. inversion F; subst.
  destruct kd; injection E as -> ->; cbn in H1; intuition discriminate.
Qed.

Lemma begins_no_segment p z s : begins_with_word p z s -> (p = true -> ~ spells_mark z) -> no_segment s.
Proof.
  intros (w & rest & m & -> & L & W) H. right. intros kd E. destruct p; cbn in W.
  - destruct W as (b & -> & Lb & Eb). apply (H eq_refl). exists kd. rewrite <- Eb. f_equal.
    destruct b as [|x [|y [|? ?]]]; try discriminate. exact E.
  - destruct W as (_ & F & _). exact (digit_not_mark w rest kd L F E).
Qed.

Lemma base_in_begins k b bdw rdw : base_in k b -> base_bdw_is b bdw -> base_rdw_is b rdw ->
  begins_with_word (packed_of k) (if 0 <? bdw then bdw else rdw)
    ((if packed_of k then base_string_packed else base_string_char) b).
Proof.
  intros (F & bdw' & rdw' & Hb & Hr & D) Hb' Hr'. pose proof F as ([T P] & R & _). pose proof (base_nodup _ T) as ND.
  assert (bdw' = bdw) as -> by (eapply holds_inj; [exact ND|exact Hb|exact Hb']).
  assert (rdw' = rdw) as -> by (eapply holds_inj; [exact ND|exact Hr|exact Hr']).
  assert (forall p, 0 < base_size p b) as Pos by (intros p; unfold base_size, record_size; destruct p; lia).
  assert (begins_with_word (packed_of k) (if 0 <? bdw then bdw else rdw) (write_fields (base_layout (packed_of k)) (bFields b))) as B.
  { eapply scheme_begins; eauto using base_scheme, doc_word_base. specialize (Pos (packed_of k)).
    destruct k; cbn [packed_of] in *; lia. }
  destruct k; cbn [packed_of] in *; apply pad_block_begins, begins_app, B.
Qed.

Lemma header_in_begins k h n : header_in k h -> announces (RHeader (packed_of k) h) n ->
  begins_with_word (packed_of k) n (header_string (packed_of k) h).
Proof.
  intros (F & bdw & rdw & Hb & Hr & D) (bdw' & rdw' & Hb' & Hr' & N1' & N2').
  pose proof F as [T R]. pose proof (header_nodup h T) as ND.
  assert (bdw' = bdw) as -> by (eapply holds_inj; [exact ND|exact Hb'|exact Hb]).
  assert (rdw' = rdw) as -> by (eapply holds_inj; [exact ND|exact Hr'|exact Hr]).
  replace n with (if 0 <? bdw then bdw else rdw) by (destruct (Z.ltb_spec 0 bdw); [rewrite N1'; lia|rewrite N2'; lia]).
  unfold header_string. apply pad_block_begins.
  eapply scheme_begins; eauto using header_scheme, doc_word_header. destruct k; cbn [packed_of] in *; lia.
Qed.

Lemma trailer_in_begins k t n : trailer_in k t -> announces (RTrailer (packed_of k) t) n ->
  begins_with_word (packed_of k) n (trailer_string (packed_of k) t).
Proof.
  intros (F & Hi & _) Hr. cbn in Hr. destruct (trailer_head _ _ _ F Hr Hi) as (w & more & W & L & Wr).
  unfold trailer_string. apply pad_block_begins. rewrite W. exists w, (lit "TRAILER" ++ more), true. auto.
Qed.
