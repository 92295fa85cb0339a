(* The outcome of reading segments and records *)
From Coq Require Import ZArith NArith Bool Ascii String List Lia.
Import ListNotations.
From Verif Require Import GoBase GoBaseFacts GoTime Regex Tables Codec Records
  SpecCodec SpecLayouts SpecRecords SpecReport SpecRead TimeFacts FieldFacts RecordFacts RoundTrip FieldRead RecordRead
  ParseFacts ReadField ReadRecords.
Local Open Scope string_scope.
Local Open Scope Z_scope.
Local Open Scope list_scope.
Local Notation length := List.length.

(* ---- cutting ---- *)

Lemma cut_width doc parts : cut doc parts -> length (List.concat parts) = doc_width doc.
Proof. induction 1 as [|d p doc parts L F IH]; [reflexivity|]. cbn. rewrite app_length, IH, L. reflexivity. Qed.

Lemma cut_exists doc : forall t, (doc_width doc <= length t)%nat -> exists parts rest, t = List.concat parts ++ rest /\ cut doc parts.
Proof.
  induction doc as [|d doc IH]; intros t L.
  - exists [], t. split; [reflexivity|constructor].
  - cbn in L. destruct (IH (skipn (dWidth d) t)) as (parts & rest & E & C); [rewrite skipn_length; lia|].
    exists (firstn (dWidth d) t :: parts), rest. split.
    + cbn [List.concat]. rewrite <- app_assoc, <- E. symmetry. apply firstn_skipn.
    + constructor; [rewrite firstn_length; lia|exact C].
Qed.

Lemma filled_readable st doc parts : Forall2 (filled_in st) doc parts -> all_readable doc parts.
Proof. induction 1 as [|d p doc parts H F IH]; constructor; auto. destruct H as [R|(v & S & _)]; [left|right]; eauto. Qed.

Lemma until_unreadable title doc parts st st' e : read_until title doc parts st st' e -> ~ all_readable doc parts.
Proof.
  intros (d1 & d & d2 & p1 & p & p2 & -> & -> & F & _ & N & _) R.
  revert p1 F R. induction d1 as [|x d1 IH]; intros p1 F R; inversion F; subst.
  - inversion R; subst. contradiction.
  - inversion R; subst. eapply IH; eauto.
Qed.

Lemma whole_readable doc parts st st' : read_whole doc parts st st' -> all_readable doc parts.
Proof. intros [F _]. eapply filled_readable. exact F. Qed.

(* ---- typing ---- *)

Lemma parsed_typed pol chk l rname t names off s st st' x :
  has_type s st -> parse_fields pol chk l rname t names off st = (st', x) -> has_type s st'.
Proof.
  intros T E. pose proof (parse_fields_types pol chk l rname t names off st) as H. rewrite E in H. cbn [fst] in H.
  unfold has_type, types in *. congruence.
Qed.

(* ---- segments ---- *)

Lemma seg_order k : data_names (seg_doc k) = map fst (seg_struct k).
Proof. destruct k; vm_compute; reflexivity. Qed.
Lemma base_order p : BDW :: data_names (base_doc p) = map fst base_struct.
Proof. destruct p; vm_compute; reflexivity. Qed.
Lemma header_order p : BDW :: data_names (header_doc p) = map fst header_struct.
Proof. destruct p; vm_compute; reflexivity. Qed.
Lemma trailer_order p : data_names (trailer_doc p) = map fst trailer_struct.
Proof. destruct p; vm_compute; reflexivity. Qed.

Lemma seg_rname_title k : seg_rname k = seg_title k.
Proof. destruct k; reflexivity. Qed.

Lemma seg_exact s parts rest iv : seg_typed s -> cut (seg_doc (sKind s)) parts ->
  let r := seg_parse s (List.concat parts ++ rest) iv in
  (all_readable (seg_doc (sKind s)) parts /\ exists st', r = (mkSegment (sKind s) st', Ok (seg_size (sKind s)))
     /\ seg_typed (mkSegment (sKind s) st') /\ read_whole (seg_doc (sKind s)) parts (sFields s) st')
  \/ (~ all_readable (seg_doc (sKind s)) parts /\ exists st' e, r = (mkSegment (sKind s) st', Err e)
        /\ read_until (seg_title (sKind s)) (seg_doc (sKind s)) parts (sFields s) st' e).
Proof.
  intros T C r. unfold r, seg_parse. rewrite seg_length_size, seg_rname_title.
  destruct (Nat.ltb_spec (length (List.concat parts ++ rest)) (seg_size (sKind s))) as [L|_].
  { rewrite app_length, (cut_width _ _ C), seg_doc_width in L. lia. }
  destruct (plain_exact (char_policy iv) true _ _ _ (sFields s) (seg_title (sKind s)) parts rest (seg_scheme (sKind s)) (seg_order _) T C)
    as [(st' & E & R)|(st' & e & E & R)]; rewrite E; [left|right].
  - split; [eapply whole_readable; exact R|]. exists st'. split; [reflexivity|]. split; [eapply parsed_typed; eauto|exact R].
  - split; [eapply until_unreadable; exact R|]. eauto.
Qed.

Lemma seg_short s t iv : (length t < seg_size (sKind s))%nat ->
  seg_parse s t iv = (s, Err (ErrSegmentLength (seg_title (sKind s)))).
Proof.
  intros L. unfold seg_parse. rewrite seg_length_size, seg_rname_title.
  destruct (Nat.ltb_spec (length t) (seg_size (sKind s))); [reflexivity|lia].
Qed.

Lemma kind_of_none s : kind_of_identifier s = None -> forall k, s <> seg_mark k.
Proof. intros H k ->. rewrite kind_of_mark in H. discriminate. Qed.

Lemma segments_exact iv : forall fuel t off b, (length t < fuel)%nat ->
  exists ss n r, segs_read t ss n r
    /\ read_segments fuel t off b iv = (fold_left (fun b s => put_segment s b) ss b,
         match r with Some e => Err e | None => Ok (off + n)%nat end).
Proof.
  induction fuel as [|fuel IH]; intros t off b L; [lia|]. cbn [read_segments].
  destruct (Nat.ltb_spec 2 (length t)) as [L2|L2].
  2:{ exists [], 0%nat, None. split; [constructor; left; lia|]. rewrite Nat.add_0_r. reflexivity. }
  destruct (kind_of_identifier (firstn 2 t)) as [k|] eqn:K.
  2:{ exists [], 0%nat, None. split; [constructor; right; apply kind_of_none; exact K|]. rewrite Nat.add_0_r. reflexivity. }
  apply kind_of_identifier_mark in K.
  destruct (Nat.ltb_spec (length t) (seg_size k)) as [Ls|Ls].
  { exists [], 0%nat, (Some (ErrSegmentLength (seg_title k))). split; [apply segs_short; auto|].
    rewrite (seg_short (new_segment k)) by exact Ls. reflexivity. }
  destruct (cut_exists (seg_doc k) t) as (parts & rest & -> & C); [rewrite seg_doc_width; exact Ls|].
  assert (firstn 2 (List.concat parts) = seg_mark k) as K2.
  { rewrite firstn_app in K. pose proof (cut_width _ _ C) as W. rewrite seg_doc_width in W.
    replace (2 - length (List.concat parts))%nat with O in K by (rewrite W; destruct k; reflexivity).
    cbn [firstn] in K. rewrite app_nil_r in K. exact K. }
  destruct (seg_exact (new_segment k) parts rest iv (new_segment_typed k) C) as [(_ & st & E & Ty & R)|(_ & st & e & E & R)];
    rewrite E; cbn [new_segment sKind] in *.
  2:{ exists [], 0%nat, (Some e). split; [eapply segs_unreadable; eauto|reflexivity]. }
  unfold base_add_segment. destruct (seg_validate (mkSegment k st)) as [e|] eqn:V.
  { exists [], 0%nat, (Some e). split; [eapply segs_invalid; eauto|reflexivity]. }
  assert (skipn (seg_size k) (List.concat parts ++ rest) = rest) as ->.
  { rewrite <- (seg_doc_width k), <- (cut_width _ _ C), skipn_app, skipn_all, Nat.sub_diag. reflexivity. }
  destruct (IH rest (off + seg_size k)%nat (put_segment (mkSegment k st) b)) as (ss & n & r & Sr & Er).
  { rewrite app_length, (cut_width _ _ C), seg_doc_width in L. destruct k; cbn in L; lia. }
  exists (mkSegment k st :: ss), (seg_size k + n)%nat, r. split; [eapply segs_next; eauto|].
  rewrite Er. cbn [fold_left]. rewrite Nat.add_assoc. reflexivity.
Qed.

(* ---- attaching segments ---- *)

Definition attached_to (b b' : base) (ss : list segment) : Prop :=
  bJ1 b' = bJ1 b ++ of_kind J1 ss /\ bJ2 b' = bJ2 b ++ of_kind J2 ss
  /\ bK1 b' = latest K1 ss (bK1 b) /\ bK2 b' = latest K2 ss (bK2 b) /\ bK3 b' = latest K3 ss (bK3 b)
  /\ bK4 b' = latest K4 ss (bK4 b) /\ bL1 b' = latest L1 ss (bL1 b) /\ bN1 b' = latest N1 ss (bN1 b).

Lemma of_kind_app k a b : of_kind k (a ++ b) = of_kind k a ++ of_kind k b.
Proof. unfold of_kind. apply filter_app. Qed.

Lemma latest_snoc k ss s old : latest k (ss ++ [s]) old = if kind_dec (sKind s) k then Some s else latest k ss old.
Proof.
  unfold latest. rewrite of_kind_app. unfold of_kind at 2. cbn [filter]. destruct (kind_dec (sKind s) k).
  - rewrite rev_app_distr. reflexivity.
  - rewrite app_nil_r. reflexivity.
Qed.

Lemma fold_attached b : forall ss, attached_to b (fold_left (fun b s => put_segment s b) ss b) ss.
Proof.
  apply rev_ind.
  - unfold attached_to. cbn. rewrite !app_nil_r. repeat split.
  - intros s ss (A1 & A2 & A3 & A4 & A5 & A6 & A7 & A8). rewrite fold_left_app. cbn [fold_left].
    set (b1 := fold_left _ ss b) in *. unfold attached_to. rewrite !of_kind_app, !latest_snoc. unfold of_kind at 2 4. cbn [filter].
    unfold put_segment.
    destruct (sKind s) eqn:K; cbn [bJ1 bJ2 bK1 bK2 bK3 bK4 bL1 bN1];
      repeat match goal with |- context [kind_dec ?a ?b] => destruct (kind_dec a b); [try discriminate|try contradiction] end;
      rewrite ?app_nil_r, ?app_assoc, <- ?A1, <- ?A2; repeat split; auto; rewrite A1 || rewrite A2; reflexivity.
Qed.

(* ---- parts ---- *)

Lemma whole_first d doc w parts st st' : read_whole (d :: doc) (w :: parts) st st' -> filled_in st' d w.
Proof. intros [F _]. inversion F; subst. assumption. Qed.

Lemma whole_kept doc parts st st' n v : read_whole doc parts st st' -> existsb (String.eqb n) (map dName doc) = false ->
  holds st n v -> holds st' n v.
Proof.
  intros [_ K] N H. apply K; [|exact H]. intros I. assert (existsb (String.eqb n) (map dName doc) = true) as X; [|congruence].
  apply existsb_exists. exists n. split; [exact I|apply String.eqb_refl].
Qed.

(* the first field of records *)
Definition length_word (packed : bool) : doc_field :=
  Doc "RecordDescriptorWord" 4 (if packed then FWord else FNumber) true.

Lemma base_doc_first p : exists doc, base_doc p = length_word p :: doc.
Proof. destruct p; eexists; reflexivity. Qed.
Lemma header_doc_first p : exists doc, header_doc p = length_word p :: doc.
Proof. destruct p; eexists; reflexivity. Qed.
Lemma trailer_doc_first p : exists doc, trailer_doc p = length_word p :: doc.
Proof. destruct p; eexists; reflexivity. Qed.

Lemma length_block p w : readable (length_word p) w -> readable (block_word p) w.
Proof.
  intros [R|(v & S)]; [destruct p; discriminate R|]. right. exists v. destruct p; [exact S|].
  unfold stands_for in *. cbn in *. destruct v; try contradiction. split; [apply S|]. discriminate.
Qed.

Lemma word_filled st p must n w : filled_in st (Doc n 4 (if p : bool then FWord else FNumber) must) w ->
  exists z, stands_for (Doc n 4 (if p then FWord else FNumber) must) w (VInt z) /\ holds st n (VInt z).
Proof.
  intros [R|(v & S & H)]; [destruct p; discriminate R|]. destruct v as [z| |]; [eauto| |];
    exfalso; unfold stands_for in S; cbn in S; destruct p; exact S.
Qed.

Lemma whole_length_word (p : bool) doc parts st st' : read_whole (length_word p :: doc) parts st st' ->
  exists z, holds st' "RecordDescriptorWord" (VInt z).
Proof. intros [F _]. inversion F as [|d w ? ? H]; subst. apply word_filled in H as (z & _ & H). eauto. Qed.

(* ---- base segments ---- *)

Lemma base_char_outcome b text iv st' zb zr :
  (426 <= length text)%nat ->
  parse_fields (char_policy iv) true baseSegmentCharacterFormat "base segment" text (map fst (bFields b)) 0 (bFields b) = (st', Ok tt) ->
  has_type base_struct st' -> holds st' BDW (VInt zb) -> holds st' "RecordDescriptorWord" (VInt zr) ->
  let off := if 0 <? zb then 430%nat else 426%nat in (off <= length text)%nat ->
  exists b' ss n r, base_parse_char b text iv = (b', match r with
      | Some e => Err e
      | None => if 0 <? zb then (if zb <? Z.of_nat (n + off) then Err ErrFailedParsing else Ok zb)
                else if (zb =? 0) && (zr <? Z.of_nat (n + off)) then Err ErrFailedParsing else Ok zr
      end)
    /\ bFields b' = st' /\ segs_read (skipn off text) ss n r /\ attached b b' ss.
Proof.
  intros L E T Hb Hr off Lo. pose proof (base_nodup _ T) as ND.
  destruct (segments_exact iv (S (length text)) (skipn off text) 0 (clear_j (set_bFields b st'))) as (ss & n & r & Sr & Er).
  { rewrite skipn_length. lia. }
  exists (fold_left (fun b s => put_segment s b) ss (clear_j (set_bFields b st'))), ss, n, r.
  assert (bFields (fold_left (fun b s => put_segment s b) ss (clear_j (set_bFields b st'))) = st') as Ef by (rewrite fold_put_fields; reflexivity).
  split; [|split; [exact Ef|split; [exact Sr|exact (fold_attached (clear_j (set_bFields b st')) ss)]]].
  unfold base_parse_char.
  destruct (Nat.ltb_spec (length text) UnpackedRecordLength) as [X|_]; [change UnpackedRecordLength with 426%nat in X; lia|].
  rewrite E. assert (base_bdw (set_bFields b st') = zb) as Eb by (apply get_int_holds; assumption). rewrite Eb.
  change (if 0 <? zb then (UnpackedRecordLength + 4)%nat else UnpackedRecordLength) with off.
  destruct (Nat.ltb_spec (length text) off) as [X|_]; [lia|]. cbv zeta. rewrite Er.
  unfold base_bdw, base_rdw. rewrite Ef, (get_int_holds st' _ _ ND Hb), (get_int_holds st' _ _ ND Hr).
  destruct r as [e|]; [reflexivity|]. cbn [Nat.add].
  destruct (Z.ltb_spec 0 zb) as [P|P].
  - destruct (zb <? Z.of_nat (n + off)); cbn [andb]; [reflexivity|].
    destruct (Z.eqb_spec zb 0); [lia|]. reflexivity.
  - cbn [andb]. destruct ((zb =? 0) && (zr <? Z.of_nat (n + off))); reflexivity.
Qed.

Lemma cut_cons d doc parts : cut (d :: doc) parts -> exists w q, parts = w :: q /\ length w = dWidth d.
Proof. intros C. inversion C; subst. eauto. Qed.

Lemma concat_skip doc parts (rest : bytes) n : cut doc parts -> doc_width doc = n -> skipn n (List.concat parts ++ rest) = rest.
Proof. intros C <-. rewrite <- (cut_width _ _ C), skipn_app, skipn_all, Nat.sub_diag. reflexivity. Qed.

Lemma readable_first d doc w q : all_readable (d :: doc) (w :: q) -> readable d w.
Proof. intros F. inversion F; subst. assumption. Qed.

Lemma base_fixed_exact b parts rest : base_typed b -> base_bdw_is b 0 -> cut (base_doc false) parts ->
  let t := List.concat parts ++ rest in
  (all_readable (base_doc false) parts /\ exists b' ss n r block,
      base_parse_char b t false = (b', ended block (426 + n) r)
      /\ read_whole (base_doc false) parts (bFields b) (bFields b')
      /\ base_rdw_is b' block /\ segs_read rest ss n r /\ attached b b' ss)
  \/ (~ all_readable (base_doc false) parts /\ exists b' e,
      base_parse_char b t false = (b', Err e)
      /\ read_until_fixed "base segment" (base_doc false) parts (bFields b) (bFields b') e).
Proof.
  intros [T P] B0 C t. destruct (base_doc_first false) as (doc & Ed). pose proof C as C0. rewrite Ed in C0.
  destruct (cut_cons _ _ _ C0) as (w & q & Ep & Lw). subst parts.
  pose proof (cut_width _ _ C) as W. rewrite base_doc_width in W. change (record_size false) with 426%nat in W.
  assert (426 <= length t)%nat as L by (unfold t; rewrite app_length; lia).
  destruct (fixed_exact false (base_doc false) _ _ (bFields b) "base segment" (base_scheme false) (base_order false) T w q rest Lw C)
    as [(st' & E & Rw & R)|(st' & e & E & R)]; fold t in E.
  - left. split; [eapply whole_readable; exact R|].
    assert (holds st' BDW (VInt 0)) as Hb by (eapply whole_kept; [exact R|vm_compute; reflexivity|exact B0]).
    pose proof R as R1. rewrite Ed in R1. destruct (whole_length_word false doc _ _ _ R1) as (z & Hr).
    destruct (base_char_outcome b t false st' 0 z L E) as (b' & ss & n & r & Eb & Ef & Sr & A); auto; [eapply parsed_typed; eauto|].
    exists b', ss, n, r, z. rewrite Ef. cbn [Z.ltb Z.compare] in Eb, Sr.
    split; [rewrite Eb; unfold ended; cbn [Z.eqb andb]; rewrite Nat.add_comm; reflexivity|]. split; [exact R|].
    split; [unfold base_rdw_is; rewrite Ef; exact Hr|]. split; [|exact A].
    unfold t in Sr. rewrite (concat_skip _ _ rest 426 C) in Sr by (rewrite base_doc_width; reflexivity). exact Sr.
  - right. split.
    + intros A. destruct R as [[N _]|[_ U]]; [|eapply until_unreadable; eauto].
      apply N, length_block. rewrite Ed in A. eapply readable_first. exact A.
    + exists (set_bFields b st'), e. split.
      * unfold base_parse_char. destruct (Nat.ltb_spec (length t) UnpackedRecordLength) as [X|_]; [change UnpackedRecordLength with 426%nat in X; lia|].
        change (char_policy false) with BdwSkip.
        change (base_layout false) with baseSegmentCharacterFormat in E. rewrite E. reflexivity.
      * exists w. split; [reflexivity|exact R].
Qed.

Lemma base_variable_exact b w parts rest : base_typed b -> length w = 4%nat -> cut (base_doc false) parts ->
  let t := w ++ List.concat parts ++ rest in
  let doc := block_word false :: base_doc false in
  (all_readable doc (w :: parts) /\ exists b' ss n r zb zr,
      stands_for (block_word false) w (VInt zb) /\ base_bdw_is b' zb /\ base_rdw_is b' zr
      /\ base_parse_char b t true = (b',
           if 0 <? zb then ended zb (430 + n) r
           else if zb =? 0 then ended zr (426 + n) r
           else match r with Some e => Err e | None => Ok zr end)
      /\ read_whole doc (w :: parts) (bFields b) (bFields b')
      /\ segs_read (if 0 <? zb then rest else skipn 422 (List.concat parts) ++ rest) ss n r /\ attached b b' ss)
  \/ (~ all_readable doc (w :: parts) /\ exists b' e,
      base_parse_char b t true = (b', Err e)
      /\ read_until "base segment" doc (w :: parts) (bFields b) (bFields b') e).
Proof.
  intros [T P] Lw C t doc. destruct (base_doc_first false) as (doc1 & Ed).
  pose proof (cut_width _ _ C) as W. rewrite base_doc_width in W. change (record_size false) with 426%nat in W.
  assert (430 <= length t)%nat as L by (unfold t; rewrite !app_length; lia).
  destruct (variable_exact false (base_doc false) _ _ (bFields b) "base segment" (base_scheme false) (base_order false) T w parts rest Lw C)
    as [(st' & E & R)|(st' & e & E & R)]; fold t in E; fold doc in R.
  - left. split; [eapply whole_readable; exact R|].
    pose proof (whole_first _ _ _ _ _ _ R) as Fb. apply (word_filled st' false) in Fb as (zb & Sb & Hb).
    assert (exists zr, holds st' "RecordDescriptorWord" (VInt zr)) as (zr & Hr).
    { destruct R as [F _]. unfold doc in F. rewrite Ed in F. inversion F as [|d0 w0 l0 l1 H0 F2]; subst.
      inversion F2 as [|d2 w2 ? ? H2]; subst. apply (word_filled st' false) in H2 as (z & _ & H2). eauto. }
    destruct (base_char_outcome b t true st' zb zr) as (b' & ss & n & r & Eb & Ef & Sr & A); auto;
      [lia|eapply parsed_typed; eauto|destruct (0 <? zb); lia|].
    exists b', ss, n, r, zb, zr. unfold base_bdw_is, base_rdw_is. rewrite Ef.
    split; [exact Sb|]. split; [exact Hb|]. split; [exact Hr|]. split; [|split; [exact R|split; [|exact A]]].
    + rewrite Eb. unfold ended. destruct (0 <? zb); [rewrite (Nat.add_comm 430); reflexivity|].
      destruct (zb =? 0); [rewrite (Nat.add_comm 426)|]; reflexivity.
    + destruct (0 <? zb).
      * replace (skipn 430 t) with rest in Sr; [exact Sr|]. unfold t. rewrite skipn_app, Lw.
        rewrite (skipn_all2 w) by lia. symmetry. apply (concat_skip (base_doc false)); [exact C|rewrite base_doc_width; reflexivity].
      * replace (skipn 426 t) with (skipn 422 (List.concat parts) ++ rest) in Sr; [exact Sr|]. unfold t. rewrite skipn_app, Lw.
        rewrite (skipn_all2 w) by lia. rewrite skipn_app, W. reflexivity.
  - right. split; [eapply until_unreadable; exact R|]. exists (set_bFields b st'), e. split; [|exact R].
    unfold base_parse_char. destruct (Nat.ltb_spec (length t) UnpackedRecordLength) as [X|_]; [change UnpackedRecordLength with 426%nat in X; lia|].
    change (char_policy true) with BdwShift. change (base_layout false) with baseSegmentCharacterFormat in E. rewrite E. reflexivity.
Qed.

Lemma base_packed_exact b w parts rest : base_typed b -> length w = 4%nat -> cut (base_doc true) parts ->
  let t := w ++ List.concat parts ++ rest in
  let doc := block_word true :: base_doc true in
  (all_readable doc (w :: parts) /\ exists b' ss n r block,
      base_parse_packed b t true = (b', ended block (370 + n) r)
      /\ read_whole doc (w :: parts) (bFields b) (bFields b')
      /\ base_bdw_is b' block /\ segs_read rest ss n r /\ attached b b' ss)
  \/ (~ all_readable doc (w :: parts) /\ exists b' e,
      base_parse_packed b t true = (b', Err e)
      /\ read_until "packed base segment" doc (w :: parts) (bFields b) (bFields b') e).
Proof.
  intros [T P] Lw C t doc.
  pose proof (cut_width _ _ C) as W. rewrite base_doc_width in W. change (record_size true) with 366%nat in W.
  assert (370 <= length t)%nat as L by (unfold t; rewrite !app_length; lia).
  destruct (variable_exact true (base_doc true) _ _ (bFields b) "packed base segment" (base_scheme true) (base_order true) T w parts rest Lw C)
    as [(st' & E & R)|(st' & e & E & R)]; fold t in E; fold doc in R.
  - left. split; [eapply whole_readable; exact R|].
    pose proof (whole_first _ _ _ _ _ _ R) as Fb. apply (word_filled st' true) in Fb as (zb & _ & Hb).
    assert (has_type base_struct st') as T' by (eapply parsed_typed; eauto).
    destruct (segments_exact true (S (length t)) (skipn 370 t) 0 (clear_j (set_bFields b st'))) as (ss & n & r & Sr & Er).
    { rewrite skipn_length. lia. }
    exists (fold_left (fun b s => put_segment s b) ss (clear_j (set_bFields b st'))), ss, n, r, zb.
    assert (bFields (fold_left (fun b s => put_segment s b) ss (clear_j (set_bFields b st'))) = st') as Ef by (rewrite fold_put_fields; reflexivity).
    unfold base_bdw_is. rewrite Ef. split; [|split; [exact R|split; [exact Hb|split; [|exact (fold_attached (clear_j (set_bFields b st')) ss)]]]].
    + unfold base_parse_packed.
      destruct (Nat.ltb_spec (length t) PackedRecordLength) as [X|_]; [change PackedRecordLength with 366%nat in X; lia|].
      change (base_layout true) with baseSegmentPackedFormat in E. rewrite E. cbv zeta.
      change (PackedRecordLength + 4)%nat with 370%nat.
      destruct (Nat.ltb_spec (length t) 370) as [X|_]; [lia|]. rewrite Er.
      unfold base_bdw. rewrite Ef, (get_int_holds st' _ _ (base_nodup _ T') Hb).
      destruct r as [e|]; [reflexivity|]. unfold ended. rewrite (Nat.add_comm (0 + n)). cbn [Nat.add].
      destruct (zb <? _); reflexivity.
    + replace (skipn 370 t) with rest in Sr; [exact Sr|]. unfold t. rewrite skipn_app, Lw.
      rewrite (skipn_all2 w) by lia. symmetry. apply (concat_skip (base_doc true)); [exact C|rewrite base_doc_width; reflexivity].
  - right. split; [eapply until_unreadable; exact R|]. exists (set_bFields b st'), e. split; [|exact R].
    unfold base_parse_packed. destruct (Nat.ltb_spec (length t) PackedRecordLength) as [X|_]; [change PackedRecordLength with 366%nat in X; lia|].
    change (base_layout true) with baseSegmentPackedFormat in E. rewrite E. reflexivity.
Qed.

(* ---- headers ---- *)

Lemma header_fixed_exact st parts rest : has_type header_struct st -> holds st "BlockDescriptorWord" (VInt 0) ->
  cut (header_doc false) parts ->
  let t := List.concat parts ++ rest in
  (all_readable (header_doc false) parts /\ exists st' z,
      header_parse_char st t false = (st', Ok z)
      /\ read_whole (header_doc false) parts st st' /\ holds st' "RecordDescriptorWord" (VInt z))
  \/ (~ all_readable (header_doc false) parts /\ exists st' e,
      header_parse_char st t false = (st', Err e)
      /\ read_until_fixed "header record" (header_doc false) parts st st' e).
Proof.
  intros T B0 C t. destruct (header_doc_first false) as (doc & Ed). pose proof C as C0. rewrite Ed in C0.
  destruct (cut_cons _ _ _ C0) as (w & q & Ep & Lw). subst parts.
  pose proof (cut_width _ _ C) as W. rewrite header_doc_width in W. change (record_size false) with 426%nat in W.
  assert (426 <= length t)%nat as L by (unfold t; rewrite app_length; lia).
  assert (forall X, (if Nat.ltb (length t) UnpackedRecordLength then (st, Err (ErrSegmentLength "header record")) else X) = X :> fields * res Z) as NL.
  { intros X. destruct (Nat.ltb_spec (length t) UnpackedRecordLength) as [Y|_]; [change UnpackedRecordLength with 426%nat in Y; lia|reflexivity]. }
  destruct (fixed_exact false (header_doc false) _ _ st "header record" (header_scheme false) (header_order false) T w q rest Lw C)
    as [(st' & E & Rw & R)|(st' & e & E & R)]; fold t in E; change (header_layout false) with headerRecordCharacterFormat in E.
  - left. split; [eapply whole_readable; exact R|].
    assert (holds st' BDW (VInt 0)) as Hb by (eapply whole_kept; [exact R|vm_compute; reflexivity|exact B0]).
    pose proof R as R1. rewrite Ed in R1. destruct (whole_length_word false doc _ _ _ R1) as (z & Hr).
    assert (has_type header_struct st') as T' by (eapply parsed_typed; eauto). pose proof (header_nodup _ T') as ND.
    exists st', z. split; [|split; [exact R|exact Hr]].
    unfold header_parse_char. rewrite NL. change (char_policy false) with BdwSkip. rewrite E.
    unfold header_result, header_bdw, header_rdw. rewrite (get_int_holds st' _ _ ND Hb), (get_int_holds st' _ _ ND Hr). reflexivity.
  - right. split.
    + intros A. destruct R as [[N _]|[_ U]]; [|eapply until_unreadable; eauto].
      apply N, length_block. rewrite Ed in A. eapply readable_first. exact A.
    + exists st', e. split.
      * unfold header_parse_char. rewrite NL. change (char_policy false) with BdwSkip. rewrite E. reflexivity.
      * exists w. split; [reflexivity|exact R].
Qed.

Lemma header_blocked_exact (p : bool) st w parts rest : has_type header_struct st -> length w = 4%nat ->
  cut (header_doc p) parts ->
  let t := w ++ List.concat parts ++ rest in
  (p = true -> is_variable_length t = true) ->
  let doc := block_word p :: header_doc p in
  let title := if p then "packed header record" else "header record" in
  (all_readable doc (w :: parts) /\ exists st' zb zr,
      holds st' "BlockDescriptorWord" (VInt zb) /\ holds st' "RecordDescriptorWord" (VInt zr)
      /\ (if p then header_parse_packed else header_parse_char) st t true = (st', Ok (if 0 <? zb then zb else zr))
      /\ read_whole doc (w :: parts) st st')
  \/ (~ all_readable doc (w :: parts) /\ exists st' e,
      (if p then header_parse_packed else header_parse_char) st t true = (st', Err e)
      /\ read_until title doc (w :: parts) st st' e).
Proof.
  intros T Lw C t V doc title. destruct (header_doc_first p) as (doc1 & Ed).
  pose proof (cut_width _ _ C) as W. rewrite header_doc_width in W.
  assert (record_size p <= length t)%nat as L by (unfold t; rewrite !app_length; lia).
  assert (forall st' r, parse_fields BdwShift true (header_layout p) title t (map fst st) 0 st = (st', r) ->
    (if p then header_parse_packed else header_parse_char) st t true
    = (st', match r with Ok _ => header_result st' | Err e => Err e | Panic => Panic end)) as Run.
  { intros st' r E. unfold title in E. destruct p; cbn [header_layout] in E.
    - unfold header_parse_packed. destruct (Nat.ltb_spec (length t) PackedRecordLength) as [Y|_];
        [change PackedRecordLength with 366%nat in Y; cbn [record_size] in L; lia|]. rewrite (V eq_refl), E. reflexivity.
    - unfold header_parse_char. destruct (Nat.ltb_spec (length t) UnpackedRecordLength) as [Y|_];
        [change UnpackedRecordLength with 426%nat in Y; cbn [record_size] in L; lia|].
      change (char_policy true) with BdwShift. rewrite E. reflexivity. }
  destruct (variable_exact p (header_doc p) _ _ st title (header_scheme p) (header_order p) T w parts rest Lw C)
    as [(st' & E & R)|(st' & e & E & R)]; fold t in E; fold doc in R; rewrite (Run _ _ E).
  - left. split; [eapply whole_readable; exact R|].
    pose proof (whole_first _ _ _ _ _ _ R) as Fb. apply (word_filled st' p) in Fb as (zb & _ & Hb).
    assert (exists zr, holds st' "RecordDescriptorWord" (VInt zr)) as (zr & Hr).
    { destruct R as [F _]. unfold doc in F. rewrite Ed in F. inversion F as [|d0 w0 l0 l1 H0 F2]; subst.
      inversion F2 as [|d2 w2 ? ? H2]; subst. apply (word_filled st' p) in H2 as (z & _ & H2). eauto. }
    assert (has_type header_struct st') as T' by (eapply parsed_typed; eauto). pose proof (header_nodup _ T') as ND.
    exists st', zb, zr. split; [exact Hb|]. split; [exact Hr|]. split; [|exact R].
    unfold header_result, header_bdw, header_rdw. rewrite (get_int_holds st' _ _ ND Hb), (get_int_holds st' _ _ ND Hr).
    destruct (0 <? zb); reflexivity.
  - right. split; [eapply until_unreadable; exact R|]. exists st', e. split; [reflexivity|exact R].
Qed.

(* ---- trailers ---- *)

Lemma trailer_exact (p : bool) st parts rest iv : has_type trailer_struct st -> cut (trailer_doc p) parts ->
  let t := List.concat parts ++ rest in
  let title := if p then "packed trailer record" else "trailer record" in
  (all_readable (trailer_doc p) parts /\ exists st' z,
      (if p then trailer_parse_packed else trailer_parse_char) st t iv = (st', Ok z)
      /\ read_whole (trailer_doc p) parts st st' /\ holds st' "RecordDescriptorWord" (VInt z))
  \/ (~ all_readable (trailer_doc p) parts /\ exists st' e,
      (if p then trailer_parse_packed else trailer_parse_char) st t iv = (st', Err e)
      /\ read_until title (trailer_doc p) parts st st' e).
Proof.
  intros T C t title. destruct (trailer_doc_first p) as (doc & Ed).
  pose proof (cut_width _ _ C) as W. rewrite trailer_doc_width in W.
  assert (record_size p <= length t)%nat as L by (unfold t; rewrite app_length; lia).
  assert (exists pol chk, forall st' r, parse_fields pol chk (trailer_layout p) title t (map fst st) 0 st = (st', r) ->
    (if p then trailer_parse_packed else trailer_parse_char) st t iv
    = (st', match r with Ok _ => Ok (trailer_rdw st') | Err e => Err e | Panic => Panic end)) as (pol & chk & Run).
  { unfold title. destruct p; cbn [trailer_layout].
    - exists BdwPlain, false. intros st' r E. unfold trailer_parse_packed. destruct (Nat.ltb_spec (length t) PackedRecordLength) as [Y|_];
        [change PackedRecordLength with 366%nat in Y; cbn [record_size] in L; lia|]. rewrite E. reflexivity.
    - exists (char_policy iv), true. intros st' r E. unfold trailer_parse_char. destruct (Nat.ltb_spec (length t) UnpackedRecordLength) as [Y|_];
        [change UnpackedRecordLength with 426%nat in Y; cbn [record_size] in L; lia|]. rewrite E. reflexivity. }
  destruct (plain_exact pol chk (trailer_doc p) _ _ st title parts rest (trailer_scheme p) (trailer_order p) T C)
    as [(st' & E & R)|(st' & e & E & R)]; fold t in E; rewrite (Run _ _ E).
  - left. split; [eapply whole_readable; exact R|].
    pose proof R as R1. rewrite Ed in R1. destruct (whole_length_word p doc _ _ _ R1) as (z & Hr).
    assert (has_type trailer_struct st') as T' by (eapply parsed_typed; eauto).
    exists st', z. split; [|split; [exact R|exact Hr]].
    unfold trailer_rdw. rewrite (get_int_holds st' _ _ (trailer_nodup _ T') Hr). reflexivity.
  - right. split; [eapply until_unreadable; exact R|]. exists st', e. split; [reflexivity|exact R].
Qed.

(* ---- short texts, missing block descriptor words ---- *)

Lemma header_short (p : bool) st t iv : (length t < record_size p)%nat ->
  (if p then header_parse_packed else header_parse_char) st t iv
  = (st, Err (ErrSegmentLength (if p then "packed header record" else "header record"))).
Proof.
  intros L. destruct p; unfold header_parse_packed, header_parse_char; cbn [record_size] in L.
  - destruct (Nat.ltb_spec (length t) PackedRecordLength) as [_|Y]; [reflexivity|change PackedRecordLength with 366%nat in Y; lia].
  - destruct (Nat.ltb_spec (length t) UnpackedRecordLength) as [_|Y]; [reflexivity|change UnpackedRecordLength with 426%nat in Y; lia].
Qed.

Lemma base_short (p : bool) b t iv : (length t < record_size p)%nat ->
  (if p then base_parse_packed else base_parse_char) b t iv
  = (b, Err (ErrSegmentLength (if p then "packed base segment" else "base segment"))).
Proof.
  intros L. destruct p; unfold base_parse_packed, base_parse_char; cbn [record_size] in L.
  - destruct (Nat.ltb_spec (length t) PackedRecordLength) as [_|Y]; [reflexivity|change PackedRecordLength with 366%nat in Y; lia].
  - destruct (Nat.ltb_spec (length t) UnpackedRecordLength) as [_|Y]; [reflexivity|change UnpackedRecordLength with 426%nat in Y; lia].
Qed.

Lemma trailer_short (p : bool) st t iv : (length t < record_size p)%nat ->
  (if p then trailer_parse_packed else trailer_parse_char) st t iv
  = (st, Err (ErrSegmentLength (if p then "packed trailer record" else "trailer record"))).
Proof.
  intros L. destruct p; unfold trailer_parse_packed, trailer_parse_char; cbn [record_size] in L.
  - destruct (Nat.ltb_spec (length t) PackedRecordLength) as [_|Y]; [reflexivity|change PackedRecordLength with 366%nat in Y; lia].
  - destruct (Nat.ltb_spec (length t) UnpackedRecordLength) as [_|Y]; [reflexivity|change UnpackedRecordLength with 426%nat in Y; lia].
Qed.

(* ---- packed records must have a block descriptor word ---- *)

Lemma word_readable w : length w = 4%nat -> readable (block_word true) w.
Proof.
  intros L. right. exists (VInt (binary (firstn 2 w))). exists (firstn 2 w), (skipn 2 w).
  split; [symmetry; apply firstn_skipn|]. split; [rewrite firstn_length; lia|reflexivity].
Qed.

Lemma packed_unblocked doc l s st rname t : scheme_bdw true doc l s = true -> BDW :: data_names doc = map fst s -> has_type s st ->
  (4 <= length t)%nat -> parse_fields BdwError true l rname t (map fst st) 0 st = (st, Err ErrBlockDescriptorWord).
Proof.
  intros Sch On T L. destruct (bdw_names true doc l s st Sch On T) as (Nm & ND & (z0 & L0) & Lb & NBd). rewrite Nm.
  assert (length (firstn 4 t) = 4%nat) as L4 by (rewrite firstn_length; lia).
  destruct (bdw_step BdwError true l rname (firstn 4 t) t (data_names doc) st z0 L4 eq_refl Lb L0) as [(e & _ & N & _)|(z & _ & E)]; [|exact E].
  exfalso. apply N, word_readable. exact L4.
Qed.

Lemma base_packed_unblocked b t : base_typed b -> (366 <= length t)%nat ->
  base_parse_packed b t false = (b, Err ErrBlockDescriptorWord).
Proof.
  intros [T _] L. unfold base_parse_packed. destruct (Nat.ltb_spec (length t) PackedRecordLength) as [X|_]; [change PackedRecordLength with 366%nat in X; lia|].
  pose proof (packed_unblocked _ _ _ _ "packed base segment" t (base_scheme true) (base_order true) T ltac:(lia)) as E.
  change (base_layout true) with baseSegmentPackedFormat in E. rewrite E. destruct b. reflexivity.
Qed.

Lemma header_packed_unblocked st t iv : has_type header_struct st -> (366 <= length t)%nat -> is_variable_length t = false ->
  header_parse_packed st t iv = (st, Err ErrBlockDescriptorWord).
Proof.
  intros T L V. unfold header_parse_packed. destruct (Nat.ltb_spec (length t) PackedRecordLength) as [X|_]; [change PackedRecordLength with 366%nat in X; lia|].
  pose proof (packed_unblocked _ _ _ _ "packed header record" t (header_scheme true) (header_order true) T ltac:(lia)) as E.
  change (header_layout true) with headerRecordPackedFormat in E. rewrite V, E. reflexivity.
Qed.
