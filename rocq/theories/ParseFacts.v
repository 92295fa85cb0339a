(* What Parse of base segments, headers, trailers and files can produce *)
From Coq Require Import ZArith NArith Bool Ascii String List Lia Permutation.
Import ListNotations.
From Verif Require Import GoBase GoBaseFacts GoTime Regex Tables Codec Records File
  SpecCodec SpecLayouts SpecRecords SpecFile TimeFacts FieldFacts RecordFacts RoundTrip FieldRead RecordRead.
Local Open Scope string_scope.
Local Open Scope Z_scope.
Local Open Scope list_scope.
Local Notation length := List.length.

(* ---- placing segments ---- *)

Lemma put_placed s b : segs_placed b -> segs_placed (put_segment s b).
Proof.
  intros (P1 & P2 & P3 & P4 & P5 & P6 & P7 & P8). unfold put_segment, segs_placed.
  destruct (sKind s) eqn:K; cbn; repeat split; auto;
    try (apply Forall_app; split; [assumption|constructor; auto]); intros x [= <-]; exact K.
Qed.

Lemma put_forall (P : segment -> Prop) s b : P s -> Forall P (segments_of b) -> Forall P (segments_of (put_segment s b)).
Proof.
  intros Ps F. unfold segments_of in *. rewrite !Forall_app in F.
  destruct F as (F1 & F2 & F3 & F4 & F5 & F6 & F7 & F8).
  unfold put_segment. destruct (sKind s); cbn [bJ1 bJ2 bK1 bK2 bK3 bK4 bL1 bN1 opt_to_list];
    rewrite !Forall_app; repeat split; auto; cbn [opt_to_list]; auto.
Qed.

Lemma fold_put_placed segs : forall b, segs_placed b -> segs_placed (fold_left (fun b s => put_segment s b) segs b).
Proof. induction segs; intros b H; [exact H|]. cbn. apply IHsegs, put_placed, H. Qed.

Lemma fold_put_forall (P : segment -> Prop) segs : forall b, Forall P segs -> Forall P (segments_of b) ->
  Forall P (segments_of (fold_left (fun b s => put_segment s b) segs b)).
Proof.
  induction segs as [|s segs IH]; intros b F H; [exact H|]. inversion F; subst. cbn. apply IH; auto.
  apply put_forall; assumption.
Qed.

Lemma put_fields s b : bFields (put_segment s b) = bFields b.
Proof. unfold put_segment. destruct (sKind s); reflexivity. Qed.

Lemma fold_put_fields segs : forall b, bFields (fold_left (fun b s => put_segment s b) segs b) = bFields b.
Proof. induction segs; intros b; [reflexivity|]. cbn. rewrite IHsegs. apply put_fields. Qed.

Lemma clear_placed b st : segs_placed b -> segs_placed (clear_j (set_bFields b st)).
Proof. intros (P1 & P2 & P). unfold segs_placed. cbn. auto. Qed.

Lemma clear_forall (P : segment -> Prop) b st : Forall P (segments_of b) -> Forall P (segments_of (clear_j (set_bFields b st))).
Proof.
  unfold segments_of. cbn [clear_j set_bFields bJ1 bJ2 bK1 bK2 bK3 bK4 bL1 bN1 app].
  rewrite !Forall_app. tauto.
Qed.

Lemma new_base_placed : segs_placed new_base.
Proof. repeat split; try constructor; discriminate. Qed.

Lemma read_segments_fields iv : forall fuel record off b, bFields (fst (read_segments fuel record off b iv)) = bFields b.
Proof.
  induction fuel as [|fuel IH]; intros; [reflexivity|]. cbn [read_segments].
  destruct (Nat.ltb _ _); [|reflexivity]. destruct (kind_of_identifier _); [|reflexivity].
  destruct (seg_parse _ _ _) as [s0 [| |]]; try reflexivity.
  unfold base_add_segment. destruct (seg_validate s0); [reflexivity|]. rewrite IH. apply put_fields.
Qed.

Lemma read_segments_inv_any (P : segment -> Prop) iv : (forall s, seg_typed s -> seg_validate s = None -> P s) ->
  forall fuel record off b, segs_placed b -> Forall P (segments_of b) ->
  segs_placed (fst (read_segments fuel record off b iv)) /\ Forall P (segments_of (fst (read_segments fuel record off b iv))).
Proof.
  intros Hp. induction fuel as [|fuel IH]; intros record off b Pl F; [auto|]. cbn [read_segments].
  destruct (Nat.ltb _ _); [|auto]. destruct (kind_of_identifier _) as [k|]; [|auto].
  pose proof (seg_parse_typed (new_segment k) record iv (new_segment_typed k)) as [_ T].
  destruct (seg_parse _ _ _) as [s [| |]]; auto. cbn in T.
  unfold base_add_segment. destruct (seg_validate s) eqn:V; [auto|]. apply IH; [apply put_placed; exact Pl|].
  apply put_forall; auto.
Qed.

(* ---- base segments ---- *)

(* typed fields, segments in their places, each with property P *)
Definition base_with (P : segment -> Prop) (b : base) : Prop :=
  base_typed b /\ Forall P (segments_of b).

Lemma new_base_with P : base_with P new_base.
Proof. split; [split; [reflexivity|apply new_base_placed]|constructor]. Qed.

Lemma base_parse_with (Q : segment -> Prop) (p : bool) b data iv :
  (forall s, seg_typed s -> seg_validate s = None -> Q s) -> base_with Q b ->
  base_with Q (fst ((if p then base_parse_packed else base_parse_char) b data iv)).
Proof.
  intros Hq [[T P] F].
  assert (forall pol l rn fuel rec off, base_with Q (fst (read_segments fuel rec off
    (clear_j (set_bFields b (fst (parse_fields pol true l rn data (map fst (bFields b)) 0 (bFields b))))) iv))) as K.
  { intros. edestruct (read_segments_inv_any Q) as [A B];
      [auto|apply (clear_placed b); exact P|apply (clear_forall _ b); exact F|].
    split; [|exact B]. split; [|exact A]. rewrite read_segments_fields. cbn [clear_j set_bFields bFields].
    eapply has_type_eq; [exact T|apply parse_fields_types]. }
  assert (forall pol l rn st r, parse_fields pol true l rn data (map fst (bFields b)) 0 (bFields b) = (st, r) ->
    base_with Q (set_bFields b st) /\ base_with Q (clear_j (set_bFields b st))) as K0.
  { intros pol l rn st r E.
    assert (has_type base_struct st) as Ts.
    { eapply has_type_eq; [exact T|]. pose proof (parse_fields_types pol true l rn data (map fst (bFields b)) 0 (bFields b)) as Ty.
      rewrite E in Ty. exact Ty. }
    split; (split; [split; [exact Ts|]|]); [exact P|exact F|apply clear_placed; exact P|apply clear_forall; exact F]. }
  destruct p; [unfold base_parse_packed|unfold base_parse_char].
  - destruct (Nat.ltb _ _); [split; [split; assumption|exact F]|].
    match goal with |- context [parse_fields ?pol ?c ?l ?rn ?d ?ns ?o ?s] =>
      pose proof (K pol l rn) as K1; pose proof (K0 pol l rn) as K2; destruct (parse_fields pol c l rn d ns o s) as [st r] eqn:E end.
    cbn [fst] in K1. destruct (K2 st r eq_refl) as [K3 K4].
    destruct r; cbn [fst]; auto. destruct (Nat.ltb _ _); auto.
    match goal with |- context [read_segments ?a ?b' ?c ?d iv] =>
      specialize (K1 a b' c); destruct (read_segments a b' c d iv) as [b3 r3] end.
    cbn [fst] in K1. destruct r3; auto. destruct (_ <? _); auto.
  - destruct (Nat.ltb _ _); [split; [split; assumption|exact F]|].
    match goal with |- context [parse_fields ?pol ?c ?l ?rn ?d ?ns ?o ?s] =>
      pose proof (K pol l rn) as K1; pose proof (K0 pol l rn) as K2; destruct (parse_fields pol c l rn d ns o s) as [st r] eqn:E end.
    cbn [fst] in K1. destruct (K2 st r eq_refl) as [K3 K4].
    destruct r; cbn [fst]; auto. match goal with |- context [Nat.ltb ?x ?y] => destruct (Nat.ltb x y) end; auto.
    match goal with |- context [read_segments ?a ?b' ?c ?d iv] =>
      specialize (K1 a b' c); destruct (read_segments a b' c d iv) as [b3 r3] end.
    cbn [fst] in K1. destruct r3; auto.
    destruct (_ && _); [exact K1|]. destruct (_ && _); [exact K1|]. destruct (_ <? _); exact K1.
Qed.

Lemma base_parse_no_panic (p : bool) b data iv : has_type base_struct (bFields b) ->
  snd ((if p then base_parse_packed else base_parse_char) b data iv) <> Panic.
Proof.
  intros T. destruct p; [unfold base_parse_packed|unfold base_parse_char].
  - destruct (Nat.ltb _ _); [discriminate|].
    match goal with |- context [parse_fields ?pol ?c ?l ?rn ?d ?ns ?o ?s] =>
      pose proof (bdw_no_panic pol true _ _ _ (bFields b) data rn (base_scheme true) T) as N;
      cbn [base_layout] in N; destruct (parse_fields pol c l rn d ns o s) as [st r] end.
    cbn [snd] in N. destruct r; [|discriminate|contradiction]. destruct (Nat.ltb _ _); [discriminate|].
    match goal with |- context [read_segments ?a ?b' ?c ?d iv] =>
      pose proof (read_segments_no_panic iv a b' c d) as M; destruct (read_segments a b' c d iv) as [b3 r3] end.
    cbn [snd] in M. destruct r3; [|discriminate|contradiction]. destruct (_ <? _); discriminate.
  - destruct (Nat.ltb _ _); [discriminate|].
    match goal with |- context [parse_fields ?pol ?c ?l ?rn ?d ?ns ?o ?s] =>
      pose proof (bdw_no_panic pol false _ _ _ (bFields b) data rn (base_scheme false) T) as N;
      cbn [base_layout] in N; destruct (parse_fields pol c l rn d ns o s) as [st r] end.
    cbn [snd] in N. destruct r; [|discriminate|contradiction]. match goal with |- context [Nat.ltb ?x ?y] => destruct (Nat.ltb x y) end; [discriminate|].
    match goal with |- context [read_segments ?a ?b' ?c ?d iv] =>
      pose proof (read_segments_no_panic iv a b' c d) as M; destruct (read_segments a b' c d iv) as [b3 r3] end.
    cbn [snd] in M. destruct r3; [|discriminate|contradiction].
    destruct (_ && _); [discriminate|]. destruct (_ && _); [discriminate|]. destruct (_ <? _); discriminate.
Qed.

(* ---- headers and trailers ---- *)

Lemma header_parse_typed (p : bool) h data iv : has_type header_struct h ->
  has_type header_struct (fst ((if p then header_parse_packed else header_parse_char) h data iv)).
Proof.
  intros T. destruct p; [unfold header_parse_packed|unfold header_parse_char];
    (destruct (Nat.ltb _ _); [exact T|]);
    match goal with |- context [parse_fields ?pol ?c ?l ?rn ?d ?ns ?o ?s] =>
      pose proof (parse_fields_types pol c l rn d ns o s) as Ty; destruct (parse_fields pol c l rn d ns o s) as [st r] end;
    eapply has_type_eq; eauto.
Qed.

Lemma header_parse_no_panic (p : bool) h data iv : has_type header_struct h ->
  snd ((if p then header_parse_packed else header_parse_char) h data iv) <> Panic.
Proof.
  intros T. destruct p; [unfold header_parse_packed|unfold header_parse_char];
    (destruct (Nat.ltb _ _); [discriminate|]).
  - match goal with |- context [parse_fields ?pol ?c ?l ?rn ?d ?ns ?o ?s] =>
      pose proof (bdw_no_panic pol true _ _ _ h data rn (header_scheme true) T) as N;
      cbn [header_layout] in N; destruct (parse_fields pol c l rn d ns o s) as [st r] end.
    cbn [snd] in *. destruct r; [|discriminate|contradiction]. unfold header_result. destruct (_ <? _); discriminate.
  - match goal with |- context [parse_fields ?pol ?c ?l ?rn ?d ?ns ?o ?s] =>
      pose proof (bdw_no_panic pol false _ _ _ h data rn (header_scheme false) T) as N;
      cbn [header_layout] in N; destruct (parse_fields pol c l rn d ns o s) as [st r] end.
    cbn [snd] in *. destruct r; [|discriminate|contradiction]. unfold header_result. destruct (_ <? _); discriminate.
Qed.

Lemma trailer_parse_typed (p : bool) h data iv : has_type trailer_struct h ->
  has_type trailer_struct (fst ((if p then trailer_parse_packed else trailer_parse_char) h data iv)).
Proof.
  intros T. destruct p; [unfold trailer_parse_packed|unfold trailer_parse_char];
    (destruct (Nat.ltb _ _); [exact T|]);
    match goal with |- context [parse_fields ?pol ?c ?l ?rn ?d ?ns ?o ?s] =>
      pose proof (parse_fields_types pol c l rn d ns o s) as Ty; destruct (parse_fields pol c l rn d ns o s) as [st r] end;
    eapply has_type_eq; eauto.
Qed.

Lemma trailer_parse_no_panic (p : bool) h data iv : has_type trailer_struct h ->
  snd ((if p then trailer_parse_packed else trailer_parse_char) h data iv) <> Panic.
Proof.
  intros T. destruct p; [unfold trailer_parse_packed|unfold trailer_parse_char].
  - destruct (Nat.ltb_spec (length data) PackedRecordLength); [discriminate|].
    pose proof (plain_no_panic BdwPlain false _ _ _ h data "packed trailer record" (trailer_scheme true) T) as N.
    cbn [trailer_layout] in N. rewrite trailer_doc_width in N. specialize (N ltac:(right; auto)).
    destruct (parse_fields _ _ _ _ _ _ _ _) as [st r]. cbn [snd] in *. destruct r; [discriminate|discriminate|contradiction].
  - destruct (Nat.ltb _ _); [discriminate|].
    pose proof (plain_no_panic (char_policy iv) true _ _ _ h data "trailer record" (trailer_scheme false) T) as N.
    cbn [trailer_layout] in N. specialize (N ltac:(left; auto)).
    destruct (parse_fields _ _ _ _ _ _ _ _) as [st r]. cbn [snd] in *. destruct r; [discriminate|discriminate|contradiction].
Qed.

(* ---- records and files ---- *)

Lemma record_parse_ok r data iv : record_ok r ->
  record_ok (fst (record_parse r data iv)) /\ snd (record_parse r data iv) <> Panic
  /\ (forall p, is_header p r -> is_header p (fst (record_parse r data iv)))
  /\ (forall p, is_base p r -> is_base p (fst (record_parse r data iv)))
  /\ (forall p, is_trailer p r -> is_trailer p (fst (record_parse r data iv))).
Proof.
  intros H. unfold is_header, is_base, is_trailer. destruct r as [p h|p b|p t]; cbn [record_parse record_ok] in *.
  - pose proof (header_parse_typed p h data iv H). pose proof (header_parse_no_panic p h data iv H).
    destruct ((if p then _ else _) h data iv). cbn in *.
    repeat (split; [assumption|]). repeat split; intros q [x E]; try discriminate; injection E as <- <-; eauto.
  - destruct H as [T F]. pose proof (base_parse_with seg_typed p b data iv (fun s a _ => a) (conj T F)) as [A B].
    pose proof (base_parse_no_panic p b data iv (proj1 T)).
    destruct ((if p then _ else _) b data iv). cbn in *.
    split; [split; assumption|]. split; [assumption|].
    repeat split; intros q [x E]; try discriminate; injection E as <- <-; eauto.
  - pose proof (trailer_parse_typed p t data iv H). pose proof (trailer_parse_no_panic p t data iv H).
    destruct ((if p then _ else _) t data iv). cbn in *.
    repeat (split; [assumption|]). repeat split; intros q [x E]; try discriminate; injection E as <- <-; eauto.
Qed.

Lemma new_base_ok : base_ok new_base.
Proof. apply (new_base_with seg_typed). Qed.

Lemma parse_loop_ok p record iv : forall fuel offset bases,
  Forall (fun r => is_base p r /\ record_ok r) bases ->
  match parse_loop fuel p record iv offset bases with
  | LBreak bs _ | LReturn bs _ => Forall (fun r => is_base p r /\ record_ok r) bs
  | LPanic => False
  | LFuel => True
  end.
Proof.
  induction fuel as [|fuel IH]; intros offset bases F; [exact I|]. cbn [parse_loop].
  destruct (_ || _); [exact F|].
  pose proof (record_parse_ok (new_data_record p) (skipn (Z.to_nat offset) record) iv new_base_ok) as (A & B & _ & C & _).
  destruct (record_parse _ _ _) as [b [read| |]]; cbn [fst snd] in *; [|exact F|contradiction].
  apply IH. apply Forall_app. split; [exact F|]. constructor; [|constructor]. split; [|exact A].
  apply C. exists new_base. reflexivity.
Qed.

Lemma file_parse_ok fuel f input iv f' r : file_ok f -> file_parse fuel f input iv = Some (f', r) ->
  file_ok f' /\ r <> Panic /\ flPacked f' = flPacked f.
Proof.
  intros (H1 & H2 & H3 & H4 & H5). unfold file_parse. cbn [set_bases flHeader flTrailer flPacked].
  pose proof (record_parse_ok (flHeader f) (strip input) iv H2) as (A & B & C & _).
  specialize (C _ H1). destruct (record_parse (flHeader f) (strip input) iv) as [h rh]. cbn [fst snd] in *.
  assert (forall bs t, Forall (fun r => is_base (flPacked f) r /\ record_ok r) bs ->
    is_trailer (flPacked f) t -> record_ok t -> file_ok (mkFile (flPacked f) h bs t)) as K.
  { intros bs t Fb It Ot. repeat split; auto. }
  destruct rh as [head|e|]; [|intros [= <- <-]|contradiction].
  2:{ split; [apply K; cbn; auto|]. split; [discriminate|reflexivity]. }
  pose proof (parse_loop_ok (flPacked f) (strip input) iv fuel head [] (Forall_nil _)) as L.
  destruct (parse_loop _ _ _ _ _ _) as [bs off|bs e| |]; [| |contradiction|discriminate].
  2:{ intros [= <- <-]. split; [apply K; cbn; auto|]. split; [discriminate|reflexivity]. }
  destruct (_ || _).
  { intros [= <- <-]. split; [apply K; cbn; auto|]. split; [discriminate|reflexivity]. }
  cbn [set_header set_bases flTrailer].
  pose proof (record_parse_ok (flTrailer f) (skipn (Z.to_nat off) (strip input)) iv H5) as (A' & B' & _ & _ & C').
  specialize (C' _ H4).
  destruct (record_parse (flTrailer f) _ iv) as [t [tread|e|]]; cbn [fst snd] in *; [| |contradiction].
  - destruct (_ =? _); intros [= <- <-]; (split; [apply K; cbn; auto|]); split; [discriminate|reflexivity|discriminate|reflexivity].
  - intros [= <- <-]. split; [apply K; cbn; auto|]. split; [discriminate|reflexivity].
Qed.

(* ---- successful parsing ---- *)

Lemma base_read_char b0 data iv b n : base_with (fun s => exists p, seg_read_from s p) b0 ->
  base_parse_char b0 data iv = (b, Ok n) ->
  base_reads false b /\ (4 <= length data)%nat /\
  exists bdw rdw z' pre segs parts rest,
    base_bdw_is b bdw /\ base_rdw_is b rdw /\
    parse_value (bdw_field false) (firstn 4 data) BDW "base segment" = Ok (VInt z') /\
    (if iv then z' = bdw else base_bdw_is b0 bdw) /\
    data = pre ++ List.concat parts ++ rest /\ no_segment rest /\
    length pre = (if (0 <? bdw)%Z then 430 else 426)%nat /\
    b = fold_left (fun b s => put_segment s b) segs (clear_j (set_bFields b0 (bFields b))) /\
    Forall2 (fun s p => seg_read_from s p /\
      (canonical_body (seg_doc (sKind s)) p -> seg_fits s /\ seg_string s = p)) segs parts /\
    n = (if 0 <? bdw then bdw else rdw) /\
    (0 <= bdw -> Z.of_nat (length pre + segs_size segs) <= n) /\
    (forall sp hd text' rest', to_specifications (base_layout false) = (BDW, bdw_field false) :: sp ->
       data = hd ++ text' ++ rest' -> length hd = (if iv then 4 else 0)%nat ->
       canonical_body (base_doc false) text' ->
       record_fits (base_doc false) (bFields b) /\ text sp (bFields b) = text').
Proof.
  intros [[T0 P0] F0] H. unfold base_parse_char in H.
  destruct (Nat.ltb _ _); [discriminate|].
  destruct (parse_fields _ _ _ _ _ _ _ _) as [st r] eqn:Pf.
  destruct r as [[]| |]; try discriminate.
  pose proof (bdw_read _ false _ (base_layout false) _ _ _ _ _ (base_scheme false) T0 Pf)
    as (T & ND & R & L4 & bdw & z' & Lb & Pv & Hz & Cn).
  assert (base_bdw (set_bFields b0 st) = bdw) as Eb.
  { unfold base_bdw, get_int. cbn [bFields set_bFields]. rewrite Lb. reflexivity. }
  rewrite Eb in H.
  destruct (Nat.ltb_spec (length data) (if (0 <? bdw)%Z then UnpackedRecordLength + 4 else UnpackedRecordLength)%nat) as [|Lo];
    [discriminate|].
  destruct (read_segments _ _ _ _ _) as [b3 r3] eqn:Rs. destruct r3 as [read| |]; try discriminate.
  apply read_segments_inv in Rs as (segs & parts & rest & Er & Nr & -> & Eb3 & F2).
  assert (bFields b3 = st) as Ef by (rewrite Eb3, fold_put_fields; reflexivity).
  destruct (lookup_of_types "RecordDescriptorWord" st KInt) as (v & Lr & Kv).
  { unfold has_type in T. unfold types. rewrite T. reflexivity. }
  destruct v as [rdw| |]; try discriminate.
  assert (base_bdw b3 = bdw) as Eb'.
  { unfold base_bdw, get_int. rewrite Ef, Lb. reflexivity. }
  assert (base_rdw b3 = rdw) as Er'.
  { unfold base_rdw, get_int. rewrite Ef, Lr. reflexivity. }
  rewrite Eb', Er' in H.
  set (off := (if (0 <? bdw)%Z then UnpackedRecordLength + 4 else UnpackedRecordLength)%nat) in *.
  assert (base_reads false b3) as Br.
  { split; [|split].
    - split; [rewrite Ef; exact T|]. rewrite Eb3. apply fold_put_placed, clear_placed, P0.
    - rewrite Ef. exact R.
    - rewrite Eb3. apply fold_put_forall; [|apply clear_forall; exact F0].
      clear - F2. induction F2 as [|s p segs parts [A _] _ IH]; constructor; eauto. }
  assert (b3 = b /\ n = (if 0 <? bdw then bdw else rdw) /\ (0 <= bdw -> Z.of_nat (off + segs_size segs) <= n)) as (-> & -> & Hn).
  { destruct (Z.ltb_spec 0 bdw) as [B|B]; cbn [andb] in H.
    - destruct (Z.ltb_spec bdw (Z.of_nat (0 + segs_size segs + off))); [discriminate|].
      destruct (bdw =? 0); cbn [andb] in H; [destruct (_ <? _) in H; [discriminate|]|];
        injection H as <- <-; repeat split; lia.
    - destruct (Z.eqb_spec bdw 0) as [->|Nb]; cbn [andb] in H.
      + destruct (Z.ltb_spec rdw (Z.of_nat (0 + segs_size segs + off))); [discriminate|].
        injection H as <- <-. repeat split; lia.
      + injection H as <- <-. repeat split; lia. }
  split; [exact Br|]. split; [exact L4|].
  exists bdw, rdw, z', (firstn off data), segs, parts, rest.
  assert (length (firstn off data) = off) as Lf by (rewrite firstn_length; lia).
  split; [unfold base_bdw_is; rewrite Ef; apply lookup_In; exact Lb|].
  split; [unfold base_rdw_is; rewrite Ef; apply lookup_In; exact Lr|].
  split; [exact Pv|].
  split.
  { destruct iv; cbn [char_policy] in Hz.
    - destruct Hz as [[Hz _]|[_ Hz]]; [discriminate|exact Hz].
    - destruct Hz as [[_ Hz]|[[Hz|Hz] _]]; try discriminate. apply lookup_In. exact Hz. }
  split; [rewrite <- Er; symmetry; apply firstn_skipn|].
  split; [exact Nr|]. split; [rewrite Lf; reflexivity|]. split; [rewrite Ef; exact Eb3|].
  split; [exact F2|]. split; [reflexivity|]. split; [rewrite Lf; exact Hn|].
  rewrite Ef. intros sp hd text' rest' Sp Ed Lh C. eapply Cn; eauto. destruct iv; exact Lh.
Qed.

Lemma base_read_packed b0 data iv b n : base_with (fun s => exists p, seg_read_from s p) b0 ->
  base_parse_packed b0 data iv = (b, Ok n) ->
  iv = true /\ base_reads true b /\ (4 <= length data)%nat /\
  exists bdw rdw pre segs parts rest,
    base_bdw_is b bdw /\ base_rdw_is b rdw /\
    parse_value (bdw_field true) (firstn 4 data) BDW "packed base segment" = Ok (VInt bdw) /\
    data = pre ++ List.concat parts ++ rest /\ no_segment rest /\
    length pre = 370%nat /\
    b = fold_left (fun b s => put_segment s b) segs (clear_j (set_bFields b0 (bFields b))) /\
    Forall2 (fun s p => seg_read_from s p /\
      (canonical_body (seg_doc (sKind s)) p -> seg_fits s /\ seg_string s = p)) segs parts /\
    n = bdw /\ Z.of_nat (length pre + segs_size segs) <= n /\
    (forall sp hd text' rest', to_specifications (base_layout true) = (BDW, bdw_field true) :: sp ->
       data = hd ++ text' ++ rest' -> length hd = 4%nat ->
       canonical_body (base_doc true) text' ->
       record_fits (base_doc true) (bFields b) /\ text sp (bFields b) = text').
Proof.
  intros [[T0 P0] F0] H. unfold base_parse_packed in H.
  destruct (Nat.ltb _ _); [discriminate|].
  destruct (parse_fields _ _ _ _ _ _ _ _) as [st r] eqn:Pf.
  destruct r as [[]| |]; try discriminate.
  pose proof (bdw_read _ true _ (base_layout true) _ _ _ _ _ (base_scheme true) T0 Pf)
    as (T & ND & R & L4 & bdw & z' & Lb & Pv & Hz & Cn).
  destruct iv.
  2:{ destruct Hz as [[Hz _]|[[Hz|Hz] _]]; discriminate. }
  assert (z' = bdw) as -> by (destruct Hz as [[Hz _]|[_ Hz]]; [discriminate|exact Hz]).
  destruct (Nat.ltb_spec (length data) (PackedRecordLength + 4)%nat) as [|Lo]; [discriminate|].
  destruct (read_segments _ _ _ _ _) as [b3 r3] eqn:Rs. destruct r3 as [read| |]; try discriminate.
  apply read_segments_inv in Rs as (segs & parts & rest & Er & Nr & -> & Eb3 & F2).
  assert (bFields b3 = st) as Ef by (rewrite Eb3, fold_put_fields; reflexivity).
  destruct (lookup_of_types "RecordDescriptorWord" st KInt) as (v & Lr & Kv).
  { unfold has_type in T. unfold types. rewrite T. reflexivity. }
  destruct v as [rdw| |]; try discriminate.
  assert (base_bdw b3 = bdw) as Eb'.
  { unfold base_bdw, get_int. rewrite Ef, Lb. reflexivity. }
  rewrite Eb' in H.
  assert (base_reads true b3) as Br.
  { split; [|split].
    - split; [rewrite Ef; exact T|]. rewrite Eb3. apply fold_put_placed, clear_placed, P0.
    - rewrite Ef. exact R.
    - rewrite Eb3. apply fold_put_forall; [|apply clear_forall; exact F0].
      clear - F2. induction F2 as [|s p segs parts [A _] _ IH]; constructor; eauto. }
  destruct (Z.ltb_spec bdw (Z.of_nat (0 + segs_size segs + (PackedRecordLength + 4)))) as [|B]; [discriminate|].
  injection H as <- <-.
  split; [reflexivity|]. split; [exact Br|]. split; [exact L4|].
  exists bdw, rdw, (firstn (PackedRecordLength + 4) data), segs, parts, rest.
  assert (length (firstn (PackedRecordLength + 4) data) = (PackedRecordLength + 4)%nat) as Lf by (rewrite firstn_length; lia).
  split; [unfold base_bdw_is; rewrite Ef; apply lookup_In; exact Lb|].
  split; [unfold base_rdw_is; rewrite Ef; apply lookup_In; exact Lr|].
  split; [exact Pv|].
  split; [rewrite <- Er; symmetry; apply firstn_skipn|].
  split; [exact Nr|]. split; [rewrite Lf; reflexivity|]. split; [rewrite Ef; exact Eb3|].
  split; [exact F2|]. split; [reflexivity|]. split; [rewrite Lf; lia|].
  rewrite Ef. intros sp hd text' rest' Sp Ed Lh C. eapply Cn; eauto.
Qed.

Lemma header_read (p : bool) h0 data iv h n : has_type header_struct h0 ->
  (if p then header_parse_packed else header_parse_char) h0 data iv = (h, Ok n) ->
  has_type header_struct h /\ record_reads (header_doc p) h /\ (record_size p <= length data)%nat /\
  exists bdw rdw z', holds h BDW (VInt bdw) /\ holds h "RecordDescriptorWord" (VInt rdw) /\
    parse_value (bdw_field p) (firstn 4 data) BDW (if p then "packed header record" else "header record") = Ok (VInt z') /\
    (if p then is_variable_length data = true /\ z' = bdw
     else if iv then z' = bdw else holds h0 BDW (VInt bdw)) /\
    n = (if 0 <? bdw then bdw else rdw) /\
    (forall sp hd text' rest', to_specifications (header_layout p) = (BDW, bdw_field p) :: sp ->
       data = hd ++ text' ++ rest' -> length hd = (if (p || iv)%bool then 4 else 0)%nat ->
       canonical_body (header_doc p) text' ->
       record_fits (header_doc p) h /\ text sp h = text').
Proof.
  intros T0 H.
  assert (exists pol rn st, (if p then if is_variable_length data then BdwShift else BdwError else char_policy iv) = pol /\
     parse_fields pol true (header_layout p) rn data (map fst h0) 0 h0 = (st, Ok tt) /\ h = st /\ header_result st = Ok n /\
     rn = (if p then "packed header record" else "header record") /\ (record_size p <= length data)%nat)
     as (pol & rn & st & Hpol & Pf & -> & Hr & Ern & Lr0).
  { destruct p; [unfold header_parse_packed in H|unfold header_parse_char in H].
    - destruct (Nat.ltb_spec (length data) PackedRecordLength) as [|Lx]; [discriminate|].
      match type of H with context [parse_fields ?pol ?c ?l ?rn ?d ?ns ?o ?s] =>
        exists pol, rn; destruct (parse_fields pol c l rn d ns o s) as [st r] eqn:Pf end.
      injection H as <- H. destruct r as [[]| |]; try discriminate. exists st.
      repeat (split; [first [reflexivity|assumption]|]). exact Lx.
    - destruct (Nat.ltb_spec (length data) UnpackedRecordLength) as [|Lx]; [discriminate|].
      match type of H with context [parse_fields ?pol ?c ?l ?rn ?d ?ns ?o ?s] =>
        exists pol, rn; destruct (parse_fields pol c l rn d ns o s) as [st r] eqn:Pf end.
      injection H as <- H. destruct r as [[]| |]; try discriminate. exists st.
      repeat (split; [first [reflexivity|assumption]|]). exact Lx. }
  pose proof (bdw_read _ p _ (header_layout p) _ _ _ _ _ (header_scheme p) T0 Pf)
    as (T & ND & R & L4 & bdw & z' & Lb & Pv & Hz & Cn).
  destruct (lookup_of_types "RecordDescriptorWord" st KInt) as (v & Lr & Kv).
  { unfold has_type in T. unfold types. rewrite T. reflexivity. }
  destruct v as [rdw| |]; try discriminate.
  split; [exact T|]. split; [exact R|]. split; [exact Lr0|]. exists bdw, rdw, z'.
  split; [apply lookup_In; exact Lb|]. split; [apply lookup_In; exact Lr|]. rewrite <- Ern. split; [exact Pv|].
  split.
  { destruct p.
    - destruct (is_variable_length data); subst pol.
      + split; [reflexivity|]. destruct Hz as [[Hz _]|[_ Hz]]; [discriminate|exact Hz].
      + destruct Hz as [[Hz _]|[[Hz|Hz] _]]; discriminate.
    - destruct iv; cbn [char_policy] in Hpol; subst pol.
      + destruct Hz as [[Hz _]|[_ Hz]]; [discriminate|exact Hz].
      + destruct Hz as [[_ Hz]|[[Hz|Hz] _]]; try discriminate. apply lookup_In. exact Hz. }
  split.
  { unfold header_result, header_bdw, header_rdw, get_int in Hr. rewrite Lb, Lr in Hr.
    destruct (0 <? bdw); injection Hr as <-; reflexivity. }
  intros sp hd text' rest' Sp Ed Lh C. eapply Cn; eauto.
  destruct p; [|destruct iv; cbn in *; subst pol; exact Lh].
  destruct (is_variable_length data); subst pol; [exact Lh|].
  destruct Hz as [[Hz _]|[[Hz|Hz] _]]; discriminate.
Qed.

Lemma trailer_read (p : bool) t0 data iv t n : has_type trailer_struct t0 ->
  (if p then trailer_parse_packed else trailer_parse_char) t0 data iv = (t, Ok n) ->
  has_type trailer_struct t /\ record_reads (trailer_doc p) t /\ (record_size p <= length data)%nat /\
  holds t "RecordDescriptorWord" (VInt n) /\
  (forall text' rest, data = text' ++ rest -> canonical_body (trailer_doc p) text' ->
     record_fits (trailer_doc p) t /\ write_fields (trailer_layout p) t = text').
Proof.
  intros T0 H.
  assert (exists pol chk rn, parse_fields pol chk (trailer_layout p) rn data (map fst t0) 0 t0 = (t, Ok tt) /\ trailer_rdw t = n
     /\ (record_size p <= length data)%nat)
     as (pol & chk & rn & Pf & Hr & Ld).
  { destruct p; [unfold trailer_parse_packed in H|unfold trailer_parse_char in H].
    - destruct (Nat.ltb_spec (length data) PackedRecordLength) as [|Lx]; [discriminate|].
      match type of H with context [parse_fields ?pol ?c ?l ?rn ?d ?ns ?o ?s] =>
        exists pol, c, rn; destruct (parse_fields pol c l rn d ns o s) as [st r] eqn:Pf end.
      injection H as <- H. destruct r as [[]| |]; try discriminate. injection H as <-. auto.
    - destruct (Nat.ltb_spec (length data) UnpackedRecordLength) as [|Lx]; [discriminate|].
      match type of H with context [parse_fields ?pol ?c ?l ?rn ?d ?ns ?o ?s] =>
        exists pol, c, rn; destruct (parse_fields pol c l rn d ns o s) as [st r] eqn:Pf end.
      injection H as <- H. destruct r as [[]| |]; try discriminate. injection H as <-. auto. }
  pose proof (plain_read _ _ _ _ _ _ _ _ _ (trailer_scheme p) T0 Pf) as (T & ND & R & C & _).
  destruct (lookup_of_types "RecordDescriptorWord" t KInt) as (v & Lr & Kv).
  { unfold has_type in T. unfold types. rewrite T. reflexivity. }
  destruct v as [rdw| |]; try discriminate.
  unfold trailer_rdw, get_int in Hr. rewrite Lr in Hr. subst rdw.
  split; [exact T|]. split; [exact R|]. split; [exact Ld|]. split; [apply lookup_In; exact Lr|exact C].
Qed.
