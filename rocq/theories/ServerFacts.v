(* Files that are read have the fields of their format and valid segments *)
From Coq Require Import ZArith NArith Bool Ascii String List Lia.
Import ListNotations.
From Verif Require Import GoBase GoTime Tables JsonTables Codec Records File Reader Json JsonFile Server
  SpecCodec SpecLayouts SpecRecords SpecFile SpecValidate SpecCounters SpecApi SpecServer
  GoBaseFacts FieldFacts RecordFacts ParseFacts CounterFacts CounterProps ApiFacts JsonFacts JsonProps.
Local Open Scope string_scope.
Local Open Scope Z_scope.
Local Open Scope list_scope.
Local Notation length := List.length.

(* ---- what a file is made of ---- *)

Definition sound (s : segment) : Prop := seg_typed s /\ seg_validate s = None.

Definition sound_record (r : record) : Prop :=
  match r with
  | RHeader _ h => has_type header_struct h
  | RBase _ b => base_with sound b
  | RTrailer _ t => has_type trailer_struct t
  end.

Definition sound_file (f : file) : Prop :=
  is_header (flPacked f) (flHeader f) /\ sound_record (flHeader f)
  /\ Forall (fun r => is_base (flPacked f) r /\ sound_record r) (flBases f)
  /\ is_trailer (flPacked f) (flTrailer f) /\ sound_record (flTrailer f).

Lemma sound_ok r : sound_record r -> record_ok r.
Proof.
  destruct r; cbn; auto. intros [T F]. split; [exact T|]. revert F. apply Forall_impl. intros s [H _]. exact H.
Qed.

Lemma sound_file_ok f : sound_file f -> file_ok f.
Proof.
  intros (H1 & H2 & H3 & H4 & H5). repeat split; auto using sound_ok.
  revert H3. apply Forall_impl. intros r [A B]. auto using sound_ok.
Qed.

Lemma sound_segments f : sound_file f -> segments_valid f.
Proof.
  intros (_ & _ & H & _). revert H. apply Forall_impl. intros [|p b|] [_ R]; auto. destruct R as [_ F].
  revert F. apply Forall_impl. intros s [_ V]. exact V.
Qed.

Lemma new_sound p : sound_file (new_file_p p).
Proof.
  split; [eexists; reflexivity|]. split; [reflexivity|]. split; [constructor|]. split; [eexists; reflexivity|reflexivity].
Qed.

(* ---- the streaming reader ---- *)

Lemma record_parse_sound r data iv : sound_record r ->
  sound_record (fst (record_parse r data iv)) /\ snd (record_parse r data iv) <> Panic
  /\ (forall p, is_header p r -> is_header p (fst (record_parse r data iv)))
  /\ (forall p, is_base p r -> is_base p (fst (record_parse r data iv)))
  /\ (forall p, is_trailer p r -> is_trailer p (fst (record_parse r data iv))).
Proof.
  intros H. pose proof (record_parse_ok r data iv (sound_ok r H)) as (A & B). split; [|exact B].
  destruct r as [p h|p b|p t]; cbn [record_parse sound_record record_ok] in *.
  - destruct ((if p then _ else _) h data iv). exact A.
  - pose proof (base_parse_with sound p b data iv (fun s a b => conj a b) H) as K.
    destruct ((if p then _ else _) b data iv). exact K.
  - destruct ((if p then _ else _) t data iv). exact A.
Qed.

Lemma read_bases_sound p iv : forall fuel evs s bases r, Forall (fun r => is_base p r /\ sound_record r) bases ->
  read_bases fuel p iv evs s bases = Some r ->
  match r with
  | BFailed bs _ | BEnd bs _ _ => Forall (fun r => is_base p r /\ sound_record r) bs
  | BPanic => False
  end.
Proof.
  induction fuel as [|fuel IH]; intros evs s bases r F; [discriminate|]. cbn [read_bases].
  destruct (scan evs s) as [[[[line|] s'] evs']|]; [| |discriminate].
  - pose proof (record_parse_sound (new_data_record p) line iv (new_base_with sound)) as (A & B & _ & C & _).
    destruct (record_parse (new_data_record p) line iv) as [b [n|e|]]; cbn [fst snd] in *.
    + apply IH. apply Forall_app. split; [exact F|]. repeat constructor; [|exact A]. apply C. eexists. reflexivity.
    + intros [= <-]. exact F.
    + contradiction.
  - intros [= <-]. exact F.
Qed.

Lemma read_trailer_sound f line iv : sound_file f ->
  read_trailer f line iv <> Panic /\ forall f', read_trailer f line iv = Ok f' -> sound_file f'.
Proof.
  intros (H1 & H2 & H3 & H4 & H5). unfold read_trailer.
  pose proof (record_parse_sound (flTrailer f) line iv H5) as (A & B & _ & _ & C). specialize (C _ H4).
  destruct (record_parse (flTrailer f) line iv) as [t [n|e|]]; cbn [fst snd] in *; (split; [try discriminate; try contradiction|]).
  - intros f' [= <-]. repeat split; auto.
  - discriminate.
  - discriminate.
Qed.

(* the first record comes before the data records *)
Lemma set_type_no_bases f t : sound_file f -> flBases f = [] ->
  sound_file (fst (file_set_type f t)) /\ flBases (fst (file_set_type f t)) = [].
Proof.
  intros S N. pose proof (set_type_ok f t (sound_file_ok f S)) as (H1 & H2 & H3 & H4 & H5).
  assert (flBases (fst (file_set_type f t)) = []) as N'.
  { unfold file_set_type. destruct (_ && _); [exact N|]. destruct (bytes_eqb _ _); [exact N|].
    destruct (flHeader f); cbn [fst]; auto. destruct (negb _); cbn [fst]; [exact N|].
    cbn [set_header flBases]. rewrite N. cbn [convert_bases fold_right]. cbn [set_bases set_header flTrailer flBases flHeader].
    destruct (flTrailer f); cbn [fst flBases]; auto. destruct (negb _); reflexivity. }
  split; [|exact N']. unfold sound_file. rewrite N'.
  split; [exact H1|]. split; [|split; [constructor|split; [exact H4|]]].
  - destruct H1 as [h E]. rewrite E in *. exact H2.
  - destruct H4 as [h E]. rewrite E in *. exact H5.
Qed.

Lemma read_header_sound f line : sound_file f -> flBases f = [] ->
  read_header f line <> Panic /\ forall f', read_header f line = Ok f' -> sound_file f'.
Proof.
  intros S N. unfold read_header. destruct (negb _); [split; discriminate|].
  destruct (set_type_no_bases f (if is_packed line then lit "packed" else lit "metro") S N) as [S' N'].
  set (f1 := fst _) in *. cbv zeta. destruct S' as (H1 & H2 & H3 & H4 & H5).
  pose proof (record_parse_sound (flHeader f1) line (is_variable_length line) H2) as (A & B & C & _). specialize (C _ H1).
  destruct (record_parse (flHeader f1) line _) as [h [n|e|]]; cbn [fst snd] in *; (split; [try discriminate; try contradiction|]).
  - intros f' [= <-]. repeat split; auto.
  - discriminate.
  - discriminate.
Qed.

Lemma set_bases_sound f bs : sound_file f -> Forall (fun r => is_base (flPacked f) r /\ sound_record r) bs ->
  sound_file (set_bases f bs).
Proof. intros (H1 & H2 & H3 & H4 & H5) F. repeat split; auto. Qed.

Lemma read_from_sound evs input r : read_from evs input = Some r -> r <> Panic /\ forall f, r = Ok f -> sound_file f.
Proof.
  unfold read_from, reader_read. generalize (S (length input)) as fuel. intros fuel.
  assert (sound_file (set_bases (new_file_p false) [])) as S0 by exact (new_sound false).
  set (f0 := set_bases (new_file_p false) []) in *. cbv zeta.
  destruct (scan evs (new_scanner input)) as [[[[line|] s1] evs1]|]; [| |discriminate].
  2:{ intros [= <-]. split; discriminate. }
  destruct (read_header_sound f0 line S0 eq_refl) as [Np Hs].
  destruct (read_header f0 line) as [f1|e|]; [|intros [= <-]; split; discriminate|contradiction].
  specialize (Hs f1 eq_refl).
  pose proof (read_bases_sound (flPacked f1) (is_variable_length line) fuel evs1 s1 []) as Rb.
  destruct (read_bases _ _ _ _ _ _) as [[bs l|bs s2 evs2|]|]; [| | |discriminate].
  - specialize (Rb _ (Forall_nil _) eq_refl). cbn in Rb. intros [= <-].
    apply read_trailer_sound. apply set_bases_sound; assumption.
  - specialize (Rb _ (Forall_nil _) eq_refl). cbn in Rb.
    destruct (scan evs2 s2) as [[[[line'|] s3] evs3]|]; [| |discriminate]; intros [= <-].
    + apply read_trailer_sound. apply set_bases_sound; assumption.
    + split; discriminate.
  - destruct (Rb _ (Forall_nil _) eq_refl).
Qed.

(* ---- JSON ---- *)

Lemma decode_members_typed rt tags l : forall st st', decode_members rt tags l st = Some st' -> types st' = types st.
Proof.
  induction l as [|[k j] l IH]; intros st st'; cbn [decode_members]; [intros [= <-]; reflexivity|].
  destruct (find_tag tags k) as [t|]; [|apply IH]. destruct (lookup (tgField t) st) as [old|] eqn:L; [|discriminate].
  destruct (decode_field rt old j) as [v|] eqn:D; [|discriminate]. intros H. apply IH in H. rewrite H.
  apply set_field_types. apply can_assign_spec. exists old. split; [exact L|]. apply (decode_field_kind _ _ _ _ D).
Qed.

Lemma decode_struct_typed s rt tags j st st' : has_type s st -> decode_struct rt tags j st = Some st' -> has_type s st'.
Proof.
  unfold has_type. intros T. destruct j; try discriminate; cbn [decode_struct].
  - intros [= <-]. exact T.
  - intros H. apply decode_members_typed in H. unfold types in H. rewrite H. exact T.
Qed.

Lemma add_sound s b b' : seg_typed s -> base_with sound b -> base_add_segment s b = (b', None) -> base_with sound b'.
Proof.
  intros T [[Tb P] F]. unfold base_add_segment. destruct (seg_validate s) eqn:V; [discriminate|]. intros [= <-].
  split; [split; [rewrite ParseFacts.put_fields; exact Tb|apply put_placed; exact P]|]. apply put_forall; [split; assumption|exact F].
Qed.

Lemma unmarshal_segment_sound rt name j b : base_with sound b ->
  unmarshal_segment rt name j b <> Panic /\ forall b', unmarshal_segment rt name j b = Ok b' -> base_with sound b'.
Proof.
  intros H. unfold unmarshal_segment. destruct (kind_of_name name) as [k|]; [|split; [discriminate|intros b' [= <-]; exact H]].
  destruct (decode_struct rt (seg_tags k) j (sFields (new_segment k))) as [st|] eqn:D; [|split; discriminate].
  apply (decode_struct_typed (seg_struct k)) in D; [|apply new_segment_type].
  destruct (base_add_segment (mkSegment k st) b) as [b' [e|]] eqn:E; [split; discriminate|].
  split; [discriminate|]. intros b2 [= <-]. eapply add_sound; [|exact H|exact E]. exact D.
Qed.

Lemma unmarshal_segments_sound rt name l : forall b, base_with sound b ->
  unmarshal_segments rt name l b <> Panic /\ forall b', unmarshal_segments rt name l b = Ok b' -> base_with sound b'.
Proof.
  induction l as [|j l IH]; intros b H; cbn [unmarshal_segments]; [split; [discriminate|intros b' [= <-]; exact H]|].
  destruct (unmarshal_segment_sound rt name j b H) as [N K]. destruct (unmarshal_segment rt name j b) as [b1|e|];
    [apply IH, K; reflexivity|split; discriminate|contradiction].
Qed.

Lemma unmarshal_base_member_sound rt m b : base_with sound b ->
  unmarshal_base_member rt m b <> Panic /\ forall b', unmarshal_base_member rt m b = Ok b' -> base_with sound b'.
Proof.
  intros H. destruct m as [key j]. unfold unmarshal_base_member. destruct (bytes_eqb key (lit "base")).
  - destruct (decode_struct rt base_tags j (new_fields base_struct)) as [st|] eqn:D; [|split; discriminate].
    apply (decode_struct_typed base_struct) in D; [|reflexivity].
    split; [discriminate|]. intros b' [= <-]. destruct H as [[_ P] F]. split; [split; [exact D|exact P]|exact F].
  - destruct (_ || _); [|apply unmarshal_segment_sound; exact H].
    destruct (json_list rt j); [apply unmarshal_segments_sound; exact H|split; discriminate].
Qed.

Lemma unmarshal_base_members_sound rt l : forall b, base_with sound b ->
  unmarshal_base_members rt l b <> Panic /\ forall b', unmarshal_base_members rt l b = Ok b' -> base_with sound b'.
Proof.
  induction l as [|m l IH]; intros b H; cbn [unmarshal_base_members]; [split; [discriminate|intros b' [= <-]; exact H]|].
  destruct (unmarshal_base_member_sound rt m b H) as [N K]. destruct (unmarshal_base_member rt m b) as [b1|e|];
    [apply IH, K; reflexivity|split; discriminate|contradiction].
Qed.

Lemma clear_sound b : base_with sound b -> base_with sound (clear_j b).
Proof.
  intros [[T P] F]. replace (clear_j b) with (clear_j (set_bFields b (bFields b))) by (destruct b; reflexivity).
  split; [split; [exact T|apply clear_placed; exact P]|apply clear_forall; exact F].
Qed.

Lemma decode_record_sound rt n j r : sound_record r ->
  decode_record rt n j r <> Panic /\ forall r', decode_record rt n j r = Ok r' -> sound_record r'
  /\ (forall p, is_header p r -> is_header p r') /\ (forall p, is_base p r -> is_base p r')
  /\ (forall p, is_trailer p r -> is_trailer p r').
Proof.
  intros H. unfold is_header, is_base, is_trailer.
  destruct r as [p h|p b|p t]; cbn [decode_record sound_record] in *.
  - destruct (decode_struct rt header_tags j h) as [st|] eqn:D; [|split; discriminate].
    apply (decode_struct_typed header_struct) in D; [|exact H].
    split; [discriminate|]. intros r' [= <-]. split; [exact D|].
    repeat split; intros q [x E]; try discriminate; injection E as <- <-; eauto.
  - unfold unmarshal_base. destruct (json_map rt j) as [l|]; [|split; discriminate].
    destruct (unmarshal_base_members_sound rt (rtOrder rt n l) (clear_j b) (clear_sound b H)) as [N K].
    destruct (unmarshal_base_members rt (rtOrder rt n l) (clear_j b)) as [b'|e|]; [|split; discriminate|contradiction].
    split; [discriminate|]. intros r' [= <-]. split; [apply K; reflexivity|].
    repeat split; intros q [x E]; try discriminate; injection E as <- <-; eauto.
  - destruct (decode_struct rt trailer_tags j t) as [st|] eqn:D; [|split; discriminate].
    apply (decode_struct_typed trailer_struct) in D; [|exact H].
    split; [discriminate|]. intros r' [= <-]. split; [exact D|].
    repeat split; intros q [x E]; try discriminate; injection E as <- <-; eauto.
Qed.

Lemma decode_data_sound rt l : forall n f, sound_file f ->
  decode_data rt n l f <> Panic /\ forall f', decode_data rt n l f = Ok f' -> sound_file f'.
Proof.
  induction l as [|j l IH]; intros n f H; cbn [decode_data]; [split; [discriminate|intros f' [= <-]; exact H]|].
  destruct (decode_record_sound rt n j (new_data_record (flPacked f)) (new_base_with sound)) as [N K].
  destruct (decode_record rt n j _) as [b|e|]; [|split; discriminate|contradiction].
  destruct (K b eq_refl) as (A & _ & B & _). apply IH. apply set_bases_sound; [exact H|].
  apply Forall_app. split; [apply H|]. repeat constructor; [|exact A]. apply B. eexists. reflexivity.
Qed.

Lemma decode_file_member_sound rt m f : sound_file f ->
  decode_file_member rt m f <> Panic /\ forall f', decode_file_member rt m f = Ok f' -> sound_file f'.
Proof.
  intros H. pose proof H as (H1 & H2 & H3 & H4 & H5). destruct m as [name j]. unfold decode_file_member.
  destruct (bytes_eqb name (lit "header")).
  { destruct (decode_record_sound rt 0 j (flHeader f) H2) as [N K].
    destruct (decode_record rt 0 j _) as [r|e|]; [|split; discriminate|contradiction].
    split; [discriminate|]. intros f' [= <-]. destruct (K r eq_refl) as (A & B & _). repeat split; auto. }
  destruct (bytes_eqb name (lit "trailer")).
  { destruct (decode_record_sound rt 0 j (flTrailer f) H5) as [N K].
    destruct (decode_record rt 0 j _) as [r|e|]; [|split; discriminate|contradiction].
    split; [discriminate|]. intros f' [= <-]. destruct (K r eq_refl) as (A & _ & _ & B). repeat split; auto. }
  destruct (bytes_eqb name (lit "data")); [|split; [discriminate|intros f' [= <-]; exact H]].
  destruct (json_list rt j); [apply decode_data_sound; exact H|split; discriminate].
Qed.

Lemma decode_file_members_sound rt l : forall f, sound_file f ->
  decode_file_members rt l f <> Panic /\ forall f', decode_file_members rt l f = Ok f' -> sound_file f'.
Proof.
  induction l as [|m l IH]; intros f H; cbn [decode_file_members]; [split; [discriminate|intros f' [= <-]; exact H]|].
  destruct (decode_file_member_sound rt m f H) as [N K]. destruct (decode_file_member rt m f) as [f1|e|];
    [apply IH, K; reflexivity|split; discriminate|contradiction].
Qed.

Lemma file_from_json_sound rt text :
  file_from_json rt text <> Panic /\ forall f, file_from_json rt text = Ok f -> sound_file f.
Proof.
  unfold file_from_json. destruct (decode text) as [j|]; [|split; discriminate].
  destruct (decode_dummy rt j) as [h|]; [|split; discriminate]. unfold unmarshal_file.
  destruct (json_map rt j); [|split; discriminate]. apply decode_file_members_sound. apply new_sound.
Qed.

Lemma new_file_sound rt evs input r : new_file_from_reader rt evs input = Some r ->
  r <> Panic /\ forall f, r = Ok f -> sound_file f.
Proof.
  unfold new_file_from_reader. destruct input as [|c input]; [intros [= <-]; split; discriminate|].
  destruct (looks_like_json _); [|apply read_from_sound].
  intros [= <-]. apply file_from_json_sound.
Qed.
