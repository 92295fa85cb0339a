(* Looking things up in records and files *)
From Coq Require Import ZArith NArith Bool Ascii String List Lia.
Import ListNotations.
From Verif Require Import GoBase GoBaseFacts GoTime Tables Codec Records File SpecCodec SpecLayouts SpecRecords SpecFile
  SpecValidate SpecCounters SpecApi SpecLookup Check Samples RoundTrip ValidateFacts CounterFacts ApiFacts AgreeFacts RecordFacts.
Local Open Scope string_scope.
Local Open Scope Z_scope.
Local Open Scope list_scope.
Local Notation length := List.length.

Lemma filter_none {A} (p : A -> bool) l : Forall (fun x => p x = false) l -> filter p l = [].
Proof. induction 1 as [|x l H _ IH]; [reflexivity|]. cbn. rewrite H. exact IH. Qed.
Lemma filter_every {A} (p : A -> bool) l : Forall (fun x => p x = true) l -> filter p l = l.
Proof. induction 1 as [|x l H _ IH]; [reflexivity|]. cbn. rewrite H, IH. reflexivity. Qed.

Definition named (name : bytes) (s : segment) : bool := bytes_eqb (lit (lookup_name (sKind s))) name.

Lemma kind_filter k name l : Forall (fun s => sKind s = k) l ->
  filter (named name) l = if bytes_eqb (lit (lookup_name k)) name then l else [].
Proof.
  intros F. destruct (bytes_eqb (lit (lookup_name k)) name) eqn:E.
  - apply filter_every. revert F. apply Forall_impl. intros s <-. exact E.
  - apply filter_none. revert F. apply Forall_impl. intros s <-. exact E.
Qed.

Lemma opt_filter k name o : (forall s, o = Some s -> sKind s = k) ->
  filter (named name) (opt_to_list o) = if bytes_eqb (lit (lookup_name k)) name then opt_to_list o else [].
Proof.
  intros H. apply kind_filter. destruct o as [s|]; [|constructor]. constructor; [auto|constructor].
Qed.

Lemma get_segments_spec r name : record_ok r ->
  record_get_segments name r = filter (fun s => bytes_eqb (lit (lookup_name (sKind s))) name) (record_segments r).
Proof.
  destruct r as [p h|p b|p t]; try reflexivity. intros [[_ (P1 & P2 & P3 & P4 & P5 & P6 & P7 & P8)] _].
  cbn [record_get_segments record_segments]. unfold segments_of. change (fun s : segment => _) with (named name).
  rewrite !filter_app, (kind_filter J1), (kind_filter J2), (opt_filter K1), (opt_filter K2), (opt_filter K3), (opt_filter K4),
    (opt_filter L1), (opt_filter N1) by assumption.
  unfold base_get_segments, all_kinds. cbn [find].
  destruct (bytes_eqb name (lit (seg_name J1))) eqn:E1; [apply bytes_eqb_eq in E1; subst; cbn; rewrite !app_nil_r; reflexivity|].
  destruct (bytes_eqb name (lit (seg_name J2))) eqn:E2; [apply bytes_eqb_eq in E2; subst; cbn; rewrite !app_nil_r; reflexivity|].
  destruct (bytes_eqb name (lit (seg_name K1))) eqn:E3; [apply bytes_eqb_eq in E3; subst; cbn; rewrite !app_nil_r; reflexivity|].
  destruct (bytes_eqb name (lit (seg_name K2))) eqn:E4; [apply bytes_eqb_eq in E4; subst; cbn; rewrite !app_nil_r; reflexivity|].
  destruct (bytes_eqb name (lit (seg_name K3))) eqn:E5; [apply bytes_eqb_eq in E5; subst; cbn; rewrite !app_nil_r; reflexivity|].
  destruct (bytes_eqb name (lit (seg_name K4))) eqn:E6; [apply bytes_eqb_eq in E6; subst; cbn; rewrite !app_nil_r; reflexivity|].
  destruct (bytes_eqb name (lit (seg_name L1))) eqn:E7; [apply bytes_eqb_eq in E7; subst; cbn; rewrite !app_nil_r; reflexivity|].
  destruct (bytes_eqb name (lit (seg_name N1))) eqn:E8; [apply bytes_eqb_eq in E8; subst; cbn; rewrite ?app_nil_r; reflexivity|].
  apply bytes_eqb_neq in E1, E2, E3, E4, E5, E6, E7, E8.
  assert (forall k, bytes_eqb (lit (lookup_name k)) name = false) as No
    by (intros k; apply bytes_eqb_neq; intros Eq; destruct k; cbn [lookup_name seg_name] in *; congruence).
  rewrite !No. reflexivity.
Qed.

Lemma length_spec r z : record_ok r -> says_length r z -> record_length r = z.
Proof.
  destruct r as [p h|p b|p t]; cbn [record_ok says_length record_length]; intros T H.
  - apply (get_int_holds _ _ _ (header_nodup _ T) H).
  - destruct T as [[T _] _]. apply (get_int_holds _ _ _ (base_nodup _ T) H).
  - apply (get_int_holds _ _ _ (trailer_nodup _ T) H).
Qed.

Lemma block_spec r z : record_ok r -> says_block r z -> record_block_size r = z.
Proof.
  destruct r as [p h|p b|p t]; cbn [record_ok says_block record_block_size]; intros T H.
  - apply (get_int_holds _ _ _ (header_nodup _ T) H).
  - destruct T as [[T _] _]. apply (get_int_holds _ _ _ (base_nodup _ T) H).
  - apply (get_int_holds _ _ _ (trailer_nodup _ T) H).
Qed.

Lemma segment_length_spec k : seg_length k = seg_size k.
Proof. destruct k; reflexivity. Qed.

Lemma get_record_spec f : file_get_record f (lit "header") = Ok (flHeader f) /\ file_get_record f (lit "trailer") = Ok (flTrailer f)
  /\ forall name, name <> lit "header" -> name <> lit "trailer" -> file_get_record f name = Err (ErrInvalidRecord name).
Proof.
  split; [reflexivity|]. split; [reflexivity|]. intros name A B. unfold file_get_record.
  apply bytes_eqb_neq in A, B. rewrite A, B. reflexivity.
Qed.

Lemma set_get_spec f r f' : file_ok f -> file_set_record f r = (f', None) ->
  (is_header (flPacked f) r -> file_get_record f' (lit "header") = Ok r /\ file_get_record f' (lit "trailer") = file_get_record f (lit "trailer"))
  /\ (is_trailer (flPacked f) r -> file_get_record f' (lit "trailer") = Ok r /\ file_get_record f' (lit "header") = file_get_record f (lit "header"))
  /\ (is_header (flPacked f) r \/ is_trailer (flPacked f) r).
Proof.
  intros O E. destruct (set_record_spec f r O) as (g & e & E' & H). rewrite E in E'. injection E' as <- <-.
  destruct H as [(_ & _ & [[I ->]|[I ->]])|(N & _)]; [| |congruence].
  - split; [intros _; split; reflexivity|]. split; [|auto]. intros J. exfalso.
    destruct r; destruct I as (? & I), J as (? & J); discriminate.
  - split; [|split; [intros _; split; reflexivity|auto]]. intros J. exfalso.
    destruct r; destruct I as (? & I), J as (? & J); discriminate.
Qed.

Lemma own_name_case : exists f r f', file_ok f /\ file_set_record f r = (f', None)
  /\ file_get_record f' (lit (record_name r)) <> Ok r.
Proof.
  exists (sample_file true 370 366), (RHeader true (sample_header 370 366)). eexists.
  split; [apply file_okb_ok; vm_compute; reflexivity|]. split; [vm_compute; reflexivity|]. vm_compute. discriminate.
Qed.

(* what Parse returns is what the record then says about its size *)
Lemma parsed_size r d iv r' n : record_parse r d iv = (r', Ok n) ->
  n = if 0 <? record_block_size r' then record_block_size r' else record_length r'.
Proof.
  destruct r as [p h|p b|p t]; cbn [record_parse].
  - intros E. assert (forall st x, (st, x) = (if p then header_parse_packed h d iv else header_parse_char h d iv) -> x = Ok n ->
      n = if 0 <? header_bdw st then header_bdw st else header_rdw st) as G.
    { intros st x Ex ->. destruct p; unfold header_parse_packed, header_parse_char in Ex; destruct (Nat.ltb _ _); try discriminate.
      all: destruct (parse_fields _ _ _ _ _ _ _ _) as [st' [k|e|]]; try discriminate; injection Ex as -> Ex; unfold header_result in Ex;
        destruct (0 <? header_bdw st'); congruence. }
    destruct p; destruct (_ h d iv) as [st x] eqn:Q; injection E as <- ->; cbn [record_block_size record_length];
      apply (G st (Ok n)); auto.
  - intros E. assert (forall b' x, (b', x) = (if p then base_parse_packed b d iv else base_parse_char b d iv) -> x = Ok n ->
      n = if 0 <? base_bdw b' then base_bdw b' else base_rdw b') as G.
    { intros b' x Ex ->. destruct p; unfold base_parse_packed, base_parse_char in Ex; destruct (Nat.ltb (length d) _); try discriminate.
      all: destruct (parse_fields _ _ _ _ _ _ _ _) as [st' [k|e|]]; try discriminate; cbv zeta in Ex; destruct (Nat.ltb _ _); try discriminate.
      all: destruct (read_segments _ _ _ _ _) as [b3 [read|e|]]; try discriminate.
      - destruct (base_bdw b3 <? Z.of_nat (read + (PackedRecordLength + 4))) eqn:L; [discriminate|]. injection Ex as -> ->.
        apply Z.ltb_ge in L. destruct (0 <? base_bdw b3) eqn:P; [reflexivity|]. apply Z.ltb_ge in P.
        unfold PackedRecordLength in L. lia.
      - destruct (_ && _); [discriminate|]. destruct (_ && _); [discriminate|].
        destruct (0 <? base_bdw b3) eqn:P; injection Ex as -> ->; rewrite P; reflexivity. }
    destruct p; destruct (_ b d iv) as [b' x] eqn:Q; injection E as <- ->; cbn [record_block_size record_length];
      apply (G b' (Ok n)); auto.
  - intros E. assert (forall st x, (st, x) = (if p then trailer_parse_packed t d iv else trailer_parse_char t d iv) -> x = Ok n ->
      n = trailer_rdw st) as G.
    { intros st x Ex ->. destruct p; unfold trailer_parse_packed, trailer_parse_char in Ex; destruct (Nat.ltb _ _); try discriminate.
      all: destruct (parse_fields _ _ _ _ _ _ _ _) as [st' [k|e|]]; try discriminate; congruence. }
    destruct p; destruct (_ t d iv) as [st x] eqn:Q; injection E as <- ->; cbn [record_block_size record_length];
      rewrite (G st (Ok n) eq_refl eq_refl); destruct (0 <? _); reflexivity.
Qed.
