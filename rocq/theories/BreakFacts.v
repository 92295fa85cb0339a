(* Facts about line breaks in the texts of records and files *)
From Coq Require Import ZArith NArith Bool Ascii String List Lia.
Import ListNotations.
From Verif Require Import GoBase GoTime Tables Codec Records File GoBaseFacts SpecCodec SpecLayouts
  SpecRecords FieldFacts RecordFacts RoundTrip Layout SpecFile SpecFiles FileFacts.
Local Open Scope string_scope.
Local Open Scope Z_scope.
Local Open Scope list_scope.
Local Notation length := List.length.

Definition plain (c : byte) : Prop := c <> cr_char /\ c <> lf_char.

Lemma no_breaks_plain s : no_breaks s <-> Forall plain s.
Proof.
  unfold no_breaks, plain. rewrite Forall_forall. split.
  - intros [A B] c H. split; intros ->; contradiction.
  - intros H. split; intros I; destruct (H _ I); congruence.
Qed.

Lemma no_breaks_app a b : no_breaks (a ++ b) <-> no_breaks a /\ no_breaks b.
Proof. rewrite !no_breaks_plain. apply Forall_app. Qed.

Lemma plain_dec c : {plain c} + {is_crlf c = true}.
Proof.
  unfold plain, is_crlf, byte_eqb. destruct (Ascii.eqb_spec c cr_char); [right; reflexivity|].
  destruct (Ascii.eqb_spec c lf_char); [right; reflexivity|]. left. auto.
Qed.

Lemma is_crlf_spec c : is_crlf c = true <-> c = cr_char \/ c = lf_char.
Proof. unfold is_crlf. rewrite orb_true_iff. unfold byte_eqb. rewrite !Ascii.eqb_eq. reflexivity. Qed.

Lemma plain_spec c : plain c <-> is_crlf c = false.
Proof.
  unfold plain. rewrite <- not_true_iff_false, is_crlf_spec. tauto.
Qed.

Lemma repeat_plain c n : plain c -> Forall plain (repeat c n).
Proof. intros H. induction n; constructor; auto. Qed.

Lemma firstn_plain n s : Forall plain s -> Forall plain (firstn n s).
Proof. intros H. rewrite <- (firstn_skipn n s) in H. apply Forall_app in H. apply H. Qed.
Lemma skipn_plain n s : Forall plain s -> Forall plain (skipn n s).
Proof. intros H. rewrite <- (firstn_skipn n s) in H. apply Forall_app in H. apply H. Qed.

Lemma runes_plain : forall fuel s, Forall plain s -> Forall (Forall plain) (runes_fuel fuel s).
Proof.
  induction fuel as [|fuel IH]; intros s H; [constructor|]. cbn [runes_fuel]. destruct s; [constructor|].
  constructor; [apply firstn_plain, H|apply IH, skipn_plain, H].
Qed.

Lemma concat_plain l : Forall (Forall plain) l -> Forall plain (List.concat l).
Proof. induction 1; cbn; [constructor|]. apply Forall_app. auto. Qed.

Lemma firstn_forall {A} (P : A -> Prop) n l : Forall P l -> Forall P (firstn n l).
Proof. intros H. rewrite <- (firstn_skipn n l) in H. apply Forall_app in H. apply H. Qed.

Lemma trunc_plain n s : Forall plain s -> Forall plain (fmt_trunc n s).
Proof. intros H. unfold fmt_trunc. apply concat_plain, firstn_forall, runes_plain, H. Qed.

Lemma zero_plain : plain zero_char.
Proof. split; discriminate. Qed.
Lemma blank_plain : plain blank_char.
Proof. split; discriminate. Qed.
#[local] Hint Resolve zero_plain blank_plain repeat_plain : core.

Lemma zero_pad_plain n s : Forall plain s -> Forall plain (fmt_zero_pad n s).
Proof. intros H. unfold fmt_zero_pad. apply Forall_app. auto using trunc_plain. Qed.
Lemma left_plain n s : Forall plain s -> Forall plain (fmt_left n s).
Proof. intros H. unfold fmt_left. apply Forall_app. auto using trunc_plain. Qed.

Lemma digit_plain c : is_digit c = true -> plain c.
Proof. intros H. split; intros ->; discriminate. Qed.

Lemma utoa_plain z : 0 <= z -> Forall plain (utoa z).
Proof.
  intros H. pose proof (utoa_digits z H) as D. rewrite forallb_Forall in D.
  eapply Forall_impl; [|exact D]. intros c. apply digit_plain.
Qed.

Lemma itoa_plain z : Forall plain (itoa z).
Proof.
  unfold itoa. destruct (Z.ltb_spec z 0).
  - constructor; [split; discriminate|apply utoa_plain; lia].
  - apply utoa_plain; lia.
Qed.

Lemma append_int_plain w z : Forall plain (append_int w z).
Proof.
  unfold append_int. destruct (Z.ltb_spec z 0).
  - constructor; [split; discriminate|]. apply Forall_app. split; [auto|apply utoa_plain; lia].
  - apply Forall_app. split; [auto|apply utoa_plain; lia].
Qed.

Lemma format_date_plain t : Forall plain (format_date t).
Proof. unfold format_date. rewrite !Forall_app. auto using append_int_plain. Qed.
Lemma format_timestamp_plain t : Forall plain (format_timestamp t).
Proof. unfold format_timestamp. rewrite !Forall_app. auto using append_int_plain, format_date_plain. Qed.

(* field types written as text *)
Definition char_type (f : field) : bool :=
  has (fType f) numeric || has (fType f) timestamp || has (fType f) date
  || has (fType f) alphanumeric || has (fType f) alpha.

Lemma fill_plain f : Forall plain (fill_string f).
Proof. unfold fill_string. destruct (has _ _); auto. Qed.

Lemma to_string_plain f v : char_type f = true -> (forall s, v = Some (VStr s) -> no_breaks s) ->
  Forall plain (to_string f v).
Proof.
  intros C H. unfold to_string. destruct v as [v|]; [|apply fill_plain].
  destruct (_ && _)%bool; [constructor|].
  assert (Forall plain (fmt_v v)) as Fv.
  { destruct v as [z|s|t]; cbn [fmt_v]; [apply itoa_plain|apply no_breaks_plain, H; reflexivity|constructor]. }
  unfold char_type in C.
  destruct (has (fType f) numeric); [apply zero_pad_plain, Fv|].
  destruct (has (fType f) timestamp).
  { destruct v as [z|s|t]; auto. destruct (is_zero t); auto using format_timestamp_plain. }
  destruct (has (fType f) date).
  { destruct v as [z|s|t]; auto. destruct (is_zero t); auto using format_date_plain. }
  cbn [orb] in C. rewrite C. apply left_plain, Fv.
Qed.

Lemma write_plain l st : forallb (fun p => char_type (snd p)) l = true ->
  (forall n s, holds st n (VStr s) -> no_breaks s) -> Forall plain (write_fields l st).
Proof.
  intros C H. unfold write_fields.
  assert (Forall (fun p => char_type (snd p) = true) (to_specifications l)) as F.
  { eapply Permutation.Permutation_Forall; [apply to_specifications_perm|]. apply forallb_Forall, C. }
  induction F as [|[n f] sp Cf F IH]; cbn [flat_map]; [constructor|]. apply Forall_app. split; [|exact IH].
  apply to_string_plain; [exact Cf|]. cbn [fst]. intros s L. apply (H n). apply lookup_In, L.
Qed.

Lemma pad_plain n s : Forall plain s -> Forall plain (pad_block n s).
Proof. intros H. unfold pad_block. apply Forall_app. auto. Qed.

Lemma seg_plain s : breakless (sFields s) -> Forall plain (seg_string s).
Proof. intros H. apply write_plain; [destruct (sKind s); vm_compute; reflexivity|exact H]. Qed.

Lemma header_plain h : breakless h -> Forall plain (header_string false h).
Proof. intros H. apply pad_plain, write_plain; [vm_compute; reflexivity|exact H]. Qed.
Lemma trailer_plain h : breakless h -> Forall plain (trailer_string false h).
Proof. intros H. apply pad_plain, write_plain; [vm_compute; reflexivity|exact H]. Qed.
Lemma base_plain b : breakless (bFields b) -> Forall (fun s => breakless (sFields s)) (segments_of b) ->
  Forall plain (base_string_char b).
Proof.
  intros H Hs. apply pad_plain, Forall_app. split; [apply write_plain; [vm_compute; reflexivity|exact H]|].
  rewrite base_segments_of. induction Hs; cbn [flat_map]; [constructor|]. apply Forall_app. auto using seg_plain.
Qed.

Lemma record_plain r : char_record r -> record_breakless r -> no_breaks (record_string r).
Proof.
  intros C H. apply no_breaks_plain. destruct r as [p h|p b|p t]; cbn in C; subst p; cbn [record_string record_breakless] in *.
  - apply header_plain, H.
  - apply base_plain; apply H.
  - apply trailer_plain, H.
Qed.

(* ---- which records are free of line breaks ---- *)

Lemma text_chars_plain s : Forall (fun c => In c text_chars) s -> no_breaks s.
Proof.
  intros F. apply no_breaks_plain. eapply Forall_impl; [|exact F].
  assert (forallb (fun c => negb (is_crlf c)) text_chars = true) as H by (vm_compute; reflexivity).
  rewrite forallb_forall in H. intros c I. apply plain_spec, negb_true_iff, H, I.
Qed.

Lemma reads_breakless doc s st pre : struct_ok doc s = true -> types st = pre ++ s ->
  (pre = [] \/ pre = [(BDW, KInt)]) -> NoDup (map fst st) -> record_reads doc st -> breakless st.
Proof.
  intros So T Hp ND R n v Hv.
  assert (In n (map fst (pre ++ s))) as I.
  { rewrite <- T, types_names. apply in_map_iff. exists (n, VStr v). auto. }
  rewrite map_app in I. apply in_app_or in I as [I|I].
  - destruct Hp as [->| ->]; [destruct I|]. destruct I as [<-|[]]. cbn in *.
    apply (In_lookup _ _ _ ND) in Hv.
    assert (lookup BDW (types st) = Some KInt) as L by (rewrite T; reflexivity).
    rewrite lookup_types, Hv in L. discriminate.
  - destruct (struct_covered _ _ _ So I) as (d & Hd & <- & K). destruct (R d Hd K) as (v' & Hv' & F).
    apply (In_lookup _ _ _ ND) in Hv, Hv'. rewrite Hv in Hv'. injection Hv' as <-.
    cbn in F. unfold fits in F. cbn [dKind] in F. destruct (dKind d); try contradiction.
    apply text_chars_plain, F.
Qed.

Lemma fits_reads d v : fits d v -> read_fits d v.
Proof.
  intros F. destruct v; cbn [read_fits]; [left; exact F| |]; unfold fits in *; cbn [dKind dWidth dMust];
    destruct (dKind d); auto; destruct F as [F _]; split; auto; discriminate.
Qed.

Lemma record_fits_reads doc st : record_fits doc st -> record_reads doc st.
Proof. intros R d Hd K. destruct (R d Hd K) as (v & Hv & F). exists v. auto using fits_reads. Qed.

Lemma bdw_reads_breakless p doc l s st : scheme_bdw p doc l s = true -> has_type s st -> record_reads doc st -> breakless st.
Proof.
  intros H T R. pose proof (scheme_nodup _ _ _ _ _ H T) as ND.
  destruct (scheme_bdw_inv _ _ _ _ H) as (sp & s' & _ & -> & _ & _ & So).
  eapply (reads_breakless doc s' st [(BDW, KInt)]); eauto.
Qed.

Lemma plain_reads_breakless doc l s st : scheme_plain doc l s = true -> has_type s st -> record_reads doc st -> breakless st.
Proof.
  intros H T R. unfold scheme_plain in H. apply andb_prop in H as [_ So].
  destruct (struct_ok_nodup _ _ So) as [ND _]. rewrite <- (has_type_names _ _ T) in ND.
  eapply (reads_breakless doc s st []); eauto.
Qed.

Lemma header_reads_breakless p h : has_type header_struct h -> record_reads (header_doc p) h -> breakless h.
Proof. intros. eapply bdw_reads_breakless; eauto using header_scheme. Qed.
Lemma trailer_reads_breakless p h : has_type trailer_struct h -> record_reads (trailer_doc p) h -> breakless h.
Proof. intros. eapply plain_reads_breakless; eauto using trailer_scheme. Qed.
Lemma seg_reads_breakless s : seg_typed s -> record_reads (seg_doc (sKind s)) (sFields s) -> breakless (sFields s).
Proof. intros. eapply plain_reads_breakless; eauto using seg_scheme. Qed.
Lemma base_reads_breakless p q b : base_reads p b -> record_breakless (RBase q b).
Proof.
  intros ([T P] & R & F). split.
  - eapply bdw_reads_breakless; eauto using base_scheme.
  - eapply Forall_impl; [|exact F]. intros s (t & _ & _ & Ts & Rs & _). apply seg_reads_breakless; assumption.
Qed.

Lemma header_fits_breakless p q h : header_fits p h -> record_breakless (RHeader q h).
Proof. intros [T R]. eapply header_reads_breakless; eauto using record_fits_reads. Qed.
Lemma trailer_fits_breakless p q h : trailer_fits p h -> record_breakless (RTrailer q h).
Proof. intros [T R]. eapply trailer_reads_breakless; eauto using record_fits_reads. Qed.
Lemma base_fits_breakless p q b : base_fits p b -> record_breakless (RBase q b).
Proof.
  intros ([T P] & R & F). split.
  - eapply bdw_reads_breakless; eauto using base_scheme, record_fits_reads.
  - eapply Forall_impl; [|exact F]. intros s ((Ts & Rs) & _). apply seg_reads_breakless; auto using record_fits_reads.
Qed.

(* ---- removing line breaks ---- *)

Lemma strip_app a b : strip (a ++ b) = strip a ++ strip b.
Proof. apply filter_app. Qed.

Lemma strip_plain s : no_breaks s -> strip s = s.
Proof.
  intros H. apply no_breaks_plain in H. induction H as [|c s P F IH]; [reflexivity|].
  unfold strip in *. cbn [filter]. apply plain_spec in P. rewrite P. cbn [negb]. f_equal. exact IH.
Qed.

Lemma strip_no_breaks s : no_breaks (strip s).
Proof.
  apply no_breaks_plain, Forall_forall. intros c I. apply filter_In in I as [_ I]. apply plain_spec, negb_true_iff, I.
Qed.

Lemma strip_broken_up s s' : broken_up s s' -> strip s' = strip s.
Proof.
  unfold strip. induction 1 as [|c s s' H IH|c s s' E H IH]; [reflexivity| |].
  - cbn [filter]. rewrite IH. reflexivity.
  - cbn [filter]. apply is_crlf_spec in E. rewrite E. cbn [negb]. exact IH.
Qed.

Lemma strip_unbroken s s' : unbroken s s' <-> s' = strip s.
Proof.
  unfold strip. split.
  - induction 1 as [|c s s' A B H IH|c s s' E H IH]; [reflexivity| |]; cbn [filter].
    + assert (is_crlf c = false) as -> by (apply plain_spec; split; assumption). cbn. f_equal. exact IH.
    + apply is_crlf_spec in E. rewrite E. exact IH.
  - intros ->. induction s as [|c s IH]; cbn [filter]; [constructor|]. destruct (plain_dec c) as [P|E].
    + pose proof P as Q. apply plain_spec in P. rewrite P. cbn [negb]. constructor; try apply Q. exact IH.
    + rewrite E. cbn [negb]. constructor; [apply is_crlf_spec, E|exact IH].
Qed.

Lemma strip_newline n : strip (newline n) = [].
Proof. destruct n; reflexivity. Qed.

Lemma strip_records (l : list record) nl : Forall (fun r => no_breaks (record_string r)) l ->
  strip (List.concat (map (fun r => record_string r ++ line_break nl) l)) = List.concat (map record_string l).
Proof.
  induction 1 as [|r l P F IH]; [reflexivity|]. cbn [map List.concat].
  rewrite !strip_app, IH, (strip_plain _ P). destruct nl; cbn [line_break strip filter]; rewrite ?app_nil_r; reflexivity.
Qed.

Lemma strip_file_text f nl : no_breaks (record_string (flHeader f)) -> no_breaks (record_string (flTrailer f)) ->
  Forall (fun r => no_breaks (record_string r)) (flBases f) ->
  strip (file_text nl f) = file_text false f.
Proof.
  intros H T B. unfold file_text. rewrite !strip_app, (strip_plain _ H), (strip_plain _ T), (strip_records _ _ B).
  f_equal. replace (strip (line_break nl)) with (@nil byte) by (destruct nl; reflexivity). cbn [app line_break].
  f_equal. f_equal. apply map_ext. intros r. rewrite app_nil_r. reflexivity.
Qed.
