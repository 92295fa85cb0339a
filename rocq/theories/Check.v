(* Decision procedures for the specification predicates, used to show that the
   hypotheses of the theorems hold on sample records *)
From Coq Require Import ZArith NArith Bool Ascii String List Lia.
Import ListNotations.
From Verif Require Import GoBase GoBaseFacts GoTime Regex Tables Codec Records
  SpecCodec SpecLayouts SpecRecords TimeFacts FieldFacts RecordFacts RoundTrip Layout File SpecFile SpecValidate SpecCounters.
Local Open Scope string_scope.
Local Open Scope Z_scope.
Local Open Scope list_scope.
Local Notation length := List.length.

Definition plain_stampb (t : time) : bool :=
  (0 <=? tYear t) && (tYear t <=? 9999) && (1 <=? tMonth t) && (tMonth t <=? 12)
  && valid_day (tYear t) (tMonth t) (tDay t)
  && (0 <=? tHour t) && (tHour t <? 24) && (0 <=? tMin t) && (tMin t <? 60)
  && (0 <=? tSec t) && (tSec t <? 60) && (tNsec t =? 0)
  && match tOff t with None => true | _ => false end.

Lemma plain_stampb_ok t : plain_stampb t = true -> plain_stamp t.
Proof.
  unfold plain_stampb. intros H.
  repeat match goal with
  | X : _ && _ = true |- _ => apply andb_prop in X as [? ?]
  | X : (_ <=? _) = true |- _ => apply Z.leb_le in X
  | X : (_ <? _) = true |- _ => apply Z.ltb_lt in X
  | X : (_ =? _) = true |- _ => apply Z.eqb_eq in X
  end.
  unfold plain_stamp. rewrite calendar_date_spec. destruct (tOff t); [discriminate|]. intuition lia.
Qed.

Definition plain_dateb (t : time) : bool :=
  plain_stampb t && (tHour t =? 0) && (tMin t =? 0) && (tSec t =? 0).

Lemma plain_dateb_ok t : plain_dateb t = true -> plain_date t.
Proof.
  unfold plain_dateb. intros H. do 3 (apply andb_prop in H as [H ?]).
  apply plain_stampb_ok in H. unfold plain_stamp in H. unfold plain_date.
  repeat match goal with X : (_ =? _) = true |- _ => apply Z.eqb_eq in X end. intuition.
Qed.

Definition ends_blank (s : bytes) : bool := negb (bytes_eqb (trim_right s) s).

Definition fitsb (d : doc_field) (v : value) : bool :=
  match dKind d, v with
  | FNumber, VInt z => (0 <=? z) && (z <? 10 ^ Z.of_nat (dWidth d)) && (negb (dMust d) || negb (z =? 0))
  | FText, VStr s => Nat.leb (length s) (dWidth d) && forallb alnum_char s && negb (ends_blank s)
  | FDate, VTime t => plain_dateb t && (negb (dMust d) || negb (is_zero t))
  | FStamp, VTime t => plain_stampb t && (negb (dMust d) || negb (is_zero t))
  | FWord, VInt z => (0 <=? z) && (z <? 65536)
  | FBinary, VInt z => (0 <=? z) && (z <? 256 ^ Z.of_nat (dWidth d))
  | FBinDate, VTime t => plain_dateb t
  | FBinStamp, VTime t => plain_stampb t
  | _, _ => false
  end.

Lemma fitsb_ok d v : fitsb d v = true -> fits d v.
Proof.
  unfold fitsb, fits.
  destruct (dKind d), v; try discriminate; intros H;
    repeat (match goal with X : _ && _ = true |- _ => apply andb_prop in X as [? ?] end);
    repeat match goal with
    | X : (_ <=? _) = true |- _ => apply Z.leb_le in X
    | X : (_ <? _) = true |- _ => apply Z.ltb_lt in X
    end;
    auto using plain_dateb_ok, plain_stampb_ok.
  - split; [lia|]. intros M. rewrite M in H0. cbn in H0. destruct (Z.eqb_spec z 0); [discriminate|assumption].
  - split; [apply Nat.leb_le; assumption|]. split; [apply forall_text; assumption|].
    apply negb_true_iff in H0. unfold ends_blank in H0. apply negb_false_iff, bytes_eqb_eq in H0.
    rewrite <- H0. apply trim_right_no_blank.
  - split; [auto using plain_dateb_ok|]. intros M ->. rewrite M in H0. discriminate.
  - split; [auto using plain_stampb_ok|]. intros M ->. rewrite M in H0. discriminate.
Qed.

Definition record_fitsb (doc : list doc_field) (st : fields) : bool :=
  forallb (fun d => is_reserved d ||
    match lookup (dName d) st with Some v => fitsb d v | None => false end) doc.

Lemma record_fitsb_ok doc st : record_fitsb doc st = true -> record_fits doc st.
Proof.
  intros H d Hd K. unfold record_fitsb in H. rewrite forallb_forall in H. specialize (H d Hd).
  apply orb_prop in H as [H|H].
  - unfold is_reserved in H. destruct (dKind d); try discriminate. contradiction.
  - destruct (lookup (dName d) st) eqn:E; [|discriminate]. exists v. split; [apply lookup_In; exact E|].
    apply fitsb_ok. exact H.
Qed.

Definition has_typeb (s : structure) (st : fields) : bool :=
  (fix go (s : structure) (st : fields) := match s, st with
   | [], [] => true
   | (n, k) :: s, (m, v) :: st => String.eqb n m && kind_eqb k (kind_of v) && go s st
   | _, _ => false end) s st.

Lemma has_typeb_ok s : forall st, has_typeb s st = true -> has_type s st.
Proof.
  unfold has_type. induction s as [|[n k] s IH]; intros [|[m v] st] H; try discriminate; [reflexivity|].
  cbn in H. apply andb_prop in H as [H H1]. apply andb_prop in H as [H H2].
  apply String.eqb_eq in H. subst. cbn. f_equal; [|apply IH; exact H1].
  f_equal. destruct k, v; try discriminate; reflexivity.
Qed.

Definition seg_fitsb (s : segment) : bool :=
  has_typeb (seg_struct (sKind s)) (sFields s) && record_fitsb (seg_doc (sKind s)) (sFields s).

Lemma seg_fitsb_ok s : seg_fitsb s = true -> seg_fits s.
Proof.
  intros H. apply andb_prop in H as [H1 H2]. split; [apply has_typeb_ok|apply record_fitsb_ok]; assumption.
Qed.

Definition seg_goodb (s : segment) : bool :=
  seg_fitsb s && match lookup "SegmentIdentifier" (sFields s) with
                 | Some (VStr m) => bytes_eqb m (seg_mark (sKind s)) | _ => false end
  && match seg_validate s with None => true | _ => false end.

Lemma seg_goodb_ok s : seg_goodb s = true -> seg_good s.
Proof.
  intros H. apply andb_prop in H as [H H3]. apply andb_prop in H as [H1 H2]. split; [apply seg_fitsb_ok; exact H1|].
  destruct (lookup "SegmentIdentifier" (sFields s)) as [[| m |]|] eqn:E; try discriminate.
  apply bytes_eqb_eq in H2. subst. split; [apply lookup_In; exact E|].
  destruct (seg_validate s); [discriminate|reflexivity].
Qed.

Definition segkind_eqb (a b : segkind) : bool :=
  match a, b with
  | J1, J1 | J2, J2 | K1, K1 | K2, K2 | K3, K3 | K4, K4 | L1, L1 | N1, N1 => true
  | _, _ => false
  end.
Lemma segkind_eqb_ok a b : segkind_eqb a b = true -> a = b.
Proof. destruct a, b; try discriminate; reflexivity. Qed.

Definition opt_kind (k : segkind) (o : option segment) : bool :=
  match o with Some s => segkind_eqb (sKind s) k | None => true end.
Lemma opt_kind_ok k o : opt_kind k o = true -> forall s, o = Some s -> sKind s = k.
Proof. intros H s ->. apply segkind_eqb_ok. exact H. Qed.

Definition segs_placedb (b : base) : bool :=
  forallb (fun s => segkind_eqb (sKind s) J1) (bJ1 b) && forallb (fun s => segkind_eqb (sKind s) J2) (bJ2 b)
  && opt_kind K1 (bK1 b) && opt_kind K2 (bK2 b) && opt_kind K3 (bK3 b) && opt_kind K4 (bK4 b)
  && opt_kind L1 (bL1 b) && opt_kind N1 (bN1 b).
Lemma segs_placedb_ok b : segs_placedb b = true -> segs_placed b.
Proof.
  intros H. repeat (apply andb_prop in H as [H ?]). unfold segs_placed.
  repeat split; try (apply opt_kind_ok; assumption).
  - apply forallb_Forall in H. eapply Forall_impl; [|exact H]. intros s. apply segkind_eqb_ok.
  - apply forallb_Forall in H6. eapply Forall_impl; [|exact H6]. intros s. apply segkind_eqb_ok.
Qed.

Definition base_fitsb (p : bool) (b : base) : bool :=
  has_typeb base_struct (bFields b) && segs_placedb b && record_fitsb (base_doc p) (bFields b)
  && forallb seg_goodb (segments_of b).
Lemma base_fitsb_ok p b : base_fitsb p b = true -> base_fits p b.
Proof.
  intros H. apply andb_prop in H as [H H3]. apply andb_prop in H as [H H2]. apply andb_prop in H as [H H1].
  split; [split; [apply has_typeb_ok|apply segs_placedb_ok]; assumption|].
  split; [apply record_fitsb_ok; assumption|]. apply forallb_Forall in H3.
  eapply Forall_impl; [|exact H3]. intros s. apply seg_goodb_ok.
Qed.

Definition header_fitsb (p : bool) (h : fields) : bool :=
  has_typeb header_struct h && record_fitsb (header_doc p) h.
Lemma header_fitsb_ok p h : header_fitsb p h = true -> header_fits p h.
Proof.
  intros H. apply andb_prop in H as [H1 H2]. split; [apply has_typeb_ok|apply record_fitsb_ok]; assumption.
Qed.

Definition trailer_fitsb (p : bool) (h : fields) : bool :=
  has_typeb trailer_struct h && record_fitsb (trailer_doc p) h.
Lemma trailer_fitsb_ok p h : trailer_fitsb p h = true -> trailer_fits p h.
Proof.
  intros H. apply andb_prop in H as [H1 H2]. split; [apply has_typeb_ok|apply record_fitsb_ok]; assumption.
Qed.

Definition holdsb (st : fields) (n : string) (z : Z) : bool :=
  match lookup n st with Some (VInt v) => v =? z | _ => false end.
Lemma holdsb_ok st n z : holdsb st n z = true -> holds st n (VInt z).
Proof.
  unfold holdsb. destruct (lookup n st) as [[v| |]|] eqn:E; try discriminate. intros H.
  apply Z.eqb_eq in H. subst. apply lookup_In. exact E.
Qed.

Definition calendar_timeb (t : time) : bool :=
  (0 <=? tYear t) && (tYear t <=? 9999) && (1 <=? tMonth t) && (tMonth t <=? 12)
  && valid_day (tYear t) (tMonth t) (tDay t)
  && (0 <=? tHour t) && (tHour t <? 24) && (0 <=? tMin t) && (tMin t <? 60)
  && (0 <=? tSec t) && (tSec t <? 60).
Lemma calendar_timeb_ok t : calendar_timeb t = true -> calendar_time t.
Proof.
  unfold calendar_timeb. intros H.
  repeat match goal with
  | X : _ && _ = true |- _ => apply andb_prop in X as [? ?]
  | X : (_ <=? _) = true |- _ => apply Z.leb_le in X
  | X : (_ <? _) = true |- _ => apply Z.ltb_lt in X
  end.
  unfold calendar_time. rewrite calendar_date_spec. intuition lia.
Qed.

Definition sizedb (v : value) : bool :=
  match v with VInt _ => true | VStr s => forallb is_ascii s | VTime t => calendar_timeb t end.
Definition record_sizedb (st : fields) : bool := forallb (fun p => sizedb (snd p)) st.
Lemma record_sizedb_ok st : record_sizedb st = true -> record_sized st.
Proof.
  intros H n v Hn. unfold record_sizedb in H. rewrite forallb_forall in H. specialize (H _ Hn). cbn in H.
  destruct v; cbn in *; [exact I|apply code_ascii; exact H|apply calendar_timeb_ok; exact H].
Qed.
Definition seg_sizedb (s : segment) : bool := has_typeb (seg_struct (sKind s)) (sFields s) && record_sizedb (sFields s).
Lemma seg_sizedb_ok s : seg_sizedb s = true -> seg_sized s.
Proof.
  intros H. apply andb_prop in H as [H1 H2]. split; [apply has_typeb_ok|apply record_sizedb_ok]; assumption.
Qed.
Definition base_sizedb (b : base) : bool :=
  has_typeb base_struct (bFields b) && segs_placedb b && record_sizedb (bFields b)
  && forallb seg_sizedb (segments_of b).
Lemma base_sizedb_ok b : base_sizedb b = true -> base_sized b.
Proof.
  intros H. apply andb_prop in H as [H H3]. apply andb_prop in H as [H H2]. apply andb_prop in H as [H H1].
  split; [split; [apply has_typeb_ok|apply segs_placedb_ok]; assumption|].
  split; [apply record_sizedb_ok; assumption|]. apply forallb_Forall in H3.
  eapply Forall_impl; [|exact H3]. intros s. apply seg_sizedb_ok.
Qed.

(* ---- settled, canonical ---- *)

Definition settledb (doc : list doc_field) (st : fields) : bool :=
  forallb (fun d => forallb (fun p =>
    negb (String.eqb (fst p) (dName d)) ||
    match snd p with
    | VInt z => 0 <=? z
    | VTime t => negb (dMust d) || negb (is_zero t && match tOff t with None => true | _ => false end)
    | VStr _ => true
    end) st) doc.
Lemma settledb_ok doc st : settledb doc st = true -> settled doc st.
Proof.
  unfold settledb. rewrite forallb_forall. intros H d v Hd Hv. specialize (H d Hd). rewrite forallb_forall in H.
  specialize (H _ Hv). cbn [fst snd] in H. rewrite String.eqb_refl in H. cbn [negb orb] in H.
  destruct v as [z|s|t]; [apply Z.leb_le; exact H|exact I|].
  intros M _ ->. rewrite M in H. discriminate.
Qed.

Definition seg_settledb (s : segment) : bool := settledb (seg_doc (sKind s)) (sFields s).
Definition base_settledb (p : bool) (b : base) : bool :=
  settledb (base_doc p) (bFields b) && forallb seg_settledb (segments_of b).
Lemma base_settledb_ok p b : base_settledb p b = true -> base_settled p b.
Proof.
  unfold base_settledb. intros H. apply andb_prop in H as [H1 H2]. split; [apply settledb_ok; exact H1|].
  apply Forall_forall. rewrite forallb_forall in H2. intros s Hs. apply settledb_ok. exact (H2 s Hs).
Qed.

Definition canonicalb (d : doc_field) (s : bytes) : bool :=
  match dKind d with
  | FNumber => forallb is_digit s
  | FText | FBinary => true
  | FDate => negb (bytes_eqb s (lit "01010001"))
  | FStamp => negb (bytes_eqb s (lit "01010001000000"))
  | FReserved => bytes_eqb s (repeat " "%char (dWidth d))
  | _ => false
  end.
Lemma canonicalb_ok d s : canonicalb d s = true -> canonical d s.
Proof.
  unfold canonicalb, canonical. destruct (dKind d); try discriminate; auto.
  - intros H. apply forall_digits. exact H.
  - intros H E. subst s. discriminate.
  - intros H E. subst s. discriminate.
  - apply bytes_eqb_eq.
Qed.

Fixpoint canonical_bodyb (doc : list doc_field) (s : bytes) : bool :=
  match doc with
  | [] => match s with [] => true | _ => false end
  | d :: doc' => Nat.eqb (length (firstn (dWidth d) s)) (dWidth d)
      && canonicalb d (firstn (dWidth d) s) && canonical_bodyb doc' (skipn (dWidth d) s)
  end.
Lemma canonical_bodyb_ok doc : forall s, canonical_bodyb doc s = true -> canonical_body doc s.
Proof.
  induction doc as [|d doc IH]; intros s H; cbn in H.
  - destruct s; [|discriminate]. exists []. split; [reflexivity|constructor].
  - apply andb_prop in H as [H H2]. apply andb_prop in H as [L C].
    destruct (IH _ H2) as (parts & E & F). exists (firstn (dWidth d) s :: parts). split.
    + cbn. rewrite <- E. symmetry. apply firstn_skipn.
    + constructor; [|exact F]. split; [apply Nat.eqb_eq; exact L|apply canonicalb_ok; exact C].
Qed.

Definition good_timesb (st : fields) : bool :=
  forallb (fun p => match snd p with
    | VTime t => calendar_timeb t && match tOff t with None => true | Some o => (-86400 <? o) && (o <? 86400) end
    | _ => true end) st.
Lemma good_timesb_ok st : good_timesb st = true -> good_times st.
Proof.
  unfold good_timesb. rewrite forallb_forall. intros H n t Ht. specialize (H _ Ht). cbn in H.
  apply andb_prop in H as [H1 H2]. split; [apply calendar_timeb_ok; exact H1|].
  destruct (tOff t); [|exact I]. apply andb_prop in H2 as [A B]. apply Z.ltb_lt in A, B. lia.
Qed.


Definition base_okb (b : base) : bool :=
  has_typeb base_struct (bFields b) && segs_placedb b
  && forallb (fun s => has_typeb (seg_struct (sKind s)) (sFields s)) (segments_of b).
Lemma base_okb_ok b : base_okb b = true -> base_ok b.
Proof.
  unfold base_okb. intros H. apply andb_prop in H as [H S]. apply andb_prop in H as [T P].
  split; [split; [apply has_typeb_ok; exact T|apply segs_placedb_ok; exact P]|].
  apply forallb_Forall in S. revert S. apply Forall_impl. intros s H. apply has_typeb_ok. exact H.
Qed.

Definition base_timesb (b : base) : bool :=
  good_timesb (bFields b) && forallb (fun s => good_timesb (sFields s)) (segments_of b).

Definition data_okb (packed : bool) (l : list record) : bool :=
  forallb (fun r => match r with RBase p b => Bool.eqb p packed && base_okb b && base_timesb b | _ => false end) l.
Lemma data_okb_ok packed l : data_okb packed l = true -> data_ok packed l.
Proof.
  intros H. apply forallb_Forall in H. revert H. apply Forall_impl. intros [p h|p b|p t] H; try discriminate.
  apply andb_prop in H as [H G]. apply andb_prop in H as [E O]. apply eqb_prop in E. subst p.
  apply andb_prop in G as [G S].
  split; [exists b; reflexivity|]. split; [apply base_okb_ok; exact O|].
  split; [apply good_timesb_ok; exact G|]. apply forallb_Forall in S. revert S. apply Forall_impl.
  intros s. apply good_timesb_ok.
Qed.

Definition file_okb (f : file) : bool :=
  match flHeader f, flTrailer f with
  | RHeader p h, RTrailer q t =>
      Bool.eqb p (flPacked f) && has_typeb header_struct h && good_timesb h
      && Bool.eqb q (flPacked f) && has_typeb trailer_struct t && data_okb (flPacked f) (flBases f)
  | _, _ => false
  end.
Lemma file_okb_ok f : file_okb f = true -> file_ok f /\ file_times f.
Proof.
  destruct f as [p h bs t]. unfold file_okb. cbn [flHeader flTrailer flPacked flBases].
  destruct h as [p' h| |]; try discriminate. destruct t as [| |q t]; try discriminate.
  intros H. do 5 (let D := fresh "D" in apply andb_prop in H as [H D]).
  apply eqb_prop in H, D1. subst. apply data_okb_ok in D.
  split; [|split; [apply good_timesb_ok; exact D2|split; [|exact I]]].
  - split; [exists h; reflexivity|]. split; [apply has_typeb_ok; exact D3|]. split; [|split; [exists t; reflexivity|apply has_typeb_ok; exact D0]].
    revert D. apply Forall_impl. cbn. tauto.
  - revert D. apply Forall_impl. cbn. tauto.
Qed.
