(* A text has one reading *)
From Coq Require Import ZArith NArith Bool Ascii String List Lia.
Import ListNotations.
From Verif Require Import GoBase GoBaseFacts GoTime Regex Tables Codec Records
  SpecCodec SpecLayouts SpecRecords SpecReport SpecRead TimeFacts FieldFacts RecordFacts RoundTrip FieldRead RecordRead
  ParseFacts ReadField ReadRecords ReadOutcome.
Local Open Scope string_scope.
Local Open Scope Z_scope.
Local Open Scope list_scope.
Local Notation length := List.length.

Lemma fields_ext : forall a b : fields, map fst a = map fst b -> NoDup (map fst a) ->
  (forall n v, holds a n v -> holds b n v) -> a = b.
Proof.
  induction a as [|[n v] a IH]; intros b N ND H; destruct b as [|[m u] b]; try discriminate N; [reflexivity|].
  cbn in N. injection N as -> N. inversion ND as [|? ? NI ND']; subst.
  assert (v = u) as ->.
  { assert (holds ((m, u) :: b) m v) as [E|I] by (apply H; left; reflexivity); [congruence|].
    exfalso. apply NI. rewrite N. apply (in_map fst) in I. exact I. }
  f_equal. apply IH; auto. intros k w Hk. assert (holds ((m, u) :: b) k w) as [E|I] by (apply H; right; exact Hk); [|exact I].
  exfalso. apply NI. injection E as -> ->. apply (in_map fst) in Hk. exact Hk.
Qed.

(* fields of the structure are data fields or none at all, and every data field is in the layout *)
Definition apart (doc : list doc_field) (l : layout) (s : structure) : bool :=
  forallb (fun n => existsb (String.eqb n) (data_names doc) || negb (existsb (String.eqb n) (map dName doc))) (map fst s)
  && forallb (fun d => is_reserved d || existsb (fun nf => entry_ok d (snd nf)) l) doc.

Lemma filled_names doc parts st n : Forall2 (filled_in st) doc parts -> In n (data_names doc) ->
  exists d w, In (d, w) (combine doc parts) /\ dName d = n /\ is_reserved d = false.
Proof.
  induction 1 as [|d w doc parts F1 F IH]; [intros []|]. unfold data_names. cbn [filter combine]. intros I.
  destruct (is_reserved d) eqn:K; cbn [negb map] in I.
  - destruct (IH I) as (d' & w' & I2 & X). exists d', w'. split; [right; exact I2|exact X].
  - destruct I as [<-|I]; [exists d, w; split; [left; reflexivity|auto]|].
    destruct (IH I) as (d' & w' & I2 & X). exists d', w'. split; [right; exact I2|exact X].
Qed.

Lemma forall2_combine {A B} (R : A -> B -> Prop) l m : Forall2 R l m -> forall d w, In (d, w) (combine l m) -> R d w.
Proof. induction 1 as [|d w l m F1 F IH]; intros d' w'; [intros []|]. cbn. intros [E|I]; [injection E as <- <-; exact F1|auto]. Qed.

Lemma one_reading doc l s parts st a b : apart doc l s = true -> NoDup (map fst s) -> cut doc parts -> has_type s a -> has_type s b ->
  read_whole doc parts st a -> read_whole doc parts st b -> a = b.
Proof.
  intros Ap ND C Ta Tb [Fa Ka] [Fb Kb]. pose proof (has_type_names _ _ Ta) as Na. pose proof (has_type_names _ _ Tb) as Nb.
  apply fields_ext; [congruence|rewrite Na; exact ND|]. intros n v H.
  assert (In n (map fst s)) as I by (rewrite <- Na; apply (in_map fst) in H; exact H).
  unfold apart in Ap. apply andb_prop in Ap as [Ap En]. rewrite forallb_forall in Ap, En. specialize (Ap n I). apply orb_prop in Ap as [Ap|Ap].
  - apply existsb_exists in Ap as (m & Im & Em). apply String.eqb_eq in Em. subst m.
    destruct (filled_names doc parts a n Fa Im) as (d & w & Id & <- & K).
    assert (dKind d <> FReserved) as K' by (intros X; unfold is_reserved in K; rewrite X in K; discriminate K).
    destruct (forall2_combine _ _ _ Fa _ _ Id) as [X|(va & Sa & Ha)]; [contradiction|].
    destruct (forall2_combine _ _ _ Fb _ _ Id) as [X|(vb & Sb & Hb)]; [contradiction|].
    assert (v = va) as ->.
    { assert (NoDup (map fst a)) as NDa by (rewrite Na; exact ND).
      pose proof (In_lookup _ _ a NDa H) as L1. pose proof (In_lookup _ _ a NDa Ha) as L2. congruence. }
    pose proof (forall2_combine _ _ _ C _ _ Id) as Lw. cbn in Lw.
    specialize (En d (in_combine_l _ _ _ _ Id)). rewrite K in En. cbn [orb] in En.
    apply existsb_exists in En as ([m f] & _ & E). cbn in E.
    rewrite (stands_unique d f w va vb); auto.
  - apply Kb; [|apply Ka; [|exact H]]; intros X; apply negb_true_iff in Ap;
      assert (existsb (String.eqb n) (map dName doc) = true) as Y by (apply existsb_exists; exists n; split; [exact X|apply String.eqb_refl]); congruence.
Qed.

Lemma seg_one_reading k parts st a b : cut (seg_doc k) parts -> has_type (seg_struct k) a -> has_type (seg_struct k) b ->
  read_whole (seg_doc k) parts st a -> read_whole (seg_doc k) parts st b -> a = b.
Proof. apply one_reading with (l := seg_layout k); [destruct k; vm_compute; reflexivity|apply nodupb_NoDup; destruct k; vm_compute; reflexivity]. Qed.

Lemma base_one_reading (p q : bool) parts st a b :
  let doc := if q then block_word p :: base_doc p else base_doc p in
  cut doc parts -> has_type base_struct a -> has_type base_struct b ->
  read_whole doc parts st a -> read_whole doc parts st b -> a = b.
Proof. apply one_reading with (l := ("", word_field p) :: base_layout p); [destruct p, q; vm_compute; reflexivity|apply nodupb_NoDup; vm_compute; reflexivity]. Qed.

Lemma header_one_reading (p q : bool) parts st a b :
  let doc := if q then block_word p :: header_doc p else header_doc p in
  cut doc parts -> has_type header_struct a -> has_type header_struct b ->
  read_whole doc parts st a -> read_whole doc parts st b -> a = b.
Proof. apply one_reading with (l := ("", word_field p) :: header_layout p); [destruct p, q; vm_compute; reflexivity|apply nodupb_NoDup; vm_compute; reflexivity]. Qed.

Lemma trailer_one_reading p parts st a b : cut (trailer_doc p) parts -> has_type trailer_struct a -> has_type trailer_struct b ->
  read_whole (trailer_doc p) parts st a -> read_whole (trailer_doc p) parts st b -> a = b.
Proof. apply one_reading with (l := trailer_layout p); [destruct p; vm_compute; reflexivity|apply nodupb_NoDup; vm_compute; reflexivity]. Qed.

(* ---- errors ---- *)

Lemma hex_excl w : Forall (fun c => ~ In c hex_digits) w -> Exists (fun c => In c hex_digits) w -> False.
Proof. intros F E. apply Exists_exists in E as (c & I & H). rewrite Forall_forall in F. apply (F c I H). Qed.

Lemma one_complaint title d w e e' : complaint title d w e -> complaint title d w e' -> e = e'.
Proof.
  unfold complaint. destruct (dKind d); try contradiction; try congruence.
  - destruct (dMust d); [congruence|]. intros [[A ->]|[A ->]] [[B ->]|[B ->]]; try reflexivity; exfalso; eapply hex_excl; eauto.
  - intros [[A [A2 ->]]|[A ->]] [[B [B2 ->]]|[B ->]]; try reflexivity; tauto.
  - intros [[A [A2 ->]]|[A ->]] [[B [B2 ->]]|[B ->]]; try reflexivity; tauto.
Qed.

Lemma one_failure title : forall doc parts st a b e e',
  read_until title doc parts st a e -> read_until title doc parts st b e' -> e = e'.
Proof.
  intros doc parts st a b e e' (d1 & d & d2 & p1 & p & p2 & Ed & Ep & F & _ & N & C) (c1 & c & c2 & q1 & q & q2 & Ec & Eq & G & _ & M & D).
  assert (forall d1 p1 c1 q1 doc parts, doc = d1 ++ d :: d2 -> parts = p1 ++ p :: p2 -> doc = c1 ++ c :: c2 -> parts = q1 ++ q :: q2 ->
    Forall2 (filled_in a) d1 p1 -> Forall2 (filled_in b) c1 q1 -> d = c /\ p = q) as X.
  { clear -N M. intros d1. induction d1 as [|x d1 IH]; intros p1 c1 q1 doc parts Ed Ep Ec Eq F G; inversion F; subst.
    - inversion G; subst; cbn in *; [split; congruence|]. exfalso. apply N. injection Ec as <- _. injection Eq as <- _.
      match goal with H : filled_in b d p |- _ => destruct H as [R|(v & S & _)]; [left|right]; eauto end.
    - inversion G; subst; cbn in *.
      + exfalso. apply M. injection Ec as <- _. injection Eq as <- _.
        match goal with H : filled_in a _ _ |- _ => destruct H as [R|(v & S & _)]; [left|right]; eauto end.
      + injection Ec as _ Ec. injection Eq as _ Eq. eapply IH; eauto. }
  destruct (X _ _ _ _ _ _ Ed Ep Ec Eq F G) as [<- <-]. eapply one_complaint; eauto.
Qed.

(* ---- appended segments ---- *)

Lemma mark_inj j k : seg_mark j = seg_mark k -> j = k.
Proof. destruct j, k; intros H; try reflexivity; discriminate H. Qed.

Lemma app_same_length {A} : forall (a b c d : list A), length a = length b -> a ++ c = b ++ d -> a = b /\ c = d.
Proof.
  induction a as [|x a IH]; intros [|y b] c d L E; try discriminate L; [auto|]. injection E as <- E.
  destruct (IH b c d) as [-> ->]; auto.
Qed.

Lemma cut_unique doc : forall p q (r1 r2 : bytes), cut doc p -> cut doc q ->
  List.concat p ++ r1 = List.concat q ++ r2 -> p = q /\ r1 = r2.
Proof.
  induction doc as [|d doc IH]; intros p q r1 r2 P Q E; inversion P as [|? w1 ? p1 L1 P1]; inversion Q as [|? w2 ? q1 L2 Q1]; subst; [auto|].
  cbn [List.concat] in E. rewrite <- !app_assoc in E. apply app_same_length in E as [-> E]; [|lia].
  destruct (IH _ _ _ _ P1 Q1 E) as [-> ->]. auto.
Qed.

Lemma seg_size_big k : (2 < seg_size k)%nat.
Proof. destruct k; vm_compute; repeat constructor. Qed.

Lemma cut_mark k parts rest : cut (seg_doc k) parts -> firstn 2 (List.concat parts) = seg_mark k ->
  firstn 2 (List.concat parts ++ rest) = seg_mark k /\ (seg_size k <= length (List.concat parts ++ rest))%nat.
Proof.
  intros C M. pose proof (cut_width _ _ C) as W. rewrite seg_doc_width in W. pose proof (seg_size_big k). split.
  - rewrite firstn_app. replace (2 - length (List.concat parts))%nat with O by lia. cbn [firstn]. rewrite app_nil_r. exact M.
  - rewrite app_length. lia.
Qed.

(* the first segment of t, if it has one *)
Lemma first_same k parts rest k' parts' rest' : cut (seg_doc k) parts -> firstn 2 (List.concat parts) = seg_mark k ->
  cut (seg_doc k') parts' -> firstn 2 (List.concat parts') = seg_mark k' ->
  List.concat parts ++ rest = List.concat parts' ++ rest' -> k = k' /\ parts = parts' /\ rest = rest'.
Proof.
  intros C M C' M' E. destruct (cut_mark _ _ rest C M) as [A _]. destruct (cut_mark _ _ rest' C' M') as [B _].
  assert (k = k') as <- by (apply mark_inj; congruence). destruct (cut_unique _ _ _ _ _ C C' E) as [-> ->]. auto.
Qed.

Lemma not_none k parts rest : cut (seg_doc k) parts -> firstn 2 (List.concat parts) = seg_mark k -> ~ no_segment (List.concat parts ++ rest).
Proof.
  intros C M [L|N]; destruct (cut_mark _ _ rest C M) as [A B].
  - pose proof (seg_size_big k). lia.
  - apply (N k A).
Qed.

Lemma not_short k parts rest j : cut (seg_doc k) parts -> firstn 2 (List.concat parts) = seg_mark k ->
  firstn 2 (List.concat parts ++ rest) = seg_mark j -> ~ (length (List.concat parts ++ rest) < seg_size j)%nat.
Proof. intros C M J. destruct (cut_mark _ _ rest C M) as [A B]. assert (k = j) as <- by (apply mark_inj; congruence). lia. Qed.

Lemma segs_one_reading t ss n r : segs_read t ss n r -> forall ss' n' r', segs_read t ss' n' r' -> ss = ss' /\ n = n' /\ r = r'.
Proof.
  induction 1 as [t N|k t L M|k parts rest st e C M U|k parts rest st e C M T R V|k parts rest st ss n r C M T R V H IH];
    intros ss' n' r' H'.
  - inversion H' as [t' N' E|k' t' L' M' E|k' parts' rest' st' e' C' M' U' E|k' parts' rest' st' e' C' M' T' R' V' E|k' parts' rest' st' ss2 n2 r2 C' M' T' R' V' H2 E]; subst; auto; exfalso;
      try (eapply not_none; [exact C'|exact M'|exact N]). destruct N as [N|N]; [lia|exact (N k' M')].
  - inversion H' as [t' N' E|k' t' L' M' E|k' parts' rest' st' e' C' M' U' E|k' parts' rest' st' e' C' M' T' R' V' E|k' parts' rest' st' ss2 n2 r2 C' M' T' R' V' H2 E]; subst;
      try (exfalso; eapply not_short; [exact C'|exact M'|exact M|lia]).
    + exfalso. destruct N' as [N|N]; [lia|exact (N k M)].
    + assert (k = k') as <- by (apply mark_inj; congruence). auto.
  - inversion H' as [t' N' E|k' t' L' M' E|k' parts' rest' st' e' C' M' U' E|k' parts' rest' st' e' C' M' T' R' V' E|k' parts' rest' st' ss2 n2 r2 C' M' T' R' V' H2 E]; subst;
      try (destruct (first_same _ _ _ _ _ _ C' M' C M E) as (-> & -> & ->)).
    + exfalso. eapply not_none; eauto.
    + exfalso. eapply not_short; [exact C|exact M|exact M'|lia].
    + rewrite (one_failure _ _ _ _ _ _ _ _ U U'). auto.
    + exfalso. eapply until_unreadable; [exact U|]. eapply whole_readable; eauto.
    + exfalso. eapply until_unreadable; [exact U|]. eapply whole_readable; eauto.
  - inversion H' as [t' N' E|k' t' L' M' E|k' parts' rest' st' e' C' M' U' E|k' parts' rest' st' e' C' M' T' R' V' E|k' parts' rest' st' ss2 n2 r2 C' M' T' R' V' H2 E]; subst;
      try (destruct (first_same _ _ _ _ _ _ C' M' C M E) as (-> & -> & ->)).
    + exfalso. eapply not_none; eauto.
    + exfalso. eapply not_short; [exact C|exact M|exact M'|lia].
    + exfalso. eapply until_unreadable; [exact U'|]. eapply whole_readable; eauto.
    + rewrite (seg_one_reading k parts _ st' st C T' T R' R) in V'. split; [reflexivity|]. split; [reflexivity|congruence].
    + rewrite (seg_one_reading k parts _ st' st C T' T R' R) in V'. congruence.
  - inversion H' as [t' N' E|k' t' L' M' E|k' parts' rest' st' e' C' M' U' E|k' parts' rest' st' e' C' M' T' R' V' E|k' parts' rest' st' ss2 n2 r2 C' M' T' R' V' H2 E]; subst;
      try (destruct (first_same _ _ _ _ _ _ C' M' C M E) as (-> & -> & ->)).
    + exfalso. eapply not_none; eauto.
    + exfalso. eapply not_short; [exact C|exact M|exact M'|lia].
    + exfalso. eapply until_unreadable; [exact U'|]. eapply whole_readable; eauto.
    + rewrite (seg_one_reading k parts _ st' st C T' T R' R) in V'. congruence.
    + rewrite (seg_one_reading k parts _ st' st C T' T R' R). destruct (IH _ _ _ H2) as (-> & -> & ->). auto.
Qed.
