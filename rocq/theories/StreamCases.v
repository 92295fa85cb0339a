(* Sample sequences of files on one stream, and witnesses *)
From Coq Require Import ZArith NArith Bool Ascii String List Lia.
Import ListNotations.
From Verif Require Import GoBase GoBaseFacts GoTime Tables Codec Records File SpecCodec SpecLayouts
  SpecRecords SpecFile Check Samples SpecFiles BreakFacts FileRoundTrip FileProps FileCases
  ParseProps RoundTrip Reader SpecReader ReaderFacts ReaderProps ReaderCases Stream SpecStream StreamFacts.
Local Open Scope string_scope.
Local Open Scope Z_scope.
Local Open Scope list_scope.
Local Notation length := List.length.

Definition fixed_part : part := mkPart [] FixedFile true fixed_file.
Definition variable_part : part := mkPart [cr_char; lf_char] VariableFile false variable_file.
Definition packed_part : part := mkPart [lf_char] PackedFile true packed_file.

Ltac gap := repeat (apply Forall_cons; [auto|]); apply Forall_nil.

Lemma fixed_part_ok : part_ok fixed_part.
Proof. split; [exact fixed_file_streams|]. split; [gap|]. vm_compute. discriminate. Qed.
Lemma variable_part_ok : part_ok variable_part.
Proof. split; [exact variable_file_streams|]. split; [gap|]. vm_compute. discriminate. Qed.
Lemma packed_part_ok : part_ok packed_part.
Proof. split; [exact packed_file_streams|]. split; [gap|]. vm_compute. discriminate. Qed.

Definition two_parts (p q : part) : bytes := part_text p ++ part_text q.

Definition two_reads (p q : part) : option (list (res file)) :=
  option_map snd (read_many 2 (S (length (two_parts p q))) (new_reader (odd_reads 10) (two_parts p q))).

(* a fixed-length file after a variable-blocked one keeps its block descriptor word *)
Lemma stale_after : exists f, two_reads variable_part fixed_part = Some [Ok variable_file; Ok f]
  /\ header_block f 430 /\ header_block fixed_file 0.
Proof.
  assert (exists f, two_reads variable_part fixed_part = Some [Ok variable_file; Ok f] /\
    match flHeader f with RHeader _ h => holdsb h "BlockDescriptorWord" 430 | _ => false end = true) as (f & E & H).
  { eexists. split; [vm_compute; reflexivity|vm_compute; reflexivity]. }
  exists f. split; [exact E|]. split.
  - clear E. destruct (flHeader f) as [p h| |] eqn:Eh; [|discriminate H|discriminate H]. exists p, h. split; [exact Eh|]. apply holdsb_ok, H.
  - eexists. eexists. split; [reflexivity|]. apply holdsb_ok. vm_compute. reflexivity.
Qed.

Lemma header_block_inj f z z' : (forall p h, flHeader f = RHeader p h -> NoDup (map fst h)) ->
  header_block f z -> header_block f z' -> z = z'.
Proof.
  intros ND (p & h & E & H) (p' & h' & E' & H'). rewrite E in E'. injection E' as _ <-.
  exact (holds_inj _ _ _ _ (ND _ _ E) H H').
Qed.

Lemma stale_differs : exists f, two_reads variable_part fixed_part = Some [Ok variable_file; Ok f] /\ f <> fixed_file.
Proof.
  destruct stale_after as (f & E & H & Z). exists f. split; [exact E|]. clear E. intros ->.
  assert (430 = 0) as X; [|discriminate X]. refine (header_block_inj fixed_file 430 0 _ H Z). clear H Z. intros p h E.
  destruct fixed_file_streams as (h' & bs & t & Ef & ((T & _) & _) & _). rewrite Ef in E. cbn [file_of flHeader] in E.
  injection E as _ <-. exact (RoundTrip.header_nodup _ T).
Qed.

Lemma refused_after : exists e, two_reads packed_part fixed_part = Some [Ok packed_file; Err e].
Proof. eexists. vm_compute. reflexivity. Qed.

Lemma garbled_after : exists f, two_reads packed_part variable_part = Some [Ok packed_file; Ok f] /\ flPacked f = true.
Proof. eexists. split; vm_compute; reflexivity. Qed.

Lemma two_reads_many p q l : two_reads p q = Some l ->
  exists r, read_many 2 (S (length (two_parts p q))) (new_reader (odd_reads 10) (two_parts p q)) = Some (r, l).
Proof.
  unfold two_reads. destruct (read_many _ _ _) as [[r l']|]; [|discriminate]. intros H. injection H as <-. exists r. reflexivity.
Qed.

Lemma useful_odd n : useful (odd_reads n) = S n.
Proof. cbn. f_equal. induction n as [|n IH]; [reflexivity|]. cbn. f_equal. exact IH. Qed.

Lemma parts_differ : pcFile fixed_part <> pcFile variable_part.
Proof. intros E. apply (f_equal (fun f => length (record_string (flHeader f)))) in E. vm_compute in E. discriminate E. Qed.

Lemma stale_case : exists p q evs r f, part_ok p /\ part_ok q /\ patient evs
  /\ pcKind p = VariableFile /\ pcKind q = FixedFile
  /\ read_many 2 (S (length (part_text p ++ part_text q))) (new_reader evs (part_text p ++ part_text q))
     = Some (r, [Ok (pcFile p); Ok f])
  /\ f <> pcFile q.
Proof.
  destruct stale_differs as (f & E & N). destruct (two_reads_many _ _ _ E) as (r & M).
  exact (ex_intro _ variable_part (ex_intro _ fixed_part (ex_intro _ (odd_reads 10) (ex_intro _ r (ex_intro _ f
    (conj variable_part_ok (conj fixed_part_ok (conj (odd_reads_patient 10) (conj eq_refl (conj eq_refl (conj M N))))))))))).
Qed.

Lemma refused_case : exists p q evs r e, part_ok p /\ part_ok q /\ patient evs
  /\ pcKind p = PackedFile /\ pcKind q = FixedFile
  /\ read_many 2 (S (length (part_text p ++ part_text q))) (new_reader evs (part_text p ++ part_text q))
     = Some (r, [Ok (pcFile p); Err e]).
Proof.
  destruct refused_after as (e & E). destruct (two_reads_many _ _ _ E) as (r & M).
  exact (ex_intro _ packed_part (ex_intro _ fixed_part (ex_intro _ (odd_reads 10) (ex_intro _ r (ex_intro _ e
    (conj packed_part_ok (conj fixed_part_ok (conj (odd_reads_patient 10) (conj eq_refl (conj eq_refl M)))))))))).
Qed.

Lemma garbled_case : exists p q evs r f, part_ok p /\ part_ok q /\ patient evs
  /\ pcKind p = PackedFile /\ pcKind q = VariableFile
  /\ read_many 2 (S (length (part_text p ++ part_text q))) (new_reader evs (part_text p ++ part_text q))
     = Some (r, [Ok (pcFile p); Ok f])
  /\ flPacked f = true.
Proof.
  destruct garbled_after as (f & E & P). destruct (two_reads_many _ _ _ E) as (r & M).
  exact (ex_intro _ packed_part (ex_intro _ variable_part (ex_intro _ (odd_reads 10) (ex_intro _ r (ex_intro _ f
    (conj packed_part_ok (conj variable_part_ok (conj (odd_reads_patient 10) (conj eq_refl (conj eq_refl (conj M P))))))))))).
Qed.

Lemma overwritten_case : exists evs input r1 r2, patient evs
  /\ read_next (S (length input)) (new_reader evs input) = Some (r1, Ok tt)
  /\ read_next (S (length input)) r1 = Some (r2, Ok tt) /\ rdFile r2 <> rdFile r1.
Proof.
  destruct (overwritten fixed_part variable_part [] (byte_reads (S (length (part_text fixed_part ++ part_text variable_part ++ []))))
    fixed_part_ok variable_part_ok) as (r1 & r2 & r3 & E1 & F1 & E2 & F2 & _).
  - cbn. lia.
  - apply Forall_nil.
  - apply byte_reads_patient.
  - rewrite byte_reads_useful. apply Nat.lt_succ_diag_r.
  - eexists. eexists. exists r1, r2. split; [apply byte_reads_patient|]. split; [exact E1|]. split; [exact E2|].
    rewrite F1, F2. intros E. exact (parts_differ (eq_sym E)).
Qed.
