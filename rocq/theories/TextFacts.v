(* Texts determine the records and files they were written from *)
From Coq Require Import ZArith NArith Bool Ascii String List Lia.
Import ListNotations.
From Verif Require Import GoBase GoBaseFacts GoTime Tables Codec Records File
  SpecCodec SpecLayouts SpecRecords SpecFile SpecFields SpecFiles Reader SpecReader
  FieldFacts RecordFacts RoundTrip Layout FieldProps FileFacts BreakFacts FileRoundTrip FileProps
  ReaderFacts ReaderProps ReaderCases FileCases.
Local Open Scope string_scope.
Local Open Scope Z_scope.
Local Open Scope list_scope.
Local Notation length := List.length.

(* ---- segments ---- *)

Lemma segment_text s s' r r' : seg_fits s -> seg_fits s' -> sKind s = sKind s' ->
  seg_string s ++ r = seg_string s' ++ r' -> s = s' /\ r = r'.
Proof.
  intros F F' K E.
  pose proof (seg_round_trip s (new_segment (sKind s)) r false eq_refl (new_segment_typed _) F) as A.
  pose proof (seg_round_trip s' (new_segment (sKind s)) r' false K (new_segment_typed _) F') as B.
  rewrite E, B in A. injection A as <-. split; [reflexivity|]. apply app_inv_head in E. exact E.
Qed.

Lemma segment_text_good s s' r r' : seg_good s -> seg_good s' ->
  seg_string s ++ r = seg_string s' ++ r' -> s = s' /\ r = r'.
Proof.
  intros G G' E.
  assert (sKind s = sKind s') as K.
  { pose proof (seg_string_mark s G) as M. pose proof (seg_string_mark s' G') as M'.
    assert (forall s r, seg_good s -> firstn 2 (seg_string s ++ r) = firstn 2 (seg_string s)) as P.
    { intros u q [Fu _]. rewrite firstn_app, (seg_string_length u Fu).
      assert (2 - seg_size (sKind u) = 0)%nat as -> by (destruct (sKind u); reflexivity).
      cbn [firstn]. apply app_nil_r. }
    assert (firstn 2 (seg_string s) = firstn 2 (seg_string s')) as Q.
    { rewrite <- (P s r G), E. apply P. exact G'. }
    rewrite M, M' in Q. pose proof (kind_of_mark (sKind s)) as A. rewrite Q, kind_of_mark in A. congruence. }
  destruct G as [F _], G' as [F' _]. apply segment_text; assumption.
Qed.

(* ---- records ---- *)

Lemma header_text k h h' r r' : header_in k h -> header_in k h' ->
  record_string (RHeader (packed_of k) h) ++ r = record_string (RHeader (packed_of k) h') ++ r' -> h = h' /\ r = r'.
Proof.
  cbn [record_string]. intros H H' E.
  destruct (header_in_reads k h r H) as (n & _ & _ & _ & A). destruct (header_in_reads k h' r' H') as (n' & _ & _ & _ & B).
  rewrite E, B in A. injection A as <- _. split; [reflexivity|]. apply app_inv_head in E. exact E.
Qed.

Lemma base_text_same k b b' r r' : base_in k b -> base_in k b' -> no_segment r -> no_segment r' ->
  record_string (RBase (packed_of k) b) ++ r = record_string (RBase (packed_of k) b') ++ r' -> b = b' /\ r = r'.
Proof.
  intros H H' N N' E.
  destruct (base_in_reads k b r H (or_introl N)) as (n & _ & _ & _ & A).
  destruct (base_in_reads k b' r' H' (or_introl N')) as (n' & _ & _ & _ & B).
  cbn [record_string] in E. rewrite E, B in A. injection A as <- _. split; [reflexivity|]. apply app_inv_head in E. exact E.
Qed.

Lemma trailer_text k t t' r r' : trailer_in k t -> trailer_in k t' ->
  record_string (RTrailer (packed_of k) t) ++ r = record_string (RTrailer (packed_of k) t') ++ r' -> t = t' /\ r = r'.
Proof.
  cbn [record_string]. intros H H' E.
  destruct (trailer_in_reads k t new_trailer r H new_trailer_typed) as (n & _ & _ & _ & A).
  destruct (trailer_in_reads k t' new_trailer r' H' new_trailer_typed) as (n' & _ & _ & _ & B).
  rewrite E, B in A. injection A as <- _. split; [reflexivity|]. apply app_inv_head in E. exact E.
Qed.

(* ---- files ---- *)

Lemma file_text_same k f g nl nl' n m : file_in k f -> file_in k g ->
  concurrent_string f nl n = concurrent_string g nl' m -> f = g.
Proof.
  intros F G E. set (fuel := S (length (flBases f) + length (flBases g))).
  pose proof (file_round_trip k f nl n fuel F ltac:(lia)) as A.
  pose proof (file_round_trip k g nl' m fuel G ltac:(lia)) as B.
  rewrite E, B in A. congruence.
Qed.

Lemma stream_text_same k k' f g nl nl' n m : file_streams k f -> file_streams k' g ->
  concurrent_string f nl n = concurrent_string g nl' m -> f = g.
Proof.
  intros F G E. set (evs := byte_reads (S (length (concurrent_string f nl n)))).
  pose proof (byte_reads_patient (S (length (concurrent_string f nl n)))) as P.
  pose proof (byte_reads_useful (S (length (concurrent_string f nl n)))) as U.
  pose proof (stream_round_trip k f nl n evs F P) as A. unfold evs in A. rewrite U in A. specialize (A ltac:(lia)).
  pose proof (stream_round_trip k' g nl' m evs G P) as B. unfold evs in B. rewrite U in B.
  rewrite <- E in B. specialize (B ltac:(lia)). congruence.
Qed.

(* ---- numbers ---- *)

Lemma number_shown_iff f z : of_type numeric f -> (1 <= fLength f)%nat -> 0 <= z ->
  (decimal_text (fLength f) z (to_string f (Some (VInt z))) <-> z < 10 ^ Z.of_nat (fLength f)).
Proof.
  intros T L N. split.
  - intros (_ & _ & D). destruct (Z_lt_ge_dec z (10 ^ Z.of_nat (fLength f))) as [|G]; [assumption|exfalso].
    destruct (number_cut f z T L ltac:(lia)) as (z' & k & _ & _ & Lt & _ & _ & D'). lia.
  - intros B. apply number_write; auto.
Qed.

(* ---- lengths of variable-blocked character records ---- *)

Lemma length_says_iff b rdw : base_fits false b -> base_bdw_is b (rdw + 4) -> base_rdw_is b rdw ->
  (Z.of_nat (length (record_string (RBase false b))) = rdw + 4 <-> rdw = base_size false b).
Proof.
  intros F Hb Hr. pose proof (base_fits_sized _ _ F) as Sz.
  assert (0 < base_size false b) as Pos by (unfold base_size, record_size; lia).
  pose proof F as ([T P] & R & _). pose proof (base_nodup _ T) as ND.
  pose proof (word_range false _ _ _ R (doc_word_base _) ND Hr) as Rg.
  cbn [record_string]. change (base_string_char b) with (base_string false b).
  rewrite (base_length false b _ _ 4 rdw Sz Hb Hr); [lia| |].
  - unfold bdw_size. lia.
  - cbn [andb]. unfold pad_target. lia.
Qed.
