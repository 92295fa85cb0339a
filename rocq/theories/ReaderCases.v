(* Sample streams and witnesses for the streaming reader *)
From Coq Require Import ZArith NArith Bool Ascii String List Lia.
Import ListNotations.
From Verif Require Import GoBase GoBaseFacts GoTime Tables Codec Records File SpecCodec SpecLayouts
  SpecRecords SpecFile Check Samples SpecFiles BreakFacts FileRoundTrip FileProps FileCases
  Reader SpecReader ReaderFacts ReaderProps.
Local Open Scope string_scope.
Local Open Scope Z_scope.
Local Open Scope list_scope.
Local Notation length := List.length.

Lemma file_in_streams k f : file_in k f -> marked f -> file_streams k f.
Proof.
  intros (h & bs & t & E & Hh & Hb & Ht & Hp) M. exists h, bs, t. split; [exact E|]. split; [exact Hh|].
  split; [exact Hb|]. split; [exact Ht|]. split; [exact M|]. destruct k; tauto.
Qed.

Ltac mark := eexists; eexists; split; [reflexivity|apply holds_str; vm_compute; reflexivity].

Lemma fixed_file_streams : file_streams FixedFile fixed_file.
Proof. apply file_in_streams; [apply fixed_file_in|mark]. Qed.
Lemma variable_file_streams : file_streams VariableFile variable_file.
Proof. apply file_in_streams; [apply variable_file_in|mark]. Qed.
Lemma packed_file_streams : file_streams PackedFile packed_file.
Proof. apply file_in_streams; [apply packed_file_in|mark]. Qed.

(* one byte at a time *)
Definition byte_reads (n : nat) : list read_event := repeat (mkEvent 1 false) n.

Lemma byte_reads_patient n : patient (byte_reads n).
Proof.
  apply all_useful_patient. apply Forall_forall. intros e I. apply repeat_spec in I. subst e. discriminate.
Qed.

Lemma byte_reads_useful n : useful (byte_reads n) = n.
Proof. induction n as [|n IH]; [reflexivity|]. cbn. unfold byte_reads in IH. rewrite IH. reflexivity. Qed.

(* all at once, the end reported with the last bytes; now and then an empty read *)
Definition odd_reads (n : nat) : list read_event :=
  mkEvent 3 false :: mkEvent 0 false :: mkEvent 0 false :: repeat (mkEvent 5000 true) n.

Lemma odd_reads_patient n : patient (odd_reads n).
Proof.
  intros a b c E L. unfold odd_reads in E.
  assert (forall m x y z, repeat (mkEvent 5000 true) m = x ++ y ++ z -> y <> [] -> exists e, In e y /\ evMax e <> 0%nat) as K.
  { intros m x y z Em N. destruct y as [|e y]; [contradiction|]. exists e. split; [left; reflexivity|].
    assert (In e (repeat (mkEvent 5000 true) m)) as I.
    { rewrite Em. apply in_or_app. right. left. reflexivity. }
    apply repeat_spec in I. subst e. cbn. lia. }
  destruct a as [|a0 [|a1 [|a2 a]]]; cbn [app] in E.
  - destruct b as [|b0 b]; [discriminate|]. injection E as <- _. exists (mkEvent 3 false). split; [left; reflexivity|discriminate].
  - injection E as _ E. destruct b as [|b0 [|b1 b]]; [discriminate..|]. cbn [app] in E. injection E as _ _ E.
    destruct (K n [] b c) as (e & I & Ne); [exact E|destruct b; discriminate|]. exists e. split; [right; right; exact I|exact Ne].
  - injection E as _ _ E. destruct b as [|b0 b]; [discriminate|]. cbn [app] in E. injection E as _ E.
    destruct (K n [] b c) as (e & I & Ne); [exact E|destruct b; discriminate|]. exists e. split; [right; exact I|exact Ne].
  - injection E as _ _ _ E. apply (K n a b c E). destruct b; discriminate.
Qed.

(* 101 empty reads make the scanner give up, and Read does not report that *)
Lemma impatient_case : exists evs evs' s f, patient evs'
  /\ read_from evs' s = Some (Ok f) /\ read_from evs s = Some (Err (ErrInvalidSegment (lit "trailer"))).
Proof.
  exists (byte_reads 500 ++ repeat (mkEvent 0 false) 101), (byte_reads (S (length (file_text false fixed_file)))).
  exists (file_text false fixed_file), fixed_file. split; [apply byte_reads_patient|]. split.
  - rewrite <- (concurrent_text fixed_file false 1).
    apply (stream_round_trip FixedFile); [apply fixed_file_streams|apply byte_reads_patient|].
    rewrite byte_reads_useful. rewrite (concurrent_text fixed_file false 1). apply Nat.lt_succ_diag_r.
  - vm_compute. reflexivity.
Qed.

Lemma trailing_case : exists f more, file_streams FixedFile f /\ no_breaks more /\ more <> [] /\
  forall evs, patient evs -> (length (file_text true f ++ more) < useful evs)%nat ->
    read_from evs (file_text true f ++ more) = Some (Ok f).
Proof.
  exists fixed_file, (flat_map record_string (flBases fixed_file)). split; [apply fixed_file_streams|].
  split; [apply no_breaksb_ok; vm_compute; reflexivity|]. split; [vm_compute; discriminate|].
  intros evs P U. apply (trailing_ignored FixedFile); [apply fixed_file_streams|exact P|exact U].
Qed.

Lemma limit_case : exists s s' evs evs' f, broken_up s s' /\ patient evs /\ patient evs'
  /\ read_from evs s = Some (Ok f)
  /\ read_from evs' s' = Some (Err (ErrInvalidSegment (lit "header"))).
Proof.
  set (s := file_text false fixed_file). set (s' := repeat lf_char (Z.to_nat 65536) ++ s).
  exists s, s', (byte_reads (S (length s))), (byte_reads (S (length s'))), fixed_file.
  split; [apply broken_up_breaks|]. split; [apply byte_reads_patient|]. split; [apply byte_reads_patient|]. split.
  - unfold s. rewrite <- (concurrent_text fixed_file false 1).
    apply (stream_round_trip FixedFile); [apply fixed_file_streams|apply byte_reads_patient|].
    rewrite byte_reads_useful. apply Nat.lt_succ_diag_r.
  - destruct (enough_reads (byte_reads (S (length s'))) s') as (r & E); [apply byte_reads_patient|rewrite byte_reads_useful; apply Nat.lt_succ_diag_r|].
    rewrite E. f_equal. apply (breaks_fill_buffer (Z.to_nat 65536) s (byte_reads (S (length s')))); [apply byte_reads_patient|unfold scanner_limit; lia|exact E].
Qed.
