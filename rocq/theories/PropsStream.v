(* Properties of a Reader that is read from repeatedly: C86, C87 *)
From Coq Require Import ZArith NArith Bool Ascii String List Lia.
Import ListNotations.
From Verif Require Import GoBase GoTime Tables Codec Records File Reader Stream
  SpecCodec SpecLayouts SpecRecords SpecFile SpecFiles SpecReader SpecStream Check Samples
  FileCases ReaderProps ReaderCases StreamFacts StreamCases.
Local Open Scope string_scope.
Local Open Scope Z_scope.
Local Open Scope list_scope.
Local Notation length := List.length.

(* C86: "Read called again and again returns the files of a stream one after
   another" is false: a fixed-length file after a variable-blocked one is returned
   with the block descriptor word of the header before it ... *)
Theorem C86_refuted : exists p q evs r f, part_ok p /\ part_ok q /\ patient evs
  /\ pcKind p = VariableFile /\ pcKind q = FixedFile
  /\ read_many 2 (S (length (part_text p ++ part_text q))) (new_reader evs (part_text p ++ part_text q))
     = Some (r, [Ok (pcFile p); Ok f])
  /\ f <> pcFile q.
Proof. exact stale_case. Qed.
Print Assumptions C86_refuted.

(* ... a character file after a packed one may be refused ... *)
Theorem C86_refused : exists p q evs r e, part_ok p /\ part_ok q /\ patient evs
  /\ pcKind p = PackedFile /\ pcKind q = FixedFile
  /\ read_many 2 (S (length (part_text p ++ part_text q))) (new_reader evs (part_text p ++ part_text q))
     = Some (r, [Ok (pcFile p); Err e]).
Proof. exact refused_case. Qed.
Print Assumptions C86_refused.

(* ... or be taken for a packed one ... *)
Theorem C86_garbled : exists p q evs r f, part_ok p /\ part_ok q /\ patient evs
  /\ pcKind p = PackedFile /\ pcKind q = VariableFile
  /\ read_many 2 (S (length (part_text p ++ part_text q))) (new_reader evs (part_text p ++ part_text q))
     = Some (r, [Ok (pcFile p); Ok f])
  /\ flPacked f = true.
Proof. exact garbled_case. Qed.
Print Assumptions C86_garbled.

(* ... because a reader that has seen a packed file returns packed files only *)
Theorem C86_packed : forall n fuel r r' l, flPacked (rdFile r) = true -> read_many n fuel r = Some (r', l) ->
  flPacked (rdFile r') = true /\ forall f, In (Ok f) l -> flPacked f = true.
Proof. exact packed_many. Qed.
Print Assumptions C86_packed.

Example C86_packed_case : flPacked (rdFile (mkReader packed_file (new_scanner (part_text packed_part)) (byte_reads 3000))) = true.
Proof. reflexivity. Qed.

(* true as long as no layout follows a later one in the order fixed-length,
   variable-blocked, packed: however many files there are, whatever line breaks
   stand between them and however the bytes are delivered, each Read returns the
   next file and the one after the last reports that there is no header.
   Missing: the other orders, where it is false *)
Theorem C86_sequence_partial : forall ps g evs, Forall part_ok ps -> ascending (map pcKind ps) ->
  breaks_only g -> patient evs ->
  let input := List.concat (map part_text ps) ++ g in
  (length input < useful evs)%nat ->
  exists r, read_many (S (length ps)) (S (length input)) (new_reader evs input)
    = Some (r, map (fun p => Ok (pcFile p)) ps ++ [Err (ErrInvalidSegment (lit "header"))]).
Proof. exact sequence_read. Qed.
Print Assumptions C86_sequence_partial.

Example C86_case :
  let ps := [fixed_part; fixed_part; variable_part; packed_part; packed_part] in
  Forall part_ok ps /\ ascending (map pcKind ps) /\ breaks_only [lf_char]
  /\ exists n, patient (byte_reads n) /\ (length (List.concat (map part_text ps) ++ [lf_char]) < useful (byte_reads n))%nat.
Proof.
  cbv zeta. split.
  { exact (Forall_cons _ fixed_part_ok (Forall_cons _ fixed_part_ok (Forall_cons _ variable_part_ok
      (Forall_cons _ packed_part_ok (Forall_cons _ packed_part_ok (Forall_nil _)))))). }
  split; [cbn; lia|]. split; [exact (Forall_cons _ (or_intror eq_refl) (Forall_nil _))|].
  eexists. split; [apply byte_reads_patient|]. rewrite byte_reads_useful. apply Nat.lt_succ_diag_r.
Qed.

(* the first Read of a reader is the one of C10 and C40-C43 *)
Theorem C86_first : forall evs input,
  read_from evs input
  = option_map (fun p => returned (fst p) (snd p)) (read_next (S (length input)) (new_reader evs input)).
Proof. exact first_read. Qed.
Print Assumptions C86_first.

(* C87: "a file returned by Read is left alone by later Reads" is false: it is the
   File of the reader ... *)
Theorem C87_refuted : exists evs input r1 r2, patient evs
  /\ read_next (S (length input)) (new_reader evs input) = Some (r1, Ok tt)
  /\ read_next (S (length input)) r1 = Some (r2, Ok tt) /\ rdFile r2 <> rdFile r1.
Proof. exact overwritten_case. Qed.
Print Assumptions C87_refuted.

(* ... so the next Read makes it the next file, and the Read that reports the end
   of the stream takes its data records away *)
Theorem C87_overwritten : forall p q g evs, part_ok p -> part_ok q -> (rank (pcKind p) <= rank (pcKind q))%nat ->
  breaks_only g -> patient evs ->
  let input := part_text p ++ part_text q ++ g in
  (length input < useful evs)%nat ->
  exists r1 r2 r3,
    read_next (S (length input)) (new_reader evs input) = Some (r1, Ok tt) /\ rdFile r1 = pcFile p
    /\ read_next (S (length input)) r1 = Some (r2, Ok tt) /\ rdFile r2 = pcFile q
    /\ read_next (S (length input)) r2 = Some (r3, Err (ErrInvalidSegment (lit "header")))
    /\ rdFile r3 = set_bases (pcFile q) [].
Proof. exact overwritten. Qed.
Print Assumptions C87_overwritten.

Example C87_case : part_ok fixed_part /\ part_ok variable_part /\ (rank (pcKind fixed_part) <= rank (pcKind variable_part))%nat
  /\ pcFile fixed_part <> pcFile variable_part /\ length (flBases (pcFile variable_part)) = 3%nat
  /\ exists n, patient (byte_reads n)
     /\ (length (part_text fixed_part ++ part_text variable_part ++ []) < useful (byte_reads n))%nat.
Proof.
  split; [exact fixed_part_ok|]. split; [exact variable_part_ok|]. split; [cbn; lia|].
  split; [exact parts_differ|]. split; [reflexivity|].
  eexists. split; [apply byte_reads_patient|]. rewrite byte_reads_useful. apply Nat.lt_succ_diag_r.
Qed.

(* what does stay after a Read that finds only line breaks: header and trailer.
   Missing: the other Reads, where nothing stays *)
Theorem C87_end_partial : forall fuel evs g, breaks_only g -> patient evs -> (length g < useful evs)%nat ->
  forall f, exists r', read_next fuel (mkReader f (new_scanner g) evs) = Some (r', Err (ErrInvalidSegment (lit "header")))
    /\ rdFile r' = set_bases f [].
Proof. exact end_of_stream. Qed.
Print Assumptions C87_end_partial.

Example C87_end_case : breaks_only [cr_char; lf_char] /\ patient (byte_reads 3) /\ useful (byte_reads 3) = 3%nat.
Proof.
  split; [exact (Forall_cons _ (or_introl eq_refl) (Forall_cons _ (or_intror eq_refl) (Forall_nil _)))|].
  exact (conj (byte_reads_patient 3) (byte_reads_useful 3)).
Qed.
