(* Properties of programs that use files, records and segments through pointers: C90, C91 *)
From Coq Require Import ZArith NArith Bool Ascii String List Lia.
Import ListNotations.
From Verif Require Import GoBase GoTime Tables Codec Records File
  SpecCodec SpecLayouts SpecRecords SpecFile SpecValidate SpecCounters SpecApi Samples FileCases Heap SpecHeap
  HeapMain HeapTyped HeapCases.
Local Open Scope string_scope.
Local Open Scope Z_scope.
Local Open Scope list_scope.
Local Notation length := List.length.

(* C90: "a call changes no record but the one it is made on" is false: Parse writes into
   the header the caller has handed over, and so into another file that has it too ... *)
Theorem C90_refuted : exists fuel cs w w' r i input iv f g, run doubling fuel start cs = Some w
  /\ h_step doubling fuel w (HParse i input iv) = Some w'
  /\ record_value (wHeap w') r <> record_value (wHeap w) r
  /\ nth_error (wFiles w) (S i) = Some f /\ nth_error (wFiles w') (S i) = Some g
  /\ file_value (wHeap w') g <> file_value (wHeap w) f.
Proof. exact header_overwritten. Qed.
Print Assumptions C90_refuted.

(* ... adding a segment to a record of a converted file can change the record that was
   there before ... *)
Theorem C90_left_refuted : exists fuel cs w w' r r' s, run doubling fuel start cs = Some w
  /\ in_files w r' /\ ~ in_files w r
  /\ h_step doubling fuel w (HAddSegment r' s) = Some w'
  /\ record_value (wHeap w') r <> record_value (wHeap w) r.
Proof. exact left_record_changed. Qed.
Print Assumptions C90_left_refuted.

(* ... or another record of the same file, if one record had been added twice *)
Theorem C90_twice_refuted : exists fuel cs w w' f r r' s, run doubling fuel start cs = Some w
  /\ wFiles w = [f] /\ hfBases f = [r; r'] /\ r <> r'
  /\ h_step doubling fuel w (HAddSegment r' s) = Some w'
  /\ record_value (wHeap w') r <> record_value (wHeap w) r.
Proof. exact added_twice_changed. Qed.
Print Assumptions C90_twice_refuted.

(* true, except that Parse changes the header and the trailer of its file, in all
   programs that give a record to one file once and do not use it any more when the
   file has put a copy in its place; whatever room append leaves in new arrays.
   Missing: the other programs, where it is false *)
Theorem C90_records_partial : forall spare fuel w left c w' r, state spare w left -> considerate w left c ->
  h_step spare fuel w c = Some w' -> (r < length (hRecords (wHeap w)))%nat ->
  record_effect w c r (record_value (wHeap w') r).
Proof. exact state_records. Qed.
Print Assumptions C90_records_partial.

Example C90_records_case : exists w left w', state doubling w left /\ considerate w left (HAddSegment 3 3)
  /\ h_step doubling 1000 w (HAddSegment 3 3) = Some w' /\ in_files w 3
  /\ record_value (wHeap w') 3 <> record_value (wHeap w) 3.
Proof. exact careful_call_case. Qed.

(* no call changes a segment *)
Theorem C90_segments : forall spare fuel w left c w' s, state spare w left -> considerate w left c ->
  h_step spare fuel w c = Some w' -> (s < length (hSegments (wHeap w)))%nat ->
  segment_effect w c s (seg_value (wHeap w') s).
Proof. exact state_segments. Qed.
Print Assumptions C90_segments.

(* what constructors and GeneratorTrailer return is new *)
Theorem C90_makes : forall spare fuel w c w', h_step spare fuel w c = Some w' -> call_makes w c w'.
Proof. exact step_makes. Qed.
Print Assumptions C90_makes.

(* C91: in such programs every call does to the file it is made on what it does to a
   file that is a value, and nothing to other files *)
Theorem C91_by_value : forall spare fuel w left c w' i f, state spare w left -> considerate w left c ->
  h_step spare fuel w c = Some w' -> nth_error (wFiles w) i = Some f ->
  exists f', nth_error (wFiles w') i = Some f' /\ file_effect fuel w c i f (file_value (wHeap w') f').
Proof. exact state_files. Qed.
Print Assumptions C91_by_value.

Example C91_by_value_case : exists w f g, run doubling 1000 start careful_program = Some w
  /\ map (file_value (wHeap w)) (wFiles w) = [f; g]
  /\ flPacked f = true /\ flHeader f = RHeader true (sample_header 0 426)
  /\ map (fun r => map sKind (match r with RBase _ b => segments_of b | _ => [] end)) (flBases f) = [[J1; J1; J1; K1]; [J1]]
  /\ file_validate f = Ok tt /\ g = packed_file.
Proof. exact careful_program_files. Qed.

(* if nothing is written into records and segments that a file has, the files are those
   of C35: made by NewFile and the methods of File *)
Theorem C91_reachable : forall spare w left i f, careful_state spare w left -> nth_error (wFiles w) i = Some f ->
  reachable (file_value (wHeap w) f).
Proof. exact careful_files. Qed.
Print Assumptions C91_reachable.

Example C91_reachable_case :
  exists w left, run doubling 1000 start careful_program = Some w /\ careful_state doubling w left.
Proof. exact careful_program_state. Qed.
