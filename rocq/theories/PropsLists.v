(* Properties of the lists GetDataRecords returns: C104 *)
From Coq Require Import ZArith NArith Bool Ascii String List Lia.
Import ListNotations.
From Verif Require Import GoBase GoTime Tables Codec Records File Heap SpecHeap Lists SpecLists ListProps ListCases.
Local Open Scope string_scope.
Local Open Scope nat_scope.
Local Open Scope list_scope.
Local Notation length := List.length.

(* C104: "the list GetDataRecords returns and the file do not change each other" is false:
   an assignment to an element puts a record into the file that AddDataRecord refuses,
   here one of the other format ... *)
Theorem C104_assign_refuted : exists fuel cs w w' f g, l_run doubling doubling fuel l_start cs = Some w
  /\ l_step doubling doubling fuel w (LAssign 0 1 7) = Some w'
  /\ wFiles (fst (seen w)) = [f] /\ wFiles (fst (seen w')) = [g]
  /\ hfPacked g = false /\ hfBases f = [2; 3; 4] /\ hfBases g = [2; 7; 4]
  /\ record_name (record_value (lwHeap w') 7) = "basePacked".
Proof. exact assign_changes_file. Qed.
Print Assumptions C104_assign_refuted.

(* ... an append to the list can replace a record that was added to the file meanwhile ... *)
Theorem C104_append_refuted : exists fuel cs w w' f g, l_run doubling doubling fuel l_start cs = Some w
  /\ l_step doubling doubling fuel w (LAppend 0 6) = Some w'
  /\ wFiles (fst (seen w)) = [f] /\ wFiles (fst (seen w')) = [g]
  /\ hfBases f = [2; 3; 4; 5] /\ hfBases g = [2; 3; 4; 6].
Proof. exact append_changes_file. Qed.
Print Assumptions C104_append_refuted.

(* ... and AddDataRecord can replace what the program has appended to the list *)
Theorem C104_add_refuted : exists fuel cs w w', l_run doubling doubling fuel l_start cs = Some w
  /\ l_step doubling doubling fuel w (LCall (HAddDataRecord 0 6)) = Some w'
  /\ snd (seen w) = [[2; 3; 4; 5]] /\ snd (seen w') = [[2; 3; 4; 6]].
Proof. exact add_changes_list. Qed.
Print Assumptions C104_add_refuted.

(* true of all programs that append and assign only to lists they have made with
   slices.Clone: each statement does to files and lists what it does where these are
   values, whatever room append leaves in new arrays.
   Missing: the other programs, where it is false *)
Theorem C104_own_partial : forall spare room fuel w own c w', polite spare room w own -> own_only own c ->
  l_step spare room fuel w c = Some w' -> plain_step spare fuel (seen w) c (seen w').
Proof. exact polite_plain. Qed.
Print Assumptions C104_own_partial.

Example C104_own_case : exists w w', polite doubling doubling w [false; true] /\ own_only [false; true] (LAppend 1 5)
  /\ l_step doubling doubling 1000 w (LAppend 1 5) = Some w'
  /\ snd (seen w) = [[2; 3; 4]; [2; 3; 4]] /\ snd (seen w') = [[2; 3; 4]; [2; 3; 4; 5]].
Proof. exact own_program_step. Qed.

(* and none of their statements fails that does not fail on values *)
Theorem C104_own_runs : forall spare room fuel w own c p, polite spare room w own -> own_only own c ->
  plain_step spare fuel (seen w) c p -> exists w', l_step spare room fuel w c = Some w' /\ seen w' = p.
Proof. exact plain_polite. Qed.
Print Assumptions C104_own_runs.

Example C104_own_runs_case : exists w own, polite doubling doubling w own /\ own = [false; true]
  /\ map hfPacked (wFiles (fst (seen w))) = [true] /\ data_of w = [[9; 10; 11; 12]]
  /\ snd (seen w) = [[2; 3; 4]; [7; 3; 4; 5]].
Proof. exact own_program_run. Qed.

(* so a list that is only read stays what it was when it was returned, whatever is added
   to the file, read into it, or done to its type *)
Theorem C104_reading : forall spare room fuel cs w own w' v l, polite spare room w own ->
  (forall c, In c cs -> match c with LAppend _ _ | LAssign _ _ _ => False | _ => True end) ->
  l_run spare room fuel w cs = Some w' -> nth_error (snd (seen w)) v = Some l -> nth_error (snd (seen w')) v = Some l.
Proof. exact reading_keeps. Qed.
Print Assumptions C104_reading.

Example C104_reading_case : exists w own cs w', polite doubling doubling w own
  /\ (forall c, In c cs -> match c with LAppend _ _ | LAssign _ _ _ => False | _ => True end)
  /\ l_run doubling doubling 1000 w cs = Some w' /\ nth_error (snd (seen w)) 0 = Some [2; 3; 4]
  /\ data_of w = [[2; 3; 4]] /\ data_of w' = [[9; 10; 11; 12]].
Proof. exact reading_case. Qed.

(* in all programs, the calls do to the files what they do where lists are values *)
Theorem C104_calls : forall spare room fuel cs w c, l_run spare room fuel l_start cs = Some w ->
  h_step spare fuel (fst (seen w)) c = option_map (fun w' => fst (seen w')) (l_step spare room fuel w (LCall c)).
Proof. exact run_calls. Qed.
Print Assumptions C104_calls.

(* no call but AddDataRecord changes a list of the program *)
Theorem C104_lists : forall spare room fuel cs w c w', l_run spare room fuel l_start cs = Some w ->
  l_step spare room fuel w (LCall c) = Some w' -> (forall i r, c <> HAddDataRecord i r) -> snd (seen w') = snd (seen w).
Proof. exact run_lists. Qed.
Print Assumptions C104_lists.

(* AddDataRecord changes at most one element, which is beyond the end of the list of the file *)
Theorem C104_add : forall spare room fuel cs w i r w' f v l l', l_run spare room fuel l_start cs = Some w ->
  l_step spare room fuel w (LCall (HAddDataRecord i r)) = Some w' ->
  nth_error (wFiles (fst (seen w))) i = Some f ->
  nth_error (snd (seen w)) v = Some l -> nth_error (snd (seen w')) v = Some l' ->
  changed_at (length (hfBases f)) r l l'.
Proof. exact run_add. Qed.
Print Assumptions C104_add.

(* an append changes at most one element of each other list and file, the one in the
   place of the appended one *)
Theorem C104_append : forall spare room fuel cs w v x w' l, l_run spare room fuel l_start cs = Some w ->
  l_step spare room fuel w (LAppend v x) = Some w' -> nth_error (snd (seen w)) v = Some l ->
  nth_error (snd (seen w')) v = Some (l ++ [x])
  /\ length (snd (seen w')) = length (snd (seen w))
  /\ (forall v' u u', v' <> v -> nth_error (snd (seen w)) v' = Some u -> nth_error (snd (seen w')) v' = Some u' ->
        changed_at (length l) x u u')
  /\ Forall2 (fun f f' => hfPacked f' = hfPacked f /\ hfHeader f' = hfHeader f /\ hfTrailer f' = hfTrailer f
                          /\ changed_at (length l) x (hfBases f) (hfBases f'))
       (wFiles (fst (seen w))) (wFiles (fst (seen w'))).
Proof. exact run_append. Qed.
Print Assumptions C104_append.

(* an assignment at most the element with the same index *)
Theorem C104_assign : forall spare room fuel cs w v k x w' l, l_run spare room fuel l_start cs = Some w ->
  l_step spare room fuel w (LAssign v k x) = Some w' -> nth_error (snd (seen w)) v = Some l ->
  k < length l
  /\ nth_error (snd (seen w')) v = Some (in_place k x l)
  /\ length (snd (seen w')) = length (snd (seen w))
  /\ (forall v' u u', nth_error (snd (seen w)) v' = Some u -> nth_error (snd (seen w')) v' = Some u' -> changed_at k x u u')
  /\ Forall2 (fun f f' => hfPacked f' = hfPacked f /\ hfHeader f' = hfHeader f /\ hfTrailer f' = hfTrailer f
                          /\ changed_at k x (hfBases f) (hfBases f'))
       (wFiles (fst (seen w))) (wFiles (fst (seen w'))).
Proof. exact run_assign. Qed.
Print Assumptions C104_assign.

(* programs in which all of these are executed are those of the theorems above *)
Example C104_reach_case : exists fuel cs w w' f g, l_run doubling doubling fuel l_start cs = Some w
  /\ l_step doubling doubling fuel w (LAppend 0 6) = Some w'
  /\ wFiles (fst (seen w)) = [f] /\ wFiles (fst (seen w')) = [g]
  /\ hfBases f = [2; 3; 4; 5] /\ hfBases g = [2; 3; 4; 6].
Proof. exact append_changes_file. Qed.
