(* Sample programs that use lists of data records, and witnesses *)
From Coq Require Import ZArith NArith Bool Ascii String List Lia.
Import ListNotations.
From Verif Require Import GoBase GoTime Tables Codec Records File
  SpecFile Samples FileCases Heap SpecHeap HeapTyped HeapCases Lists SpecLists ListProps.
Local Open Scope string_scope.
Local Open Scope nat_scope.
Local Open Scope list_scope.
Local Notation length := List.length.

(* a character file with records 2, 3 and 4; records 5 and 6 are not in it, record 7 is packed *)
Definition three_records : list lcall :=
  map LCall
  [ HNewFile false;
    HNewBase false; HWriteRecord 2 (sample_base_fields 0 426);
    HNewBase false; HWriteRecord 3 (sample_base_fields 0 426);
    HNewBase false; HWriteRecord 4 (sample_base_fields 0 426);
    HNewBase false; HWriteRecord 5 (sample_base_fields 0 426);
    HNewBase false; HWriteRecord 6 (sample_base_fields 0 426);
    HNewBase true; HWriteRecord 7 (sample_base_fields 0 426);
    HAddDataRecord 0 2; HAddDataRecord 0 3; HAddDataRecord 0 4 ].

Definition data_of (w : lworld) : list (list nat) := map hfBases (wFiles (fst (seen w))).

(* an assignment to an element of the list is one to a record of the file, which is not
   checked: the file has a record of the other format *)
Lemma assign_changes_file : exists fuel cs w w' f g, l_run doubling doubling fuel l_start cs = Some w
  /\ l_step doubling doubling fuel w (LAssign 0 1 7) = Some w'
  /\ wFiles (fst (seen w)) = [f] /\ wFiles (fst (seen w')) = [g]
  /\ hfPacked g = false /\ hfBases f = [2; 3; 4] /\ hfBases g = [2; 7; 4]
  /\ record_name (record_value (lwHeap w') 7) = "basePacked".
Proof.
  exists 1000, (three_records ++ [LGet 0]). do 4 eexists. split; [vm_compute; reflexivity|]. split; [vm_compute; reflexivity|].
  split; [reflexivity|]. split; [reflexivity|]. split; [reflexivity|]. split; [vm_compute; reflexivity|]. split; vm_compute; reflexivity.
Qed.

(* an append to a list that was returned before a record was added puts another record
   in the place of that one *)
Lemma append_changes_file : exists fuel cs w w' f g, l_run doubling doubling fuel l_start cs = Some w
  /\ l_step doubling doubling fuel w (LAppend 0 6) = Some w'
  /\ wFiles (fst (seen w)) = [f] /\ wFiles (fst (seen w')) = [g]
  /\ hfBases f = [2; 3; 4; 5] /\ hfBases g = [2; 3; 4; 6].
Proof.
  exists 1000, (three_records ++ [LGet 0; LCall (HAddDataRecord 0 5)]). do 4 eexists.
  split; [vm_compute; reflexivity|]. split; [vm_compute; reflexivity|].
  split; [reflexivity|]. split; [reflexivity|]. split; vm_compute; reflexivity.
Qed.

(* and AddDataRecord one in the place of what the program has appended to its list *)
Lemma add_changes_list : exists fuel cs w w', l_run doubling doubling fuel l_start cs = Some w
  /\ l_step doubling doubling fuel w (LCall (HAddDataRecord 0 6)) = Some w'
  /\ snd (seen w) = [[2; 3; 4; 5]] /\ snd (seen w') = [[2; 3; 4; 6]].
Proof.
  exists 1000, (three_records ++ [LGet 0; LAppend 0 5]). do 2 eexists. split; [vm_compute; reflexivity|]. split; [vm_compute; reflexivity|].
  split; vm_compute; reflexivity.
Qed.

(* ---- a program that changes only a list of its own ---- *)

Fixpoint polite_run (spare room : nat -> nat) (fuel : nat) (w : lworld) (own : list bool) (cs : list lcall)
    : option (lworld * list bool) :=
  match cs with
  | [] => Some (w, own)
  | c :: cs' =>
      let ok := match c with
                | LAppend v _ | LAssign v _ _ => match nth_error own v with Some true => true | _ => false end
                | _ => true
                end in
      if ok then
        match l_step spare room fuel w c with
        | Some w' => polite_run spare room fuel w' (own_after own c) cs'
        | None => None
        end
      else None
  end.

Lemma polite_run_ok spare room fuel cs : forall w own w' own', polite spare room w own ->
  polite_run spare room fuel w own cs = Some (w', own') -> polite spare room w' own'.
Proof.
  induction cs as [|c cs IH]; intros w own w' own' P E; cbn [polite_run] in E; [inversion E; subst; exact P|].
  destruct (match c with LAppend v _ | LAssign v _ _ => _ | _ => _ end) eqn:Ok; [|discriminate].
  destruct (l_step spare room fuel w c) as [w1|] eqn:E1; [|discriminate]. apply (IH w1 (own_after own c)); [|exact E].
  apply (polite_step spare room w own fuel c w1); [exact P| |exact E1].
  destruct c as [c|i|v|v x|v k x]; cbn [own_only]; auto; destruct (nth_error own v) as [[|]|]; try discriminate; reflexivity.
Qed.

Definition own_program : list lcall :=
  three_records ++ [LGet 0; LClone 0; LAppend 1 5; LCall (HAddDataRecord 0 6); LAssign 1 0 7; LCall (HSetType 0 (lit "packed"))].

Lemma own_program_run : exists w own, polite doubling doubling w own /\ own = [false; true]
  /\ map hfPacked (wFiles (fst (seen w))) = [true] /\ data_of w = [[9; 10; 11; 12]]
  /\ snd (seen w) = [[2; 3; 4]; [7; 3; 4; 5]].
Proof.
  assert (exists x, polite_run doubling doubling 1000 l_start [] own_program = Some x
    /\ snd x = [false; true] /\ map hfPacked (wFiles (fst (seen (fst x)))) = [true] /\ data_of (fst x) = [[9; 10; 11; 12]]
    /\ snd (seen (fst x)) = [[2; 3; 4]; [7; 3; 4; 5]]) as ([w own] & R & E).
  { eexists. split; [vm_compute; reflexivity|]. repeat split; vm_compute; reflexivity. }
  cbn [fst snd] in E. exists w, own. split; [|exact E]. eapply polite_run_ok; [|exact R]. constructor.
Qed.

(* in the middle of it *)
Lemma own_program_step : exists w w', polite doubling doubling w [false; true] /\ own_only [false; true] (LAppend 1 5)
  /\ l_step doubling doubling 1000 w (LAppend 1 5) = Some w'
  /\ snd (seen w) = [[2; 3; 4]; [2; 3; 4]] /\ snd (seen w') = [[2; 3; 4]; [2; 3; 4; 5]].
Proof.
  assert (exists w w', polite_run doubling doubling 1000 l_start [] (three_records ++ [LGet 0; LClone 0]) = Some (w, [false; true])
    /\ l_step doubling doubling 1000 w (LAppend 1 5) = Some w'
    /\ snd (seen w) = [[2; 3; 4]; [2; 3; 4]] /\ snd (seen w') = [[2; 3; 4]; [2; 3; 4; 5]]) as (w & w' & R & E).
  { do 2 eexists. split; [vm_compute; reflexivity|]. split; [vm_compute; reflexivity|]. split; vm_compute; reflexivity. }
  exists w, w'. split; [eapply polite_run_ok; [|exact R]; constructor|]. split; [reflexivity|exact E].
Qed.

(* a record is added behind the back of a list that is only read *)
Lemma reading_case : exists w own cs w', polite doubling doubling w own
  /\ (forall c, In c cs -> match c with LAppend _ _ | LAssign _ _ _ => False | _ => True end)
  /\ l_run doubling doubling 1000 w cs = Some w' /\ nth_error (snd (seen w)) 0 = Some [2; 3; 4]
  /\ data_of w = [[2; 3; 4]] /\ data_of w' = [[9; 10; 11; 12]].
Proof.
  assert (exists w w', polite_run doubling doubling 1000 l_start [] (three_records ++ [LGet 0]) = Some (w, [false])
    /\ l_run doubling doubling 1000 w [LCall (HAddDataRecord 0 5); LCall (HSetType 0 (lit "packed"))] = Some w'
    /\ nth_error (snd (seen w)) 0 = Some [2; 3; 4] /\ data_of w = [[2; 3; 4]] /\ data_of w' = [[9; 10; 11; 12]]) as (w & w' & R & E).
  { do 2 eexists. split; [vm_compute; reflexivity|]. split; [vm_compute; reflexivity|]. repeat split; vm_compute; reflexivity. }
  exists w, [false], [LCall (HAddDataRecord 0 5); LCall (HSetType 0 (lit "packed"))], w'.
  split; [eapply polite_run_ok; [|exact R]; constructor|]. split; [|exact E].
  intros c [<-|[<-|[]]]; exact Logic.I.
Qed.
