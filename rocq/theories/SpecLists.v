(* Specification: lists of data records that are values *)
From Coq Require Import ZArith NArith Bool Ascii String List.
Import ListNotations.
From Verif Require Import GoBase GoTime Tables Codec Records File Heap SpecHeap Lists.
Local Open Scope string_scope.
Local Open Scope nat_scope.
Local Open Scope list_scope.
Local Notation length := List.length.

(* files that have their data records, and variables that have their elements *)
Definition plain : Type := world * list (list nat).

Definition in_place {A} (i : nat) (x : A) (l : list A) : list A := firstn i l ++ x :: skipn (S i) l.

(* what each statement does to values; calls as in C90 and C91 *)
Inductive plain_step (spare : nat -> nat) (fuel : nat) : plain -> lcall -> plain -> Prop :=
| plain_call w vs c w' : h_step spare fuel w c = Some w' -> plain_step spare fuel (w, vs) (LCall c) (w', vs)
| plain_get w vs i f : nth_error (wFiles w) i = Some f ->
    plain_step spare fuel (w, vs) (LGet i) (w, vs ++ [hfBases f])
| plain_clone w vs v l : nth_error vs v = Some l -> plain_step spare fuel (w, vs) (LClone v) (w, vs ++ [l])
| plain_append w vs v x l : nth_error vs v = Some l -> x < length (hRecords (wHeap w)) ->
    plain_step spare fuel (w, vs) (LAppend v x) (w, in_place v (l ++ [x]) vs)
| plain_assign w vs v k x l : nth_error vs v = Some l -> x < length (hRecords (wHeap w)) -> k < length l ->
    plain_step spare fuel (w, vs) (LAssign v k x) (w, in_place v (in_place k x l) vs).

(* what a program sees: the files with their data records, the elements of the lists *)
Definition seen (w : lworld) : plain :=
  (mkWorld (lwHeap w) (map (lfile_value (lwArrays w)) (lwFiles w)), map (elements (lwArrays w)) (lwLists w)).

Definition l_start : lworld := mkLWorld (mkHeap [] [] []) [] [] [].

(* programs that change only lists they have made themselves, by slices.Clone *)
Definition own_only (own : list bool) (c : lcall) : Prop :=
  match c with
  | LAppend v _ | LAssign v _ _ => nth_error own v = Some true
  | _ => True
  end.

Definition own_after (own : list bool) (c : lcall) : list bool :=
  match c with
  | LGet _ => own ++ [false]
  | LClone _ => own ++ [true]
  | _ => own
  end.

(* the states of such programs, with which variables hold lists of their own *)
Inductive polite (spare room : nat -> nat) : lworld -> list bool -> Prop :=
| polite_start : polite spare room l_start []
| polite_step w own fuel c w' : polite spare room w own -> own_only own c ->
    l_step spare room fuel w c = Some w' -> polite spare room w' (own_after own c).

(* all programs *)
Fixpoint l_run (spare room : nat -> nat) (fuel : nat) (w : lworld) (cs : list lcall) : option lworld :=
  match cs with
  | [] => Some w
  | c :: cs' => match l_step spare room fuel w c with Some w' => l_run spare room fuel w' cs' | None => None end
  end.

(* a list in which at most the element at k has become x *)
Definition changed_at (k x : nat) (l l' : list nat) : Prop := l' = l \/ (k < length l /\ l' = in_place k x l).
