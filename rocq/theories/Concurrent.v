(* ConcurrentString with its goroutines interleaved in every possible way,
   pkg/file/file_instance.go:269-335.  The sequential result is
   [File.concurrent_string]; here the goroutines and the wait group are explicit. *)
From Coq Require Import ZArith NArith Bool Ascii String List.
Import ListNotations.
From Verif Require Import GoBase GoTime Regex Tables Codec Records File.
Local Open Scope string_scope.
Local Open Scope Z_scope.
Local Open Scope list_scope.
Local Notation length := List.length.

(* the goroutine of file_instance.go:303-314; it was given idx and page *)
Inductive thread :=
| TWriting (idx : nat) (todo : list record) (data : bytes)   (* line 307: before the next record or the store *)
| TStored (idx : nat)                                        (* line 311 done, the deferred Done not yet *)
| TDone.

(* the caller of ConcurrentString; file_instance.go:269-335 *)
Inductive main :=
| MSpawning (idx : nat) (todo : list (list record))          (* line 301: at the head of the loop *)
| MAdded (idx : nat) (page : list record) (todo : list (list record))   (* wg.Add done, go not yet *)
| MWaiting                                                   (* line 316 *)
| MFinished (text : bytes).                                  (* line 334 *)

(* file_instance.go:300-315 *)
Record state := mkState {
  stMain : main;
  stThreads : list thread;
  stSlots : list bytes;      (* dataPages *)
  stWait : Z }.              (* the counter of the wait group *)

(* l[i] = x; dataPages[idx] = ..., file_instance.go:312 *)
Fixpoint update {A} (i : nat) (x : A) (l : list A) : list A :=
  match l, i with
  | [], _ => []
  | _ :: l', O => x :: l'
  | a :: l', S i' => a :: update i' x l'
  end.

(* file_instance.go:280-300 with the pages given *)
Definition start (ps : list (list record)) : state :=
  mkState (MSpawning 0 ps) [] (map (fun _ => []) ps) 0.

(* one atomic action of the caller or of some goroutine; file_instance.go:300-334 *)
Inductive step (f : file) (isNewLine : bool) : state -> state -> Prop :=
| step_add : forall i p ps ts sl w,                       (* line 302 *)
    step f isNewLine (mkState (MSpawning i (p :: ps)) ts sl w) (mkState (MAdded i p ps) ts sl (w + 1))
| step_go : forall i p ps ts sl w,                        (* lines 303, 313 *)
    step f isNewLine (mkState (MAdded i p ps) ts sl w)
      (mkState (MSpawning (S i) ps) (ts ++ [TWriting i p []]) sl w)
| step_loop_end : forall i ts sl w,
    step f isNewLine (mkState (MSpawning i []) ts sl w) (mkState MWaiting ts sl w)
| step_write : forall m ts sl w k i r todo data,          (* lines 307-310 *)
    nth_error ts k = Some (TWriting i (r :: todo) data) ->
    step f isNewLine (mkState m ts sl w)
      (mkState m (update k (TWriting i todo (data ++ record_string r ++ newline isNewLine)) ts) sl w)
| step_store : forall m ts sl w k i data,                 (* line 311 *)
    nth_error ts k = Some (TWriting i [] data) ->
    step f isNewLine (mkState m ts sl w) (mkState m (update k (TStored i) ts) (update i data sl) w)
| step_done : forall m ts sl w k i,                       (* line 304, deferred *)
    nth_error ts k = Some (TStored i) ->
    step f isNewLine (mkState m ts sl w) (mkState m (update k TDone ts) sl (w - 1))
| step_return : forall ts sl,                             (* lines 316-334: Wait returns at zero *)
    step f isNewLine (mkState MWaiting ts sl 0)
      (mkState (MFinished (record_string (flHeader f) ++ newline isNewLine
                           ++ List.concat sl ++ record_string (flTrailer f))) ts sl 0).

(* n actions; file_instance.go:300-334 *)
Inductive run (f : file) (isNewLine : bool) : nat -> state -> state -> Prop :=
| run_nil : forall s, run f isNewLine 0 s s
| run_cons : forall n s s' s'', run f isNewLine n s s' -> step f isNewLine s' s'' -> run f isNewLine (S n) s s''.

(* the pages, for any positive page size (file_instance.go:283-291) *)
Definition start_file (f : file) (pageSize : nat) : state :=
  start (pages (length (flBases f)) pageSize (flBases f)).
