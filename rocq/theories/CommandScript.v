(* Runs of the command line one after the other (cmd/metro2/main.go:273-277) *)
From Coq Require Import ZArith NArith Bool Ascii String List.
Import ListNotations.
From Verif Require Import GoBase GoTime GoLayout Tables Codec Records File Reader Json JsonFile Server CommandLine.
Local Open Scope list_scope.

(* main.go:273-277, one process after the other; the disk they leave and what each reports *)
Fixpoint run_script (cpus : Z) (rt : runtime) (h : host) (d : disk) (ls : list line) : option (disk * list (option error)) :=
  match ls with
  | [] => Some (d, [])
  | l :: r =>
      match run cpus rt h d l with
      | None => None
      | Some x =>
          match run_script cpus rt h (raDisk x) r with
          | None => None
          | Some (d', es) => Some (d', raError x :: es)
          end
      end
  end.
