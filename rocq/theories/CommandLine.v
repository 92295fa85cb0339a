(* The command line with the file system around it (cmd/metro2/main.go): which
   files are read and written, what is printed, what is reported and the exit
   status.  What the commands make of their input is in Server.v.  The file
   system and standard output are represented by a host that says which calls
   succeed; cobra checks the arguments, runs the command and prints its error. *)
From Coq Require Import ZArith NArith Bool Ascii String List.
Import ListNotations.
From Verif Require Import GoBase GoTime GoLayout Tables Codec Records File Reader Json JsonFile Server.
Local Open Scope string_scope.
Local Open Scope Z_scope.
Local Open Scope list_scope.
Local Notation length := List.length.

(* regular files by their path; os.Stat, os.Open and os.Create of main.go:38-42, 240 *)
Definition disk := bytes -> option bytes.

(* os.Create and WriteString, main.go:240-244 *)
Definition put (d : disk) (p t : bytes) : disk := fun q => if bytes_eqb q p then Some t else d q.

(* the host of main.go:26-248 *)
Record host := mkHost {
  hoDefault : bytes;                    (* filepath.Join(os.Getwd(), "metro.json"), main.go:34-35 *)
  hoOpens : bytes -> bool;              (* os.Open of a file that exists, main.go:42 *)
  hoReads : list read_event;            (* how reading it proceeds *)
  hoCreates : bytes -> bool;            (* os.Create, main.go:240 *)
  hoRoom : bytes -> option nat;         (* as many bytes can be written there at most, main.go:244 *)
  hoCloses : bytes -> option nat;       (* Close fails and leaves so many bytes, main.go:245 *)
  hoOut : option nat;                   (* standard output takes as many bytes at most, main.go:64, 109, 163 *)
  hoServe : bytes -> option error }.    (* ListenAndServe; None: it goes on serving, main.go:79 *)

(* the commands and their flags, main.go:253-262 *)
Inductive command :=
| CWeb (port : bytes) (test : bool)
| CValidator
| CPrint (format : bytes) (newline : bool)
| CConvert (format type : bytes) (generate newline : bool).

(* main.go:264-265 and the arguments after the flags *)
Record line := mkLine { lnCommand : command; lnInput : bytes; lnArgs : list bytes }.

(* what a run leaves, main.go:273-277 *)
Record ran := mkRan {
  raDisk : disk;
  raOut : bytes;               (* standard output *)
  raError : option error;      (* printed by cobra *)
  raStatus : Z }.              (* exit status *)

(* a prefix that fits; main.go:244 *)
Definition cut_to (n : option nat) (t : bytes) : bytes := match n with Some n => firstn n t | None => t end.

(* createReader, main.go:26-48 *)
Definition create_reader (h : host) (d : disk) (input : bytes) : option source :=
  let p := match input with [] => hoDefault h | _ => input end in
  match d p with
  | None => None
  | Some c => if hoOpens h p then Some (mkSource c (hoReads h)) else None
  end.

(* main.go:273-277: the error that Execute returns is dropped *)
Definition exit_status (e : option error) : Z := 0.

(* main.go:273-277 *)
Definition finish (d : disk) (out : bytes) (e : option error) : ran := mkRan d out e (exit_status e).
(* a panic ends the process with status 2; main.go:273-277 *)
Definition crash (d : disk) : ran := mkRan d [] None 2.

(* Fprintf to standard output, its error is dropped; main.go:64, 109, 163 *)
Definition print_out (h : host) (d : disk) (t : bytes) : ran := finish d (cut_to (hoOut h) t) None.

(* main.go:240-247 *)
Definition write_file (h : host) (d : disk) (p t : bytes) : ran :=
  if hoCreates h p then
    let written := cut_to (hoRoom h p) t in
    finish (put d p (cut_to (hoCloses h p) written)) []
      (if (length written <? length t)%nat then Some (ErrOther "write") else None)
  else finish d [] (Some (ErrOther "os.Create")).

(* what becomes of the end of a command, main.go:87-248 *)
Definition conclude (d : disk) (write : bytes -> ran) (r : option done) : option ran :=
  match r with
  | None => None
  | Some Died => Some (crash d)
  | Some (Failed e) => Some (finish d [] (Some e))
  | Some (Wrote t) => Some (write t)
  end.

(* main.go:57-248, 273-277 *)
Definition run (cpus : Z) (rt : runtime) (h : host) (d : disk) (l : line) : option ran :=
  let input := create_reader h d (lnInput l) in
  match lnCommand l with
  | CWeb port test =>
      let out := lit "Starting web server on port " ++ port ++ [lf_char; lf_char] in
      if test then Some (print_out h d out)
      else match hoServe h (lit "0.0.0.0:" ++ port) with
           | None => None
           | Some e => Some (finish d (cut_to (hoOut h) out) (Some e))
           end
  | CValidator => conclude d (print_out h d) (cli_validate rt (mkFlags input [] [] false false true))
  | CPrint format newline => conclude d (print_out h d) (cli_print cpus rt (mkFlags input format [] false newline true))
  | CConvert format type generate newline =>
      match lnArgs l with
      | [] => Some (finish d [] (Some (ErrOther "requires output argument")))
      | p :: _ => conclude d (write_file h d p) (cli_convert cpus rt (mkFlags input format type generate newline true))
      end
  end.
