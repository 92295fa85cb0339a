(* The command line and the file system: C114 *)
From Coq Require Import ZArith NArith Bool Ascii String List.
Import ListNotations.
From Verif Require Import GoBase GoTime Tables Codec Records File Reader Json JsonFile Server SpecFile SpecFiles SpecServer
  Samples FileCases JsonCases ServerCases CommandLine SpecCommand CommandFacts CommandCases.
Local Open Scope string_scope.
Local Open Scope Z_scope.
Local Open Scope list_scope.
Local Notation length := List.length.

(* C114: where writing does not stop short a command either delivers the output it is to
   give, to its file or to standard output, and changes nothing else, or it reports an
   error, leaves everything as it was, and there was no such output or no way to create
   the file.  Missing: the exit status, and hosts on which writing stops short *)
Theorem C114_partial : forall cpus rt h d l r, roomy h -> ~ serves l -> run cpus rt h d l = Some r ->
  (exists t, meant rt h d l t /\ delivered d l t r)
  \/ (declined d r /\ ((forall t, ~ meant rt h d l t) \/ exists p, target l p /\ hoCreates h p = false)).
Proof. exact roomy_run. Qed.
Print Assumptions C114_partial.

Example C114_partial_case : roomy (a_host None None None) /\ ~ serves (a_convert (lit "/metro.json"))
  /\ exists r t, run 8 plain_host (a_host None None None) a_disk (a_convert (lit "/metro.json")) = Some r
  /\ raError r = None /\ raDisk r (lit "/metro.json") = Some t /\ meant plain_host (a_host None None None) a_disk (a_convert (lit "/metro.json")) t.
Proof.
  split; [exact roomy_host|]. split; [intros (port & i & a & E); discriminate E|exact in_place_case].
Qed.

(* a command that fails exits with status 0 *)
Theorem C114_refuted : exists cpus rt h d l r e, roomy h /\ run cpus rt h d l = Some r /\ raError r = Some e /\ raStatus r = 0.
Proof. exact failure_hidden. Qed.
Print Assumptions C114_refuted.

(* a conversion of a file in place that fails for want of room destroys the file *)
Theorem C114_lost_refuted : exists cpus rt h d l r e p c, run cpus rt h d l = Some r /\ raError r = Some e
  /\ input_is h d (lnInput l) c /\ d p = Some c /\ raDisk r p = Some [] /\ c <> [].
Proof. exact input_lost. Qed.
Print Assumptions C114_lost_refuted.

(* an output that is lost when its file is closed is not reported *)
Theorem C114_close_refuted : exists cpus rt h d l r p t, run cpus rt h d l = Some r /\ target l p /\ raError r = None
  /\ meant rt h d l t /\ t <> [] /\ raDisk r p = Some [].
Proof. exact close_hidden. Qed.
Print Assumptions C114_close_refuted.

(* nor one that standard output does not take *)
Theorem C114_output_refuted : exists cpus rt h d l r t, run cpus rt h d l = Some r /\ (forall p, ~ target l p) /\ raError r = None
  /\ meant rt h d l t /\ t <> [] /\ raOut r = [].
Proof. exact output_hidden. Qed.
Print Assumptions C114_output_refuted.

(* the exit status is 0 whatever happened: no command panics *)
Theorem C114_status : forall cpus rt h d l r, run cpus rt h d l = Some r -> raStatus r = 0.
Proof. exact status_zero. Qed.
Print Assumptions C114_status.

Example C114_status_case : forall room closes out,
  run 8 plain_host (a_host room closes out) a_disk a_print
  = Some (mkRan a_disk (cut_to out (file_text false fixed_file)) None 0).
Proof. exact a_print_run. Qed.

(* on any host no file but the output of convert changes, *)
Theorem C114_files : forall cpus rt h d l r q, run cpus rt h d l = Some r -> ~ target l q -> raDisk r q = d q.
Proof. exact files_kept. Qed.
Print Assumptions C114_files.

(* that one changes only if there is an output, and then holds a beginning of it *)
Theorem C114_changed : forall cpus rt h d l r p, run cpus rt h d l = Some r -> raDisk r p <> d p ->
  exists t u, meant rt h d l t /\ target l p /\ raDisk r p = Some u /\ begins u t.
Proof. exact file_changed. Qed.
Print Assumptions C114_changed.

(* if no error is reported it holds all of it, unless closing it failed *)
Theorem C114_written : forall cpus rt h d l r p, run cpus rt h d l = Some r -> target l p -> raError r = None ->
  exists t, meant rt h d l t /\ raDisk r p = Some (cut_to (hoCloses h p) t) /\ hoCreates h p = true
    /\ forall n, hoRoom h p = Some n -> (length t <= n)%nat.
Proof. exact written. Qed.
Print Assumptions C114_written.

Example C114_changed_case : exists r, run 8 plain_host (a_host None None None) a_disk (a_convert (lit "/metro.json")) = Some r
  /\ target (a_convert (lit "/metro.json")) (lit "/metro.json") /\ raError r = None /\ ~ target (a_convert (lit "/metro.json")) (lit "/other").
Proof.
  destruct in_place_case as (r & t & R & E & _). exists r. split; [exact R|]. split; [constructor|]. split; [exact E|].
  intros T. inversion T.
Qed.

(* an error is reported only if there is no output, or it could not be written *)
Theorem C114_reported : forall cpus rt h d l r e, ~ serves l -> run cpus rt h d l = Some r -> raError r = Some e ->
  (forall t, ~ meant rt h d l t)
  \/ exists p t, target l p /\ meant rt h d l t /\ (hoCreates h p = false \/ exists n, hoRoom h p = Some n /\ (n < length t)%nat).
Proof. exact reported. Qed.
Print Assumptions C114_reported.

Example C114_reported_case : ~ serves a_print /\
  exists r e, run 8 plain_host (a_host None None None) (fun _ => None) a_print = Some r /\ raError r = Some e.
Proof. split; [intros (port & i & a & E); discriminate E|]. do 2 eexists. split; reflexivity. Qed.

(* the web server announces itself, and ends with the error of listening if it ends *)
Theorem C114_web : forall cpus rt h d port i a r, run cpus rt h d (mkLine (CWeb port false) i a) = Some r ->
  same_disk (raDisk r) d /\ raError r = hoServe h (list_ascii_of_string "0.0.0.0:" ++ port) /\ raError r <> None
  /\ begins (raOut r) (list_ascii_of_string "Starting web server on port " ++ port ++ [ascii_of_nat 10; ascii_of_nat 10]).
Proof. exact web_run. Qed.
Print Assumptions C114_web.

Example C114_web_case : exists r, run 8 plain_host (a_host None None None) a_disk (mkLine (CWeb (lit "8080") false) [] []) = Some r
  /\ raOut r = lit "Starting web server on port 8080" ++ [lf_char; lf_char].
Proof. eexists. split; reflexivity. Qed.
