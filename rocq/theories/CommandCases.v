(* Examples for the command line and the file system: C114 *)
From Coq Require Import ZArith NArith Bool Ascii String Lia List.
Import ListNotations.
From Verif Require Import GoBase GoBaseFacts GoTime Tables Codec Records File Reader Json JsonFile Server SpecFile SpecFiles SpecServer
  Samples FileCases ReaderCases JsonCases ServerCases CommandLine SpecCommand CommandFacts.
Local Open Scope string_scope.
Local Open Scope list_scope.
Local Notation length := List.length.

(* a host with so much room, that loses so much on Close and prints so much *)
Definition a_host (room closes out : option nat) : host :=
  mkHost (lit "/metro.json") (fun _ => true) (byte_reads (S (length (file_text true fixed_file)))) (fun _ => true)
    (fun _ => room) (fun _ => closes) out (fun _ => Some (ErrOther "listen")).
(* its only file *)
Definition a_disk : disk := put (fun _ => None) (lit "/metro.json") (file_text true fixed_file).
(* metro2 convert -g -n --format metro --type packed p *)
Definition a_convert (p : bytes) : line := mkLine (CConvert (lit "metro") (lit "packed") true true) [] [p].
(* metro2 print --format metro *)
Definition a_print : line := mkLine (CPrint (lit "metro") false) [] [].

Lemma a_convert_run : exists t, t <> [] /\ forall room closes out p,
  run 8 plain_host (a_host room closes out) a_disk (a_convert p) = Some (write_file (a_host room closes out) a_disk p t)
  /\ meant plain_host (a_host room closes out) a_disk (a_convert p) t.
Proof.
  destruct commands_case as (_ & _ & (t & E & N) & _). exists t. split; [exact N|]. intros room closes out p.
  unfold run, a_convert. cbn [lnCommand lnArgs lnInput].
  assert (C : create_reader (a_host room closes out) a_disk [] = Some (source_of (file_text true fixed_file))) by reflexivity.
  unfold convert_flags in E. rewrite <- C in E. split; [rewrite E; reflexivity|].
  apply (convert_ends 8 plain_host _ _ _ _ _ _ _ p []) in E. destruct E as [(u & M & [= ->])|[[e E] _]]; [exact M|discriminate E].
Qed.

Lemma a_print_run room closes out :
  run 8 plain_host (a_host room closes out) a_disk a_print = Some (print_out (a_host room closes out) a_disk (file_text false fixed_file)).
Proof.
  destruct commands_case as (E & _). unfold run, a_print. cbn [lnCommand lnArgs lnInput].
  assert (create_reader (a_host room closes out) a_disk [] = Some (source_of (file_text true fixed_file))) as -> by reflexivity.
  unfold print_flags in E. rewrite E. reflexivity.
Qed.

Lemma roomy_host : roomy (a_host None None None).
Proof. split; [intros p; split|]; reflexivity. Qed.

Lemma text_not_empty : file_text true fixed_file <> [].
Proof. assert (negb (match file_text true fixed_file with [] => true | _ => false end) = true) as H by (vm_compute; reflexivity).
  intros E. rewrite E in H. discriminate H. Qed.
Lemma print_not_empty : file_text false fixed_file <> [].
Proof. assert (negb (match file_text false fixed_file with [] => true | _ => false end) = true) as H by (vm_compute; reflexivity).
  intros E. rewrite E in H. discriminate H. Qed.

(* a command that fails exits with status 0 *)
Lemma failure_hidden : exists cpus rt h d l r e, roomy h /\ run cpus rt h d l = Some r /\ raError r = Some e /\ raStatus r = 0%Z.
Proof.
  exists 8%Z, plain_host, (a_host None None None), (fun _ => None), a_print. do 2 eexists. split; [apply roomy_host|].
  split; [reflexivity|]. split; reflexivity.
Qed.

(* a conversion in place that fails destroys the input *)
Lemma input_lost : exists cpus rt h d l r e p c, run cpus rt h d l = Some r /\ raError r = Some e
  /\ input_is h d (lnInput l) c /\ d p = Some c /\ raDisk r p = Some [] /\ c <> [].
Proof.
  destruct a_convert_run as (t & N & R).
  exists 8%Z, plain_host, (a_host (Some 0%nat) None None), a_disk, (a_convert (lit "/metro.json")). do 2 eexists.
  exists (lit "/metro.json"), (file_text true fixed_file).
  split; [apply (R (Some 0%nat) None None (lit "/metro.json"))|]. split; [cbn; destruct t; [elim N; reflexivity|reflexivity]|].
  split; [exists (lit "/metro.json"); split; [left; split; reflexivity|split; reflexivity]|].
  split; [reflexivity|]. split; [reflexivity|apply text_not_empty].
Qed.

(* no error is reported though the output is not there *)
Lemma close_hidden : exists cpus rt h d l r p t, run cpus rt h d l = Some r /\ target l p /\ raError r = None
  /\ meant rt h d l t /\ t <> [] /\ raDisk r p = Some [].
Proof.
  destruct a_convert_run as (t & N & R). destruct (R None (Some 0%nat) None (lit "/out")) as [X M].
  exists 8%Z, plain_host, (a_host None (Some 0%nat) None), a_disk, (a_convert (lit "/out")). eexists. exists (lit "/out"), t.
  split; [exact X|]. split; [constructor|]. split; [unfold write_file; cbn [a_host hoCreates hoRoom hoCloses cut_to finish raError]; rewrite Nat.ltb_irrefl; reflexivity|].
  split; [exact M|]. split; [exact N|reflexivity].
Qed.

Lemma output_hidden : exists cpus rt h d l r t, run cpus rt h d l = Some r /\ (forall p, ~ target l p) /\ raError r = None
  /\ meant rt h d l t /\ t <> [] /\ raOut r = [].
Proof.
  pose proof (a_print_run None None (Some 0%nat)) as X.
  exists 8%Z, plain_host, (a_host None None (Some 0%nat)), a_disk, a_print. eexists. exists (file_text false fixed_file).
  split; [exact X|]. split; [intros p T; inversion T|]. split; [reflexivity|]. split; [|split; [apply print_not_empty|reflexivity]].
  destruct commands_case as (E & _). unfold print_flags in E.
  assert (C : create_reader (a_host None None (Some 0%nat)) a_disk [] = Some (source_of (file_text true fixed_file))) by reflexivity.
  rewrite <- C in E. apply (print_ends 8 plain_host _ _ _ _ _ []) in E.
  destruct E as [(u & M & E)|[[e E] _]]; [injection E as ->; exact M|discriminate E].
Qed.

(* a conversion in place that works *)
Lemma in_place_case : exists r t, run 8 plain_host (a_host None None None) a_disk (a_convert (lit "/metro.json")) = Some r
  /\ raError r = None /\ raDisk r (lit "/metro.json") = Some t /\ meant plain_host (a_host None None None) a_disk (a_convert (lit "/metro.json")) t.
Proof.
  destruct a_convert_run as (t & N & R). destruct (R None None None (lit "/metro.json")) as [X M]. eexists. exists t.
  split; [exact X|]. split; [unfold write_file; cbn [a_host hoCreates hoRoom hoCloses cut_to finish raError]; rewrite Nat.ltb_irrefl; reflexivity|].
  split; [reflexivity|exact M].
Qed.
