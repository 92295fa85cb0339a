(* Examples for conversions in a row: C115 *)
From Coq Require Import ZArith NArith Bool Ascii String Lia List.
Import ListNotations.
From Verif Require Import GoBase GoBaseFacts GoTime Tables Codec Records File Reader Json JsonFile Server SpecReader SpecJson SpecFile SpecFiles SpecServer
  Samples FileCases ReaderCases JsonCases ServerProps ServerCases CommandLine SpecCommand CommandScript SpecScript ScriptFacts.
Local Open Scope string_scope.
Local Open Scope list_scope.
Local Notation length := List.length.

(* reads that last for all of these texts *)
Definition long_reads : list read_event :=
  byte_reads (S (length (file_text true fixed_file)
    + (length (convert_text true (lit "  ") JsonOutput fixed_file true) + length (convert_text false (lit "  ") JsonOutput fixed_file true)))).
Definition long_host : host :=
  mkHost (lit "/metro.json") (fun _ => true) long_reads (fun _ => true) (fun _ => None) (fun _ => None) None (fun _ => None).
Definition a_file : disk := put (fun _ => None) (lit "/in") (file_text true fixed_file).

Lemma long_enough o b n : b = true -> (length (convert_text n (lit "  ") o fixed_file b) < useful long_reads)%nat.
Proof.
  intros ->. unfold long_reads. rewrite byte_reads_useful. destruct o; cbn [convert_text]; [destruct n|]; lia.
Qed.

Lemma steps_pass : orders plain_host /\ steady long_host
  /\ reads_file plain_host long_host a_file (lit "/in") (file_text true fixed_file) fixed_file
  /\ passes long_host fixed_file [(JsonOutput, true, lit "/a"); (MetroOutput, true, lit "/b"); (JsonOutput, true, lit "/b")].
Proof.
  destruct comes_back_case as (M & J & _). split; [apply plain_host_orders|].
  split; [split; [split; [intros p; split; reflexivity|reflexivity]|]; split; [reflexivity|]; split; [reflexivity|apply byte_reads_patient]|].
  split.
  - split; [exists (lit "/in"); split; [right; split; [discriminate|reflexivity]|split; reflexivity]|].
    apply (metro_text_back plain_host fixed_file true (mkSource (file_text true fixed_file) long_reads) M).
    split; [reflexivity|]. split; [apply byte_reads_patient|]. apply (long_enough MetroOutput true true eq_refl).
  - intros o b p I. cbn [In] in I.
    destruct I as [I|[I|[I|[]]]]; injection I as <- <- <-; (split; [discriminate|]; split; [assumption|]; intros n; apply long_enough; reflexivity).
Qed.
