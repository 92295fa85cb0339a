(* Conversions in a row: C115 *)
From Coq Require Import ZArith NArith Bool Ascii String List.
Import ListNotations.
From Verif Require Import GoBase GoTime Tables Codec Records File Reader Json JsonFile Server SpecReader SpecJson SpecFile SpecFiles SpecServer
  Samples FileCases JsonCases ServerCases CommandLine SpecCommand CommandScript SpecScript ScriptFacts CommandCases ScriptCases.
Local Open Scope string_scope.
Local Open Scope list_scope.
Local Notation length := List.length.

(* C115: any number of conversions, each of what the one before has written, in any formats
   and to any files, also in place, leave the file that was there at first, report no error
   and change no other file *)
Theorem C115_chain : forall cpus rt h f steps d i c, orders rt -> steady h -> reads_file rt h d i c f -> passes h f steps ->
  exists d' c', run_script cpus rt h d (conversions i steps) = Some (d', repeat None (length steps))
    /\ reads_file rt h d' (last_path i steps) c' f
    /\ forall q, ~ In q (map step_path steps) -> d' q = d q.
Proof. exact chain. Qed.
Print Assumptions C115_chain.

(* the validator says the same of the first and of the last *)
Theorem C115_validator : forall cpus rt h f steps d i c, orders rt -> steady h -> reads_file rt h d i c f -> passes h f steps ->
  exists d' es, run_script cpus rt h d (conversions i steps) = Some (d', es) /\
    forall a x y, run cpus rt h d (mkLine CValidator i a) = Some x ->
      run cpus rt h d' (mkLine CValidator (last_path i steps) a) = Some y -> raOut x = raOut y /\ (raError x = None <-> raError y = None).
Proof. exact chain_valid. Qed.
Print Assumptions C115_validator.

(* there and back, and then in place *)
Example C115_case : orders plain_host /\ steady long_host
  /\ reads_file plain_host long_host a_file (lit "/in") (file_text true fixed_file) fixed_file
  /\ passes long_host fixed_file [(JsonOutput, true, lit "/a"); (MetroOutput, true, lit "/b"); (JsonOutput, true, lit "/b")].
Proof. exact steps_pass. Qed.

(* and what a conversion of any kind has written is read as the converted file, on any host *)
Theorem C115_reread : forall cpus rt h d format type g b i p a r,
  run cpus rt h d (mkLine (CConvert format type g b) i (p :: a)) = Some r -> raError r = None -> hoCloses h p = None -> p <> [] ->
  exists c f f' o t, reads_file rt h d i c f /\ names_form format o /\ converted (g = true) type f f' /\ raDisk r p = Some t
    /\ forall rt' h', orders rt' -> hoOpens h' p = true -> patient (hoReads h') -> (length t < useful (hoReads h'))%nat ->
         comes_back o f' b -> reads_file rt' h' (raDisk r) p t f'.
Proof. exact reread. Qed.
Print Assumptions C115_reread.

Example C115_reread_case : exists r, run 8 plain_host (a_host None None None) a_disk (a_convert (lit "/metro.json")) = Some r
  /\ raError r = None /\ hoCloses (a_host None None None) (lit "/metro.json") = None /\ comes_back JsonOutput packed_file true.
Proof.
  destruct in_place_case as (r & t & R & E & _). exists r. split; [exact R|]. split; [exact E|]. split; [reflexivity|apply comes_back_case].
Qed.
