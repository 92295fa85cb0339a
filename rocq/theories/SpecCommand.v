(* What the command line is to do to files: C114 *)
From Coq Require Import ZArith NArith Bool Ascii String List.
Import ListNotations.
From Verif Require Import GoBase GoTime Tables Codec Records File Reader Json JsonFile Server SpecServer CommandLine.
Local Open Scope string_scope.
Local Open Scope list_scope.

(* the contents of the input: of the file named, or of the default one *)
Definition input_is (h : host) (d : disk) (i c : bytes) : Prop :=
  exists p, ((i = [] /\ p = hoDefault h) \/ (i <> [] /\ p = i)) /\ d p = Some c /\ hoOpens h p = true.

(* and the Metro 2 file in it *)
Definition reads_file (rt : runtime) (h : host) (d : disk) (i c : bytes) (f : file) : Prop :=
  input_is h d i c /\ new_file_from_reader rt (hoReads h) c = Some (Ok f).

(* the output a command is to give *)
Inductive meant (rt : runtime) (h : host) (d : disk) : line -> bytes -> Prop :=
| meant_web port i a : meant rt h d (mkLine (CWeb port true) i a)
    (list_ascii_of_string "Starting web server on port " ++ port ++ [ascii_of_nat 10; ascii_of_nat 10])
| meant_validator i a c f : reads_file rt h d i c f -> file_validate f = Ok tt ->
    meant rt h d (mkLine CValidator i a) (list_ascii_of_string "the file is valid " ++ [ascii_of_nat 10])
| meant_print format b i a c f o n : reads_file rt h d i c f -> names_form format o -> null_data c f f n ->
    meant rt h d (mkLine (CPrint format b) i a) (convert_text n (list_ascii_of_string "  ") o f b)
| meant_convert format type generate b i p a c f g o n : reads_file rt h d i c f -> names_form format o ->
    converted (generate = true) type f g -> null_data c f g n ->
    meant rt h d (mkLine (CConvert format type generate b) i (p :: a)) (convert_text n (list_ascii_of_string "  ") o g b).

(* the file a command writes *)
Inductive target : line -> bytes -> Prop :=
| target_convert format type generate b i p a : target (mkLine (CConvert format type generate b) i (p :: a)) p.

(* a server that is to go on serving *)
Definition serves (l : line) : Prop := exists port i a, l = mkLine (CWeb port false) i a.

(* writing and printing never stop short *)
Definition roomy (h : host) : Prop := (forall p, hoRoom h p = None /\ hoCloses h p = None) /\ hoOut h = None.

Definition same_disk (d e : disk) : Prop := forall q, d q = e q.

(* a command has done its work: the output is where it belongs, and nothing else has changed *)
Definition delivered (d : disk) (l : line) (t : bytes) (r : ran) : Prop :=
  raError r = None
  /\ ((exists p, target l p /\ raDisk r p = Some t /\ (forall q, q <> p -> raDisk r q = d q) /\ raOut r = [])
      \/ ((forall p, ~ target l p) /\ same_disk (raDisk r) d /\ raOut r = t)).

(* a command has failed and left everything as it was *)
Definition declined (d : disk) (r : ran) : Prop := (exists e, raError r = Some e) /\ same_disk (raDisk r) d /\ raOut r = [].

(* t is a beginning of u *)
Definition begins (t u : bytes) : Prop := exists v, u = t ++ v.
