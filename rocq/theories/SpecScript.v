(* Conversions in a row: C115 *)
From Coq Require Import ZArith NArith Bool Ascii String List.
Import ListNotations.
From Verif Require Import GoBase GoTime Tables Codec Records File Reader Json JsonFile Server SpecReader SpecServer CommandLine SpecCommand.
Local Open Scope string_scope.
Local Open Scope list_scope.

(* nothing fails *)
Definition steady (h : host) : Prop :=
  roomy h /\ (forall p, hoOpens h p = true) /\ (forall p, hoCreates h p = true) /\ patient (hoReads h).

(* a step: the format, line breaks or not, the file written *)
Definition step : Type := output_form * bool * bytes.
Definition step_path (s : step) : bytes := snd s.

(* each conversion reads what the one before has written; the first reads i *)
Fixpoint conversions (i : bytes) (steps : list step) : list line :=
  match steps with
  | [] => []
  | (o, b, p) :: r => mkLine (CConvert (form_word o) [] false b) i [p] :: conversions p r
  end.

(* the file written last, or i *)
Fixpoint last_path (i : bytes) (steps : list step) : bytes :=
  match steps with [] => i | (_, _, p) :: r => last_path p r end.

(* f can be written and read again in every step *)
Definition passes (h : host) (f : file) (steps : list step) : Prop :=
  forall o b p, In (o, b, p) steps -> p <> [] /\ comes_back o f b
    /\ forall n, (List.length (convert_text n (list_ascii_of_string "  ") o f b) < useful (hoReads h))%nat.
