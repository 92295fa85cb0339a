(* The command line and the web server: C116 *)
From Coq Require Import ZArith NArith Bool Ascii String List.
Import ListNotations.
From Verif Require Import GoBase GoTime Tables Codec Records File Reader Json JsonFile Server SpecServer.
Local Open Scope string_scope.
Local Open Scope list_scope.

(* the same input *)
Definition same_input (rq : request) (fg : flags) : Prop := exists src, sent rq src /\ fgInput fg = Some src.
(* the same format, or none on either side *)
Definition same_form (rq : request) (fg : flags) : Prop := forall o, asks_form rq o <-> names_form (fgFormat fg) o.
(* the same wishes about line breaks, trailer and type *)
Definition same_breaks (rq : request) (fg : flags) : Prop := asks_breaks rq (fgNewline fg).
Definition same_change (rq : request) (fg : flags) : Prop :=
  (asks_trailer rq <-> fgGenerate fg = true) /\ rqForm rq "type" = fgType fg.

(* outputs: records are the same; JSON is indented by the command line with two blanks *)
Definition printed_alike (o : output_form) (t u : bytes) : Prop :=
  match o with
  | MetroOutput => t = u
  | JsonOutput => exists j, t = print_indent (list_ascii_of_string "  ") 0 j /\ u = print j ++ [ascii_of_nat 10]
  end.
(* and by convert of the server with a tab *)
Definition converted_alike (o : output_form) (t u : bytes) : Prop :=
  match o with
  | MetroOutput => t = u
  | JsonOutput => exists j, t = print_indent (list_ascii_of_string "  ") 0 j /\ u = print_indent [ascii_of_nat 9] 0 j
  end.

(* an error on both sides *)
Definition both_fail (d : done) (rp : reply) : Prop :=
  (exists e, d = Failed e) /\ exists st h b, rp = Reply st h b /\ (st = 400%Z \/ st = 501%Z).
