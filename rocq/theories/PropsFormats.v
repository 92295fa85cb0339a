(* C93: the date formats of utils/time.go *)
From Coq Require Import ZArith NArith Bool Ascii String List.
Import ListNotations.
From Verif Require Import GoBase GoTime GoLayout SpecCodec SpecDates SpecFormats FormatReads FormatWrong.
Local Open Scope string_scope.
Local Open Scope Z_scope.
Local Open Scope list_scope.
Local Notation length := List.length.

(* The notations described are the layouts of the code, in their order. *)
Theorem C93_list : map fst notations = dateFormats.
Proof. exact names_listed. Qed.
Print Assumptions C93_list.
Example C93_list_case : nth_error notations 6 = Some ("02/01/2006", [Day true; Text "/"; Month true; Text "/"; Year]).
Proof. reflexivity. Qed.

(* A date written in one of them is read as that date, whatever white space
   surrounds it and whatever day of the week it names, but for the exceptions of
   [readable].  Without them the claim would be
     forall zone name l abbr t s, In (name, l) notations -> text_of abbr t l s ->
       parse_date_string zone s = Some (meant zone l abbr t)
   which the theorems below refute. *)
Theorem C93_read_partial zone name l abbr t s w1 w2 :
  In (name, l) notations -> readable name l abbr t -> text_of abbr t l s -> white w1 -> white w2 ->
  parse_date_string zone (w1 ++ s ++ w2) = Some (meant zone l abbr t).
Proof. exact (notation_date zone name l abbr t s w1 w2). Qed.
Print Assumptions C93_read_partial.
(* noon, on a day that is not a Tuesday *)
Example C93_read_case :
  let name := "Monday, January 2, 2006 03:04 PM" in
  let l := [Weekday true; Text ", "; MonthName true; Text " "; Day false; Text ", "; Year; Text " "; HalfHour true; Text ":"; Minute true; Text " "; Half Upper] in
  let t := mkTime 2028 5 31 12 7 0 0 None in
  In (name, l) notations /\ readable name l "UTC" t /\ text_of "UTC" t l (lit "Tuesday, May 31, 2028 12:07 PM")
  /\ white [ascii_of_N 9; " "%char].
Proof.
  cbv zeta. split; [apply listed_in; vm_compute; reflexivity|]. split.
  - split; [|split; [|split; [|split]]]; try (cbn; intuition discriminate).
  - split; [show_text false 0 0 0|]. repeat constructor; cbn; tauto.
Qed.

(* The same in JSON, where a tab or a line break would be written as an escape. *)
Theorem C93_json_partial zone name l abbr t s a b :
  In (name, l) notations -> readable name l abbr t -> text_of abbr t l s ->
  reads_as zone (repeat " "%char a ++ s ++ repeat " "%char b) (meant zone l abbr t).
Proof. exact (notation_json zone name l abbr t s a b). Qed.
Print Assumptions C93_json_partial.
(* an abbreviation and an offset *)
Example C93_json_case :
  let name := "Mon, 02 Jan 2006 15:04:05 MST -0700" in
  let l := [Weekday false; Text ", "; Day true; Text " "; MonthName false; Text " "; Year; Text " "; Hour; Text ":"; Minute true; Text ":"; Second true; Fraction; Text " "; Zone; Text " "; Offset Plain] in
  let t := mkTime 2026 3 3 15 4 5 0 (Some (-18000)) in
  In (name, l) notations /\ readable name l "EST" t /\ text_of "EST" t l (lit "Tue, 03 Mar 2026 15:04:05 EST -0500").
Proof.
  cbv zeta. split; [apply listed_in; vm_compute; reflexivity|]. split.
  - split; [|split; [|split; [|split]]]; try (cbn; intuition discriminate).
  - show_text true 5 0 0.
Qed.

(* Where the day stands before the month, a day up to the 12th is read as the month
   and the month as the day. *)
Theorem C93_exchanged zone name l abbr t s w1 w2 :
  In (name, l) notations -> In name ambiguous -> tDay t <= 12 -> (name = "2-1-2006" -> 10 <= tDay t /\ 10 <= tMonth t) ->
  text_of abbr t l s -> white w1 -> white w2 ->
  parse_date_string zone (w1 ++ s ++ w2) = Some (exchanged t).
Proof. exact (exchanged_read zone name l abbr t s w1 w2). Qed.
Print Assumptions C93_exchanged.
Example C93_exchanged_case :
  let name := "02/01/2006 - 15:04" in
  let l := [Day true; Text "/"; Month true; Text "/"; Year; Text " - "; Hour; Text ":"; Minute true] in
  let t := mkTime 2026 4 3 15 4 0 0 None in
  In (name, l) notations /\ In name ambiguous /\ tDay t <= 12 /\ text_of "UTC" t l (lit "03/04/2026 - 15:04") /\ exchanged t <> t.
Proof.
  cbv zeta. split; [apply listed_in; vm_compute; reflexivity|]. split; [cbn; tauto|]. split; [discriminate|]. split; [show_text false 0 0 0|discriminate].
Qed.
Theorem C93_ambiguous_refuted zone : Forall (misread zone) ambiguous.
Proof. exact (ambiguous_misread zone). Qed.
Print Assumptions C93_ambiguous_refuted.

(* Five formats are read as another time or not at all: p.m. is not looked at, 14 and
   -700 stand for themselves, mon too, and the year is missing. *)
Theorem C93_unreadable_refuted zone : Forall (misread zone) unreadable.
Proof. exact (unreadable_misread zone). Qed.
Print Assumptions C93_unreadable_refuted.
(* a wrong time without an error *)
Example C93_unreadable_case zone : parse_date_string zone (lit "March 3, 2026, 3:04 p.m.") = Some (mkTime 2026 3 3 3 4 0 0 None).
Proof. vm_compute. reflexivity. Qed.

(* In four formats an offset below 24 minutes is taken for the name of a zone; no host
   knows a zone of this name. *)
Theorem C93_near_refuted zone : (forall t, zone (lit "+0015") t = t) -> Forall (misread zone) near.
Proof. exact (near_misread zone). Qed.
Print Assumptions C93_near_refuted.
Example C93_near_case : forall t, (fun (_ : bytes) (t : time) => t) (lit "+0015") t = t.
Proof. reflexivity. Qed.

(* Beside the abbreviation UTC an offset does not count. *)
Theorem C93_beside_refuted zone : exists name l t s, In (name, l) notations /\ text_of "UTC" t l s /\ tOff t = Some (-18000)
  /\ parse_date_string zone s = Some (mkTime (tYear t) (tMonth t) (tDay t) (tHour t) (tMin t) (tSec t) (tNsec t) None).
Proof. exact (beside_misread zone). Qed.
Print Assumptions C93_beside_refuted.

(* Neither does an offset of one second west of UTC. *)
Theorem C93_second_refuted zone : exists name l t s, In (name, l) notations /\ text_of "UTC" t l s /\ tOff t = Some (-1)
  /\ parse_date_string zone s = Some (mkTime (tYear t) (tMonth t) (tDay t) (tHour t) (tMin t) (tSec t) (tNsec t) None).
Proof. exact (second_west zone). Qed.
Print Assumptions C93_second_refuted.
