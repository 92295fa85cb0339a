(* Facts about SpecFormats.v: formats that are read as another date, or not at all *)
From Coq Require Import ZArith NArith Bool Ascii String List Lia.
Import ListNotations.
From Verif Require Import GoBase GoBaseFacts GoTime TimeFacts FieldFacts GoLayout LayoutFacts SpecCodec SpecSparse Check SpecFormats FormatReads.
Local Open Scope string_scope.
Local Open Scope Z_scope.
Local Open Scope list_scope.
Local Notation length := List.length.

(* ---- the parts of a format ---- *)

Definition part_eq_dec (a b : part) : {a = b} + {a <> b}.
Proof. decide equality; try apply string_dec; try apply Bool.bool_dec; decide equality. Defined.
Definition parts_of (name : string) (l : list part) : bool :=
  forallb (fun x => negb (String.eqb (fst x) name) || if list_eq_dec part_eq_dec (snd x) l then true else false) notations.
Lemma parts_of_in name l0 l : parts_of name l0 = true -> In (name, l) notations -> l = l0.
Proof.
  intros H I. unfold parts_of in H. rewrite forallb_forall in H. specialize (H _ I). cbn [fst snd] in H. rewrite String.eqb_refl in H. cbn [negb orb] in H.
  now destruct (list_eq_dec part_eq_dec l l0).
Qed.
Definition listed (name : string) (l : list part) : bool :=
  existsb (fun x => String.eqb (fst x) name && if list_eq_dec part_eq_dec (snd x) l then true else false) notations.
Lemma listed_in name l : listed name l = true -> In (name, l) notations.
Proof.
  intros H. apply existsb_exists in H as ((n & p) & I & E). cbn [fst snd] in E. apply andb_true_iff in E as (E1 & E2). apply String.eqb_eq in E1.
  destruct (list_eq_dec part_eq_dec p l); [|discriminate]. now subst.
Qed.

(* ---- day and month exchanged ---- *)

Lemma written_other abbr t t' l l' s : Forall2 (fun p p' => forall s, part_text abbr t p s -> part_text abbr t' p' s) l l' ->
  written abbr t l s -> written abbr t' l' s.
Proof.
  intros F. revert s. induction F as [|p p' l l' P F IH]; intros s W; inversion W; subst; [constructor|]. constructor; [now apply P|now apply IH].
Qed.
Lemma exchanged_calendar t : calendar_time t -> tDay t <= 12 -> calendar_time (exchanged t).
Proof.
  intros (C & H) L. split; [|exact H]. cbn [exchanged tYear tMonth tDay]. destruct (calendar_date_ranges _ _ _ C) as (Ry & Rm & Rd).
  apply calendar_date_spec. split; [lia|]. split; [lia|]. unfold valid_day. rewrite andb_true_iff, !Z.leb_le. split; [lia|].
  unfold days_in. repeat match goal with |- context [if ?b then _ else _] => destruct b end; lia.
Qed.
Lemma count_two z s : 10 <= z -> count_text false z s -> count_text true z s.
Proof. intros H C. inversion C; subst; [lia|]. now constructor. Qed.

Lemma exchanged_read zone name l abbr t s w1 w2 : In (name, l) notations -> In name ambiguous -> tDay t <= 12 ->
  (name = "2-1-2006" -> 10 <= tDay t /\ 10 <= tMonth t) -> text_of abbr t l s -> white w1 -> white w2 ->
  parse_date_string zone (w1 ++ s ++ w2) = Some (exchanged t).
Proof.
  intros I A L Two (Cal & No & W) W1 W2.
  assert (Main : forall l0 name' l', parts_of name l0 = true -> listed name' l' = true ->
    in_list name' unreadable || in_list name' ambiguous || in_list name' near || tells l' is_zone || tells l' is_offset || tells l0 is_offset = false ->
    (no_more l0 t -> no_more l' (exchanged t)) ->
    Forall2 (fun p p' => forall s, part_text abbr t p s -> part_text abbr (exchanged t) p' s) l0 l' ->
    parse_date_string zone (w1 ++ s ++ w2) = Some (exchanged t)).
  { intros l0 name' l' P Ls Q Nm F. apply (parts_of_in _ _ _ P) in I. subst l. rewrite !orb_false_iff in Q. destruct Q as (((((Q1 & Q2) & Q3) & Q4) & Q5) & Q6).
    assert (To : tOff t = None) by (destruct No as (_ & _ & _ & _ & N5); auto).
    rewrite (notation_date zone name' l' abbr (exchanged t) s w1 w2); [|now apply listed_in| |split; [now apply exchanged_calendar|split; [now apply Nm|exact (written_other _ _ _ _ _ _ F W)]]|assumption|assumption].
    - unfold meant. rewrite Q4. reflexivity.
    - split; [intros X; apply in_list_spec in X; congruence|]. split; [intros X; apply in_list_spec in X; congruence|].
      split; [intros X; apply in_list_spec in X; congruence|]. split; [congruence|]. cbn [exchanged tOff]. rewrite To. discriminate. }
  cbn [ambiguous In] in A.
  destruct A as [<-|[<-|[<-|[<-|[<-|[]]]]]].
  - apply (Main [Day true; Text "-"; Month true; Text "-"; Year] "01-02-2006" [Month true; Text "-"; Day true; Text "-"; Year]); [vm_compute; reflexivity|vm_compute; reflexivity|vm_compute; reflexivity|exact (fun x => x)|].
    repeat (constructor; [intros s' H; exact H|]). constructor.
  - apply (Main [Day true; Text "/"; Month true; Text "/"; Year] "01/02/2006" [Month true; Text "/"; Day true; Text "/"; Year]); [vm_compute; reflexivity|vm_compute; reflexivity|vm_compute; reflexivity|exact (fun x => x)|].
    repeat (constructor; [intros s' H; exact H|]). constructor.
  - apply (Main [Day true; Text "/"; Month true; Text "/"; Year; Text " - "; Hour; Text ":"; Minute true] "01/02/2006 - 15:04" [Month true; Text "/"; Day true; Text "/"; Year; Text " - "; Hour; Text ":"; Minute true]);
      [vm_compute; reflexivity|vm_compute; reflexivity|vm_compute; reflexivity|exact (fun x => x)|].
    repeat (constructor; [intros s' H; exact H|]). constructor.
  - destruct (Two eq_refl) as (T1 & T2).
    apply (Main [Day false; Text "-"; Month false; Text "-"; Year] "01-02-2006" [Month true; Text "-"; Day true; Text "-"; Year]); [vm_compute; reflexivity|vm_compute; reflexivity|vm_compute; reflexivity|exact (fun x => x)|].
    constructor; [intros s' H; exact (count_two _ _ T1 H)|]. constructor; [intros s' H; exact H|]. constructor; [intros s' H; exact (count_two _ _ T2 H)|].
    repeat (constructor; [intros s' H; exact H|]). constructor.
  - apply (Main [Day false; Text "/"; Month false; Text "/"; Year] "1/2/2006" [Month false; Text "/"; Day false; Text "/"; Year]); [vm_compute; reflexivity|vm_compute; reflexivity|vm_compute; reflexivity|exact (fun x => x)|].
    repeat (constructor; [intros s' H; exact H|]). constructor.
Qed.

(* ---- showing that a text is one of a time ---- *)

Lemma one_decimal z : 0 <= z < 10 -> decimal_text 1 z [digit_char z].
Proof.
  intros H. apply decimal_text_spec. split; [reflexivity|]. cbn [forallb]. rewrite is_digit_digit_char by assumption. split; [reflexivity|].
  unfold dval. cbn [dval_acc]. rewrite digit_val_char by assumption. lia.
Qed.
Lemma written_is abbr t l s s' : written abbr t l s' -> s = s' -> written abbr t l s.
Proof. now intros W ->. Qed.
Ltac holds := split; vm_compute; (reflexivity || discriminate).
Ltac show_decimal := first [apply d2_decimal; holds | apply one_decimal; holds | apply d4_decimal; holds].
Ltac show_part :=
  cbn [part_text];
  lazymatch goal with
  | |- exists x, In x weekdays /\ _ => exists "Tuesday"; split; [cbn; tauto|reflexivity]
  | |- exists x, nth_error _ _ = _ /\ _ => eexists; split; [vm_compute; reflexivity|reflexivity]
  | |- count_text true _ _ => apply CountTwo; show_decimal
  | |- count_text false _ _ => first [apply CountOne; [vm_compute; reflexivity|show_decimal] | apply CountLong; [vm_compute; discriminate|show_decimal]]
  | |- decimal_text _ _ _ => show_decimal
  | |- _ <= _ <= _ /\ decimal_text _ _ _ => split; [holds|show_decimal]
  | |- In _ zones /\ _ => split; [cbn; tauto|reflexivity]
  | |- fraction_text _ _ => constructor
  | |- exists off, _ = Some off /\ _ => eexists; split; [reflexivity|]
  | |- _ => try reflexivity
  end.
Ltac show_offset neg h m sec := exists neg, h, m, sec; do 3 eexists; split; [reflexivity|]; split; [holds|]; split; [holds|]; split; [holds|]; split; [show_decimal|]; split; [show_decimal|]; split; [show_decimal|]; split; [reflexivity|]; cbn; auto.
Ltac show_text neg h m sec :=
  split; [apply calendar_timeb_ok; vm_compute; reflexivity|]; split; [unfold no_more; repeat split; vm_compute; (discriminate || reflexivity)|];
  eapply written_is; [repeat (eapply WrittenCons; [show_part; try show_offset neg h m sec|]); apply WrittenNil|vm_compute; reflexivity].

(* ---- witnesses ---- *)

Ltac show_misread l abbr t s neg h m sec :=
  exists l, abbr, t, (lit s); split; [apply listed_in; vm_compute; reflexivity|]; split; [show_text neg h m sec|vm_compute; intros E; discriminate E].

Lemma ambiguous_misread zone : Forall (misread zone) ambiguous.
Proof.
  repeat apply Forall_cons; [| | | | |apply Forall_nil].
  - show_misread [Day true; Text "-"; Month true; Text "-"; Year] "UTC" (mkTime 2026 4 3 0 0 0 0 None) "03-04-2026" false 0 0 0.
  - show_misread [Day true; Text "/"; Month true; Text "/"; Year] "UTC" (mkTime 2026 4 3 0 0 0 0 None) "03/04/2026" false 0 0 0.
  - show_misread [Day true; Text "/"; Month true; Text "/"; Year; Text " - "; Hour; Text ":"; Minute true] "UTC" (mkTime 2026 4 3 15 4 0 0 None) "03/04/2026 - 15:04" false 0 0 0.
  - show_misread [Day false; Text "-"; Month false; Text "-"; Year] "UTC" (mkTime 2026 11 10 0 0 0 0 None) "10-11-2026" false 0 0 0.
  - show_misread [Day false; Text "/"; Month false; Text "/"; Year] "UTC" (mkTime 2026 4 3 0 0 0 0 None) "3/4/2026" false 0 0 0.
Qed.

Lemma unreadable_misread zone : Forall (misread zone) unreadable.
Proof.
  repeat apply Forall_cons; [| | | | |apply Forall_nil].
  - show_misread [MonthName true; Text " "; Day false; Text ", "; Year; Text ", "; HalfHour false; Text ":"; Minute true; Text " "; Half Dots]
      "UTC" (mkTime 2026 3 3 15 4 0 0 None) "March 3, 2026, 3:04 p.m." false 0 0 0.
  - show_misread [Weekday false; Text ","; Day true; Text " "; MonthName true; Text " "; Year; Text " "; Hour; Text ":"; Minute true; Text ":"; Second true; Fraction; Text " "; Zone]
      "UTC" (mkTime 2026 3 3 15 4 5 0 None) "Tue,03 March 2026 15:04:05 UTC" false 0 0 0.
  - show_misread [Weekday false; Text ", "; Day false; Text " "; MonthName false; Text " "; Hour; Text ":"; Minute true; Text ":"; Second true; Fraction; Text " "; Zone]
      "UTC" (mkTime 2026 3 3 15 4 5 0 None) "Tue, 3 Mar 15:04:05 UTC" false 0 0 0.
  - show_misread [Weekday false; Text ","; Day false; Text " "; MonthName false; Text " "; Year; Text " "; Hour; Text ":"; Minute true; Text ":"; Second true; Fraction; Text " "; Zone]
      "UTC" (mkTime 2026 3 3 15 4 5 0 None) "Tue,3 Mar 2026 15:04:05 UTC" false 0 0 0.
  - show_misread [Weekday false; Text ", "; MonthName false; Text " "; Day false; Text " "; Year; Text " "; Hour; Text ":"; Minute true; Text ":"; Second true; Fraction; Text " "; Offset Bare]
      "UTC" (mkTime 2026 3 3 15 4 5 0 (Some (-18000))) "Tue, Mar 3 2026 15:04:05 -500" true 5 0 0.
Qed.

(* the name of a zone that no host knows *)
Lemma near_misread zone : (forall t, zone (lit "+0015") t = t) -> Forall (misread zone) near.
Proof.
  intros Z. assert (R : forall l abbr t s t', tells l is_zone = false -> parse_date_string zone s = Some (zone (lit "+0015") t') -> tOff t' <> tOff t -> parse_date_string zone s <> Some (meant zone l abbr t)).
  { intros l abbr t s t' Tz E Ne. rewrite E, Z. unfold meant. rewrite Tz. cbn [andb]. congruence. }
  repeat apply Forall_cons; [| | | |apply Forall_nil].
  - exists [Weekday false; Text ", "; Day false; Text " "; MonthName false; Text " "; ShortYear; Text " "; Hour; Text ":"; Minute true; Text ":"; Second true; Fraction; Text " "; Offset Plain],
      "UTC", (mkTime 2026 3 10 15 4 5 0 (Some 900)), (lit "Tue, 10 Mar 26 15:04:05 +0015").
    split; [apply listed_in; vm_compute; reflexivity|]. split; [show_text false 0 15 0|]. eapply R; [reflexivity|vm_compute; reflexivity|discriminate].
  - exists [Weekday false; Text ", "; Day false; Text " "; MonthName false; Text " "; Year; Text " "; Hour; Text ":"; Minute true; Text ":"; Second true; Fraction; Offset Plain],
      "UTC", (mkTime 2026 3 10 15 4 5 0 (Some 900)), (lit "Tue, 10 Mar 2026 15:04:05+0015").
    split; [apply listed_in; vm_compute; reflexivity|]. split; [show_text false 0 15 0|]. eapply R; [reflexivity|vm_compute; reflexivity|discriminate].
  - exists [Weekday false; Text ", "; Day false; Text " "; MonthName false; Text " "; Year; Text " "; HalfHour false; Text ":"; Minute true; Text ":"; Second true; Fraction; Text " "; Half Upper; Text " "; Offset Plain],
      "UTC", (mkTime 2026 3 10 15 4 5 0 (Some 900)), (lit "Tue, 10 Mar 2026 3:04:05 PM +0015").
    split; [apply listed_in; vm_compute; reflexivity|]. split; [show_text false 0 15 0|]. eapply R; [reflexivity|vm_compute; reflexivity|discriminate].
  - exists [Day true; Text " "; MonthName false; Text " "; ShortYear; Text " "; Hour; Text ":"; Minute true; Text " "; Offset Plain],
      "UTC", (mkTime 2026 3 10 15 4 0 0 (Some 900)), (lit "10 Mar 26 15:04 +0015").
    split; [apply listed_in; vm_compute; reflexivity|]. split; [show_text false 0 15 0|]. eapply R; [reflexivity|vm_compute; reflexivity|discriminate].
Qed.

(* an offset beside UTC *)
Lemma beside_misread zone : exists name l t s, In (name, l) notations /\ text_of "UTC" t l s /\ tOff t = Some (-18000)
  /\ parse_date_string zone s = Some (mkTime (tYear t) (tMonth t) (tDay t) (tHour t) (tMin t) (tSec t) (tNsec t) None).
Proof.
  exists "Mon, 2 Jan 2006 15:04:05 -0700 MST", [Weekday false; Text ", "; Day false; Text " "; MonthName false; Text " "; Year; Text " "; Hour; Text ":"; Minute true; Text ":"; Second true; Fraction; Text " "; Offset Plain; Text " "; Zone],
    (mkTime 2026 3 3 15 4 5 0 (Some (-18000))), (lit "Tue, 3 Mar 2026 15:04:05 -0500 UTC").
  split; [apply listed_in; vm_compute; reflexivity|]. split; [show_text true 5 0 0|]. split; [reflexivity|vm_compute; reflexivity].
Qed.

(* one second west of UTC *)
Lemma second_west zone : exists name l t s, In (name, l) notations /\ text_of "UTC" t l s /\ tOff t = Some (-1)
  /\ parse_date_string zone s = Some (mkTime (tYear t) (tMonth t) (tDay t) (tHour t) (tMin t) (tSec t) (tNsec t) None).
Proof.
  exists "2006-01-02T15:04:05-07:00:00", [Year; Text "-"; Month true; Text "-"; Day true; Text "T"; Hour; Text ":"; Minute true; Text ":"; Second true; Fraction; Offset ColonSeconds],
    (mkTime 2026 3 3 15 4 5 0 (Some (-1))), (lit "2026-03-03T15:04:05-00:00:01").
  split; [apply listed_in; vm_compute; reflexivity|]. split; [show_text true 0 0 1|]. split; [reflexivity|vm_compute; reflexivity].
Qed.
