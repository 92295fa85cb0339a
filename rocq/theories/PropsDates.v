(* Properties of dates in JSON: C80 *)
From Coq Require Import ZArith NArith Bool Ascii String List Lia.
Import ListNotations.
From Verif Require Import GoBase GoTime GoLayout Json SpecCodec SpecJson SpecDates DateFacts DateCases.
Local Open Scope string_scope.
Local Open Scope Z_scope.
Local Open Scope list_scope.
Local Notation length := List.length.

(* C80: a date in numbers is read by one rule for its notation: the month and the
   day have their places, whatever the numbers are.
   Not so where the year comes last. *)
Theorem C80_refuted : forall zone, ~ exists month_first : bool, forall a b y p q s t, year_last "/" a b y p q s ->
  reads_as zone s t -> t = if month_first then day_of y a b else day_of y b a.
Proof. exact slash_no_rule. Qed.
Print Assumptions C80_refuted.

(* the zeros in front of the numbers exchange month and day *)
Theorem C80_padding : forall zone, exists a b y s s' t t', year_last "-" a b y true true s /\ year_last "-" a b y false false s'
  /\ reads_as zone s t /\ reads_as zone s' t' /\ t <> t'.
Proof. exact padding_matters. Qed.
Print Assumptions C80_padding.

(* with slashes: the month first, or else the day first *)
Theorem C80_slash_partial : forall zone a b y p q s t, year_last "/" a b y p q s ->
  (reads_as zone s t <-> (calendar_date y a b /\ t = day_of y a b)
                         \/ (~ calendar_date y a b /\ calendar_date y b a /\ t = day_of y b a)).
Proof. exact slash_date. Qed.
Print Assumptions C80_slash_partial.

Example C80_slash_case : year_last "/" 12 4 2024 true true (lit "12/04/2024") /\ year_last "/" 13 4 2024 true false (lit "13/4/2024")
  /\ calendar_date 2024 12 4 /\ ~ calendar_date 2024 13 4 /\ calendar_date 2024 4 13.
Proof. exact slash_case. Qed.

(* with dashes: so if both numbers have two digits, and the day first otherwise *)
Theorem C80_dash_partial : forall zone a b y p q s t, year_last "-" a b y p q s ->
  (reads_as zone s t <-> (p && q = true /\ calendar_date y a b /\ t = day_of y a b)
                         \/ (~ (p && q = true /\ calendar_date y a b) /\ calendar_date y b a /\ t = day_of y b a)).
Proof. exact dash_date. Qed.
Print Assumptions C80_dash_partial.

Example C80_dash_case : year_last "-" 3 4 2024 true true (lit "03-04-2024") /\ year_last "-" 3 4 2024 false false (lit "3-4-2024")
  /\ calendar_date 2024 3 4 /\ calendar_date 2024 4 3.
Proof. exact dash_case. Qed.

(* the year first: one rule; with slashes both numbers have two digits *)
Theorem C80_year : forall zone y a b p q s t, year_first "-" y a b p q s ->
  (reads_as zone s t <-> calendar_date y a b /\ t = day_of y a b).
Proof. exact iso_date. Qed.
Print Assumptions C80_year.

Theorem C80_year_slash : forall zone y a b p q s t, year_first "/" y a b p q s ->
  (reads_as zone s t <-> p && q = true /\ calendar_date y a b /\ t = day_of y a b).
Proof. exact iso_slash_date. Qed.
Print Assumptions C80_year_slash.

Example C80_year_case : year_first "-" 2024 2 29 false true (lit "2024-2-29") /\ year_first "/" 2024 2 29 true true (lit "2024/02/29")
  /\ calendar_date 2024 2 29 /\ year_first "-" 2023 2 29 true true (lit "2023-02-29") /\ ~ calendar_date 2023 2 29.
Proof. exact year_case. Qed.

(* with dots, or as eight digits, dates are refused *)
Theorem C80_dots : forall zone a b y p q s t, year_last "." a b y p q s \/ year_first "." y a b p q s -> ~ reads_as zone s t.
Proof. exact dotted_date. Qed.
Print Assumptions C80_dots.

Theorem C80_digits : forall zone z s t, decimal_text 8 z s -> ~ reads_as zone s t.
Proof. exact eight_date. Qed.
Print Assumptions C80_digits.

Example C80_dots_case : year_last "." 31 12 2024 true true (lit "31.12.2024") /\ decimal_text 8 20241231 (lit "20241231").
Proof. exact dots_case. Qed.

(* what is read is always a day of the calendar, the one the numbers can mean *)
Theorem C80_calendar : forall zone sep a b y p q s t, In sep ["/"%char; "-"%char; "."%char] ->
  year_last sep a b y p q s \/ year_first sep y a b p q s -> reads_as zone s t ->
  exists m d, calendar_date y m d /\ t = day_of y m d /\ ((m = a /\ d = b) \/ (m = b /\ d = a)).
Proof. exact numeric_date. Qed.
Print Assumptions C80_calendar.
