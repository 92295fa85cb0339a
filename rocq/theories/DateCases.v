(* Sample dates *)
From Coq Require Import ZArith NArith Bool Ascii String List Lia.
Import ListNotations.
From Verif Require Import GoBase GoBaseFacts GoTime GoLayout Json SpecCodec SpecJson FieldFacts TimeFacts SpecDates DateFacts.
Local Open Scope string_scope.
Local Open Scope Z_scope.
Local Open Scope list_scope.
Local Notation length := List.length.

Lemma decimal_ok w z s : Nat.eqb (length s) w && forallb is_digit s && (dval s =? z) = true -> decimal_text w z s.
Proof.
  intros H. apply andb_true_iff in H as [H V]. apply andb_true_iff in H as [L Dg]. apply decimal_text_spec.
  apply Nat.eqb_eq in L. apply Z.eqb_eq in V. auto.
Qed.
Definition width (p : bool) : nat := if p then 2%nat else 1%nat.
Lemma numeral_ok (p : bool) z s : decimal_text (width p) z s -> numeral p z s.
Proof. destruct p; intros H; now constructor. Qed.
Lemma year_last_ok sep a b y (p q : bool) s1 s2 s3 : decimal_text (width p) a s1 -> decimal_text (width q) b s2 -> decimal_text 4 y s3 ->
  year_last sep a b y p q (s1 ++ [sep] ++ s2 ++ [sep] ++ s3).
Proof. intros. exists s1, s2, s3. split; [reflexivity|]. split; [now apply numeral_ok|]. split; [now apply numeral_ok|assumption]. Qed.
Lemma year_first_ok sep a b y (p q : bool) s1 s2 s3 : decimal_text 4 y s1 -> decimal_text (width p) a s2 -> decimal_text (width q) b s3 ->
  year_first sep y a b p q (s1 ++ [sep] ++ s2 ++ [sep] ++ s3).
Proof. intros. exists s1, s2, s3. split; [reflexivity|]. split; [assumption|]. split; now apply numeral_ok. Qed.
Ltac numbers := apply decimal_ok; vm_compute; reflexivity.
Ltac lasts s1 s2 s3 := refine (year_last_ok _ _ _ _ _ _ (lit s1) (lit s2) (lit s3) _ _ _); numbers.
Ltac firsts s1 s2 s3 := refine (year_first_ok _ _ _ _ _ _ (lit s1) (lit s2) (lit s3) _ _ _); numbers.
Lemma date_ok y m d : 0 <= y < 10000 -> a_date y m d = true -> calendar_date y m d.
Proof. intros. now apply a_date_spec. Qed.
Lemma date_no y m d : 0 <= y < 10000 -> a_date y m d = false -> ~ calendar_date y m d.
Proof. intros H E C. apply a_date_spec in C; [|assumption]. congruence. Qed.
Ltac dates := apply date_ok; [lia|reflexivity].
Ltac nodates := apply date_no; [lia|reflexivity].

Lemma slash_case : year_last "/" 12 4 2024 true true (lit "12/04/2024") /\ year_last "/" 13 4 2024 true false (lit "13/4/2024")
  /\ calendar_date 2024 12 4 /\ ~ calendar_date 2024 13 4 /\ calendar_date 2024 4 13.
Proof. split; [lasts "12" "04" "2024"|]. split; [lasts "13" "4" "2024"|]. split; [dates|]. split; [nodates|dates]. Qed.
Lemma dash_case : year_last "-" 3 4 2024 true true (lit "03-04-2024") /\ year_last "-" 3 4 2024 false false (lit "3-4-2024")
  /\ calendar_date 2024 3 4 /\ calendar_date 2024 4 3.
Proof. split; [lasts "03" "04" "2024"|]. split; [lasts "3" "4" "2024"|]. split; dates. Qed.
Lemma year_case : year_first "-" 2024 2 29 false true (lit "2024-2-29") /\ year_first "/" 2024 2 29 true true (lit "2024/02/29")
  /\ calendar_date 2024 2 29 /\ year_first "-" 2023 2 29 true true (lit "2023-02-29") /\ ~ calendar_date 2023 2 29.
Proof. split; [firsts "2024" "2" "29"|]. split; [firsts "2024" "02" "29"|]. split; [dates|]. split; [firsts "2023" "02" "29"|nodates]. Qed.
Lemma dots_case : year_last "." 31 12 2024 true true (lit "31.12.2024") /\ decimal_text 8 20241231 (lit "20241231").
Proof. split; [lasts "31" "12" "2024"|numbers]. Qed.

Lemma slash_no_rule zone : ~ exists month_first : bool, forall a b y p q s t, year_last "/" a b y p q s ->
  reads_as zone s t -> t = if month_first then day_of y a b else day_of y b a.
Proof.
  intros (m & H). destruct slash_case as (Y1 & Y2 & C1 & C2 & C3).
  pose proof (H _ _ _ _ _ _ _ Y1 (proj2 (slash_date zone _ _ _ _ _ _ _ Y1) (or_introl (conj C1 eq_refl)))) as E1.
  pose proof (H _ _ _ _ _ _ _ Y2 (proj2 (slash_date zone _ _ _ _ _ _ _ Y2) (or_intror (conj C2 (conj C3 eq_refl))))) as E2.
  destruct m; [discriminate E2|discriminate E1].
Qed.
Lemma padding_matters zone : exists a b y s s' t t', year_last "-" a b y true true s /\ year_last "-" a b y false false s'
  /\ reads_as zone s t /\ reads_as zone s' t' /\ t <> t'.
Proof.
  destruct dash_case as (Y1 & Y2 & C1 & C2). exists 3, 4, 2024, (lit "03-04-2024"), (lit "3-4-2024"), (day_of 2024 3 4), (day_of 2024 4 3).
  split; [exact Y1|]. split; [exact Y2|]. split; [apply (dash_date zone _ _ _ _ _ _ _ Y1); auto|].
  split; [apply (dash_date zone _ _ _ _ _ _ _ Y2); right; split; [intros [E _]; discriminate E|auto]|discriminate].
Qed.
