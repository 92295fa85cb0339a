(* Facts for C105: when a float64 is written with an exponent *)
From Coq Require Import ZArith NArith Bool Ascii String List Lia.
Import ListNotations.
From Verif Require Import GoBase GoBaseFacts GoTime Json JsonTextFacts JsonFile GoFloat SpecCodec SpecJson FieldFacts SpecNumbers NumberFacts NumberRound NumberText.
Local Open Scope string_scope.
Local Open Scope Z_scope.
Local Open Scope list_scope.
Local Notation length := List.length.

Lemma step_up m m0 u k : m < 2 ^ 53 -> 2 ^ 52 <= m0 -> 0 < u -> 1 <= k -> m * u < m0 * (u * 2 ^ k).
Proof.
  intros M M0 U K. assert (2 <= 2 ^ k) as P by (change 2 with (2 ^ 1) at 1; apply Z.pow_le_mono_r; lia). generalize dependent (2 ^ k). intros w P.
  assert (2 ^ 53 <= m0 * w) by nia. replace (m0 * (u * w)) with (m0 * w * u) by ring. nia.
Qed.

Lemma less_double_ok m e m0 e0 : binary64 m e -> 2 ^ 52 <= m0 < 2 ^ 53 -> -1074 <= e0 ->
  (less_double (m, e) (m0, e0) = true <-> m * 2 ^ (e + 1074) < m0 * 2 ^ (e0 + 1074)).
Proof.
  intros F M0 E0. assert (-1074 <= e /\ m < 2 ^ 53 /\ (-1074 < e -> 2 ^ 52 <= m)) as (E & M & N) by (destruct F; repeat split; try intros; lia). clear F.
  unfold less_double. cbn [fst snd]. destruct (Z.ltb_spec e e0) as [A|A]; cbn [orb].
  - split; [intros _|reflexivity]. replace (e0 + 1074) with (e + 1074 + (e0 - e)) by lia. rewrite (Z.pow_add_r 2 (e + 1074)) by lia. apply step_up; [exact M|lia|apply pow_pos; lia|lia].
  - destruct (Z.eqb_spec e e0) as [->|B]; cbn [andb].
    + rewrite Z.ltb_lt. apply Z.mul_lt_mono_pos_r. apply pow_pos. lia.
    + split; [discriminate|]. intros H. exfalso. apply (Z.lt_asymm _ _ H). replace (e + 1074) with (e0 + 1074 + (e - e0)) by lia. rewrite (Z.pow_add_r 2 (e0 + 1074)) by lia.
      apply step_up; [lia|apply N; lia|apply pow_pos; lia|lia].
Qed.

Lemma small_nearest : nearest 1 (10 ^ 6) (fst small_double) (snd small_double) /\ 2 ^ 52 <= fst small_double < 2 ^ 53 /\ -1074 <= snd small_double.
Proof.
  split; [apply double_nearest; [discriminate|reflexivity|vm_compute; reflexivity]|]. vm_compute. repeat split; discriminate.
Qed.
Lemma large_exact : fst large_double * 2 ^ (snd large_double + 1074) = 10 ^ 21 * 2 ^ 1074 /\ 2 ^ 52 <= fst large_double < 2 ^ 53 /\ -1074 <= snd large_double.
Proof. split; [vm_compute; reflexivity|]. vm_compute. repeat split; discriminate. Qed.

Lemma no_letter s : forallb is_digit s = true -> ~ In "e"%char s.
Proof. intros D I. rewrite forallb_forall in D. discriminate (D _ I). Qed.

Lemma fmt_f_plain s dp : forallb is_digit s = true -> ~ In "e"%char (fmt_f s dp).
Proof.
  intros D. unfold fmt_f. intros I. apply in_app_or in I as [I|I].
  - destruct (0 <? dp); [|destruct I as [I|[]]; discriminate]. apply in_app_or in I as [I|I]; [|apply repeat_spec in I; discriminate].
    apply (no_letter s D). rewrite <- (firstn_skipn (Z.to_nat dp) s). apply in_or_app. now left.
  - destruct (_ <=? _); [destruct I|]. destruct I as [I|I]; [discriminate|]. apply in_app_or in I as [I|I]; [apply repeat_spec in I; discriminate|].
    apply (no_letter s D). rewrite <- (firstn_skipn (Z.to_nat dp) s). apply in_or_app. now right.
Qed.

Lemma fmt_e_letter s dp : In "e"%char (fmt_e s dp).
Proof. unfold fmt_e. apply in_or_app. right. apply in_or_app. right. now left. Qed.

Lemma print_notation m e s : binary64 m e -> print_double m e = Some s ->
  (In "e"%char s <-> 0 < m /\ (m * 2 ^ (e + 1074) < fst small_double * 2 ^ (snd small_double + 1074) \/ 10 ^ 21 * 2 ^ 1074 <= m * 2 ^ (e + 1074))).
Proof.
  intros F. unfold print_double. destruct (m =? 0) eqn:Q.
  - apply Z.eqb_eq in Q. intros [= <-]. split; [intros [H|[]]; discriminate|lia].
  - apply Z.eqb_neq in Q. assert (0 < m) as M by (destruct F; lia).
    destruct (shortest _ _ _ _) as [[c p]|] eqn:S; [|discriminate]. apply shortest_inv in S as [C _]; [|lia].
    destruct small_nearest as (_ & S1 & S2). destruct large_exact as (L0 & L1 & L2). rewrite <- L0. clear L0.
    destruct small_double as [m1 e1], large_double as [m2 e2]. cbn [fst snd] in *.
    pose proof (less_double_ok m e m1 e1 F S1 S2) as A. pose proof (less_double_ok m e m2 e2 F L1 L2) as B.
    destruct (less_double (m, e) (m1, e1)); cbn [orb].
    + intros [= <-]. split; [intros _; split; [exact M|left; now apply A]|intros _; apply fmt_e_letter].
    + destruct (less_double (m, e) (m2, e2)); cbn [negb]; intros [= <-].
      * split; [intros I; contradiction (fmt_f_plain _ _ (strip_digits c C) I)|]. intros (_ & [H|H]).
        -- apply A in H. discriminate.
        -- exfalso. apply Z.le_ngt in H. apply H, B. reflexivity.
      * split; [intros _|intros _; apply fmt_e_letter]. split; [exact M|]. right. apply Z.nlt_ge. intros H. apply B in H. discriminate.
Qed.

Lemma float_notation t neg n d s : amounts t neg n d -> go_float t = Some s ->
  exists m e m0 e0, nearest n d m e /\ nearest 1 (10 ^ 6) m0 e0
    /\ (In "e"%char s <-> 0 < m /\ (m * 2 ^ (e + 1074) < m0 * 2 ^ (e0 + 1074) \/ 10 ^ 21 * 2 ^ 1074 <= m * 2 ^ (e + 1074))).
Proof.
  intros A G. pose proof (amounts_nonneg _ _ _ _ A) as [N D]. rewrite (float_amounts t neg n d A) in G. destruct (to_double n d) as [[m e]|] eqn:X; [|discriminate].
  pose proof (double_nearest n d m e N D X) as R. exists m, e, (fst small_double), (snd small_double). split; [exact R|]. split; [exact (proj1 small_nearest)|].
  destruct (print_double m e) as [s'|] eqn:P; [|discriminate]. injection G as <-. rewrite <- (print_notation m e s' (proj1 R) P).
  destruct neg; [|reflexivity]. split; [intros [H|H]; [discriminate|exact H]|now right].
Qed.

Lemma notation_case : go_float (lit "1e-6") = Some (lit "0.000001") /\ go_float (lit "0.0000009") = Some (lit "9e-7")
  /\ go_float (lit "1e20") = Some (lit "100000000000000000000") /\ go_float (lit "1E21") = Some (lit "1e+21").
Proof. repeat split; vm_compute; reflexivity. Qed.
