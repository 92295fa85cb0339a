(* Matching by derivatives is membership in the language of the expression *)
From Coq Require Import ZArith NArith Bool Ascii String List Lia.
Import ListNotations.
From Verif Require Import GoBase GoBaseFacts Regex Codec.
Local Open Scope Z_scope.
Local Open Scope list_scope.
Local Notation length := List.length.

(* u is in the language of r *)
Inductive lang : re -> bytes -> Prop :=
| LEps : lang REps []
| LChar p c : p c = true -> lang (RChar p) [c]
| LCat a b u v : lang a u -> lang b v -> lang (RCat a b) (u ++ v)
| LAltL a b u : lang a u -> lang (RAlt a b) u
| LAltR a b u : lang b u -> lang (RAlt a b) u
| LStar0 a : lang (RStar a) []
| LStarS a u v : lang a u -> lang (RStar a) v -> lang (RStar a) (u ++ v).

Lemma nullable_lang r : re_nullable r = true <-> lang r [].
Proof.
  split.
  - induction r; cbn; intros H; try discriminate.
    + constructor.
    + apply andb_prop in H as [H1 H2]. apply (LCat _ _ [] []); auto.
    + apply orb_prop in H as [H|H]; [apply LAltL|apply LAltR]; auto.
    + constructor.
  - remember [] as s eqn:E. intros H. induction H; cbn; try discriminate; auto.
    + apply app_eq_nil in E as [-> ->]. rewrite IHlang1, IHlang2; auto.
    + rewrite IHlang; auto.
    + rewrite IHlang; auto. apply orb_true_r.
Qed.

Lemma star_split a : forall s c t, lang (RStar a) s -> s = c :: t ->
  exists u v, t = u ++ v /\ lang a (c :: u) /\ lang (RStar a) v.
Proof.
  intros s c t H. remember (RStar a) as r eqn:E. revert c t. induction H; intros c' t' Es; try discriminate.
  injection E as ->. destruct u as [|x u].
  - apply IHlang2; auto.
  - injection Es as -> <-. eauto.
Qed.

Lemma deriv_lang c r : forall s, lang (deriv c r) s <-> lang r (c :: s).
Proof.
  induction r as [| |p|a IHa b IHb|a IHa b IHb|a IHa]; intros s; cbn.
  - split; intros H; inversion H.
  - split; intros H; inversion H.
  - destruct (p c) eqn:P.
    + split; intros H; inversion H; subst; constructor; auto.
    + split; intros H; inversion H; subst. congruence.
  - assert (lang (RCat (deriv c a) b) s <-> exists u v, s = u ++ v /\ lang a (c :: u) /\ lang b v) as K.
    { split.
      - intros H. inversion H; subst. exists u, v. rewrite <- IHa. auto.
      - intros (u & v & -> & Ha & Hb). constructor; [apply IHa|]; auto. }
    assert (lang (RCat a b) (c :: s) <-> (exists u v, s = u ++ v /\ lang a (c :: u) /\ lang b v) \/ (lang a [] /\ lang b (c :: s))) as K'.
    { split.
      - intros H. inversion H as [| |a' b' u v Ha Hb E1 E2| | | |]; subst. destruct u as [|x u].
        + cbn in E2. subst v. auto.
        + injection E2 as -> <-. left. eauto.
      - intros [(u & v & -> & Ha & Hb)|[Ha Hb]].
        + apply (LCat _ _ (c :: u) v); auto.
        + apply (LCat _ _ [] (c :: s)); auto. }
    rewrite K'. destruct (re_nullable a) eqn:N.
    + apply nullable_lang in N. rewrite <- IHb. split.
      * intros H. inversion H; subst; [left; apply K; assumption|auto].
      * intros [H|[_ H]]; [apply LAltL, K; exact H|apply LAltR; exact H].
    + rewrite K. split; [auto|]. intros [H|[H _]]; [exact H|]. apply nullable_lang in H. congruence.
  - split; intros H; inversion H; subst; (apply LAltL + apply LAltR); (apply IHa + apply IHb); assumption.
  - split.
    + intros H. inversion H; subst. apply (LStarS _ (c :: u) v); [apply IHa|]; auto.
    + intros H. destruct (star_split _ _ _ _ H eq_refl) as (u & v & -> & Ha & Hs).
      constructor; [apply IHa|]; auto.
Qed.

Lemma matches_lang s : forall r, matches r s = true <-> lang r s.
Proof.
  induction s as [|c s IH]; intros r; cbn; [apply nullable_lang|]. rewrite IH. apply deriv_lang.
Qed.

(* ---- every number passes the telephone test ---- *)

Lemma lang_opt_none r : lang (ropt r) [].
Proof. apply LAltL. constructor. Qed.

Lemma lang_digits s : forallb is_digit s = true -> lang (RStar rdigit) s.
Proof.
  induction s as [|c s IH]; intros H; [constructor|]. cbn in H. apply andb_prop in H as [Hc H].
  apply (LStarS _ [c] s); [constructor; exact Hc|auto].
Qed.

Lemma lang_plus_digits s : s <> [] -> forallb is_digit s = true -> lang (rplus rdigit) s.
Proof.
  intros N H. destruct s as [|c s]; [congruence|]. cbn in H. apply andb_prop in H as [Hc H].
  apply (LCat _ _ [c] s); [constructor; exact Hc|apply lang_digits; exact H].
Qed.

Lemma phone_digits sign s : s <> [] -> forallb is_digit s = true -> sign = [] \/ sign = ["-"%char] ->
  lang phone_regex (sign ++ s).
Proof.
  intros N H Hs. unfold phone_regex. apply LCat.
  - destruct Hs as [-> | ->]; [apply lang_opt_none|].
    apply LAltR. apply (LCat _ _ [] ["-"%char]); [apply lang_opt_none|]. apply LAltR. constructor. reflexivity.
  - rewrite <- (app_nil_r s). apply LCat; [|apply lang_opt_none].
    rewrite <- (app_nil_r s). apply LStarS; [|constructor].
    apply (LCat _ _ [] s); [apply lang_opt_none|].
    rewrite <- (app_nil_r s). apply LCat; [apply lang_plus_digits; auto|].
    apply (LCat _ _ [] []); apply lang_opt_none.
Qed.

Lemma phone_any z rn : is_phone_number z rn = None.
Proof.
  unfold is_phone_number.
  assert (lang phone_regex (fmt_0d 10 z)) as H.
  { assert (forall n y, 0 <= y -> repeat zero_char n ++ utoa y <> [] /\ forallb is_digit (repeat zero_char n ++ utoa y) = true) as K.
    { intros n y Hy. split.
      - pose proof (utoa_nonempty y). intros E. apply app_eq_nil in E as [_ E]. rewrite E in *. cbn in *. lia.
      - rewrite forallb_app, forallb_repeat, utoa_digits by (reflexivity || lia). reflexivity. }
    unfold fmt_0d. cbv zeta. destruct (Z.ltb_spec z 0).
    - destruct (K (10 - 1 - length (utoa (- z)))%nat (- z)) as [K1 K2]; [lia|].
      apply (phone_digits ["-"%char]); auto.
    - destruct (K (10 - length (utoa z))%nat z) as [K1 K2]; [lia|].
      apply (phone_digits []); auto. }
  apply matches_lang in H. rewrite H. reflexivity.
Qed.
