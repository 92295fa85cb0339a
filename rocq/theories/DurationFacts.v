(* What time.ParseDuration makes of a max-age that is no plain number *)
From Coq Require Import ZArith NArith Bool Ascii String List Lia.
Import ListNotations.
From Verif Require Import GoBase GoTime GoLayout Client ClientCache
  SpecCodec SpecSparse SpecFormats SpecCache GoBaseFacts FieldFacts DateCases ClientFacts FormatExec FormatFacts FormatReads CacheFacts.
Local Open Scope string_scope.
Local Open Scope Z_scope.
Local Open Scope list_scope.
Local Notation length := List.length.

Definition starts (p : byte -> bool) (s : bytes) : bool := match s with c :: _ => p c | [] => false end.
Definition number_char (c : byte) : bool := byte_eqb c "." || is_digit c.

(* ---- units ---- *)

Lemma units_same : units = unit_names.
Proof. vm_compute. reflexivity. Qed.

Definition unit_chars (u : bytes) : bool := negb (Nat.eqb (length u) 0) && forallb (fun c => negb (number_char c)) u.
Lemma unit_ok u k : In (u, k) unit_names -> unit_of u = Some k /\ unit_chars u = true /\ 0 < k <= 3600000000000.
Proof.
  intros I. cbn in I. repeat (destruct I as [I|I]; [injection I as <- <-; vm_compute; repeat split; intros; discriminate|]). destruct I.
Qed.
Lemma unit_of_in u k : unit_of u = Some k -> In (u, k) unit_names.
Proof.
  unfold unit_of. rewrite units_same. destruct (find _ unit_names) as [[u' k']|] eqn:F; [|discriminate]. intros [= ->].
  apply find_some in F as [I E]. cbn in E. apply bytes_eqb_eq in E. subst. exact I.
Qed.

Lemma split_unit_app u : forallb (fun c => negb (number_char c)) u = true -> forall r, starts number_char r = true \/ r = [] ->
  split_unit (u ++ r) = (u, r).
Proof.
  induction u as [|c u IH]; intros H r R; cbn [app].
  - destruct R as [R| ->]; [|reflexivity]. destruct r as [|c r]; [reflexivity|]. cbn [split_unit]. unfold starts, number_char in R. rewrite R. reflexivity.
  - cbn [forallb] in H. apply andb_prop in H as [Hc H]. cbn [split_unit]. unfold number_char in Hc. apply negb_true_iff in Hc.
    rewrite Hc, (IH H r R). reflexivity.
Qed.
Lemma split_unit_parts s : forall u t, split_unit s = (u, t) -> s = u ++ t.
Proof.
  induction s as [|c s IH]; intros u t; cbn [split_unit]; [intros [= <- <-]; reflexivity|].
  destruct (byte_eqb c "." || is_digit c); [intros [= <- <-]; reflexivity|].
  destruct (split_unit s) as [u' t'] eqn:E. intros [= <- <-]. cbn [app]. f_equal. apply IH. reflexivity.
Qed.

(* ---- digits ---- *)

Lemma leading_exact s : forall x r, forallb is_digit s = true -> 0 <= x -> starts is_digit r = false ->
  leading_int x (s ++ r) = if dval_acc x s <=? top then Some (dval_acc x s, r) else if x <=? top then None else leading_int x (s ++ r).
Proof.
  induction s as [|c s IH]; intros x r; cbn [forallb dval_acc app].
  - intros _ P R. assert (leading_int x r = Some (x, r)) as ->.
    { destruct r as [|c r]; [reflexivity|]. cbn [leading_int]. unfold starts in R. rewrite R. reflexivity. }
    destruct (x <=? top); reflexivity.
  - intros H P R. apply andb_prop in H as [Hc Hs].
    assert (0 <= digit_val c <= 9) as D by (unfold is_digit in Hc; unfold digit_val; lia).
    pose proof (dval_acc_grows s (10 * x + digit_val c) Hs ltac:(lia)) as G.
    cbn [leading_int]. rewrite Hc. change top with 9223372036854775808. change (9223372036854775808 / 10) with 922337203685477580.
    destruct (922337203685477580 <? x) eqn:A.
    + apply Z.ltb_lt in A. assert (dval_acc (10 * x + digit_val c) s <=? 9223372036854775808 = false) as -> by (apply Z.leb_gt; lia).
      destruct (x <=? 9223372036854775808); reflexivity.
    + apply Z.ltb_ge in A. cbv zeta. replace (x * 10 + digit_val c) with (10 * x + digit_val c) by ring.
      assert (x <=? 9223372036854775808 = true) as -> by (apply Z.leb_le; lia).
      destruct (9223372036854775808 <? 10 * x + digit_val c) eqn:B.
      * apply Z.ltb_lt in B. assert (dval_acc (10 * x + digit_val c) s <=? 9223372036854775808 = false) as -> by (apply Z.leb_gt; lia). reflexivity.
      * apply Z.ltb_ge in B. rewrite (IH (10 * x + digit_val c) r Hs ltac:(lia) R). change top with 9223372036854775808.
        assert (10 * x + digit_val c <=? 9223372036854775808 = true) as -> by (apply Z.leb_le; lia). reflexivity.
Qed.

Lemma leading_number s r : forallb is_digit s = true -> starts is_digit r = false ->
  leading_int 0 (s ++ r) = if dval s <=? top then Some (dval s, r) else None.
Proof.
  intros H R. rewrite (leading_exact s 0 r H ltac:(lia) R). fold (dval s). change (0 <=? top) with true. reflexivity.
Qed.

Lemma leading_parts s : forall x v t, leading_int x s = Some (v, t) -> exists a, s = a ++ t /\ forallb is_digit a = true.
Proof.
  induction s as [|c s IH]; intros x v t; cbn [leading_int]; [intros [= _ <-]; exists []; split; reflexivity|].
  destruct (is_digit c) eqn:Hc; [|intros [= _ <-]; exists []; split; reflexivity].
  destruct (top / 10 <? x); [discriminate|]. cbv zeta. destruct (top <? x * 10 + digit_val c); [discriminate|].
  intros E. destruct (IH _ _ _ E) as (a & -> & A). exists (c :: a). split; [reflexivity|]. cbn [forallb]. rewrite Hc. exact A.
Qed.
Lemma fraction_parts s : forall o x k f n t, leading_fraction o x k s = (f, n, t) -> exists a, s = a ++ t /\ forallb is_digit a = true.
Proof.
  induction s as [|c s IH]; intros o x k f n t; cbn [leading_fraction]; [intros [= _ _ <-]; exists []; split; reflexivity|].
  destruct (is_digit c) eqn:Hc; [|intros [= _ _ <-]; exists []; split; reflexivity]. cbv zeta.
  destruct (o || ((top - 1) / 10 <? x) || (top <? x * 10 + digit_val c)); intros E;
    (destruct (IH _ _ _ _ _ _ E) as (a & -> & A); exists (c :: a); split; [reflexivity|]; cbn [forallb]; rewrite Hc; exact A).
Qed.

Section Parts.
Variable parts : Z -> Z -> Z -> Z.

(* ---- numbers with units ---- *)

(* the end of one turn of the loop: value and scale behind the point are known *)
Definition rest (fuel : nat) (d v f n : Z) (s2 : bytes) : option Z :=
  let (u, s3) := split_unit s2 in
  match u, unit_of u with
  | [], _ | _, None => None
  | _, Some unit =>
      if top / unit <? v then None
      else let w := v * unit + (if 0 <? f then parts f n unit else 0) in
           if top <? w then None
           else let d' := (d + w) mod 2 ^ 64 in
                if top <? d' then None else durations parts fuel d' s3
  end.

Lemma rest_unit fuel d v f n u r k p : In (u, k) unit_names -> starts number_char r = true \/ r = [] ->
  0 <= d <= top -> 0 <= v -> p = (if 0 <? f then parts f n k else 0) -> 0 <= p -> d + (v * k + p) < 2 ^ 64 ->
  rest fuel d v f n (u ++ r) = if d + (v * k + p) <=? top then durations parts fuel (d + (v * k + p)) r else None.
Proof.
  intros I R Pd Pv Ep Pp Small. destruct (unit_ok u k I) as (Uo & Uc & Uk).
  unfold unit_chars in Uc. apply andb_prop in Uc as [Un Uc]. unfold rest. rewrite (split_unit_app u Uc r R).
  destruct u as [|x u]; [discriminate|]. rewrite Uo. cbv zeta. rewrite <- Ep.
  rewrite (Z.mod_small (d + (v * k + p))) by nia.
  destruct (top / k <? v) eqn:Q.
  - apply Z.ltb_lt in Q. assert (d + (v * k + p) <=? top = false) as ->; [|reflexivity]. apply Z.leb_gt.
    pose proof (Z.mul_succ_div_gt top k ltac:(lia)). nia.
  - apply Z.ltb_ge in Q. destruct (top <? v * k + p) eqn:T.
    { apply Z.ltb_lt in T. assert (d + (v * k + p) <=? top = false) as -> by (apply Z.leb_gt; lia). reflexivity. }
    destruct (top <? d + (v * k + p)) eqn:W.
    + apply Z.ltb_lt in W. assert (d + (v * k + p) <=? top = false) as -> by (apply Z.leb_gt; lia). reflexivity.
    + apply Z.ltb_ge in W. assert (d + (v * k + p) <=? top = true) as -> by (apply Z.leb_le; lia). reflexivity.
Qed.

(* one turn *)
Lemma durations_turn fuel d c s : number_char c = true ->
  durations parts (S fuel) d (c :: s)
  = match leading_int 0 (c :: s) with
    | None => None
    | Some (v, s1) =>
        let '(f, k, s2, post) :=
          match s1 with
          | p :: r =>
              if byte_eqb p "." then
                let '(f, k, s2) := leading_fraction false 0 0 r in (f, k, s2, negb (Nat.eqb (length s2) (length r)))
              else (0, 0, s1, false)
          | [] => (0, 0, s1, false)
          end in
        if negb (negb (Nat.eqb (length s1) (length (c :: s)))) && negb post then None else rest fuel d v f k s2
    end.
Proof. unfold number_char. intros N. cbn [durations]. rewrite N. reflexivity. Qed.

Lemma leading_tenths t : forall x n r, forallb is_digit t = true -> 0 <= x < 10 ^ n -> 0 <= n -> n + Z.of_nat (length t) <= 18 ->
  starts is_digit r = false -> leading_fraction false x n (t ++ r) = (dval_acc x t, n + Z.of_nat (length t), r).
Proof.
  induction t as [|c t IH]; intros x n r H P N L R; cbn [app dval_acc length].
  - rewrite Z.add_0_r. destruct r as [|c r]; [reflexivity|]. cbn [leading_fraction]. unfold starts in R. rewrite R. reflexivity.
  - cbn [forallb] in H. apply andb_prop in H as [Hc Ht]. cbn [length] in L.
    assert (0 <= digit_val c <= 9) as D by (unfold is_digit in Hc; unfold digit_val; lia).
    assert (10 ^ n <= 10 ^ 17) as B by (apply Z.pow_le_mono_r; lia). change (10 ^ 17) with 100000000000000000 in B.
    assert (10 ^ (n + 1) = 10 * 10 ^ n) as T by (rewrite Z.pow_add_r by lia; change (10 ^ 1) with 10; ring).
    cbn [leading_fraction]. rewrite Hc. cbv zeta. change ((top - 1) / 10) with 922337203685477580. change top with 9223372036854775808.
    assert (922337203685477580 <? x = false) as -> by (apply Z.ltb_ge; lia).
    assert (9223372036854775808 <? x * 10 + digit_val c = false) as -> by (apply Z.ltb_ge; lia). cbn [orb].
    replace (x * 10 + digit_val c) with (10 * x + digit_val c) by ring. rewrite IH; [|exact Ht|lia|lia|lia|exact R].
    f_equal. f_equal. lia.
Qed.

Lemma decimal_digits w n s : decimal_text w n s -> forallb is_digit s = true /\ dval s = n /\ length s = w.
Proof. intros D. apply decimal_text_spec in D as (L & H & E). auto. Qed.
Lemma dval_nonneg s : forallb is_digit s = true -> 0 <= dval s.
Proof. intros H. apply (dval_acc_grows s 0 H). lia. Qed.

Section Whole.
Variable whole : forall f n k, 0 <= f -> 0 <= n -> 0 <= k -> 0 <= parts f n k.

Lemma unit_head u k r : In (u, k) unit_names ->
  exists x y, u ++ r = x :: y /\ number_char x = false /\ is_digit x = false /\ byte_eqb x "." = false.
Proof.
  intros I. destruct (unit_ok u k I) as (_ & Uc & _). apply andb_prop in Uc as [Un Uc]. destruct u as [|x u]; [discriminate|].
  cbn [forallb] in Uc. apply andb_prop in Uc as [Uc _]. apply negb_true_iff in Uc. exists x, (u ++ r). split; [reflexivity|].
  split; [exact Uc|]. apply orb_false_iff in Uc as [? ?]. auto.
Qed.

Lemma amount_head k z s : amount parts k z s -> exists c t, s = c :: t /\ number_char c = true.
Proof.
  intros [n w x W D|n w x f e t D1 D2 W E].
  - apply decimal_digits in D as (H & _ & L). destruct x as [|c x]; [cbn in L; lia|]. exists c, x. split; [reflexivity|].
    cbn [forallb] in H. apply andb_prop in H as [H _]. unfold number_char. rewrite H. apply orb_true_r.
  - apply decimal_digits in D1 as (H & _ & L). destruct x as [|c x].
    + exists "."%char, t. split; reflexivity.
    + exists c, (x ++ list_ascii_of_string "." ++ t). split; [reflexivity|].
      cbn [forallb] in H. apply andb_prop in H as [H _]. unfold number_char. rewrite H. apply orb_true_r.
Qed.

Lemma amount_nonneg k z s : 0 <= k -> amount parts k z s -> 0 <= z.
Proof.
  intros K [n w x W D|n w x f e t D1 D2 W E].
  - apply decimal_digits in D as (H & <- & L). pose proof (dval_nonneg x H). nia.
  - apply decimal_digits in D1 as (H & <- & L). apply decimal_digits in D2 as (H2 & <- & _). pose proof (dval_nonneg x H).
    pose proof (whole (dval t) (Z.of_nat e) k (dval_nonneg t H2) ltac:(lia) K). destruct (dval t =? 0); nia.
Qed.

Lemma durations_one fuel d z s u r k : amount parts k z s -> In (u, k) unit_names ->
  starts number_char r = true \/ r = [] -> 0 <= d <= top -> d + z < 2 ^ 64 ->
  durations parts (S fuel) d (s ++ u ++ r) = if d + z <=? top then durations parts fuel (d + z) r else None.
Proof.
  intros A I R Pd Small. destruct (amount_head k z s A) as (c & t' & Es & Hc). destruct (unit_ok u k I) as (_ & _ & Uk).
  destruct (unit_head u k r I) as (x & y & Eu & Nx & Dx & Px).
  assert (s ++ u ++ r = c :: (t' ++ u ++ r)) as Et by (rewrite Es; reflexivity).
  rewrite Et, (durations_turn fuel d c _ Hc), <- Et. clear Et Es Hc.
  destruct A as [n w a W D|n w a f e t D1 D2 W E].
  - apply decimal_digits in D as (H & <- & L). pose proof (dval_nonneg a H) as Pa.
    assert (starts is_digit (u ++ r) = false) as Sd by (rewrite Eu; exact Dx).
    rewrite (leading_number a (u ++ r) H Sd). destruct (dval a <=? top) eqn:Lv.
    + rewrite Eu at 1. rewrite Px.
      assert (Nat.eqb (length (u ++ r)) (length (a ++ u ++ r)) = false) as ->.
      { apply Nat.eqb_neq. rewrite (app_length a). lia. }
      cbn [negb andb]. rewrite (rest_unit fuel d (dval a) 0 0 u r k 0 I R Pd Pa eq_refl ltac:(lia)); rewrite Z.add_0_r; [reflexivity|exact Small].
    + apply Z.leb_gt in Lv. assert (d + dval a * k <=? top = false) as -> by (apply Z.leb_gt; nia). reflexivity.
  - apply decimal_digits in D1 as (H & <- & L). apply decimal_digits in D2 as (H2 & <- & L2).
    pose proof (dval_nonneg a H) as Pa. pose proof (dval_nonneg t H2) as Pt.
    rewrite <- !app_assoc. cbn [list_ascii_of_string app].
    rewrite (leading_number a ("."%char :: t ++ u ++ r) H eq_refl).
    assert (0 <= (if dval t =? 0 then 0 else parts (dval t) (Z.of_nat e) k)) as Pp.
    { pose proof (whole (dval t) (Z.of_nat e) k Pt ltac:(lia) ltac:(lia)). destruct (dval t =? 0); lia. }
    destruct (dval a <=? top) eqn:Lv.
    + change (byte_eqb "." ".") with true. cbv iota.
      assert (starts is_digit (u ++ r) = false) as Sd by (rewrite Eu; exact Dx).
      pose proof (leading_tenths t 0 0 (u ++ r) H2 ltac:(change (10 ^ 0) with 1; lia) ltac:(lia) ltac:(lia) Sd) as Lt.
      rewrite Lt. fold (dval t). rewrite Z.add_0_l, L2.
      assert (negb (negb (Nat.eqb (length ("."%char :: t ++ u ++ r)) (length (a ++ "."%char :: t ++ u ++ r))))
        && negb (negb (Nat.eqb (length (u ++ r)) (length (t ++ u ++ r)))) = false) as ->.
      { rewrite !negb_involutive. apply andb_false_iff. rewrite !Nat.eqb_neq. rewrite (app_length a), (app_length t). lia. }
      apply rest_unit; [exact I|exact R|exact Pd|exact Pa| |exact Pp|exact Small].
      destruct (dval t =? 0) eqn:Z0.
      * apply Z.eqb_eq in Z0. rewrite Z0. reflexivity.
      * apply Z.eqb_neq in Z0. assert (0 <? dval t = true) as -> by (apply Z.ltb_lt; lia). reflexivity.
    + apply Z.leb_gt in Lv.
      match goal with |- _ = if ?b then _ else _ => assert (b = false) as -> by (apply Z.leb_gt; nia) end. reflexivity.
Qed.

Lemma spans_shape z s : spans parts z s -> 0 <= z /\ starts number_char s = true /\ (2 <= length s)%nat.
Proof.
  assert (forall z s u k, In (u, k) unit_names -> amount parts k z s ->
    0 <= z /\ (forall r, starts number_char (s ++ u ++ r) = true) /\ (1 <= length s)%nat /\ (1 <= length u)%nat) as One.
  { intros n x u k I A. destruct (unit_ok u k I) as (_ & Uc & Uk).
    apply andb_prop in Uc as [Un _]. apply negb_true_iff, Nat.eqb_neq in Un.
    split; [apply (amount_nonneg k n x); [lia|exact A]|]. destruct (amount_head k n x A) as (c & t & -> & Hc).
    split; [intros r; exact Hc|]. split; [cbn; lia|lia]. }
  intros Sp. induction Sp as [n x u k I A|n x u k total r I A Sp IH].
  - destruct (One n x u k I A) as (P & St & L1 & L2). split; [exact P|]. split; [specialize (St []); rewrite app_nil_r in St; exact St|].
    rewrite app_length. lia.
  - destruct (One n x u k I A) as (P & St & L1 & L2). destruct IH as (P' & _). split; [lia|split; [apply St|rewrite !app_length; lia]].
Qed.

Lemma durations_spans z s : spans parts z s -> forall fuel d, (length s <= fuel)%nat -> 0 <= d <= top -> d + z < 2 ^ 64 ->
  durations parts fuel d s = if d + z <=? top then Some (d + z) else None.
Proof.
  intros Sp. induction Sp as [n x u k I A|n x u k total r I A Sp IH]; intros fuel d F Pd Small;
    destruct (unit_ok u k I) as (_ & _ & Uk); pose proof (amount_nonneg k n x ltac:(lia) A) as Pn;
    destruct (amount_head k n x A) as (c & t & Ec & _); rewrite !app_length in F; assert (1 <= length x)%nat by (rewrite Ec; cbn; lia);
    (destruct fuel as [|fuel]; [lia|]).
  - rewrite <- (app_nil_r u). rewrite (durations_one fuel d n x u [] k A I ltac:(right; reflexivity) Pd Small).
    destruct (d + n <=? top); [|reflexivity]. destruct fuel; reflexivity.
  - destruct (spans_shape total r Sp) as (Pt & St & _).
    rewrite (durations_one fuel d n x u r k A I ltac:(left; exact St) Pd) by lia.
    destruct (d + n <=? top) eqn:Q.
    + apply Z.leb_le in Q. rewrite IH; [rewrite Z.add_assoc; reflexivity|lia|lia|lia].
    + apply Z.leb_gt in Q. assert (d + (n + total) <=? top = false) as -> by (apply Z.leb_gt; lia). reflexivity.
Qed.

Lemma duration_spans z s : signed_spans parts z s -> - 2 ^ 64 < z < 2 ^ 64 ->
  parse_duration parts s = if (- top <=? z) && (z <? top) then Some z else None.
Proof.
  assert (forall z s, spans parts z s -> z < 2 ^ 64 -> durations parts (length s) 0 s = if z <=? top then Some z else None) as Go.
  { intros z' s' Sp Lt. rewrite (durations_spans z' s' Sp (length s') 0 ltac:(lia) ltac:(change top with 9223372036854775808; lia) ltac:(lia)). reflexivity. }
  assert (forall z s, spans parts z s -> bytes_eqb s (lit "0") = false /\ exists c r, s = c :: r /\ number_char c = true) as Sh.
  { intros z' s' Sp. destruct (spans_shape z' s' Sp) as (_ & St & L). destruct s' as [|c [|c' r]]; [cbn in L; lia|cbn in L; lia|].
    split; [apply bytes_eqb_neq; discriminate|]. exists c, (c' :: r). split; [reflexivity|exact St]. }
  assert (forall (c : byte), number_char c = true -> byte_eqb c "-" = false /\ byte_eqb c "+" = false) as Ns.
  { intros c N. split; (destruct (byte_eqb c _) eqn:E; [|reflexivity]); apply byte_eqb_eq in E; subst; discriminate. }
  intros [z' s' Sp|z' s' Sp|z' s' Sp] R; unfold parse_duration; pose proof (spans_shape _ _ Sp) as (Pz & _);
    destruct (Sh _ _ Sp) as (Nz & c & r & E & Nc); destruct (Ns c Nc) as [Nm Np].
  - rewrite E, Nm, Np. rewrite <- E, Nz. rewrite (Go z' s' Sp ltac:(lia)). try rewrite E at 1.
    assert (- top <=? z' = true) as -> by (apply Z.leb_le; change top with 9223372036854775808; lia). cbn [andb].
    destruct (z' <=? top) eqn:A; destruct (z' <? top) eqn:B; destruct (top - 1 <? z') eqn:C; try reflexivity; exfalso;
      rewrite ?Z.leb_le, ?Z.leb_gt, ?Z.ltb_lt, ?Z.ltb_ge in *; lia.
  - cbn [list_ascii_of_string app]. change (byte_eqb "+" "-") with false. change (byte_eqb "+" "+") with true. cbv iota beta.
    rewrite Nz, (Go z' s' Sp ltac:(lia)). rewrite E at 1.
    assert (- top <=? z' = true) as -> by (apply Z.leb_le; change top with 9223372036854775808; lia). cbn [andb].
    destruct (z' <=? top) eqn:A; destruct (z' <? top) eqn:B; destruct (top - 1 <? z') eqn:C; try reflexivity; exfalso;
      rewrite ?Z.leb_le, ?Z.leb_gt, ?Z.ltb_lt, ?Z.ltb_ge in *; lia.
  - cbn [list_ascii_of_string app]. change (byte_eqb "-" "-") with true. cbv iota beta.
    rewrite Nz, (Go z' s' Sp ltac:(lia)). rewrite E at 1.
    assert (- z' <? top = true) as -> by (apply Z.ltb_lt; change top with 9223372036854775808; lia). rewrite andb_true_r.
    destruct (z' <=? top) eqn:A; destruct (- top <=? - z') eqn:B; try reflexivity; exfalso;
      rewrite ?Z.leb_le, ?Z.leb_gt in *; lia.
Qed.

End Whole.

(* ---- whatever is accepted has the form ---- *)

Lemma digits_all a : forallb is_digit a = true -> all_digits a.
Proof.
  intros H. assert (decimal_text (length a) (dval a) a) as D by (apply decimal_ok; rewrite Nat.eqb_refl, H, Z.eqb_refl; reflexivity).
  apply D.
Qed.

Lemma durations_form fuel : forall d s z, durations parts fuel d s = Some z -> s = [] \/ span_form s.
Proof.
  induction fuel as [|fuel IH]; intros d s z; [destruct s; [auto|discriminate]|].
  destruct s as [|c s]; [auto|]. cbn [durations]. destruct (byte_eqb c "." || is_digit c) eqn:Hc; [|discriminate]. cbn [negb].
  destruct (leading_int 0 (c :: s)) as [[v s1]|] eqn:L; [|discriminate].
  destruct (leading_parts _ _ _ _ L) as (a & Ea & A). cbv zeta.
  set (q := match s1 with p :: r => _ | [] => _ end).
  assert (exists f k s2 post, q = (f, k, s2, post)
    /\ (negb (Nat.eqb (length s1) (length (c :: s))) = false -> post = false -> False
        \/ (negb (negb (Nat.eqb (length s1) (length (c :: s)))) && negb post = true))
    /\ (negb (negb (Nat.eqb (length s1) (length (c :: s)))) && negb post = false ->
        exists x, c :: s = x ++ s2 /\ number_form x)) as (f & k & s2 & post & Eq & _ & Nf).
  { unfold q. destruct s1 as [|p r].
    - exists 0, 0, [], false. split; [reflexivity|]. split; [intros -> _; right; reflexivity|]. intros B.
      rewrite andb_true_r in B. apply negb_false_iff, negb_true_iff, Nat.eqb_neq in B. exists a. split; [exact Ea|].
      apply NumberWhole; [apply digits_all; exact A|]. intros ->. apply B. rewrite Ea. reflexivity.
    - destruct (byte_eqb p ".") eqn:P.
      + destruct (leading_fraction false 0 0 r) as [[f k] s2] eqn:F. destruct (fraction_parts _ _ _ _ _ _ _ F) as (b & Eb & B).
        exists f, k, s2, (negb (Nat.eqb (length s2) (length r))). split; [reflexivity|]. split; [intros -> ->; right; reflexivity|].
        intros C. exists (a ++ list_ascii_of_string "." ++ b). apply byte_eqb_eq in P. subst p. split.
        * rewrite Ea, Eb, <- !app_assoc. reflexivity.
        * apply NumberPoint; [apply digits_all; exact A|apply digits_all; exact B|]. intros Z. apply app_eq_nil in Z as [-> ->].
          cbn [app] in Ea, Eb. rewrite Ea in C. rewrite <- Eb in C. rewrite !Nat.eqb_refl in C. discriminate.
      + exists 0, 0, (p :: r), false. split; [reflexivity|]. split; [intros -> _; right; reflexivity|]. intros B.
        rewrite andb_true_r in B. apply negb_false_iff, negb_true_iff, Nat.eqb_neq in B. exists a. split; [exact Ea|].
        apply NumberWhole; [apply digits_all; exact A|]. intros ->. apply B. rewrite Ea. reflexivity. }
  rewrite Eq. destruct (negb (negb (Nat.eqb (length s1) (length (c :: s)))) && negb post) eqn:B; [discriminate|].
  destruct (Nf eq_refl) as (x & Ex & Nx). destruct (split_unit s2) as [u s3] eqn:U. apply split_unit_parts in U.
  destruct u as [|y u]; [discriminate|]. destruct (unit_of (y :: u)) as [unit|] eqn:Un; [|discriminate].
  apply unit_of_in in Un. assert (In (y :: u) (map fst unit_names)) as Iu by (apply (in_map fst _ _ Un)).
  destruct (top / unit <? v); [discriminate|]. destruct (top <? _); [discriminate|]. destruct (top <? _); [discriminate|].
  intros E. right. rewrite Ex, U. destruct (IH _ _ _ E) as [->|Sf].
  - rewrite app_nil_r. apply FormOne; assumption.
  - apply FormMore; assumption.
Qed.

Lemma duration_form s d : parse_duration parts s = Some d ->
  signed_form s \/ s = lit "0" \/ s = lit "+0" \/ s = lit "-0".
Proof.
  unfold parse_duration. destruct s as [|c s]; [discriminate|].
  destruct (byte_eqb c "-") eqn:M; [|destruct (byte_eqb c "+") eqn:P].
  - apply byte_eqb_eq in M. subst. destruct (bytes_eqb s (lit "0")) eqn:Z.
    + apply bytes_eqb_eq in Z. subst. auto.
    + destruct s as [|x s]; [discriminate|]. destruct (durations parts (length (x :: s)) 0 (x :: s)) as [e|] eqn:E; [|discriminate].
      intros _. destruct (durations_form _ _ _ _ E) as [N|F]; [discriminate|]. left. right. exists (x :: s). auto.
  - apply byte_eqb_eq in P. subst. destruct (bytes_eqb s (lit "0")) eqn:Z.
    + apply bytes_eqb_eq in Z. subst. auto.
    + destruct s as [|x s]; [discriminate|]. destruct (durations parts (length (x :: s)) 0 (x :: s)) as [e|] eqn:E; [|discriminate].
      intros _. destruct (durations_form _ _ _ _ E) as [N|F]; [discriminate|]. left. right. exists (x :: s). auto.
  - destruct (bytes_eqb (c :: s) (lit "0")) eqn:Z.
    + apply bytes_eqb_eq in Z. rewrite Z. auto.
    + destruct (durations parts (length (c :: s)) 0 (c :: s)) as [e|] eqn:E; [|discriminate].
      intros _. destruct (durations_form _ _ _ _ E) as [N|F]; [discriminate|]. left. left. exact F.
Qed.

(* ---- CacheExpires ---- *)

Variable zone : bytes -> time -> time.
Variable header : string -> bytes.

Lemma kept_spans (pos : forall f n k, 0 <= f -> 0 <= n -> 0 <= k -> 0 <= parts f n k) abbr t l v z : http_date abbr t (header "Date") -> control_text l (header "Cache-Control") ->
  says_max_age l (Some v) -> signed_spans parts z (v ++ list_ascii_of_string "s") -> -9223372036854775808 <= z <= 9223372036854775807 ->
  cache_expires parts zone header = ExpiresAt (instant (http_time zone abbr t) + z).
Proof.
  intros D C S V R. unfold cache_expires. rewrite (http_read zone abbr t _ D), (control_assigns l _ C), (last_said l _ S).
  change (lit "s") with (list_ascii_of_string "s"). rewrite (duration_spans pos z _ V ltac:(change (2 ^ 64) with 18446744073709551616; lia)).
  change top with 9223372036854775808.
  assert (Z.opp 9223372036854775808 <=? z = true) as -> by (apply Z.leb_le; lia).
  assert (z <? 9223372036854775808 = true) as -> by (apply Z.ltb_lt; lia). reflexivity.
Qed.

Lemma kept_no_form abbr t l v : http_date abbr t (header "Date") -> control_text l (header "Cache-Control") ->
  says_max_age l (Some v) -> ~ signed_form (v ++ list_ascii_of_string "s") ->
  cache_expires parts zone header = ExpiresAt (instant (http_time zone abbr t)).
Proof.
  intros D C S N. unfold cache_expires. rewrite (http_read zone abbr t _ D), (control_assigns l _ C), (last_said l _ S).
  change (lit "s") with (list_ascii_of_string "s"). destruct (parse_duration parts (v ++ list_ascii_of_string "s")) as [d|] eqn:E; [|reflexivity].
  destruct (duration_form _ _ E) as [F|F]; [contradiction|]. exfalso.
  assert (forall x y : byte, forall s, v ++ [x] = s ++ [y] -> x = y) as T.
  { intros x y s Q. apply (f_equal (@rev _)) in Q. rewrite !rev_app_distr in Q. injection Q as Q _. exact Q. }
  destruct F as [F|[F|F]]; [apply (T _ _ []) in F|apply (T _ _ (lit "+")) in F|apply (T _ _ (lit "-")) in F]; discriminate.
Qed.
End Parts.
