(* The texts Json.v accepts are those of the grammar *)
From Coq Require Import ZArith NArith Bool Ascii String List Lia.
Import ListNotations.
From Verif Require Import GoBase GoBaseFacts GoTime TimeFacts GoLayout Json Tables Codec Records File JsonFile SpecCodec SpecJson JsonTextFacts.
Local Open Scope string_scope.
Local Open Scope Z_scope.
Local Open Scope list_scope.
Local Notation length := List.length.

(* ---- strings ---- *)

Lemma byte_code c d : byte_eqb c d = true -> c = d.
Proof. apply byte_eqb_eq. Qed.

Lemma bval_byte c : c = chr (bval c).
Proof. unfold chr, bval. rewrite N2Z.id. symmetry. apply ascii_N_embedding. Qed.

Lemma plain_any c : 32 <= bval c -> byte_eqb c quote_char = false -> byte_eqb c backslash = false -> any_char [c].
Proof.
  intros L Q B. apply byte_eqb_neq in Q, B. apply AnyPlain; rewrite code_bval; [exact L| |].
  - intros E. apply Q. rewrite (bval_byte c), E. reflexivity.
  - intros E. apply B. rewrite (bval_byte c), E. reflexivity.
Qed.

Lemma high_any c : 128 <= bval c -> any_char [c].
Proof. intros H. apply AnyPlain; rewrite code_bval; lia. Qed.

Lemma hex_val_digit c v : hex_val c = Some v -> hex_digit v c.
Proof.
  unfold hex_val, hex_digit. change (code c) with (bval c). destruct (is_digit c) eqn:D.
  - apply is_digit_spec in D. intros [= <-]. unfold digit_val. lia.
  - unfold in_range. destruct (Z.leb_spec 97 (bval c)), (Z.leb_spec (bval c) 102); cbn [andb]; try (intros [= <-]; lia);
    destruct (Z.leb_spec 65 (bval c)), (Z.leb_spec (bval c) 70); cbn [andb]; try (intros [= <-]; lia); discriminate.
Qed.

Lemma hex4_digits a b c d z : hex4 a b c d = Some z -> four_digits z [a; b; c; d].
Proof.
  unfold hex4. destruct (hex_val a) as [x|] eqn:A; [|discriminate]. destruct (hex_val b) as [y|] eqn:B; [|discriminate].
  destruct (hex_val c) as [u|] eqn:C; [|discriminate]. destruct (hex_val d) as [v|] eqn:D; [|discriminate]. intros [= <-].
  exists x, y, u, v, a, b, c, d. repeat (split; [now apply hex_val_digit|]). split; [ring|reflexivity].
Qed.

Lemma put_some w r t rest : put w r = Some (t, rest) -> exists t', r = Some (t', rest).
Proof. destruct r as [[t' rest']|]; [|discriminate]. intros [= <- <-]. eauto. Qed.

Lemma width_high c s n : rune_width (c :: s) = S (S n) -> 128 <= bval c.
Proof.
  unfold rune_width. unfold in_range at 1. pose proof (bval_range c).
  destruct (Z.leb_spec 0 (bval c)), (Z.leb_spec (bval c) 127); cbn [andb]; try discriminate; lia.
Qed.

Lemma in_range_high lo hi c : in_range lo hi c = true -> lo <= bval c <= hi.
Proof. unfold in_range. rewrite andb_true_iff, !Z.leb_le. auto. Qed.

Lemma width_two c s : rune_width (c :: s) = 2%nat -> exists c1 r, s = c1 :: r /\ 128 <= bval c1.
Proof.
  unfold rune_width. destruct (in_range 0 127 c); [discriminate|]. destruct (in_range 194 223 c).
  - destruct s as [|c1 r]; [discriminate|]. destruct (in_range 128 191 c1) eqn:E; [|discriminate]. apply in_range_high in E. eauto with zarith.
  - destruct (in_range 224 239 c).
    { destruct s as [|c1 [|c2 r]]; try discriminate. destruct (_ && _); discriminate. }
    destruct (in_range 240 244 c); [|discriminate]. destruct s as [|c1 [|c2 [|c3 r]]]; try discriminate. destruct (_ && _); discriminate.
Qed.
Lemma width_three c s : rune_width (c :: s) = 3%nat -> exists c1 c2 r, s = c1 :: c2 :: r /\ 128 <= bval c1 /\ 128 <= bval c2.
Proof.
  unfold rune_width. destruct (in_range 0 127 c); [discriminate|]. destruct (in_range 194 223 c).
  { destruct s as [|c1 r]; [discriminate|]. destruct (in_range 128 191 c1); discriminate. }
  destruct (in_range 224 239 c).
  - destruct s as [|c1 [|c2 r]]; try discriminate. destruct (in_range _ _ c1) eqn:E1; [|discriminate].
    destruct (in_range 128 191 c2) eqn:E2; [|discriminate]. intros _. apply in_range_high in E1, E2. exists c1, c2, r.
    split; [reflexivity|]. destruct (bval c =? 224); lia.
  - destruct (in_range 240 244 c); [|discriminate]. destruct s as [|c1 [|c2 [|c3 r]]]; try discriminate. destruct (_ && _); discriminate.
Qed.
Lemma width_four c s : rune_width (c :: s) = 4%nat ->
  exists c1 c2 c3 r, s = c1 :: c2 :: c3 :: r /\ 128 <= bval c1 /\ 128 <= bval c2 /\ 128 <= bval c3.
Proof.
  unfold rune_width. destruct (in_range 0 127 c); [discriminate|]. destruct (in_range 194 223 c).
  { destruct s as [|c1 r]; [discriminate|]. destruct (in_range 128 191 c1); discriminate. }
  destruct (in_range 224 239 c).
  { destruct s as [|c1 [|c2 r]]; try discriminate. destruct (_ && _); discriminate. }
  destruct (in_range 240 244 c); [|discriminate]. destruct s as [|c1 [|c2 [|c3 r]]]; try discriminate.
  destruct (in_range _ _ c1) eqn:E1; [|discriminate].
  destruct (in_range 128 191 c2) eqn:E2; [|discriminate]. destruct (in_range 128 191 c3) eqn:E3; [|discriminate].
  intros _. apply in_range_high in E1, E2, E3. exists c1, c2, c3, r. split; [reflexivity|]. destruct (bval c =? 240); lia.
Qed.
Lemma width_cases s : (rune_width s <= 4)%nat.
Proof.
  unfold rune_width. repeat match goal with |- context [if ?b then _ else _] => destruct b | |- context [match ?l with [] => _ | _ :: _ => _ end] => destruct l end; lia.
Qed.

(* a byte outside ASCII: it is read alone or with bytes outside ASCII after it *)
Lemma high_step c s : 128 <= bval c -> exists r w l, s = List.concat l ++ r /\ Forall (fun x => exists d, x = [d] /\ 128 <= bval d) l
  /\ read_chars (c :: s) = put w (read_chars r).
Proof.
  intros H. rewrite plain_first by assumption. destruct (rune_width (c :: s)) as [|[|[|[|[|n]]]]] eqn:E.
  - exists s, replacement, []. split; [reflexivity|]. split; [constructor|]. reflexivity.
  - exists s, replacement, []. split; [reflexivity|]. split; [constructor|]. reflexivity.
  - destruct (width_two c s E) as (c1 & r & -> & H1). exists r, [c; c1], [[c1]]. split; [reflexivity|].
    split; [constructor; [eauto|constructor]|reflexivity].
  - destruct (width_three c s E) as (c1 & c2 & r & -> & H1 & H2). exists r, [c; c1; c2], [[c1]; [c2]]. split; [reflexivity|].
    split; [repeat (constructor; [eauto|]); constructor|reflexivity].
  - destruct (width_four c s E) as (c1 & c2 & c3 & r & -> & H1 & H2 & H3). exists r, [c; c1; c2; c3], [[c1]; [c2]; [c3]]. split; [reflexivity|].
    split; [repeat (constructor; [eauto|]); constructor|reflexivity].
  - pose proof (width_cases (c :: s)). lia.
Qed.

(* any other character *)
Lemma low_step c s : bval c < 128 -> byte_eqb c quote_char = false -> byte_eqb c backslash = false ->
  read_chars (c :: s) = if bval c <? 32 then None else put [c] (read_chars s).
Proof.
  intros H Q B. cbn [read_chars]. rewrite Q, B. destruct (bval c <? 32); [reflexivity|].
  assert (in_range 0 127 c = true) as -> by (pose proof (bval_range c); unfold in_range; apply andb_true_intro; split; apply Z.leb_le; lia).
  reflexivity.
Qed.

Definition short_letter (e : byte) : option byte :=
  if byte_eqb e quote_char || byte_eqb e backslash || byte_eqb e slash then Some e
  else if byte_eqb e "b" then Some (ascii_of_N 8)
  else if byte_eqb e "f" then Some (ascii_of_N 12)
  else if byte_eqb e "n" then Some (ascii_of_N 10)
  else if byte_eqb e "r" then Some (ascii_of_N 13)
  else if byte_eqb e "t" then Some (ascii_of_N 9)
  else None.

Lemma short_letter_some e x : short_letter e = Some x -> any_char [backslash; e].
Proof.
  unfold short_letter. intros H.
  assert (exists z, In (z, e) short_escapes) as [z I]; [|exact (AnyShort z e I)].
  destruct (byte_eqb e quote_char) eqn:E; [apply byte_code in E as ->; eexists; now left|].
  destruct (byte_eqb e backslash) eqn:E1; [apply byte_code in E1 as ->; eexists; right; now left|].
  destruct (byte_eqb e slash) eqn:E2; [apply byte_code in E2 as ->; eexists; do 2 right; now left|]. cbn [orb] in H.
  destruct (byte_eqb e "b") eqn:E3; [apply byte_code in E3 as ->; eexists; do 3 right; now left|].
  destruct (byte_eqb e "f") eqn:E4; [apply byte_code in E4 as ->; eexists; do 4 right; now left|].
  destruct (byte_eqb e "n") eqn:E5; [apply byte_code in E5 as ->; eexists; do 5 right; now left|].
  destruct (byte_eqb e "r") eqn:E6; [apply byte_code in E6 as ->; eexists; do 6 right; now left|].
  destruct (byte_eqb e "t") eqn:E7; [apply byte_code in E7 as ->; eexists; do 7 right; now left|]. discriminate.
Qed.

Lemma short_escape_letter z e : In (z, e) short_escapes -> exists x, short_letter e = Some x.
Proof.
  unfold short_escapes. cbn [In]. intros I.
  repeat (destruct I as [X|I]; [injection X as <- <-; eexists; reflexivity|]). destruct I.
Qed.

(* after a backslash *)
Lemma escape_step e s : read_chars (backslash :: e :: s) =
  match short_letter e with
  | Some x => put [x] (read_chars s)
  | None =>
      if byte_eqb e "u" then read_chars (backslash :: "u"%char :: s) else None
  end.
Proof.
  unfold short_letter. destruct (byte_eqb e "u") eqn:U.
  - apply byte_code in U as ->. reflexivity.
  - cbn [read_chars]. change (byte_eqb backslash quote_char) with false. change (byte_eqb backslash backslash) with true. cbv iota.
    rewrite U. repeat match goal with |- context [if ?b then _ else _] => destruct b end; reflexivity.
Qed.

Lemma unit_needs_digits s t rest : read_chars (backslash :: "u"%char :: s) = Some (t, rest) ->
  exists a b c d r, s = a :: b :: c :: d :: r.
Proof. destruct s as [|a [|b [|c [|d r]]]]; try discriminate. intros _. eauto 10. Qed.

(* what has been read is a string of the grammar *)
Lemma read_chars_any n : forall s t rest, (length s <= n)%nat -> read_chars s = Some (t, rest) ->
  exists l, Forall any_char l /\ s = List.concat l ++ quote_char :: rest.
Proof.
  induction n as [|n IH]; intros s t rest Ln R.
  { destruct s; [discriminate R|cbn in Ln; lia]. }
  destruct s as [|c s]; [discriminate R|]. cbn [length] in Ln.
  destruct (byte_eqb c quote_char) eqn:Q.
  { cbn [read_chars] in R. rewrite Q in R. injection R as <- <-. apply byte_code in Q as ->. exists []. split; [constructor|reflexivity]. }
  destruct (byte_eqb c backslash) eqn:B.
  - apply byte_code in B as ->. destruct s as [|e s]; [discriminate R|]. rewrite escape_step in R. cbn [length] in Ln.
    destruct (short_letter e) as [x|] eqn:S.
    + apply put_some in R as (t' & R). destruct (IH s t' rest ltac:(lia) R) as (l & F & ->).
      exists ([backslash; e] :: l). split; [constructor; [exact (short_letter_some e x S)|exact F]|reflexivity].
    + destruct (byte_eqb e "u") eqn:U; [|discriminate R]. apply byte_code in U as ->.
      destruct (unit_needs_digits s t rest R) as (h1 & h2 & h3 & h4 & r & ->). rewrite read_unit in R. cbn [length] in Ln.
      destruct (hex4 h1 h2 h3 h4) as [z|] eqn:Z; [|discriminate R]. apply hex4_digits in Z.
      assert (K : forall t', read_chars r = Some (t', rest) -> exists l, Forall any_char l /\
        backslash :: "u"%char :: h1 :: h2 :: h3 :: h4 :: r = List.concat l ++ quote_char :: rest).
      { intros t' R'. destruct (IH r t' rest ltac:(lia) R') as (l & F & ->).
        exists ((backslash :: "u"%char :: [h1; h2; h3; h4]) :: l). split; [constructor; [exact (AnyUnicode z _ Z)|exact F]|reflexivity]. }
      destruct (is_high z); [|apply put_some in R as (t' & R); exact (K t' R)].
      destruct r as [|x [|u [|l1 [|l2 [|l3 [|l4 r3]]]]]]; try (apply put_some in R as (t' & R); exact (K t' R)).
      destruct (byte_eqb x backslash && byte_eqb u "u") eqn:X; [|apply put_some in R as (t' & R); exact (K t' R)].
      destruct (hex4 l1 l2 l3 l4) as [y|] eqn:Y; [|discriminate R].
      destruct (is_low y); [|apply put_some in R as (t' & R); exact (K t' R)].
      apply andb_prop in X as [X U']. apply byte_code in X as ->. apply byte_code in U' as ->. apply hex4_digits in Y.
      apply put_some in R as (t' & R). cbn [length] in Ln. destruct (IH r3 t' rest ltac:(lia) R) as (l & F & ->).
      exists ((backslash :: "u"%char :: [h1; h2; h3; h4]) :: (backslash :: "u"%char :: [l1; l2; l3; l4]) :: l).
      split; [constructor; [exact (AnyUnicode z _ Z)|constructor; [exact (AnyUnicode y _ Y)|exact F]]|reflexivity].
  - destruct (Z.ltb_spec (bval c) 128) as [L|H].
    + rewrite low_step in R by assumption. destruct (Z.ltb_spec (bval c) 32); [discriminate R|].
      apply put_some in R as (t' & R). destruct (IH s t' rest ltac:(lia) R) as (l & F & ->).
      exists ([c] :: l). split; [constructor; [now apply plain_any|exact F]|reflexivity].
    + destruct (high_step c s H) as (r & w & hs & E & Fh & St). rewrite St in R. apply put_some in R as (t' & R).
      assert (length r <= n)%nat as Lr by (rewrite E, app_length in Ln; lia).
      destruct (IH r t' rest Lr R) as (l & F & ->).
      exists ([c] :: hs ++ l). split; [|rewrite E; cbn [List.concat app]; now rewrite concat_app, <- app_assoc].
      constructor; [now apply high_any|]. apply Forall_app. split; [|exact F].
      eapply Forall_impl; [|exact Fh]. intros x (d & -> & Hd). now apply high_any.
Qed.

(* every string of the grammar is read *)

Lemma high_peel hs : forall l r rest, Forall (fun x => exists d, x = [d] /\ 128 <= bval d) hs -> Forall any_char l ->
  List.concat l ++ quote_char :: rest = List.concat hs ++ r ->
  exists l', Forall any_char l' /\ r = List.concat l' ++ quote_char :: rest /\ (length l' <= length l)%nat.
Proof.
  induction hs as [|x hs IH]; intros l r rest Fh F E; cbn [List.concat app] in E.
  { exists l. split; [exact F|]. split; [symmetry; exact E|lia]. }
  inversion Fh as [|? ? (d & -> & Hd) Fh']; subst. cbn [app] in E.
  destruct l as [|y l].
  { cbn [List.concat app] in E. injection E as <- _. vm_compute in Hd. congruence. }
  inversion F as [|? ? Y F']; subst. cbn [List.concat] in E.
  assert (y = [d]) as ->.
  { destruct Y as [c H1 H2 H3|z e I|z t T]; cbn [app] in E; injection E as <- E.
    - reflexivity.
    - vm_compute in Hd. congruence.
    - vm_compute in Hd. congruence. }
  cbn [app] in E. injection E as E. destruct (IH l r rest Fh' F' E) as (l' & A & B & C). exists l'. split; [exact A|]. split; [exact B|cbn; lia].
Qed.

Lemma any_chars_read n : forall l rest, (length l <= n)%nat -> Forall any_char l ->
  exists t, read_chars (List.concat l ++ quote_char :: rest) = Some (t, rest).
Proof.
  induction n as [|n IH]; intros l rest Ln F.
  { destruct l; [eexists; reflexivity|cbn in Ln; lia]. }
  destruct F as [|x l X F]; [eexists; reflexivity|]. cbn [length] in Ln. cbn [List.concat].
  destruct X as [c H1 H2 H3|z e I|z q T].
  - rewrite code_bval in H1, H2, H3. cbn [app].
    assert (byte_eqb c quote_char = false) as Q by (apply byte_eqb_neq; intros ->; vm_compute in H2; congruence).
    assert (byte_eqb c backslash = false) as B by (apply byte_eqb_neq; intros ->; vm_compute in H3; congruence).
    destruct (Z.ltb_spec (bval c) 128) as [L|H].
    + rewrite low_step by assumption. destruct (Z.ltb_spec (bval c) 32); [lia|].
      destruct (IH l rest ltac:(lia) F) as (t & ->). eexists. reflexivity.
    + destruct (high_step c (List.concat l ++ quote_char :: rest) H) as (r & w & hs & E & Fh & ->).
      destruct (high_peel hs l r rest Fh F E) as (l' & F' & -> & L').
      destruct (IH l' rest ltac:(lia) F') as (t & ->). eexists. reflexivity.
  - change (chr 92) with backslash. cbn [app]. rewrite escape_step. destruct (short_escape_letter z e I) as (x & ->).
    destruct (IH l rest ltac:(lia) F) as (t & ->). eexists. reflexivity.
  - change (chr 92) with backslash. destruct (four_digits_val z q T) as (a & b & c & d & -> & V & R). cbn [app]. rewrite read_unit, V.
    destruct (IH l rest ltac:(lia) F) as (t & Rt).
    destruct (is_high z); [|rewrite Rt; eexists; reflexivity].
    destruct (List.concat l ++ quote_char :: rest) as [|x [|u [|l1 [|l2 [|l3 [|l4 r3]]]]]] eqn:E; try (rewrite Rt; eexists; reflexivity).
    destruct (byte_eqb x backslash && byte_eqb u "u") eqn:Xu; [|rewrite Rt; eexists; reflexivity].
    apply andb_prop in Xu as [X U]. apply byte_code in X as ->. apply byte_code in U as ->.
    destruct F as [|y l Y F]; [discriminate E|]. cbn [List.concat] in E. cbn [length] in Ln.
    destruct Y as [c' H1 H2 H3|z' e I|z' q T'].
    + rewrite code_bval in H3. cbn [app] in E. injection E as -> _. exfalso. apply H3. reflexivity.
    + cbn [app] in E. injection E as -> _. exfalso. clear - I. unfold short_escapes in I. cbn [In] in I.
      repeat (destruct I as [X|I]; [discriminate X|]). exact I.
    + destruct (four_digits_val z' q T') as (a' & b' & c' & d' & -> & V' & R'). cbn [app] in E. injection E as -> -> -> -> E.
      rewrite V'. destruct (is_low z').
      * destruct (IH l rest ltac:(lia) F) as (t' & Rt'). rewrite <- E, Rt'. eexists. reflexivity.
      * rewrite Rt. eexists. reflexivity.
Qed.

Lemma any_string_read q rest : any_string q -> exists t r, q ++ rest = quote_char :: r /\ read_chars r = Some (t, rest).
Proof.
  intros (l & F & ->). destruct (any_chars_read _ l rest (le_n _) F) as (t & R). exists t, (List.concat l ++ quote_char :: rest).
  split; [|exact R]. cbn [app]. rewrite <- app_assoc. reflexivity.
Qed.

Lemma read_any_string r t rest : read_chars r = Some (t, rest) -> exists q, any_string (quote_char :: q) /\ r = q ++ rest.
Proof.
  intros R. destruct (read_chars_any _ r t rest (le_n _) R) as (l & F & ->). exists (List.concat l ++ [quote_char]).
  split; [exists l; split; [exact F|reflexivity]|]. rewrite <- app_assoc. reflexivity.
Qed.

(* ---- numbers ---- *)

Lemma take_digits1_numerals s ds r : take_digits1 s = Some (ds, r) -> numerals ds /\ s = ds ++ r.
Proof.
  unfold take_digits1. assert (forall s, let '(ds, r) := take_digits s in forallb is_digit ds = true /\ s = ds ++ r) as T.
  { clear. induction s as [|c s IH]; [split; reflexivity|]. cbn [take_digits]. destruct (is_digit c) eqn:D; [|split; reflexivity].
    destruct (take_digits s) as [ds r]. destruct IH as [I1 I2]. cbn [forallb app]. rewrite D. split; [exact I1|now rewrite I2 at 1]. }
  specialize (T s). destruct (take_digits s) as [ds' r']. destruct T as [D E]. destruct ds' as [|c ds']; [discriminate|]. intros [= <- <-].
  split; [|exact E]. split; [discriminate|]. rewrite forallb_forall in D. apply Forall_forall. intros x I. rewrite code_bval. apply is_digit_spec, D, I.
Qed.

Lemma read_number_grammar s t rest : read_number s = Some (t, rest) -> number_text t /\ s = t ++ rest.
Proof.
  unfold read_number.
  assert (exists sg r0, (match s with c :: r => if byte_eqb c "-" then ([c], r) else ([], s) | [] => ([], s) end) = (sg, r0)
    /\ s = sg ++ r0 /\ (sg = [] \/ sg = lit "-")) as (sg & r0 & -> & -> & Hs).
  { destruct s as [|c s]; [exists [], []; auto|]. destruct (byte_eqb c "-") eqn:E; [|exists [], (c :: s); auto].
    apply byte_code in E as ->. exists (lit "-"), s. auto. }
  destruct (read_integer r0) as [[w r1]|] eqn:I; [|discriminate]. destruct (read_fraction r1) as [[f r2]|] eqn:F; [|discriminate].
  destruct (read_exponent r2) as [[e r3]|] eqn:X; [|discriminate]. intros [= <- <-].
  assert (HI : r0 = w ++ r1 /\ (w = lit "0" \/ numerals w /\ forall r, w <> "0"%char :: r)).
  { destruct r0 as [|c r]; [discriminate I|]. cbn [read_integer] in I. destruct (byte_eqb c "0") eqn:E.
    - apply byte_code in E as ->. injection I as <- <-. split; [reflexivity|now left].
    - apply take_digits1_numerals in I as [N E']. split; [exact E'|]. right. split; [exact N|]. intros r' ->. cbn [app] in E'.
      injection E' as -> _. discriminate E. }
  assert (HF : r1 = f ++ r2 /\ (f = [] \/ exists ds, f = "."%char :: ds /\ numerals ds)).
  { destruct r1 as [|c r]; cbn [read_fraction] in F; [injection F as <- <-; auto|]. destruct (byte_eqb c ".") eqn:E; [|injection F as <- <-; auto].
    apply byte_code in E as ->. destruct (take_digits1 r) as [[ds r']|] eqn:T; [|discriminate]. injection F as <- <-.
    apply take_digits1_numerals in T as [N ->]. split; [reflexivity|right; eauto]. }
  assert (HX : r2 = e ++ r3 /\ (e = [] \/ exists c g ds, e = c :: g ++ ds /\ (c = "e"%char \/ c = "E"%char)
      /\ (g = [] \/ g = lit "+" \/ g = lit "-") /\ numerals ds)).
  { destruct r2 as [|c r]; cbn [read_exponent] in X; [injection X as <- <-; auto|].
    destruct (byte_eqb c "e" || byte_eqb c "E") eqn:E; [|injection X as <- <-; auto].
    assert (c = "e"%char \/ c = "E"%char) as C by (apply orb_prop in E as [E|E]; apply byte_code in E; auto).
    destruct r as [|g r]; [discriminate|]. destruct (byte_eqb g "+" || byte_eqb g "-") eqn:G.
    - destruct (take_digits1 r) as [[ds r']|] eqn:T; [|discriminate]. injection X as <- <-. apply take_digits1_numerals in T as [N ->].
      split; [reflexivity|]. right. exists c, [g], ds. split; [reflexivity|]. split; [exact C|]. split; [|exact N].
      apply orb_prop in G as [G|G]; apply byte_code in G as ->; auto.
    - destruct (take_digits1 (g :: r)) as [[ds r']|] eqn:T; [|discriminate]. injection X as <- <-. apply take_digits1_numerals in T as [N ->].
      split; [reflexivity|]. right. exists c, [], ds. auto. }
  destruct HI as [-> HI], HF as [-> HF], HX as [-> HX].
  split; [exists sg, w, f, e; auto|]. rewrite <- !app_assoc. reflexivity.
Qed.

(* ---- values ---- *)

Lemma skip_ws_split s : exists w, Forall white w /\ s = w ++ skip_ws s.
Proof.
  induction s as [|c s (w & F & E)]; [exists []; split; [constructor|reflexivity]|]. unfold skip_ws. cbn [drop_while].
  destruct (is_json_space c) eqn:S.
  - exists (c :: w). split; [constructor; [|exact F]|cbn [app]; f_equal; exact E].
    unfold is_json_space in S. unfold white. rewrite code_bval.
    destruct (Z.eqb_spec (bval c) 32) as [H|]; [left; rewrite (bval_byte c), H; reflexivity|].
    destruct (Z.eqb_spec (bval c) 9); [auto|]. destruct (Z.eqb_spec (bval c) 10); [auto|]. destruct (Z.eqb_spec (bval c) 13); [auto|discriminate S].
  - exists []. split; [constructor|reflexivity].
Qed.

Lemma word_grammar w j s j' rest : word w j s = Some (j', rest) -> s = lit w ++ rest /\ j' = j.
Proof.
  unfold word. destruct (has_prefix w s) eqn:P; [|discriminate]. intros [= <- <-]. split; [|reflexivity].
  unfold has_prefix in P. apply bytes_eqb_eq in P. rewrite <- (firstn_skipn (length (lit w)) s) at 1. now rewrite P.
Qed.

(* the texts of objects and of null are recognised *)
Definition shape (j : json) (t : bytes) : Prop :=
  match j with JObj _ => exists r, t = "{"%char :: r | JNull => t = lit "null" | _ => True end.

Lemma read_grammar fuel :
  (forall s j rest, read_value fuel s = Some (j, rest) ->
     exists w t, s = w ++ t ++ rest /\ Forall white w /\ json_text t /\ shape j t) /\
  (forall s l rest, read_elements fuel s = Some (l, rest) -> exists t, s = t ++ rest /\ elements_text t) /\
  (forall s l rest, read_members fuel s = Some (l, rest) -> exists t, s = t ++ rest /\ members_text t).
Proof.
  induction fuel as [|fuel (IHv & IHe & IHm)]; [repeat split; intros; discriminate|]. split; [|split].
  - intros s j rest R. cbn [read_value] in R. destruct (skip_ws_split s) as (w & Fw & Es). destruct (skip_ws s) as [|c r] eqn:K; [discriminate|].
    assert (forall t, json_text t -> c :: r = t ++ rest -> shape j t ->
      exists w t, s = w ++ t ++ rest /\ Forall white w /\ json_text t /\ shape j t) as Done.
    { intros t T E O. exists w, t. rewrite <- E. auto. }
    destruct (byte_eqb c "{") eqn:C1.
    { apply byte_code in C1 as ->. destruct (skip_ws_split r) as (w' & Fw' & Er). destruct (skip_ws r) as [|d r1] eqn:K'; [discriminate|].
      destruct (byte_eqb d "}") eqn:D.
      - apply byte_code in D as ->. injection R as <- <-. apply (Done ("{"%char :: w' ++ ["}"%char])); [now constructor| |cbn [shape]; eauto].
        cbn [app]. rewrite <- app_assoc, Er. reflexivity.
      - destruct (read_members fuel r) as [[l r2]|] eqn:M; [|discriminate]. injection R as <- <-.
        apply IHm in M as (t & -> & M). apply (Done ("{"%char :: t)); [now constructor|reflexivity|cbn [shape]; eauto]. }
    destruct (byte_eqb c "[") eqn:C2.
    { apply byte_code in C2 as ->. destruct (skip_ws_split r) as (w' & Fw' & Er). destruct (skip_ws r) as [|d r1] eqn:K'; [discriminate|].
      destruct (byte_eqb d "]") eqn:D.
      - apply byte_code in D as ->. injection R as <- <-. apply (Done ("["%char :: w' ++ ["]"%char])); [now constructor| |exact I].
        cbn [app]. rewrite <- app_assoc, Er. reflexivity.
      - destruct (read_elements fuel r) as [[l r2]|] eqn:M; [|discriminate]. injection R as <- <-.
        apply IHe in M as (t & -> & M). apply (Done ("["%char :: t)); [now constructor|reflexivity|exact I]. }
    destruct (byte_eqb c quote_char) eqn:C3.
    { apply byte_code in C3 as ->. destruct (read_chars r) as [[t r1]|] eqn:T; [|discriminate]. injection R as <- <-.
      apply read_any_string in T as (q & A & ->). apply (Done (quote_char :: q)); [now apply AnyString|reflexivity|exact I]. }
    destruct (byte_eqb c "t") eqn:C4.
    { apply word_grammar in R as [E ->]. apply (Done (lit "true")); [constructor|exact E|exact I]. }
    destruct (byte_eqb c "f") eqn:C5.
    { apply word_grammar in R as [E ->]. apply (Done (lit "false")); [constructor|exact E|exact I]. }
    destruct (byte_eqb c "n") eqn:C6.
    { apply word_grammar in R as [E ->]. apply (Done (lit "null")); [constructor|exact E|reflexivity]. }
    destruct (read_number (c :: r)) as [[t r1]|] eqn:N; [|discriminate]. injection R as <- <-.
    apply read_number_grammar in N as [N E]. apply (Done t); [now apply AnyNumber|exact E|exact I].
  - intros s l rest R. cbn [read_elements] in R. destruct (read_value fuel s) as [[v r]|] eqn:V; [|discriminate].
    apply IHv in V as (w & t & -> & Fw & T & _). destruct (skip_ws_split r) as (w' & Fw' & Er). destruct (skip_ws r) as [|d r1] eqn:K; [discriminate|].
    destruct (byte_eqb d "]") eqn:D.
    + apply byte_code in D as ->. injection R as <- <-. exists (w ++ t ++ w' ++ ["]"%char]). split; [|now constructor].
      rewrite <- !app_assoc, Er. reflexivity.
    + destruct (byte_eqb d ",") eqn:D'; [|discriminate]. apply byte_code in D' as ->.
      destruct (read_elements fuel r1) as [[l' r2]|] eqn:E; [|discriminate]. injection R as <- <-. apply IHe in E as (t' & -> & E).
      exists (w ++ t ++ w' ++ ","%char :: t'). split; [|now constructor]. rewrite <- !app_assoc, Er. reflexivity.
  - intros s l rest R. cbn [read_members] in R. destruct (skip_ws_split s) as (w1 & F1 & Es). destruct (skip_ws s) as [|q r] eqn:K; [discriminate|].
    destruct (byte_eqb q quote_char) eqn:Q; [|discriminate]. apply byte_code in Q as ->.
    destruct (read_chars r) as [[k r1]|] eqn:T; [|discriminate]. apply read_any_string in T as (qt & A & ->).
    destruct (skip_ws_split r1) as (w2 & F2 & E2). destruct (skip_ws r1) as [|c r2] eqn:K2; [discriminate|].
    destruct (byte_eqb c ":") eqn:C; [|discriminate]. apply byte_code in C as ->.
    destruct (read_value fuel r2) as [[v r3]|] eqn:V; [|discriminate]. apply IHv in V as (w3 & t & E3 & F3 & T & _).
    destruct (skip_ws_split r3) as (w4 & F4 & E4). destruct (skip_ws r3) as [|d r4] eqn:K4; [discriminate|].
    destruct (byte_eqb d "}") eqn:D.
    + apply byte_code in D as ->. injection R as <- <-.
      exists (w1 ++ (quote_char :: qt) ++ w2 ++ ":"%char :: w3 ++ t ++ w4 ++ ["}"%char]). split; [|now constructor].
      rewrite Es, E2, E3, E4. repeat (rewrite <- app_assoc; cbn [app]). reflexivity.
    + destruct (byte_eqb d ",") eqn:D'; [|discriminate]. apply byte_code in D' as ->.
      destruct (read_members fuel r4) as [[l' r5]|] eqn:E; [|discriminate]. injection R as <- <-. apply IHm in E as (t' & -> & E).
      exists (w1 ++ (quote_char :: qt) ++ w2 ++ ":"%char :: w3 ++ t ++ w4 ++ ","%char :: t'). split; [|now constructor].
      rewrite Es, E2, E3, E4. repeat (rewrite <- app_assoc; cbn [app]). reflexivity.
Qed.

Scheme json_text_ind3 := Minimality for json_text Sort Prop
  with elements_text_ind3 := Minimality for elements_text Sort Prop
  with members_text_ind3 := Minimality for members_text Sort Prop.
Combined Scheme json_texts from json_text_ind3, elements_text_ind3, members_text_ind3.

Lemma json_text_starts s : json_text s -> starts s.
Proof.
  intros [| | |t N|t U|w F|t F|w F|t F]; try (eexists _, _; split; [reflexivity|]; repeat split; reflexivity).
  - exact (spells_starts (JNum t) t (SNum t N)).
  - destruct U as (l & _ & ->). eexists _, _. split; [reflexivity|]. repeat split; reflexivity.
Qed.

Lemma grammar_read :
  (forall t, json_text t -> forall fuel w rest, Forall white w -> after_number rest -> (length t <= fuel)%nat ->
     exists j, read_value fuel (w ++ t ++ rest) = Some (j, rest) /\ (forall r, t = "{"%char :: r -> exists l, j = JObj l)) /\
  (forall t, elements_text t -> forall fuel rest, (length t <= fuel)%nat ->
     (exists l, read_elements fuel (t ++ rest) = Some (l, rest)) /\
     exists c r, skip_ws (t ++ rest) = c :: r /\ byte_eqb c "]" = false) /\
  (forall t, members_text t -> forall fuel rest, (length t <= fuel)%nat ->
     (exists l, read_members fuel (t ++ rest) = Some (l, rest)) /\
     exists c r, skip_ws (t ++ rest) = c :: r /\ byte_eqb c "}" = false).
Proof.
  apply json_texts.
  - intros fuel w rest F A L. eexists. split; [exact (proj1 read_spelled _ _ SNull fuel w rest F A L)|discriminate].
  - intros fuel w rest F A L. eexists. split; [exact (proj1 read_spelled _ _ STrue fuel w rest F A L)|discriminate].
  - intros fuel w rest F A L. eexists. split; [exact (proj1 read_spelled _ _ SFalse fuel w rest F A L)|discriminate].
  - intros t N fuel w rest F A L. eexists. split; [exact (proj1 read_spelled _ _ (SNum t N) fuel w rest F A L)|].
    intros r ->. destruct (number_first _ N) as (c & r' & E & D). injection E as <- <-. destruct D; discriminate.
  - intros q Q fuel w rest F A L. destruct (any_string_read q rest Q) as (t & r & E & R).
    destruct fuel; [destruct Q as (? & _ & ->); cbn in L; lia|]. cbn [read_value]. rewrite skip_white by assumption. rewrite E.
    rewrite skip_none by reflexivity. exists (JStr t). split; [cbn; rewrite R; reflexivity|].
    intros r' ->. discriminate E.
  - intros w' F' fuel w rest F A L. eexists. split; [exact (proj1 read_spelled _ _ (SNone w' F') fuel w rest F A L)|discriminate].
  - intros t _ IH fuel w rest F A L. destruct fuel as [|fuel]; [cbn in L; lia|]. cbn [read_value]. rewrite skip_white by assumption.
    cbn [app]. rewrite skip_none by reflexivity. change (byte_eqb "[" "{") with false. change (byte_eqb "[" "[") with true. cbv iota.
    destruct (IH fuel rest ltac:(cbn in L; lia)) as ((l & R) & c & r & E & N). rewrite E, N, R. eexists. split; [reflexivity|discriminate].
  - intros w' F' fuel w rest F A L. eexists. split; [exact (proj1 read_spelled _ _ (SEmpty w' F') fuel w rest F A L)|eauto].
  - intros t _ IH fuel w rest F A L. destruct fuel as [|fuel]; [cbn in L; lia|]. cbn [read_value]. rewrite skip_white by assumption.
    cbn [app]. rewrite skip_none by reflexivity. change (byte_eqb "{" "{") with true. cbv iota.
    destruct (IH fuel rest ltac:(cbn in L; lia)) as ((l & R) & c & r & E & N). rewrite E, N, R. eexists. split; [reflexivity|eauto].
  - intros w w' s F F' T IH fuel rest L. destruct (json_text_starts s T) as (c & r & Es & N1 & N2 & N3).
    repeat rewrite <- app_assoc. split.
    + destruct fuel as [|fuel]; [len|]. cbn [read_elements].
      destruct (IH fuel w (w' ++ ["]"%char] ++ rest)) as (j & -> & _); [assumption|apply white_after_number; [assumption|repeat split; reflexivity]|len|].
      rewrite skip_white by assumption. eexists. reflexivity.
    + exists c, (r ++ w' ++ ["]"%char] ++ rest). rewrite skip_white by assumption. rewrite Es. cbn [app]. rewrite skip_none by assumption. auto.
  - intros w w' s t F F' T IH Tl IHl fuel rest L. destruct (json_text_starts s T) as (c & r & Es & N1 & N2 & N3).
    repeat rewrite <- app_assoc. split.
    + destruct fuel as [|fuel]; [len|]. cbn [read_elements].
      destruct (IH fuel w (w' ++ (","%char :: t) ++ rest)) as (j & -> & _); [assumption|apply white_after_number; [assumption|repeat split; reflexivity]|len|].
      rewrite skip_white by assumption. cbn [app]. rewrite skip_none by reflexivity.
      change (byte_eqb "," "]") with false. change (byte_eqb "," ",") with true. cbv iota.
      destruct (IHl fuel rest) as [[l ->] _]; [len|]. eexists. reflexivity.
    + exists c, (r ++ w' ++ (","%char :: t) ++ rest). rewrite skip_white by assumption. rewrite Es. cbn [app]. rewrite skip_none by assumption. auto.
  - intros w1 w2 w3 w4 q s F1 F2 F3 F4 Q T IH fuel rest L.
    repeat rewrite <- app_assoc. cbn [app]. repeat rewrite <- app_assoc.
    destruct (any_string_read q (w2 ++ ":"%char :: w3 ++ s ++ w4 ++ "}"%char :: rest) Q) as (k & r & E & R). cbn [app] in *. rewrite E. split.
    + destruct fuel as [|fuel]; [len|]. cbn [read_members]. rewrite skip_white by assumption.
      rewrite skip_none by reflexivity. change (byte_eqb quote_char quote_char) with true. cbv iota. rewrite R.
      rewrite skip_white by assumption. rewrite skip_none by reflexivity. change (byte_eqb ":" ":") with true. cbv iota.
      destruct (IH fuel w3 (w4 ++ "}"%char :: rest)) as (j & -> & _); [assumption|apply white_after_number; [assumption|repeat split; reflexivity]|len|].
      rewrite skip_white by assumption. eexists. reflexivity.
    + eexists _, _. rewrite skip_white by assumption. rewrite skip_none by reflexivity. split; reflexivity.
  - intros w1 w2 w3 w4 q s t F1 F2 F3 F4 Q T IH Tl IHl fuel rest L.
    repeat rewrite <- app_assoc. cbn [app]. repeat rewrite <- app_assoc. cbn [app].
    destruct (any_string_read q (w2 ++ ":"%char :: w3 ++ s ++ w4 ++ ","%char :: t ++ rest) Q) as (k & r & E & R). cbn [app] in *. rewrite E. split.
    + destruct fuel as [|fuel]; [len|]. cbn [read_members]. rewrite skip_white by assumption.
      rewrite skip_none by reflexivity. change (byte_eqb quote_char quote_char) with true. cbv iota. rewrite R.
      rewrite skip_white by assumption. rewrite skip_none by reflexivity. change (byte_eqb ":" ":") with true. cbv iota.
      destruct (IH fuel w3 (w4 ++ ","%char :: t ++ rest)) as (j & -> & _); [assumption|apply white_after_number; [assumption|repeat split; reflexivity]|len|].
      rewrite skip_white by assumption. rewrite skip_none by reflexivity.
      change (byte_eqb "," "}") with false. change (byte_eqb "," ",") with true. cbv iota.
      destruct (IHl fuel rest) as [[l ->] _]; [len|]. eexists. reflexivity.
    + eexists _, _. rewrite skip_white by assumption. rewrite skip_none by reflexivity. split; reflexivity.
Qed.

(* ---- the statements of C94 ---- *)

Lemma after_rest rest : (forall c r, rest = c :: r -> ~ (48 <= code c <= 57) /\ c <> "."%char /\ c <> "e"%char /\ c <> "E"%char) -> after_number rest.
Proof.
  intros H. destruct rest as [|c r]; [exact I|]. destruct (H c r eq_refl) as (D & P & E & E'). cbn.
  split; [|split; [|split]; now apply byte_eqb_neq]. destruct (is_digit c) eqn:Q; [|reflexivity]. apply is_digit_spec in Q. destruct (D Q).
Qed.

Lemma decode_spelling j s w rest : spells j s -> Forall white w ->
  (forall c r, rest = c :: r -> ~ (48 <= code c <= 57) /\ c <> "."%char /\ c <> "e"%char /\ c <> "E"%char) ->
  decode (w ++ s ++ rest) = Some j.
Proof. intros S W R. exact (decode_spelled j s w rest S W (after_rest rest R)). Qed.

Lemma decode_shape s j : decode s = Some j -> exists w t rest, s = w ++ t ++ rest /\ Forall white w /\ json_text t /\ shape j t.
Proof.
  unfold decode. destruct (read_value _ s) as [[j' rest]|] eqn:R; [|discriminate]. intros [= ->].
  apply (proj1 (read_grammar _)) in R as (w & t & A). eauto.
Qed.

Lemma decode_grammar s j : decode s = Some j -> exists w t rest, s = w ++ t ++ rest /\ Forall white w /\ json_text t.
Proof. intros D. destruct (decode_shape s j D) as (w & t & rest & A & B & C & _). eauto 6. Qed.

(* the text after an object does not matter *)
Lemma object_read t fuel w rest : json_text ("{"%char :: t) -> Forall white w -> (S (length t) <= fuel)%nat ->
  exists l, read_value fuel (w ++ ("{"%char :: t) ++ rest) = Some (JObj l, rest).
Proof.
  intros T F L. remember ("{"%char :: t) as u eqn:E. destruct fuel as [|fuel]; [lia|].
  destruct T as [| | |u N|u U|v V|u M|v V|u M]; try discriminate.
  - destruct (number_first _ N) as (c & r & E' & D). subst u. injection E' as <- <-. destruct D; discriminate.
  - destruct U as (l & _ & ->). discriminate.
  - cbn [read_value]. rewrite skip_white by assumption. cbn [app]. rewrite skip_none by reflexivity.
    change (byte_eqb "{" "{") with true. cbv iota. rewrite <- app_assoc, skip_white by assumption. eexists. reflexivity.
  - injection E as ->. destruct (proj2 (proj2 grammar_read) t M fuel rest ltac:(lia)) as ((l & R) & c & r & E & N).
    cbn [read_value]. rewrite skip_white by assumption. cbn [app]. rewrite skip_none by reflexivity.
    change (byte_eqb "{" "{") with true. cbv iota. rewrite E, N, R. eexists. reflexivity.
Qed.

Lemma decode_object s : (exists l, decode s = Some (JObj l)) <->
  exists w t rest, s = w ++ ("{"%char :: t) ++ rest /\ Forall white w /\ json_text ("{"%char :: t).
Proof.
  split.
  - intros (l & D). destruct (decode_shape s _ D) as (w & t & rest & A & B & C & (r & ->)). eauto 7.
  - intros (w & t & rest & -> & W & T). unfold decode.
    destruct (object_read t (S (length (w ++ ("{"%char :: t) ++ rest))) w rest T W ltac:(len)) as (l & ->). eauto.
Qed.

(* a text of the grammar, with nothing after it *)
Lemma decode_accepts s : (exists w t w', s = w ++ t ++ w' /\ Forall white w /\ json_text t /\ Forall white w') -> exists j, decode s = Some j.
Proof.
  intros (w & t & w' & -> & W & T & W'). unfold decode.
  destruct (proj1 grammar_read t T (S (length (w ++ t ++ w'))) w w' W) as (j & -> & _); [|len|eauto].
  destruct W' as [|c r C]; [exact I|]. apply after_rest. intros c' r' [= <- <-].
  destruct C as [->|[E|[E|E]]]; [repeat split; try discriminate; cbn; lia| | |];
    (split; [lia|]; repeat split; intros ->; discriminate E).
Qed.

Lemma file_text rt s f : file_from_json rt s = Ok f ->
  exists w t rest, s = w ++ t ++ rest /\ Forall white w /\ json_text t /\ (t = lit "null" \/ exists r, t = "{"%char :: r).
Proof.
  unfold file_from_json. destruct (decode s) as [j|] eqn:D; [|discriminate]. intros H.
  destruct (decode_shape s j D) as (w & t & rest & A & B & C & S). exists w, t, rest. split; [exact A|]. split; [exact B|]. split; [exact C|].
  destruct j; try discriminate H; [left|right]; exact S.
Qed.

(* ---- every spelling of a value is a text of the grammar ---- *)

Lemma encodes_bytes z r : encodes z r -> 128 <= z -> Forall (fun c => 128 <= code c) r.
Proof. intros E H. destruct E; [lia| | |]; repeat constructor; rewrite code_bval, chr_val by (Z.div_mod_to_equations; lia); Z.div_mod_to_equations; lia. Qed.

Lemma spelled_any z q : spelled_char z q -> exists l, Forall any_char l /\ q = List.concat l.
Proof.
  intros [z' r E L Q B|z' e I|z' t T N|h l t t' T T' H L].
  - destruct (Z.ltb_spec z' 128).
    + rewrite (encodes_small _ _ E) by lia. exists [[chr z']]. split; [|reflexivity]. constructor; [|constructor].
      apply AnyPlain; rewrite code_bval, chr_val; lia.
    + exists (map (fun c => [c]) r). split.
      * pose proof (encodes_bytes _ _ E ltac:(lia)) as F. apply Forall_map. eapply Forall_impl; [|exact F]. cbv beta. intros c C. apply AnyPlain; unfold code in *; lia.
      * clear. induction r as [|c r IH]; [reflexivity|]. cbn [map List.concat app]. now rewrite <- IH.
  - exists [[chr 92; e]]. split; [constructor; [exact (AnyShort z' e I)|constructor]|reflexivity].
  - exists [chr 92 :: "u"%char :: t]. split; [constructor; [exact (AnyUnicode z' t T)|constructor]|cbn; now rewrite app_nil_r].
  - exists [chr 92 :: "u"%char :: t; chr 92 :: "u"%char :: t']. split; [|cbn [List.concat app]; now rewrite app_nil_r].
    constructor; [exact (AnyUnicode h t T)|constructor; [exact (AnyUnicode l t' T')|constructor]].
Qed.

Lemma string_any s q : string_text s q -> any_string q.
Proof.
  intros (u & T & ->). assert (exists l, Forall any_char l /\ u = List.concat l) as (l & F & ->); [|exists l; auto].
  induction T as [|z r q s t E C T (l & F & ->)]; [exists []; split; [constructor|reflexivity]|].
  destruct (spelled_any z q C) as (k & K & ->). exists (k ++ l). split; [now apply Forall_app|now rewrite concat_app].
Qed.

Lemma spells_json_text :
  (forall j s, spells j s -> json_text s) /\ (forall l s, spells_list l s -> elements_text s) /\ (forall l s, spells_members l s -> members_text s).
Proof.
  apply spells_all; intros; try (constructor; assumption).
  - apply AnyString. eapply string_any. eassumption.
  - constructor; try assumption. eapply string_any. eassumption.
  - constructor; try assumption. eapply string_any. eassumption.
Qed.
