(* Proofs about numbers of JSON with exponents of any size; file_instance.go:344-356, base_segment.go:751-800,
   pkg/client/utils.go:79-113, 187-221 *)
From Coq Require Import ZArith NArith Bool Ascii String List Lia.
Import ListNotations.
From Verif Require Import GoBase GoBaseFacts GoTime Json JsonTextFacts JsonFile GoFloat Client ClientScalars ClientParams ClientSingles SpecCodec SpecJson FieldFacts FieldRead
  SpecNumbers NumberFacts NumberRound NumberText SpecParams SingleRound SpecExponents.
Local Open Scope string_scope.
Local Open Scope Z_scope.
Local Open Scope list_scope.
Local Notation length := List.length.

(* ---- exponents ---- *)

Lemma exp_acc_large ds : forallb is_digit ds = true -> forall e, 0 <= e -> 10000 <= e * 10 ^ Z.of_nat (length ds) + dval ds -> 10000 <= exp_acc e ds.
Proof.
  induction ds as [|d ds IH]; intros D e E B.
  - cbn in *. change (dval []) with 0 in B. lia.
  - cbn [forallb] in D. apply andb_prop in D as [Dd D]. cbn [exp_acc]. rewrite dval_cons in B. cbn [List.length] in B. rewrite Nat2Z.inj_succ, Z.pow_succ_r in B by lia.
    pose proof (dval_range ds D) as R.
    assert (0 <= digit_val d <= 9) as Rd by (pose proof (dval_range [d]) as Q; cbn [forallb] in Q; rewrite Dd in Q; specialize (Q eq_refl); unfold dval in Q; cbn [dval_acc] in Q; cbn in Q; lia).
    assert (1 <= 10 ^ Z.of_nat (length ds)) as P by (pose proof (Z.pow_pos_nonneg 10 (Z.of_nat (length ds))); lia).
    destruct (Z.ltb_spec e 10000) as [L|L]; apply IH; try assumption; nia.
Qed.

Lemma exp_any t e : exponent_any t e -> exponent_of t e \/ 100000 <= e /\ 10000 <= read_exp t \/ e <= -100000 /\ read_exp t <= -10000.
Proof.
  intros [[-> ->]|(c & g & ds & -> & C & N & G)]; [left; left; split; reflexivity|].
  destruct (Z_lt_le_dec (decimal ds) 100000) as [B|B].
  { left. right. exists c, g, ds. repeat (split; [assumption||reflexivity|]). exact G. }
  right. pose proof (numerals_digits ds N) as D. rewrite decimal_dval in *.
  pose proof (exp_acc_large ds D 0 ltac:(lia) ltac:(lia)) as A.
  unfold read_exp. assert (byte_eqb c "e" || byte_eqb c "E" = true) as -> by (destruct C as [-> | ->]; reflexivity).
  destruct G as [[[-> | ->] ->]|[-> ->]]; cbn [app lit list_ascii_of_string].
  - left. split; [exact B|]. destruct N as [N F]. destruct ds as [|d ds]; [congruence|]. cbn [forallb] in D. apply andb_prop in D as [D _].
    assert (byte_eqb d "-" = false) as -> by (destruct (byte_eqb d "-") eqn:Q; [apply byte_eqb_eq in Q; subst; discriminate|reflexivity]).
    assert (byte_eqb d "+" = false) as -> by (destruct (byte_eqb d "+") eqn:Q; [apply byte_eqb_eq in Q; subst; discriminate|reflexivity]).
    exact A.
  - left. split; [exact B|]. cbn. exact A.
  - right. split; [lia|]. cbn. lia.
Qed.

Lemma read_any (neg : bool) whole fraction part exponent e :
  (whole = lit "0" \/ numerals whole /\ forall r, whole <> "0"%char :: r) -> (fraction = [] /\ part = [] \/ fraction = "."%char :: part /\ numerals part) ->
  exponent_any exponent e ->
  read_decimal ((if neg then lit "-" else []) ++ whole ++ fraction ++ exponent) = (neg, decimal (whole ++ part), read_exp exponent - Z.of_nat (length part))
  /\ 0 <= decimal (whole ++ part) < 10 ^ Z.of_nat (length (whole ++ part)).
Proof.
  intros W F X.
  assert (forallb is_digit whole = true /\ whole <> []) as [Dw Nw].
  { destruct W as [->|[W _]]; [split; [reflexivity|discriminate]|]. split; [now apply numerals_digits|apply W]. }
  assert (forallb is_digit part = true) as Dp by (destruct F as [[_ ->]|[_ F]]; [reflexivity|now apply numerals_digits]).
  split.
  2:{ rewrite decimal_dval. apply dval_range. now rewrite forallb_app, Dw, Dp. }
  unfold read_decimal.
  assert (match (if neg then lit "-" else []) ++ whole ++ fraction ++ exponent with
    | c :: r => if byte_eqb c "-" then (true, r) else (false, (if neg then lit "-" else []) ++ whole ++ fraction ++ exponent)
    | [] => (false, (if neg then lit "-" else []) ++ whole ++ fraction ++ exponent) end = (neg, whole ++ fraction ++ exponent)) as ->.
  { destruct neg; [reflexivity|]. cbn [app]. destruct whole as [|w whole]; [congruence|]. cbn [app].
    cbn [forallb] in Dw. apply andb_prop in Dw as [Dw _].
    destruct (byte_eqb w "-") eqn:Q; [apply byte_eqb_eq in Q; subst; discriminate|reflexivity]. }
  assert (match exponent with c :: _ => is_digit c = false /\ byte_eqb c "." = false | [] => True end) as Xd.
  { destruct X as [[-> _]|(c & g & ds & -> & [-> | ->] & _)]; [exact Logic.I| |]; cbn [app]; split; reflexivity. }
  rewrite (take_run whole).
  2:{ exact Dw. }
  2:{ destruct F as [[-> ->]|[-> Np]]; cbn [app]; [destruct exponent; [exact Logic.I|apply Xd]|reflexivity]. }
  destruct F as [[-> ->]|[-> Np]]; cbn [app].
  - assert (match exponent with c :: r' => if byte_eqb c "." then take_digits r' else ([], exponent) | [] => ([], exponent) end = ([], exponent)) as ->
      by (destruct exponent; [reflexivity|]; destruct Xd as [_ ->]; reflexivity).
    rewrite decimal_dval. reflexivity.
  - change (byte_eqb "." ".") with true. cbn iota. rewrite (take_run part).
    2:{ exact Dp. }
    2:{ destruct exponent; [exact Logic.I|apply Xd]. }
    rewrite decimal_dval. reflexivity.
Qed.

(* ---- far away from all numbers ---- *)

Lemma thousand : 2 ^ 1100 <= 10 ^ 1000.
Proof. apply Z.leb_le. vm_compute. reflexivity. Qed.
Lemma ten_split a b : 0 <= a -> 0 <= b -> 10 ^ (a + b) = 10 ^ a * 10 ^ b.
Proof. intros. now apply Z.pow_add_r. Qed.
Lemma ten_mono a b : 0 <= a <= b -> 10 ^ a <= 10 ^ b.
Proof. intros. apply Z.pow_le_mono_r; lia. Qed.

(* what two fractions far away have in common *)
Definition alike (n d n0 d0 : Z) : Prop :=
  n * d0 = n0 * d \/ n = 0 /\ n0 = 0 \/ 10 ^ 1000 * d <= n /\ 10 ^ 1000 * d0 <= n0 \/ 10 ^ 1000 * n <= d /\ 10 ^ 1000 * n0 <= d0.

Lemma amount_alike t neg k n d : amounts_any t neg k n d -> k <= 9000 -> 0 <= n /\ 0 < d /\
  exists c p, read_decimal t = (neg, c, p) /\ 0 <= c /\ alike n d (c * 10 ^ Z.max p 0) (10 ^ Z.max (- p) 0).
Proof.
  intros (whole & fraction & part & exponent & e & -> & W & F & X & -> & D & V) K.
  destruct (read_any neg whole fraction part exponent e W F X) as [E [C0 C1]].
  assert (0 <= n) as N.
  { pose proof (ten_pos (Z.max 0 (Z.of_nat (length part) - e)) ltac:(lia)) as T. pose proof (ten_pos (Z.max 0 (e - Z.of_nat (length part))) ltac:(lia)) as T'.
    assert (0 <= decimal (whole ++ part) * 10 ^ Z.max 0 (e - Z.of_nat (length part))) by (apply Z.mul_nonneg_nonneg; lia). nia. }
  split; [exact N|]. split; [exact D|]. exists (decimal (whole ++ part)), (read_exp exponent - Z.of_nat (length part)). split; [exact E|]. split; [exact C0|]. clear E.
  assert (0 <= Z.of_nat (length part) <= Z.of_nat (length (whole ++ part))) as L by (rewrite app_length; lia).
  remember (decimal (whole ++ part)) as c. remember (Z.of_nat (length part)) as l. remember (Z.of_nat (length (whole ++ part))) as k. clear Heqc Heql Heqk.
  destruct (exp_any exponent e X) as [Y|[[Y R]|[Y R]]].
  - left. rewrite (exp_read _ _ Y). replace (Z.max (- (e - l)) 0) with (Z.max 0 (l - e)) by lia. rewrite V, (Z.max_comm 0). reflexivity.
  - destruct (Z.eq_dec c 0) as [->|Nc].
    { right. left. split; [|reflexivity]. rewrite !Z.mul_0_l in V. pose proof (ten_pos (Z.max 0 (l - e)) ltac:(lia)). nia. }
    right. right. left. replace (Z.max 0 (l - e)) with 0 in V by lia. replace (Z.max 0 (e - l)) with (1000 + (e - l - 1000)) in V by lia.
    replace (Z.max (- (read_exp exponent - l)) 0) with 0 by lia. replace (Z.max (read_exp exponent - l) 0) with (1000 + (read_exp exponent - l - 1000)) by lia.
    rewrite ten_split in * by lia. pose proof (ten_pos (e - l - 1000) ltac:(lia)) as T1. pose proof (ten_pos (read_exp exponent - l - 1000) ltac:(lia)) as T2.
    pose proof (ten_pos 1000 ltac:(lia)) as T. rewrite Z.pow_0_r, Z.mul_1_r in *. remember (10 ^ 1000) as th. clear Heqth.
    remember (10 ^ (e - l - 1000)) as x. remember (10 ^ (read_exp exponent - l - 1000)) as y. clear Heqx Heqy. split; [|assert (1 <= c * y) by nia; replace (c * (th * y)) with (c * y * th) by ring; nia].
    subst n. assert (1 <= c * x) by nia. replace (c * (th * x) * d) with ((c * x) * (th * d)) by ring. assert (0 <= th * d) by nia. nia.
  - right. right. right. replace (Z.max 0 (e - l)) with 0 in V by lia. replace (Z.max 0 (l - e)) with (1000 + k + (l - e - 1000 - k)) in V by lia.
    replace (Z.max (read_exp exponent - l) 0) with 0 by lia. replace (Z.max (- (read_exp exponent - l)) 0) with (1000 + k + (l - read_exp exponent - 1000 - k)) by lia.
    rewrite !ten_split in * by lia. pose proof (ten_pos (l - e - 1000 - k) ltac:(lia)) as T1. pose proof (ten_pos (l - read_exp exponent - 1000 - k) ltac:(lia)) as T2.
    pose proof (ten_pos 1000 ltac:(lia)) as T. pose proof (ten_pos k ltac:(lia)) as Tk. rewrite Z.pow_0_r, Z.mul_1_r in *. remember (10 ^ 1000) as th. clear Heqth.
    remember (10 ^ (l - e - 1000 - k)) as x. remember (10 ^ (l - read_exp exponent - 1000 - k)) as y. remember (10 ^ k) as tk. clear Heqx Heqy Heqtk.
    split.
    + apply (Z.mul_le_mono_pos_r _ _ tk Tk). assert (n * (th * tk) <= n * (th * tk * x)) by (apply Z.mul_le_mono_nonneg_l; nia).
      replace (th * n * tk) with (n * (th * tk)) by ring. etransitivity; [eassumption|]. rewrite V, (Z.mul_comm c d). apply Z.mul_le_mono_nonneg_l; lia.
    + assert (th * c <= th * tk) by (apply Z.mul_le_mono_nonneg_l; lia). assert (0 <= th * tk) by nia. nia.
Qed.

Lemma far_small n d th p : 0 <= n -> p <= th -> th * n <= d -> p * n <= d.
Proof. intros. etransitivity; [apply Z.mul_le_mono_nonneg_r; eassumption|assumption]. Qed.

Lemma huge_double a b : 0 <= a -> 0 < b -> 10 ^ 1000 * b <= a -> to_double a b = None.
Proof.
  intros Ha Hb L. apply to_double_none; [assumption..|]. etransitivity; [|exact L]. apply Z.mul_le_mono_nonneg_r; [lia|].
  etransitivity; [|exact thousand]. apply Z.leb_le. vm_compute. reflexivity.
Qed.
Lemma tiny_double a b : 0 <= a -> 0 < b -> 10 ^ 1000 * a <= b -> to_double a b = Some (0, -1074).
Proof.
  intros Ha Hb L. destruct (double_tiny a b Ha Hb) as (e & E).
  - apply (far_small _ _ (10 ^ 1000)); [exact Ha| |exact L]. etransitivity; [|exact thousand]. apply Z.pow_le_mono_r; lia.
  - rewrite E. pose proof (double_nearest a b 0 e Ha Hb E) as [[F|F] _]; [exfalso; destruct F as [[F _] _]; revert F; clear; intros F; apply Z.leb_le in F; vm_compute in F; discriminate|].
    destruct F as [_ ->]. reflexivity.
Qed.

Lemma double_alike n d n0 d0 : 0 <= n -> 0 < d -> 0 <= n0 -> 0 < d0 -> alike n d n0 d0 -> to_double n d = to_double n0 d0.
Proof.
  intros N D N0 D0 [A|[[-> ->]|[[A B]|[A B]]]].
  - now apply to_double_scale.
  - reflexivity.
  - rewrite (huge_double n d), (huge_double n0 d0) by assumption. reflexivity.
  - rewrite (tiny_double n d), (tiny_double n0 d0) by assumption. reflexivity.
Qed.

Lemma single_alike n d n0 d0 : 0 <= n -> 0 < d -> 0 <= n0 -> 0 < d0 -> alike n d n0 d0 -> to_single n d = to_single n0 d0.
Proof.
  intros N D N0 D0 [A|[[-> ->]|[[A B]|[A B]]]].
  - now apply to_single_scale.
  - reflexivity.
  - assert (forall a b, 0 <= a -> 0 < b -> 10 ^ 1000 * b <= a -> to_single a b = None) as H.
    { intros a b Ha Hb L. apply to_single_none; [assumption..|]. etransitivity; [|exact L]. apply Z.mul_le_mono_nonneg_r; [lia|].
      etransitivity; [|exact thousand]. apply Z.leb_le. vm_compute. reflexivity. }
    rewrite (H n d), (H n0 d0) by assumption. reflexivity.
  - assert (forall a b, 0 <= a -> 0 < b -> 10 ^ 1000 * a <= b -> to_single a b = Some (0, -149)) as H.
    { intros a b Ha Hb L. assert (2 ^ 151 * a <= b) as L'.
      { apply (far_small _ _ (10 ^ 1000)); [exact Ha| |exact L]. etransitivity; [|exact thousand]. apply Z.pow_le_mono_r; lia. }
      clear L. destruct (to_single a b) as [[m e]|] eqn:E.
      - pose proof (single_nearest a b m e Ha Hb E) as [F M]. destruct (M 0 (-149)) as [M' _]; [right; split; [lia|reflexivity]|].
        assert (0 <= m /\ -149 <= e) as [Hm He] by (destruct F; lia). change (2 ^ 151) with (4 * 2 ^ 149) in L'.
        pose proof (Z.pow_pos_nonneg 2 (e + 149) ltac:(lia) ltac:(lia)) as P. replace (0 * 2 ^ (-149 + 149) * b - a * 2 ^ 149) with (- (a * 2 ^ 149)) in M' by (rewrite Z.mul_0_l; reflexivity). rewrite Z.abs_opp in M'.
        assert (m = 0) as ->.
        { destruct (Z.eq_dec m 0) as [|Q]; [assumption|exfalso]. remember (2 ^ (e + 149)) as x. remember (2 ^ 149) as y. assert (0 < y) by (subst y; apply Z.pow_pos_nonneg; lia). clear Heqx Heqy F M E.
          assert (1 <= m * x) by nia. assert (b <= m * x * b) by nia. nia. }
        destruct F as [F|F]; [exfalso; clear - F; lia|]. destruct F as [_ ->]. reflexivity.
      - exfalso. apply to_single_none in E; [|assumption..]. assert (b <= a) as Q.
        { etransitivity; [|exact E]. rewrite <- (Z.mul_1_l b) at 1. apply Z.mul_le_mono_nonneg_r; [lia|]. apply Z.leb_le. vm_compute. reflexivity. }
        assert (2 <= 2 ^ 151) as Y by (apply Z.leb_le; vm_compute; reflexivity). remember (2 ^ 151) as y. clear Heqy E. nia. }
    rewrite (H n d), (H n0 d0) by assumption. reflexivity.
Qed.

(* ---- the numbers that are read ---- *)

Lemma any_float t neg k n d : amounts_any t neg k n d -> k <= 9000 ->
  go_float t = match to_double n d with Some (m, e) => option_map (fun s => if neg then "-"%char :: s else s) (print_double m e) | None => None end
  /\ json_float (JNum t) = match to_double n d with Some (m, e) => Some (Finite neg m e) | None => None end
  /\ json_single (JNum t) = match to_single n d with Some (m, e) => Some (Single32 neg m e) | None => None end.
Proof.
  intros A K. destruct (amount_alike t neg k n d A K) as (N & D & c & p & E & C & Q). unfold go_float. cbn [json_float json_single]. rewrite E. unfold decimal_double, decimal_single.
  pose proof (ten_pos (Z.max (- p) 0) ltac:(lia)) as T. pose proof (ten_pos (Z.max p 0) ltac:(lia)) as T'.
  assert (0 <= c * 10 ^ Z.max p 0) as N0 by (apply Z.mul_nonneg_nonneg; lia).
  rewrite (double_alike n d _ _ N D N0 T Q), (single_alike n d _ _ N D N0 T Q). repeat split; reflexivity.
Qed.

Lemma any_range t neg k n d : amounts_any t neg k n d -> k <= 9000 -> (go_float t = None <-> (2 ^ 54 - 1) * 2 ^ 970 * d <= n).
Proof.
  intros A K. destruct (any_float t neg k n d A K) as [-> _]. destruct (amount_alike t neg k n d A K) as (N & D & _). rewrite <- (to_double_none n d N D).
  destruct (to_double n d) as [[m e]|] eqn:X; [|tauto]. pose proof (double_nearest n d m e N D X) as [F _].
  destruct (print_total m e F) as [s ->]. split; discriminate.
Qed.

Lemma any_written t neg k n d s : amounts_any t neg k n d -> k <= 9000 -> go_float t = Some s ->
  go_float s = Some s /\ exists n' d' m e, amounts s neg n' d' /\ nearest n d m e /\ nearest n' d' m e.
Proof.
  intros A K G. destruct (any_float t neg k n d A K) as [E _]. destruct (amount_alike t neg k n d A K) as (N & D & _). rewrite E in G. clear E.
  destruct (to_double n d) as [[m e]|] eqn:X; [|discriminate].
  pose proof (double_nearest n d m e N D X) as Nr. destruct (print_double m e) as [u|] eqn:P; [|discriminate]. cbn [option_map] in G. injection G as <-.
  destruct (print_amounts m e u (proj1 Nr) P) as (n' & d' & N' & Au & T). assert (amounts (if neg then "-"%char :: u else u) neg n' d') as As by (destruct neg; [now apply minus_amounts|exact Au]).
  split; [rewrite (float_amounts _ _ _ _ As), T, P; reflexivity|]. exists n', d', m, e. split; [exact As|]. split; [exact Nr|].
  apply double_nearest; [exact N'|exact (proj2 (amounts_nonneg _ _ _ _ Au))|exact T].
Qed.

Lemma any_double t neg k n d x : amounts_any t neg k n d -> k <= 9000 ->
  (json_float (JNum t) = Some x <-> n < (2 ^ 54 - 1) * 2 ^ 970 * d /\ exists m e, x = Finite neg m e /\ nearest n d m e).
Proof.
  intros A K. destruct (any_float t neg k n d A K) as (_ & E & _). destruct (amount_alike t neg k n d A K) as (N & D & _). rewrite E. clear E.
  destruct (to_double n d) as [[m e]|] eqn:T.
  - split.
    + intros [= <-]. split; [|exists m, e; split; [reflexivity|exact (double_nearest n d m e N D T)]].
      apply Z.nle_gt. intros L. apply (proj2 (to_double_none n d N D)) in L. rewrite L in T. discriminate T.
    + intros [_ (m' & e' & -> & Nr)]. pose proof (nearest_double n d m e m' e' N D T Nr) as [= -> ->]. reflexivity.
  - split; [discriminate|]. intros [L _]. apply (proj1 (to_double_none n d N D)) in T. apply Z.le_ngt in T. contradiction.
Qed.
Lemma any_single t neg k n d x : amounts_any t neg k n d -> k <= 9000 ->
  (json_single (JNum t) = Some x <-> n < (2 ^ 25 - 1) * 2 ^ 103 * d /\ exists m e, x = Single32 neg m e /\ nearest32 n d m e).
Proof.
  intros A K. destruct (any_float t neg k n d A K) as (_ & _ & E). destruct (amount_alike t neg k n d A K) as (N & D & _). rewrite E. clear E.
  destruct (to_single n d) as [[m e]|] eqn:T.
  - split.
    + intros [= <-]. split; [|exists m, e; split; [reflexivity|exact (single_nearest n d m e N D T)]].
      apply Z.nle_gt. intros L. apply (proj2 (to_single_none n d N D)) in L. rewrite L in T. discriminate T.
    + intros [_ (m' & e' & -> & Nr)]. pose proof (nearest_single n d m e m' e' N D T Nr) as [= -> ->]. reflexivity.
  - split; [discriminate|]. intros [L _]. apply (proj1 (to_single_none n d N D)) in T. apply Z.le_ngt in T. contradiction.
Qed.

(* the exponents under 100000 are among them *)
Lemma amounts_among t neg n d : amounts t neg n d -> exists k, amounts_any t neg k n d.
Proof.
  intros (w & f & p & x & e & S & W & F & X & D & V). exists (Z.of_nat (length (w ++ p))), w, f, p, x, e. repeat (split; [assumption|]).
  split; [|split; [reflexivity|split; assumption]]. destruct X as [X|(c & g & ds & E & C & N & _ & G)]; [now left|]. right. exists c, g, ds. repeat (split; [assumption|]). exact G.
Qed.

(* ---- numbers with too many digits ---- *)

(* 0.00...01e100001, with a hundred thousand zeros *)
Definition zeros : bytes := repeat zero_char (Z.to_nat 100000).
Definition long_one : bytes := lit "0." ++ zeros ++ lit "1e100001".
Lemma zeros_length : Z.of_nat (length zeros) = 100000.
Proof. unfold zeros. rewrite repeat_length. apply Z2Nat.id. lia. Qed.
Lemma zeros_digits : forallb is_digit zeros = true.
Proof. apply forallb_repeat. reflexivity. Qed.

Lemma long_amounts : amounts_any long_one false 100002 1 1.
Proof.
  exists (lit "0"), ("."%char :: zeros ++ lit "1"), (zeros ++ lit "1"), (lit "e100001"), 100001.
  split; [unfold long_one; cbn [app lit list_ascii_of_string]; rewrite <- app_assoc; reflexivity|]. split; [now left|].
  split; [right; split; [reflexivity|]; apply digits_numerals; [destruct zeros; discriminate|rewrite forallb_app, zeros_digits; reflexivity]|].
  split.
  { right. exists "e"%char, [], (lit "100001"). split; [reflexivity|]. split; [now left|]. split; [apply digits_numerals; [discriminate|reflexivity]|]. left. split; [now left|reflexivity]. }
  split; [rewrite !app_length, !Nat2Z.inj_add, zeros_length; reflexivity|]. split; [lia|].
  rewrite app_length, Nat2Z.inj_add, zeros_length. change (Z.of_nat (length (lit "1"))) with 1.
  rewrite decimal_dval. change (lit "0" ++ zeros ++ lit "1") with (zero_char :: zeros ++ lit "1"). rewrite dval_cons. unfold zeros at 2. rewrite dval_zeros.
  change (digit_val zero_char) with 0. rewrite Z.mul_0_l. reflexivity.
Qed.
Lemma long_read : go_float long_one = Some (lit "0") /\ json_float (JNum long_one) = Some (Finite false 0 (-1074)).
Proof.
  destruct (read_any false (lit "0") ("."%char :: zeros ++ lit "1") (zeros ++ lit "1") (lit "e100001") 100001) as [E _].
  { now left. }
  { right. split; [reflexivity|]. apply digits_numerals; [destruct zeros; discriminate|rewrite forallb_app, zeros_digits; reflexivity]. }
  { right. exists "e"%char, [], (lit "100001"). split; [reflexivity|]. split; [now left|]. split; [apply digits_numerals; [discriminate|reflexivity]|]. left. split; [now left|reflexivity]. }
  assert (read_decimal long_one = (false, 1, -90001)) as R.
  { assert (long_one = lit "0" ++ ("."%char :: zeros ++ lit "1") ++ lit "e100001") as -> by (unfold long_one; cbn [app lit list_ascii_of_string]; rewrite <- app_assoc; reflexivity).
    cbn [app] in E. etransitivity; [exact E|]. rewrite app_length, Nat2Z.inj_add, zeros_length. change (read_exp (lit "e100001")) with 10000. change (Z.of_nat (length (lit "1"))) with 1.
    rewrite decimal_dval. change (lit "0" ++ zeros ++ lit "1") with (zero_char :: zeros ++ lit "1"). rewrite dval_cons. unfold zeros at 2. rewrite dval_zeros.
    change (digit_val zero_char) with 0. rewrite Z.mul_0_l. reflexivity. }
  assert (decimal_double 1 (-90001) = Some (0, -1074)) as T.
  { unfold decimal_double. apply tiny_double.
    - rewrite Z.mul_1_l. apply Z.pow_nonneg. lia.
    - apply ten_pos. lia.
    - replace (Z.max (-90001) 0) with 0 by lia. replace (Z.max (- (-90001)) 0) with (1000 + 89001) by lia. rewrite ten_split by lia.
      pose proof (ten_pos 1000 ltac:(lia)) as T. pose proof (ten_pos 89001 ltac:(lia)) as T'. remember (10 ^ 1000) as x. remember (10 ^ 89001) as y. clear Heqx Heqy. rewrite Z.pow_0_r. nia. }
  unfold go_float. cbn [json_float]. rewrite R, T. split; reflexivity.
Qed.

Lemma one_zeros n : dval ("1"%char :: repeat zero_char n) = 10 ^ Z.of_nat n.
Proof. rewrite dval_cons, repeat_length, <- (app_nil_r (repeat _ _)), dval_zeros. change (digit_val "1") with 1. change (dval []) with 0. lia. Qed.
Lemma one_amounts n x e : (0 < n)%nat -> exponent_any x e -> e = - Z.of_nat n -> amounts_any ("1"%char :: repeat zero_char n ++ x) false (Z.of_nat n + 1) 1 1.
Proof.
  intros P X ->. exists ("1"%char :: repeat zero_char n), [], [], x, (- Z.of_nat n). rewrite app_nil_r. cbn [app].
  split; [reflexivity|]. split; [right; split; [apply digits_numerals; [discriminate|cbn [forallb]; rewrite forallb_repeat by reflexivity; reflexivity]|discriminate]|].
  split; [left; split; reflexivity|]. split; [exact X|]. split; [cbn [List.length]; rewrite repeat_length; lia|]. split; [lia|].
  rewrite decimal_dval, one_zeros. change (Z.of_nat (length (@nil byte))) with 0. replace (Z.max 0 (0 - - Z.of_nat n)) with (Z.of_nat n) by lia.
  replace (Z.max 0 (- Z.of_nat n - 0)) with 0 by lia. rewrite Z.pow_0_r. lia.
Qed.
Lemma one_read n x e : exponent_any x e -> read_exp x = -10000 -> 11000 <= Z.of_nat n ->
  go_float ("1"%char :: repeat zero_char n ++ x) = None /\ json_float (JNum ("1"%char :: repeat zero_char n ++ x)) = None.
Proof.
  intros X R L. destruct (read_any false ("1"%char :: repeat zero_char n) [] [] x e) as [E _].
  { right. split; [apply digits_numerals; [discriminate|cbn [forallb]; rewrite forallb_repeat by reflexivity; reflexivity]|discriminate]. }
  { left. split; reflexivity. }
  { exact X. }
  cbn [app] in E. rewrite app_nil_r, R, decimal_dval, one_zeros in E. change (Z.of_nat (length (@nil byte))) with 0 in E. change (-10000 - 0) with (-10000) in E.
  assert (decimal_double (10 ^ Z.of_nat n) (-10000) = None) as T.
  { unfold decimal_double. change (Z.max (-10000) 0) with 0. change (Z.max (- (-10000)) 0) with 10000. apply huge_double.
    - rewrite Z.pow_0_r, Z.mul_1_r. apply Z.pow_nonneg. lia.
    - apply ten_pos. lia.
    - rewrite Z.pow_0_r, !Z.mul_1_r. rewrite <- ten_split by lia. apply ten_mono. lia. }
  unfold go_float. cbn [json_float]. rewrite E, T. split; reflexivity.
Qed.

Lemma other_exponent : exponent_any (lit "e-100000") (-100000).
Proof. right. exists "e"%char, (lit "-"), (lit "100000"). split; [reflexivity|]. split; [now left|]. split; [apply digits_numerals; [discriminate|reflexivity]|]. right. split; reflexivity. Qed.
Lemma exponent_refuted :
  (exists t k, amounts_any t false k 1 1 /\ go_float t = Some (lit "0") /\ json_float (JNum t) = Some (Finite false 0 (-1074)))
  /\ (exists t k, amounts_any t false k 1 1 /\ go_float t = None /\ json_float (JNum t) = None).
Proof.
  split.
  - exists long_one, 100002. exact (conj long_amounts long_read).
  - assert (Z.of_nat (Z.to_nat 100000) = 100000) as L by (apply Z2Nat.id; lia). assert (0 < Z.to_nat 100000)%nat as P by lia. generalize (Z.to_nat 100000) P L. intros n P' L'. clear P L.
    exists ("1"%char :: repeat zero_char n ++ lit "e-100000"), (Z.of_nat n + 1). split; [apply (one_amounts n _ (-100000) P' other_exponent); lia|].
    apply (one_read n _ (-100000) other_exponent); [reflexivity|lia].
Qed.

Lemma seven_amounts x e : exponent_any x e -> 0 <= e -> amounts_any ("7"%char :: x) false 1 (7 * 10 ^ e) 1.
Proof.
  intros X P. exists (lit "7"), [], [], x, e. split; [reflexivity|]. split; [right; split; [apply digits_numerals; [discriminate|reflexivity]|discriminate]|].
  split; [left; split; reflexivity|]. split; [exact X|]. split; [reflexivity|]. split; [lia|]. change (Z.of_nat (length (@nil byte))) with 0. change (decimal (lit "7" ++ [])) with 7.
  replace (Z.max 0 (0 - e)) with 0 by lia. replace (Z.max 0 (e - 0)) with e by lia. rewrite Z.pow_0_r. lia.
Qed.
Lemma seven_tiny x e : exponent_any x (- e) -> 0 <= e -> amounts_any ("7"%char :: x) false 1 7 (10 ^ e).
Proof.
  intros X P. exists (lit "7"), [], [], x, (- e). split; [reflexivity|]. split; [right; split; [apply digits_numerals; [discriminate|reflexivity]|discriminate]|].
  split; [left; split; reflexivity|]. split; [exact X|]. split; [reflexivity|]. split; [now apply ten_pos|]. change (Z.of_nat (length (@nil byte))) with 0. change (decimal (lit "7" ++ [])) with 7.
  replace (Z.max 0 (0 - - e)) with e by lia. replace (Z.max 0 (- e - 0)) with 0 by lia. rewrite Z.pow_0_r. lia.
Qed.
Lemma seven_none x e : exponent_any x e -> 1000 <= e -> go_float ("7"%char :: x) = None.
Proof.
  intros X P. apply (any_range _ false 1 _ _ (seven_amounts x e X ltac:(lia)) ltac:(lia)). rewrite Z.mul_1_r. transitivity (10 ^ 1000).
  - etransitivity; [|exact thousand]. apply Z.leb_le. vm_compute. reflexivity.
  - pose proof (ten_mono 1000 e ltac:(lia)) as M. pose proof (ten_pos 1000 ltac:(lia)) as T. remember (10 ^ 1000) as th. remember (10 ^ e) as te. clear Heqth Heqte. lia.
Qed.
Lemma seven_zero x e : exponent_any x (- e) -> 1001 <= e -> go_float ("7"%char :: x) = Some (lit "0").
Proof.
  intros X P. destruct (any_float _ false 1 _ _ (seven_tiny x e X ltac:(lia)) ltac:(lia)) as [E _]. rewrite E, (tiny_double 7 (10 ^ e)).
  - reflexivity.
  - lia.
  - apply ten_pos. lia.
  - pose proof (ten_mono 1001 e ltac:(lia)) as M. change 1001 with (1000 + 1) in M. rewrite ten_split in M by lia.
    pose proof (ten_pos 1000 ltac:(lia)) as T. change (10 ^ 1) with 10 in M. remember (10 ^ 1000) as th. remember (10 ^ e) as te. clear Heqth Heqte. lia.
Qed.
Lemma plus_exponent : exponent_any (lit "E+00100000") 100000.
Proof. right. exists "E"%char, (lit "+"), (lit "00100000"). split; [reflexivity|]. split; [now right|]. split; [apply digits_numerals; [discriminate|reflexivity]|]. left. split; [now right|reflexivity]. Qed.
Lemma exponent_case : amounts_any (lit "7E+00100000") false 1 (7 * 10 ^ 100000) 1 /\ go_float (lit "7E+00100000") = None
  /\ amounts_any (lit "7e-100000") false 1 7 (10 ^ 100000) /\ go_float (lit "7e-100000") = Some (lit "0").
Proof.
  split; [exact (seven_amounts _ 100000 plus_exponent ltac:(lia))|]. split; [exact (seven_none _ 100000 plus_exponent ltac:(lia))|].
  split; [exact (seven_tiny _ 100000 other_exponent ltac:(lia))|exact (seven_zero _ 100000 other_exponent ltac:(lia))].
Qed.
