(* Facts for C98: fractions of units *)
From Coq Require Import ZArith NArith Bool Ascii String List Lia.
Import ListNotations.
From Verif Require Import GoBase GoBaseFacts GoTime GoFloat Client ClientCache ClientDuration SpecCodec SpecSparse SpecFormats SpecCache
  FieldFacts NumberFacts CacheFacts DurationFacts DateCases.
Local Open Scope string_scope.
Local Open Scope Z_scope.
Local Open Scope list_scope.
Local Notation length := List.length.

Lemma under_pos x : 0 < under x.
Proof. unfold under. apply Z.pow_pos_nonneg; lia. Qed.

Lemma whole_over z : 0 < z <= 2 ^ 53 -> over (whole_double z) = z * under (whole_double z).
Proof. intros R. pose proof (whole_value z R) as V. unfold over, under. destruct (whole_double z) as [m e]. cbn [fst snd]. apply V. Qed.

Lemma double_one z : 0 < z <= 2 ^ 53 -> to_double z 1 = Some (whole_double z).
Proof. intros R. rewrite <- (Z.mul_1_r z) at 1. apply double_whole; [exact R|lia]. Qed.

Lemma mul_whole a b : 0 < a <= 2 ^ 53 -> 0 < b <= 2 ^ 53 -> a * b <= 2 ^ 53 -> float_mul (whole_double a) (whole_double b) = Some (whole_double (a * b)).
Proof.
  intros A B L. unfold float_mul. rewrite !whole_over by assumption. pose proof (under_pos (whole_double a)) as P. pose proof (under_pos (whole_double b)) as Q.
  generalize dependent (under (whole_double a)). intros u P. generalize dependent (under (whole_double b)). intros v Q.
  replace (a * u * (b * v)) with (a * b * (u * v)) by ring. apply double_whole; nia.
Qed.

Lemma div_whole q b : 0 < q <= 2 ^ 53 -> 0 < b <= 2 ^ 53 -> q * b <= 2 ^ 53 -> float_div (whole_double (q * b)) (whole_double b) = Some (whole_double q).
Proof.
  intros A B L. unfold float_div. rewrite !whole_over by nia. pose proof (under_pos (whole_double (q * b))) as P. pose proof (under_pos (whole_double b)) as Q.
  generalize dependent (under (whole_double (q * b))). intros u P. generalize dependent (under (whole_double b)). intros v Q.
  replace (q * b * u * v) with (q * (u * (b * v))) by ring. apply double_whole; nia.
Qed.

Lemma truncate_whole z : 0 < z <= 2 ^ 53 -> truncate (whole_double z) = z.
Proof. intros R. unfold truncate. rewrite whole_over by exact R. apply Z.div_mul. pose proof (under_pos (whole_double z)). lia. Qed.

Lemma scale_whole k : 10 ^ Z.of_nat k <= 2 ^ 53 -> scale k = Some (whole_double (10 ^ Z.of_nat k)).
Proof.
  induction k as [|k IH]; intros L; [reflexivity|]. rewrite Nat2Z.inj_succ, Z.pow_succ_r in * by lia.
  assert (0 < 10 ^ Z.of_nat k) as P by (apply Z.pow_pos_nonneg; lia). cbn [scale]. rewrite IH by lia. rewrite (double_one 10) by lia.
  rewrite (Z.mul_comm 10). apply mul_whole; lia.
Qed.

(* a fraction that is a whole number of nanoseconds *)
Lemma parts_exact f k q : 0 <= k -> 0 < f < 10 ^ k -> 0 < q -> q * 10 ^ k <= 2 ^ 53 -> go_parts f k (q * 10 ^ k) = f * q.
Proof.
  intros K F Q L. assert (10 ^ k <= 2 ^ 53) as T by nia. assert (f * q <= 2 ^ 53) as FQ by nia. assert (q <= 2 ^ 53) as Q' by nia.
  unfold go_parts. rewrite (double_one f), (double_one (q * 10 ^ k)) by nia. rewrite scale_whole by (rewrite Z2Nat.id; assumption). rewrite Z2Nat.id by exact K.
  rewrite div_whole by lia. rewrite mul_whole by lia. apply truncate_whole. nia.
Qed.

Lemma half_even_nonneg n d : 0 <= n -> 0 <= d -> 0 <= half_even n d.
Proof.
  intros N D. assert (0 <= n / d) as Q by (destruct (Z.eq_dec d 0) as [->|E]; [now rewrite Zdiv_0_r|apply Z.div_pos; lia]).
  unfold half_even. destruct (_ || _); lia.
Qed.

Lemma to_double_nonneg n d x : 0 <= n -> 0 <= d -> to_double n d = Some x -> 0 <= over x.
Proof.
  intros N D H. assert (0 <= fst x) as F.
  { unfold to_double in H. destruct (n =? 0); [injection H as <-; discriminate|]. remember (Z.max (-1074) (binade n d - 52)) as e.
    pose proof (half_even_nonneg (n * 2 ^ Z.max (- e) 0) (d * 2 ^ Z.max e 0) ltac:(apply Z.mul_nonneg_nonneg; [lia|apply Z.pow_nonneg; lia])
      ltac:(apply Z.mul_nonneg_nonneg; [lia|apply Z.pow_nonneg; lia])) as G.
    remember (half_even _ _) as m. destruct (m =? 2 ^ 53); destruct (971 <? _); try discriminate; injection H as <-; cbn [fst]; lia. }
  unfold over. apply Z.mul_nonneg_nonneg; [exact F|apply Z.pow_nonneg; lia].
Qed.

Lemma scale_nonneg k x : scale k = Some x -> 0 <= over x.
Proof.
  revert x. induction k as [|k IH]; intros x H; [exact (to_double_nonneg 1 1 x ltac:(lia) ltac:(lia) H)|]. cbn [scale] in H.
  destruct (scale k) as [y|]; [|discriminate]. destruct (to_double 10 1) as [ten|] eqn:T; [|discriminate].
  pose proof (IH y eq_refl). pose proof (to_double_nonneg 10 1 ten ltac:(lia) ltac:(lia) T). pose proof (under_pos y). pose proof (under_pos ten).
  apply to_double_nonneg in H; [exact H|nia|nia].
Qed.

Lemma parts_nonneg f k unit : 0 <= f -> 0 <= k -> 0 <= unit -> 0 <= go_parts f k unit.
Proof.
  intros F K U. unfold go_parts. destruct (to_double f 1) as [x|] eqn:X; [|lia]. destruct (to_double unit 1) as [u|] eqn:V; [|lia]. destruct (scale _) as [s|] eqn:S; [|lia].
  destruct (float_div u s) as [q|] eqn:Q; [|lia]. destruct (float_mul x q) as [p|] eqn:E; [|lia].
  apply to_double_nonneg in X, V; try lia. apply scale_nonneg in S. pose proof (under_pos x). pose proof (under_pos u). pose proof (under_pos s). pose proof (under_pos q). pose proof (under_pos p).
  apply to_double_nonneg in Q; [|nia|nia]. apply to_double_nonneg in E; [|nia|nia]. unfold truncate. apply Z.div_pos; lia.
Qed.

(* the fraction of a unit, cut off to nanoseconds *)
Lemma parts_fraction u k d f : In (u, k) unit_names -> 0 <= d -> (10 ^ d | k) -> 0 < f < 10 ^ d -> go_parts f d k * 10 ^ d = f * k.
Proof.
  intros I D [q ->] F. assert (0 < 10 ^ d) as T by (apply Z.pow_pos_nonneg; lia).
  assert (0 < q * 10 ^ d <= 3600000000000) as B by (remember (q * 10 ^ d) as k eqn:E; clear E; cbn [unit_names In] in I; repeat (destruct I as [I|I]; [injection I as _ <-; lia|]); destruct I).
  rewrite parts_exact; [ring|exact D|exact F|nia|]. apply (Z.le_trans _ 3600000000000); [lia|]. discriminate.
Qed.

Lemma parts_lossy : exists u k d f, In (u, k) unit_names /\ 0 < f < 10 ^ d /\ (10 ^ d | f * k) /\ go_parts f d k * 10 ^ d <> f * k.
Proof.
  exists (lit "us"), 1000, 14, 100000000000. split; [right; left; reflexivity|]. split; [lia|]. split; [exists 1; reflexivity|]. vm_compute. discriminate.
Qed.

(* seconds with decimals *)
Lemma kept_decimals zone header abbr t l v w n d f a b : http_date abbr t (header "Date") -> control_text l (header "Cache-Control") ->
  says_max_age l (Some v) -> v = a ++ list_ascii_of_string "." ++ b -> decimal_text w n a -> decimal_text d f b -> (0 < w + d)%nat -> (d <= 9)%nat -> n < 9223372036 ->
  cache_expires go_parts zone header = ExpiresAt (instant (http_time zone abbr t) + (n * 10 ^ 9 + f * 10 ^ (9 - Z.of_nat d))).
Proof.
  intros D C S -> A B W L N. pose proof (decimal_digits _ _ _ A) as (Da & Va & _). pose proof (decimal_digits _ _ _ B) as (Db & Vb & Lb).
  pose proof (dval_nonneg a Da) as Pa. pose proof (dval_nonneg b Db) as Pb. rewrite Va in Pa. rewrite Vb in Pb.
  assert (f < 10 ^ Z.of_nat d) as F by (rewrite <- Vb, <- Lb; apply dval_range; exact Db).
  assert (10 ^ Z.of_nat d * 10 ^ (9 - Z.of_nat d) = 10 ^ 9) as T by (rewrite <- Z.pow_add_r by lia; f_equal; lia).
  assert (0 < 10 ^ (9 - Z.of_nat d)) as P by (apply Z.pow_pos_nonneg; lia).
  assert (0 <= f * 10 ^ (9 - Z.of_nat d) < 10 ^ 9) as R by nia.
  assert ((if f =? 0 then 0 else go_parts f (Z.of_nat d) 1000000000) = f * 10 ^ (9 - Z.of_nat d)) as G.
  { destruct (f =? 0) eqn:Q; [apply Z.eqb_eq in Q; now rewrite Q|]. apply Z.eqb_neq in Q.
    change 1000000000 with (10 ^ 9). rewrite <- T, (Z.mul_comm (10 ^ Z.of_nat d)). apply parts_exact; [lia|lia|exact P|]. rewrite Z.mul_comm, T. discriminate. }
  apply (kept_spans go_parts zone header parts_nonneg abbr t l _ _ D C S).
  - apply SpansBare. apply (SpansOne go_parts _ _ (list_ascii_of_string "s") 1000000000); [cbn; tauto|]. rewrite <- G. change (10 ^ 9) with 1000000000.
    apply (AmountPoint go_parts 1000000000 n w a f d b A B W). lia.
  - change (10 ^ 9) with 1000000000 in *. lia.
Qed.

(* so many digits that their scale is infinite *)
Lemma scale_infinite k : scale (309 + k) = None.
Proof. induction k as [|k IH]; [vm_compute; reflexivity|]. rewrite Nat.add_succ_r. cbn [scale]. now rewrite IH. Qed.

Lemma parts_tiny f k unit : 309 <= k -> go_parts f k unit = 0.
Proof.
  intros K. unfold go_parts. replace (Z.to_nat k) with (309 + Z.to_nat (k - 309))%nat by lia. rewrite scale_infinite.
  destruct (to_double f 1), (to_double unit 1); reflexivity.
Qed.

Lemma decimals_case : decimal_text 1 1 (lit "1") /\ decimal_text 2 25 (lit "25") /\ go_parts 25 2 1000000000 = 250000000
  /\ go_parts 1 400 1000000000 = 0.
Proof. split; [apply decimal_ok; reflexivity|]. split; [apply decimal_ok; reflexivity|split; [vm_compute; reflexivity|apply parts_tiny; lia]]. Qed.
