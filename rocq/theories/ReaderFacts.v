(* Facts about scanRecord and bufio.Scanner *)
From Coq Require Import ZArith NArith Bool Ascii String List Lia.
Import ListNotations.
From Verif Require Import GoBase GoTime Tables Codec Records File GoBaseFacts SpecCodec SpecLayouts
  SpecRecords FieldFacts SpecFiles BreakFacts Reader SpecReader.
Local Open Scope string_scope.
Local Open Scope Z_scope.
Local Open Scope list_scope.
Local Notation length := List.length.

(* ---- the announced length ---- *)

Lemma decimal_word_unique w n m : decimal_word w n -> decimal_word w m -> n = m.
Proof.
  intros (d & W & _ & D & <-) (d' & W' & _ & D' & <-).
  assert (~ In "+"%char digits) as P by (intros H; apply digits_spec in H; discriminate).
  destruct W as [->| ->], W' as [W'|W'].
  - congruence.
  - subst. inversion D; contradiction.
  - subst. inversion D'; contradiction.
  - injection W' as ->. reflexivity.
Qed.

Lemma parse_int_word w : length w = 4%nat ->
  match parse_int 32 w with
  | (z, None) => decimal_word w z \/ (negative_word w /\ z <= 0)
  | (_, Some _) => (forall m, ~ decimal_word w m) /\ ~ negative_word w
  end.
Proof.
  intros L. unfold parse_int. destruct w as [|c r]; [discriminate|].
  assert (forall ds, (length ds <= 4)%nat -> forallb is_digit ds = true -> 0 <= dval ds < 2 ^ 31) as Rg.
  { intros ds Ld D. pose proof (dval_range ds D) as H.
    assert (10 ^ Z.of_nat (length ds) <= 10 ^ 4) by (apply Z.pow_le_mono_r; lia). lia. }
  assert (forall c, is_digit c = true -> c <> "+"%char /\ c <> "-"%char) as NS.
  { intros x Hx. split; intros ->; discriminate. }
  unfold byte_eqb. change (32 - 1) with 31.
  destruct (Ascii.eqb_spec c "+"%char) as [->|Np]; [|destruct (Ascii.eqb_spec c "-"%char) as [->|Nm]].
  - destruct r as [|c' r']; [discriminate|]. set (ds := c' :: r') in *.
    destruct (forallb is_digit ds) eqn:D.
    + assert ((length ds <= 4)%nat) by (cbn in L |- *; lia). specialize (Rg ds H D).
      cbn [negb andb]. destruct (Z.leb_spec (2 ^ 31) (dval ds)); [lia|].
      left. exists ds. rewrite decimal_dval. repeat split; [right; reflexivity|discriminate|apply forall_digits; exact D].
    + split.
      * intros m (d & [W|W] & N & F & _); subst.
        -- inversion F as [|? ? F0]; subst. apply digits_spec in F0. discriminate.
        -- injection W as W. rewrite <- W in F. apply forall_digits in F. fold ds in F. congruence.
      * intros (d & W & _). discriminate.
  - destruct r as [|c' r']; [discriminate|]. set (ds := c' :: r') in *.
    destruct (forallb is_digit ds) eqn:D.
    + assert ((length ds <= 4)%nat) by (cbn in L |- *; lia). specialize (Rg ds H D).
      cbn [negb andb]. destruct (Z.ltb_spec (2 ^ 31) (dval ds)); [lia|].
      right. split; [|lia]. exists ds. repeat split; [discriminate|apply forall_digits; exact D].
    + split.
      * intros m (d & [W|W] & N & F & _); subst.
        -- inversion F as [|? ? F0]; subst. apply digits_spec in F0. discriminate.
        -- discriminate.
      * intros (d & W & N & F). injection W as W. rewrite <- W in F. apply forall_digits in F. fold ds in F. congruence.
  - set (ds := c :: r) in *. destruct (forallb is_digit ds) eqn:D.
    + assert ((length ds <= 4)%nat) by lia. specialize (Rg ds H D).
      cbn [negb andb]. destruct (Z.leb_spec (2 ^ 31) (dval ds)); [lia|].
      left. exists ds. rewrite decimal_dval. repeat split; [left; reflexivity|discriminate|apply forall_digits; exact D].
    + split.
      * intros m (d & [W|W] & N & F & _); subst.
        -- apply forall_digits in F. congruence.
        -- unfold ds in W. injection W as W _. contradiction.
      * intros (d & W & N & F). unfold ds in W. injection W as W _. contradiction.
Qed.

Lemma announced_says w n : length w = 4%nat -> announced_size w = Some n <-> word_says w n.
Proof.
  intros L. unfold announced_size. pose proof (parse_int_word w L) as P.
  destruct (parse_int 32 w) as [z [e|]] eqn:E.
  - destruct P as [P1 P2]. destruct w as [|a [|b [|c [|d [|]]]]]; try discriminate.
    cbn [firstn]. assert (be_val [a; b] = 256 * code a + code b) as ->.
    { rewrite <- binary_be_val. cbn [binary length]. change (256 ^ Z.of_nat 1) with 256. change (256 ^ Z.of_nat 0) with 1. lia. }
    change (Z.of_nat PackedRecordLength) with 366.
    destruct (Z.ltb_spec (256 * code a + code b) 366).
    + split; [discriminate|]. intros [(D & _)|(_ & _ & x & y & u & v & W & -> & G)]; [exfalso; eapply P1, D|].
      injection W as <- <- <- <-. lia.
    + split.
      * intros H'. injection H' as <-. right. split; [exact P1|]. split; [exact P2|].
        exists a, b, c, d. auto.
      * intros [(D & _)|(_ & _ & x & y & u & v & W & -> & G)]; [exfalso; eapply P1, D|].
        injection W as <- <- <- <-. reflexivity.
  - change (Z.of_nat UnpackedRecordLength) with 426.
    destruct P as [D|[N Lz]].
    + destruct (Z.ltb_spec z 426).
      * split; [discriminate|]. intros [(D' & G)|(X & _)]; [|exfalso; eapply X, D].
        rewrite (decimal_word_unique _ _ _ D D') in H. lia.
      * split.
        -- intros H'. injection H' as <-. left. auto.
        -- intros [(D' & G)|(X & _)]; [|exfalso; eapply X, D]. f_equal. eapply decimal_word_unique; eauto.
    + destruct (Z.ltb_spec z 426); [|lia]. split; [discriminate|].
      intros [(D' & G)|(_ & X & _)]; [|contradiction].
      destruct N as (ds & -> & Nd & F). destruct D' as (d & [W|W] & _ & Fd & _); [|discriminate].
      subst d. inversion Fd as [|? ? F0]; subst. apply digits_spec in F0. discriminate.
Qed.

Lemma word_says_min w n : word_says w n -> 366 <= n.
Proof. intros [[_ H]|(_ & _ & a & b & c & d & _ & _ & H)]; lia. Qed.

Lemma announced_min w n : length w = 4%nat -> announced_size w = Some n -> 366 <= n.
Proof. intros L H. eapply word_says_min. apply announced_says; eauto. Qed.

(* ---- getStripedData ---- *)

Definition ends_plain (s : bytes) : Prop := exists s' c, s = s' ++ [c] /\ plain c.

Lemma strip_le s : (length (strip s) <= length s)%nat.
Proof.
  induction s as [|c s IH]; [reflexivity|]. unfold strip in *. cbn [filter]. destruct (negb (is_crlf c)); cbn [length]; lia.
Qed.

Lemma strip_one c : plain c -> strip [c] = [c].
Proof. intros P. unfold strip. cbn [filter]. apply plain_spec in P. rewrite P. reflexivity. Qed.

Lemma strip_crlf c s : is_crlf c = true -> strip (c :: s) = strip s.
Proof. intros H. unfold strip. cbn [filter]. rewrite H. reflexivity. Qed.

Lemma strip_cons c s : plain c -> strip (c :: s) = c :: strip s.
Proof. intros P. unfold strip. cbn [filter]. apply plain_spec in P. rewrite P. reflexivity. Qed.

Lemma firstn_strip_lt s j : ends_plain s -> (j < length s)%nat -> (length (strip (firstn j s)) < length (strip s))%nat.
Proof.
  intros (s' & c & -> & P) L. rewrite app_length in L. cbn [length] in L.
  rewrite firstn_app. replace (j - length s')%nat with 0%nat by lia. cbn [firstn]. rewrite app_nil_r.
  rewrite strip_app, (strip_one c P), app_length. cbn [length].
  rewrite <- (firstn_skipn j s') at 2. rewrite strip_app, app_length. lia.
Qed.

Lemma striped_loop_finds raw rest size : ends_plain raw -> length (strip raw) = size ->
  forall n i, (i <= length raw)%nat -> (length raw < i + n)%nat ->
  striped_loop n (raw ++ rest) size i = Some (length raw, strip raw).
Proof.
  intros E Ls. induction n as [|n IH]; intros i Li Ln; [lia|]. cbn [striped_loop].
  destruct (Nat.eq_dec i (length raw)) as [->|Ni].
  - rewrite firstn_app, firstn_all, Nat.sub_diag. cbn [firstn]. rewrite app_nil_r, Ls, Nat.eqb_refl. reflexivity.
  - assert (firstn i (raw ++ rest) = firstn i raw) as ->.
    { rewrite firstn_app. replace (i - length raw)%nat with 0%nat by lia. cbn [firstn]. apply app_nil_r. }
    pose proof (firstn_strip_lt raw i E ltac:(lia)) as H.
    destruct (Nat.eqb_spec (length (strip (firstn i raw))) size); [lia|]. apply IH; lia.
Qed.

Lemma striped_finds raw rest : ends_plain raw ->
  get_striped_data (raw ++ rest) (length (strip raw)) = Some (length raw, strip raw).
Proof.
  intros E. unfold get_striped_data. apply striped_loop_finds; auto.
  - apply strip_le.
  - rewrite app_length. pose proof (strip_le raw). lia.
Qed.

Lemma striped_cut size : (0 < size)%nat -> forall data, (size <= length (strip data))%nat ->
  exists raw rest, data = raw ++ rest /\ ends_plain raw /\ length (strip raw) = size.
Proof.
  intros Hs data. revert size Hs. induction data as [|c data IH]; intros size Hs L; [cbn in L; lia|].
  destruct (plain_dec c) as [P|P].
  - rewrite (strip_cons c data P) in L. cbn [length] in L.
    destruct (Nat.eq_dec size 1) as [->|N].
    + exists [c], data. split; [reflexivity|]. split; [exists [], c; auto|rewrite (strip_one c P); reflexivity].
    + destruct (IH (size - 1)%nat) as (raw & rest & -> & (raw' & d & -> & Pd) & Lr); [lia|lia|].
      exists (c :: raw' ++ [d]), rest. split; [reflexivity|]. split.
      * exists (c :: raw'), d. auto.
      * rewrite (strip_cons _ _ P). cbn [length]. lia.
  - rewrite (strip_crlf c data P) in L.
    destruct (IH size Hs L) as (raw & rest & -> & (raw' & d & -> & Pd) & Lr).
    exists (c :: raw' ++ [d]), rest. split; [reflexivity|]. split.
    + exists (c :: raw'), d. auto.
    + rewrite (strip_crlf _ _ P). exact Lr.
Qed.

Lemma striped_word data : (4 <= length (strip data))%nat ->
  exists i, get_striped_data data 4 = Some (i, firstn 4 (strip data)).
Proof.
  intros L. destruct (striped_cut 4 ltac:(lia) data L) as (raw & rest & -> & E & Lr).
  exists (length raw). pose proof (striped_finds raw rest E) as H. rewrite Lr in H. rewrite H. do 2 f_equal.
  rewrite strip_app, firstn_app, Lr, Nat.sub_diag. rewrite firstn_all2 by lia. cbn [firstn]. rewrite app_nil_r. reflexivity.
Qed.

(* ---- scanRecord ---- *)

Definition good_token (t : bytes) : Prop :=
  (4 <= length t)%nat /\ announced_size (firstn 4 t) = Some (Z.of_nat (length t)).

Lemma firstn_4_app (a b : bytes) : (4 <= length a)%nat -> firstn 4 (a ++ b) = firstn 4 a.
Proof. intros L. rewrite firstn_app. replace (4 - length a)%nat with 0%nat by lia. cbn [firstn]. apply app_nil_r. Qed.

Lemma scan_token data eof a t : scan_record data eof = SToken a t <->
  exists raw rest, data = raw ++ rest /\ ends_plain raw /\ a = length raw /\ t = strip raw /\ good_token t.
Proof.
  unfold scan_record. split.
  - destruct (Nat.ltb_spec (length (strip data)) 4) as [L|L].
    + destruct eof; cbn [negb]; [destruct (length (strip data) =? 0)%nat|]; discriminate.
    + destruct (striped_word data L) as (i & ->). destruct (announced_size (firstn 4 (strip data))) as [size|] eqn:A; [|discriminate].
      assert (length (firstn 4 (strip data)) = 4%nat) as L4 by (rewrite firstn_length; lia).
      pose proof (announced_min _ _ L4 A) as M.
      destruct (Z.leb_spec size (Z.of_nat (length (strip data)))) as [Ls|Ls]; [|destruct eof; discriminate].
      destruct (striped_cut (Z.to_nat size) ltac:(lia) data ltac:(lia)) as (raw & rest & -> & E & Lr).
      rewrite <- Lr, (striped_finds raw rest E). intros H. injection H as <- <-.
      exists raw, rest. repeat (split; [solve [reflexivity|exact E]|]). split; [lia|].
      rewrite strip_app, firstn_4_app in A by lia. rewrite A. f_equal. lia.
  - intros (raw & rest & -> & E & -> & -> & L & A). rewrite strip_app, app_length.
    destruct (Nat.ltb_spec (length (strip raw) + length (strip rest)) 4); [lia|].
    destruct (striped_word (raw ++ rest)) as (i & ->); [rewrite strip_app, app_length; lia|].
    rewrite strip_app, firstn_4_app, A by lia. destruct (Z.leb_spec (Z.of_nat (length (strip raw))) (Z.of_nat (length (strip raw) + length (strip rest)))); [|lia].
    rewrite Nat2Z.id, (striped_finds raw rest E). reflexivity.
Qed.

Lemma scan_token_app data eof a t more eof' : scan_record data eof = SToken a t -> scan_record (data ++ more) eof' = SToken a t.
Proof.
  intros H. apply scan_token in H as (raw & rest & -> & E). apply scan_token. exists raw, (rest ++ more).
  rewrite app_assoc. tauto.
Qed.

Lemma scan_token_length data eof a t : scan_record data eof = SToken a t ->
  (366 <= a <= length data)%nat /\ t <> [].
Proof.
  intros H. apply scan_token in H as (raw & rest & -> & E & -> & -> & L & A).
  assert (length (firstn 4 (strip raw)) = 4%nat) as L4 by (rewrite firstn_length; lia).
  pose proof (announced_min _ _ L4 A) as M. pose proof (strip_le raw). rewrite app_length.
  split; [lia|]. intros Z0. rewrite Z0 in L. cbn in L. lia.
Qed.

Lemma scan_error data more eof : scan_record data false = SError -> scan_record (data ++ more) eof = SError.
Proof.
  unfold scan_record. destruct (Nat.ltb_spec (length (strip data)) 4) as [L|L]; [discriminate|].
  destruct (striped_word data L) as (i & ->). destruct (announced_size (firstn 4 (strip data))) as [size|] eqn:A.
  - assert (length (firstn 4 (strip data)) = 4%nat) as L4 by (rewrite firstn_length; lia).
    pose proof (announced_min _ _ L4 A) as M.
    destruct (Z.leb_spec size (Z.of_nat (length (strip data)))) as [Ls|Ls]; [|discriminate].
    destruct (striped_cut (Z.to_nat size) ltac:(lia) data ltac:(lia)) as (raw & rest & -> & E & Lr).
    rewrite <- Lr, (striped_finds raw rest E). discriminate.
  - intros _. rewrite strip_app, app_length. destruct (Nat.ltb_spec (length (strip data) + length (strip more)) 4); [lia|].
    destruct (striped_word (data ++ more)) as (j & ->); [rewrite strip_app, app_length; lia|].
    rewrite strip_app, firstn_4_app, A by lia. reflexivity.
Qed.

(* ---- what a scanner makes of its whole input ---- *)

Definition window : nat := Z.to_nat maxTokenSize.

Lemma window_spec n : (n <= window)%nat <-> Z.of_nat n <= maxTokenSize.
Proof. unfold window, maxTokenSize. lia. Qed.

Lemma window_le n : scanner_limit <= Z.of_nat n -> (window <= n)%nat.
Proof. unfold window, maxTokenSize, scanner_limit. lia. Qed.

(* the next record of [s] and what follows it *)
Definition next (s : bytes) : option (bytes * bytes) :=
  match scan_record (firstn window s) true with
  | SToken a t => Some (t, skipn a s)
  | _ => None
  end.

Fixpoint tokens (fuel : nat) (s : bytes) : list bytes :=
  match fuel with
  | O => []
  | S fuel' => match next s with Some (t, s') => t :: tokens fuel' s' | None => [] end
  end.

Lemma next_shorter s t s' : next s = Some (t, s') -> (length s' + 366 <= length s)%nat.
Proof.
  unfold next. destruct (scan_record (firstn window s) true) as [a t'| |] eqn:E; try discriminate.
  intros H. injection H as <- <-. apply scan_token_length in E as [[L1 L2] _]. rewrite firstn_length in L2.
  rewrite skipn_length. lia.
Qed.

Lemma tokens_fuel : forall fuel fuel' s, (length s < fuel)%nat -> (length s < fuel')%nat -> tokens fuel s = tokens fuel' s.
Proof.
  induction fuel as [|fuel IH]; intros fuel' s L L'; [lia|]. destruct fuel' as [|fuel']; [lia|]. cbn [tokens].
  destruct (next s) as [[t s']|] eqn:E; [|reflexivity]. apply next_shorter in E. f_equal. apply IH; lia.
Qed.

(* ---- the scanner delivers just that ---- *)

(* no stretch of empty reads that makes the scanner give up, [k] already made *)
Fixpoint calm (k : nat) (evs : list read_event) : Prop :=
  match evs with
  | [] => True
  | e :: evs' => if Nat.eqb (evMax e) 0 then (k < maxConsecutiveEmptyReads)%nat /\ calm (S k) evs' else calm 0 evs'
  end.

Lemma calm_less : forall evs k j, (j <= k)%nat -> calm k evs -> calm j evs.
Proof.
  induction evs as [|e evs IH]; intros k j L H; [exact I|]. cbn [calm] in *. destruct (evMax e =? 0)%nat; [|exact H].
  destruct H as [H1 H2]. split; [lia|]. eapply IH; [|exact H2]. lia.
Qed.

Lemma patient_tail e evs : patient (e :: evs) -> patient evs.
Proof. intros P a b c E. apply (P (e :: a) b c). rewrite E. reflexivity. Qed.

Lemma patient_calm_from : forall evs pre, patient (pre ++ evs) ->
  Forall (fun e => evMax e = 0%nat) pre -> calm (length pre) evs.
Proof.
  induction evs as [|e evs IH]; intros pre P F; [exact I|]. cbn [calm]. destruct (Nat.eqb_spec (evMax e) 0) as [E|E].
  - split.
    + unfold maxConsecutiveEmptyReads. destruct (Nat.ltb_spec (length pre) 100) as [L|L]; [exact L|exfalso].
      pose (b := skipn (length pre - 100) pre ++ [e]).
      destruct (P (firstn (length pre - 100) pre) b evs) as (x & Ix & Nx).
      * unfold b. rewrite <- app_assoc. cbn [app]. rewrite app_assoc, firstn_skipn. reflexivity.
      * unfold b. rewrite app_length, skipn_length. cbn [length]. lia.
      * apply Nx. unfold b in Ix. apply in_app_or in Ix as [Ix|[<-|[]]]; [|exact E].
        rewrite Forall_forall in F. apply F. rewrite <- (firstn_skipn (length pre - 100) pre). apply in_or_app. auto.
    + replace (S (length pre)) with (length (pre ++ [e])) by (rewrite app_length; cbn; lia).
      apply IH; [rewrite <- app_assoc; exact P|]. apply Forall_app. auto.
  - assert (patient (e :: evs)) as P'.
    { clear -P. induction pre as [|x pre IHp]; [exact P|]. apply IHp, (patient_tail x), P. }
    apply (IH []); [apply (patient_tail e), P'|constructor].
Qed.

Lemma patient_calm evs : patient evs -> calm 0 evs.
Proof. intros P. apply (patient_calm_from evs []); [exact P|constructor]. Qed.

Definition fits_buffer (s : scanner) : Prop :=
  0 <= scStart s /\ scStart s + Z.of_nat (length (scData s)) <= scCap s <= maxTokenSize.

(* [s] still has to be delivered *)
Definition stands (sc : scanner) (s : bytes) : Prop :=
  fits_buffer sc /\
  ((scErr sc = false /\ s = scData sc ++ scRest sc)
   \/ (scErr sc = true /\ scRest sc = [] /\ s = scData sc)
   \/ (scErr sc = true /\ next s = None /\ forall a t, scan_record (scData sc) true <> SToken a t)).

Lemma window_app (d e : bytes) : (length d <= window)%nat -> exists e', firstn window (d ++ e) = d ++ e'.
Proof. intros L. rewrite firstn_app. rewrite firstn_all2 by lia. eauto. Qed.

Lemma fits_window sc : fits_buffer sc -> (length (scData sc) <= window)%nat.
Proof. intros (A & B & C). apply window_spec. lia. Qed.

Lemma next_of_prefix d e a t eof : (length d <= window)%nat -> scan_record d eof = SToken a t ->
  next (d ++ e) = Some (t, skipn a d ++ e).
Proof.
  intros L H. unfold next. destruct (window_app d e L) as (e' & ->).
  rewrite (scan_token_app _ _ _ _ e' true H). apply scan_token_length in H as [[_ La] _].
  rewrite skipn_app. replace (a - length d)%nat with 0%nat by lia. reflexivity.
Qed.

Lemma next_of_error d e : (length d <= window)%nat -> scan_record d false = SError -> next (d ++ e) = None.
Proof.
  intros L H. unfold next. destruct (window_app d e L) as (e' & ->). rewrite (scan_error d e' true H). reflexivity.
Qed.

Lemma no_token_eof d : (forall a t, scan_record d false <> SToken a t) -> forall a t, scan_record d true <> SToken a t.
Proof.
  intros H a t E. apply (H a t). pose proof (scan_token_app d true a t [] false E) as E'.
  rewrite app_nil_r in E'. exact E'.
Qed.

Lemma next_none_of_more d : (length d <= window)%nat -> (forall a t, scan_record d true <> SToken a t) -> next d = None.
Proof.
  intros L H. unfold next. rewrite firstn_all2 by exact L. destruct (scan_record d true) as [a t| |] eqn:E; try reflexivity.
  exfalso. eapply H, eq_refl.
Qed.

(* room is made unless the buffer is full *)
Lemma make_room_spec sc : fits_buffer sc ->
  match make_room sc with
  | None => Z.of_nat (length (scData sc)) = maxTokenSize
  | Some sc' => fits_buffer sc' /\ scData sc' = scData sc /\ scRest sc' = scRest sc /\ scErr sc' = scErr sc
      /\ scStart sc' + Z.of_nat (length (scData sc')) < scCap sc'
  end.
Proof.
  intros (A & B & C). unfold make_room, maxTokenSize, startBufSize in *.
  set (n := Z.of_nat (length (scData sc))) in *. assert (0 <= n) by (unfold n; lia).
  set (start := if (0 <? scStart sc) && ((scStart sc + n =? scCap sc) || (scCap sc / 2 <? scStart sc)) then 0 else scStart sc).
  assert (start = 0 \/ (start = scStart sc /\ (scStart sc = 0 \/ scStart sc + n <> scCap sc))) as S0.
  { unfold start. destruct (Z.ltb_spec 0 (scStart sc)); cbn [andb].
    - destruct (Z.eqb_spec (scStart sc + n) (scCap sc)); cbn [orb]; [auto|].
      destruct (scCap sc / 2 <? scStart sc); auto.
    - right. split; [reflexivity|]. lia. }
  destruct (Z.eqb_spec (start + n) (scCap sc)) as [E|E].
  - destruct (Z.leb_spec 65536 (scCap sc)) as [G|G].
    + destruct S0 as [S0|[S0 [S1|S1]]]; lia.
    + unfold fits_buffer. cbn [scCap scStart scData scRest scErr].
      assert (n <= scCap sc) by lia.
      destruct (Z.eqb_spec (scCap sc * 2) 0).
      * change (Z.min 4096 65536) with 4096. unfold maxTokenSize. fold n. repeat split; lia.
      * unfold maxTokenSize. fold n. repeat split; lia.
  - unfold fits_buffer, maxTokenSize. cbn [scCap scStart scData scRest scErr]. fold n. repeat split; try lia.
Qed.

(* what the start of the loop of Scan leads to *)
Lemma scan_head_spec sc s : stands sc s ->
  match scan_head sc with
  | HReturn tok sc' =>
      match next s with
      | None => tok = None /\ stands sc' s
      | Some (t, s') => tok = Some t /\ stands sc' s'
      end
  | HRead sc' => stands sc' s /\ scErr sc' = false /\ scStart sc' + Z.of_nat (length (scData sc')) < scCap sc'
  end.
Proof.
  intros [F H]. pose proof (fits_window sc F) as LW. unfold scan_head.
  destruct H as [(Er & ->)|[(Er & Rs & ->)|(Er & Nx & No)]]; rewrite Er.
  - (* no error yet *)
    assert (forall P : scan_record (scData sc) false = SMore \/ scData sc = [],
      match match make_room sc with None => HReturn None (set_err sc) | Some s' => HRead s' end with
      | HReturn tok sc' => match next (scData sc ++ scRest sc) with
          | None => tok = None /\ stands sc' (scData sc ++ scRest sc)
          | Some (t, s') => tok = Some t /\ stands sc' s' end
      | HRead sc' => stands sc' (scData sc ++ scRest sc) /\ scErr sc' = false
          /\ scStart sc' + Z.of_nat (length (scData sc')) < scCap sc'
      end) as More.
    { intros P. pose proof (make_room_spec sc F) as MR. destruct (make_room sc) as [sc'|].
      - destruct MR as (F' & D' & R' & E' & S'). split; [|split; [congruence|exact S']].
        split; [exact F'|]. left. rewrite D', R'. split; [congruence|reflexivity].
      - assert (forall a t, scan_record (scData sc) false <> SToken a t) as No.
        { intros a t E. destruct P as [P|P]; [congruence|]. rewrite P in MR. discriminate. }
        assert (next (scData sc ++ scRest sc) = None) as Nx.
        { unfold next. assert (length (scData sc) = window) as Lw by (unfold window; lia).
          rewrite firstn_app, <- Lw, Nat.sub_diag, firstn_all. cbn [firstn]. rewrite app_nil_r.
          destruct (scan_record (scData sc) true) as [a t| |] eqn:E; try reflexivity. exfalso.
          eapply no_token_eof; eauto. }
        rewrite Nx. split; [reflexivity|]. split; [exact F|]. right. right. cbn [set_err scErr scData].
        split; [reflexivity|]. split; [exact Nx|]. apply no_token_eof. exact No. }
    destruct (Nat.ltb_spec 0 (length (scData sc))) as [L|L]; cbn [orb].
    + destruct (scan_record (scData sc) false) as [a t| |] eqn:E.
      * rewrite (next_of_prefix _ (scRest sc) a t false LW E). split; [reflexivity|].
        pose proof (scan_token_length _ _ _ _ E) as [[La1 La2] _]. destruct F as (A & B & C).
        split; [|left; cbn [scErr scData scRest]; auto].
        unfold fits_buffer. cbn [scStart scData scCap]. rewrite skipn_length. repeat split; lia.
      * apply More. auto.
      * rewrite (next_of_error _ (scRest sc) LW E). split; [reflexivity|]. split; [exact F|]. right. right.
        cbn [set_err scErr scData]. split; [reflexivity|]. split; [apply next_of_error; auto|].
        apply no_token_eof. congruence.
    + apply More. right. destruct (scData sc); [reflexivity|cbn in L; lia].
  - (* at the end of the input *)
    rewrite orb_true_r. destruct (scan_record (scData sc) true) as [a t| |] eqn:E.
    + pose proof (next_of_prefix _ [] a t true LW E) as Nx. rewrite !app_nil_r in Nx. rewrite Nx. split; [reflexivity|].
      pose proof (scan_token_length _ _ _ _ E) as [[La1 La2] _]. destruct F as (A & B & C).
      split; [|right; left; cbn [scErr scData scRest]; auto].
      unfold fits_buffer. cbn [scStart scData scCap]. rewrite skipn_length. repeat split; lia.
    + assert (next (scData sc) = None) as Nx by (apply next_none_of_more; [exact LW|congruence]).
      rewrite Nx. split; [reflexivity|]. destruct F as (A & B & C). split.
      * unfold fits_buffer. cbn [scStart scData scCap length]. lia.
      * right. right. cbn [scErr scData]. split; [reflexivity|]. split; [exact Nx|]. intros a t. discriminate.
    + assert (next (scData sc) = None) as Nx by (apply next_none_of_more; [exact LW|congruence]).
      rewrite Nx. split; [reflexivity|]. split; [exact F|]. right. right. cbn [set_err scErr scData].
      split; [reflexivity|]. split; [exact Nx|]. congruence.
  - (* after an error *)
    rewrite orb_true_r, Nx. destruct (scan_record (scData sc) true) as [a t| |] eqn:E.
    + exfalso. eapply No, eq_refl.
    + split; [reflexivity|]. destruct F as (A & B & C). split.
      * unfold fits_buffer. cbn [scStart scData scCap length]. lia.
      * right. right. cbn [scErr scData]. split; [reflexivity|]. split; [exact Nx|]. intros a t. discriminate.
    + split; [reflexivity|]. split; [exact F|]. right. right. cbn [set_err scErr scData].
      split; [reflexivity|]. split; [exact Nx|]. congruence.
Qed.

Lemma read_once_spec e sc s n sc' : stands sc s -> scErr sc = false ->
  scStart sc + Z.of_nat (length (scData sc)) < scCap sc -> read_once e sc = (n, sc') ->
  stands sc' s /\ (evMax e <> 0%nat -> scErr sc' = true \/ (0 < n)%nat)
  /\ (evMax e = 0%nat -> n = 0%nat /\ scErr sc' = false /\ sc' = sc)
  /\ length (scRest sc) = (n + length (scRest sc'))%nat.
Proof.
  intros [F H] Er Sp R. destruct H as [(_ & ->)|[(X & _)|(X & _)]]; [|congruence|congruence].
  unfold read_once in R. injection R as <- <-. destruct F as (A & B & C).
  set (space := Z.to_nat (scCap sc - (scStart sc + Z.of_nat (length (scData sc))))).
  assert (0 < space)%nat as Hs by (unfold space; lia).
  set (k := Nat.min (evMax e) space).
  split; [|split; [|split]].
  - split.
    + unfold fits_buffer. cbn [scStart scData scCap]. rewrite app_length, firstn_length.
      assert (Z.of_nat k <= scCap sc - (scStart sc + Z.of_nat (length (scData sc)))) by (unfold k, space; lia). lia.
    + cbn [scErr scData scRest].
      destruct ((0 <? evMax e)%nat && nilb (skipn k (scRest sc)) && (evEof e || nilb (scRest sc))) eqn:E.
      * right. left. split; [reflexivity|]. apply andb_prop in E as [E _]. apply andb_prop in E as [_ E].
        destruct (skipn k (scRest sc)) eqn:Sk; [|discriminate]. split; [reflexivity|].
        rewrite <- (firstn_skipn k (scRest sc)) at 1. rewrite Sk, app_nil_r. reflexivity.
      * left. split; [reflexivity|]. rewrite <- app_assoc, firstn_skipn. reflexivity.
  - intros Ne. cbn [scErr]. destruct (scRest sc) as [|c r] eqn:Rs.
    + left. rewrite skipn_nil. cbn [nilb]. rewrite orb_true_r, !andb_true_r. apply Nat.ltb_lt. lia.
    + right. rewrite firstn_length. cbn [length]. unfold k. lia.
  - intros E0. unfold k. rewrite E0. cbn [Nat.min firstn skipn length Nat.ltb Nat.leb andb scErr].
    split; [reflexivity|]. split; [reflexivity|]. destruct sc; cbn in *. rewrite app_nil_r. congruence.
  - cbn [scRest]. rewrite <- app_length, firstn_skipn. reflexivity.
Qed.

Lemma scan_reads_spec : forall evs k sc s, calm k evs -> stands sc s -> scErr sc = false ->
  scStart sc + Z.of_nat (length (scData sc)) < scCap sc ->
  forall tok sc' evs', scan_reads evs sc k = Some (tok, sc', evs') ->
  calm 0 evs' /\
  match next s with
  | None => tok = None /\ stands sc' s
  | Some (t, s') => tok = Some t /\ stands sc' s'
  end.
Proof.
  induction evs as [|e evs IH]; intros k sc s Cm St Er Sp tok sc' evs' H; [discriminate|].
  cbn [scan_reads] in H. destruct (read_once e sc) as [n sc1] eqn:R.
  destruct (read_once_spec _ _ _ _ _ St Er Sp R) as (St1 & P1 & P2 & _).
  cbn [calm] in Cm. destruct (Nat.eqb_spec (evMax e) 0) as [E0|E0].
  - destruct (P2 E0) as (-> & E1 & ->). rewrite E1 in H. change (false || (0 <? 0)%nat) with false in H. cbv iota in H.
    destruct Cm as [Ck Cm]. destruct (Nat.ltb_spec maxConsecutiveEmptyReads (S k)); [lia|].
    exact (IH (S k) sc s Cm St Er Sp _ _ _ H).
  - assert (scErr sc1 || (0 <? n)%nat = true) as X.
    { destruct (P1 E0) as [->|L]; [reflexivity|]. apply orb_true_iff. right. apply Nat.ltb_lt, L. }
    rewrite X in H. pose proof (scan_head_spec sc1 s St1) as SH. destruct (scan_head sc1) as [t' sc2|sc2].
    + injection H as <- <- <-. split; [exact Cm|exact SH].
    + destruct SH as (St2 & E2 & Sp2). exact (IH 0%nat sc2 s Cm St2 E2 Sp2 _ _ _ H).
Qed.

Lemma scan_spec evs sc s tok sc' evs' : calm 0 evs -> stands sc s -> scan evs sc = Some (tok, sc', evs') ->
  calm 0 evs' /\
  match next s with
  | None => tok = None /\ stands sc' s
  | Some (t, s') => tok = Some t /\ stands sc' s'
  end.
Proof.
  intros Cm St H. unfold scan in H. pose proof (scan_head_spec sc s St) as SH. destruct (scan_head sc) as [t' sc1|sc1].
  - injection H as <- <- <-. split; [exact Cm|exact SH].
  - destruct SH as (St1 & E1 & Sp1). eapply scan_reads_spec; eauto.
Qed.

Lemma new_scanner_stands s : stands (new_scanner s) s.
Proof. split; [unfold fits_buffer, new_scanner, maxTokenSize; cbn; lia|]. left. auto. Qed.

(* ---- scanning ends ---- *)

Lemma scan_head_end sc : match scan_head sc with
  | HReturn _ sc' => scRest sc' = scRest sc /\ (scErr sc = true -> scErr sc' = true)
  | HRead sc' => scErr sc = false /\ scRest sc' = scRest sc
  end.
Proof.
  assert (match (if scErr sc then HReturn None (mkScanner (scCap sc) 0 [] true (scRest sc))
    else match make_room sc with None => HReturn None (set_err sc) | Some s' => HRead s' end) with
  | HReturn _ sc' => scRest sc' = scRest sc /\ (scErr sc = true -> scErr sc' = true)
  | HRead sc' => scErr sc = false /\ scRest sc' = scRest sc
  end) as M.
  { destruct (scErr sc) eqn:E; [cbn; auto|]. unfold make_room.
    repeat match goal with |- context [if ?b then _ else _] => destruct b end; cbn; auto. }
  unfold scan_head. destruct (Nat.ltb 0 (length (scData sc)) || scErr sc); [|exact M].
  destruct (scan_record (scData sc) (scErr sc)); [cbn; auto|exact M|cbn; auto].
Qed.

Lemma scan_reads_some : forall evs k sc s, stands sc s -> scErr sc = false ->
  scStart sc + Z.of_nat (length (scData sc)) < scCap sc -> (length (scRest sc) < useful evs)%nat ->
  exists tok sc' evs', scan_reads evs sc k = Some (tok, sc', evs')
    /\ (scErr sc' = true \/ (length (scRest sc') < useful evs')%nat).
Proof.
  induction evs as [|e evs IH]; intros k sc s St Er Sp Us; [cbn in Us; lia|].
  cbn [scan_reads]. destruct (read_once e sc) as [n sc1] eqn:R.
  destruct (read_once_spec _ _ _ _ _ St Er Sp R) as (St1 & P1 & P2 & Ln).
  cbn [useful] in Us.
  destruct (scErr sc1 || (0 <? n)%nat) eqn:X.
  - pose proof (scan_head_spec sc1 s St1) as SH. pose proof (scan_head_end sc1) as HE.
    assert (scErr sc1 = true \/ (length (scRest sc1) < useful evs)%nat) as Pr.
    { destruct (scErr sc1); [auto|right]. cbn [orb] in X. apply Nat.ltb_lt in X.
      destruct (Nat.eqb_spec (evMax e) 0) as [E0|E0]; [destruct (P2 E0) as (? & _); lia|]. lia. }
    destruct (scan_head sc1) as [t' sc2|sc2].
    + exists t', sc2, evs. split; [reflexivity|]. destruct HE as [H1 H2]. rewrite H1. destruct Pr; auto.
    + destruct SH as (St2 & E2 & Sp2). destruct HE as [H1 H2]. apply (IH 0%nat sc2 s); auto.
      rewrite H2. destruct Pr; [congruence|assumption].
  - apply orb_false_iff in X as [X1 X2]. apply Nat.ltb_ge in X2.
    assert (evMax e = 0%nat) as E0.
    { destruct (Nat.eq_dec (evMax e) 0) as [E0|E0]; [exact E0|]. destruct (P1 E0); [congruence|lia]. }
    rewrite E0 in Us. cbn [Nat.eqb Nat.add] in Us. destruct (P2 E0) as (_ & _ & ->).
    destruct (Nat.ltb maxConsecutiveEmptyReads (S k)).
    + pose proof (scan_head_end (set_err sc)) as HE. destruct (scan_head (set_err sc)) as [t' sc2|sc2].
      * exists t', sc2, evs. split; [reflexivity|]. left. apply HE. reflexivity.
      * destruct HE as [HE _]. discriminate.
    + apply (IH (S k) sc s); auto.
Qed.

Lemma scan_some evs sc s : stands sc s -> scErr sc = true \/ (length (scRest sc) < useful evs)%nat ->
  exists tok sc' evs', scan evs sc = Some (tok, sc', evs')
    /\ (scErr sc' = true \/ (length (scRest sc') < useful evs')%nat).
Proof.
  intros St Us. unfold scan. pose proof (scan_head_spec sc s St) as SH. pose proof (scan_head_end sc) as HE.
  destruct (scan_head sc) as [t' sc1|sc1].
  - exists t', sc1, evs. split; [reflexivity|]. destruct HE as [H1 H2]. rewrite H1. destruct Us; auto.
  - destruct SH as (St2 & E2 & Sp2). destruct HE as [H1 H2]. eapply scan_reads_some; eauto.
    rewrite H2. destruct Us; [congruence|assumption].
Qed.

(* ---- Reader.Read in terms of the records ---- *)

Fixpoint bases_of (packed iv : bool) (toks : list bytes) (acc : list record) : option (list record * bytes) + unit :=
  match toks with
  | [] => inl None
  | line :: toks' =>
      match record_parse (new_data_record packed) line iv with
      | (_, Err _) => inl (Some (acc, line))
      | (_, Panic) => inr tt
      | (b, Ok _) => bases_of packed iv toks' (acc ++ [b])
      end
  end.

Definition read_tokens (f : file) (toks : list bytes) : res file :=
  match toks with
  | [] => Err (ErrInvalidSegment (lit "header"))
  | line :: toks' =>
      match read_header f line with
      | Err e => Err e
      | Panic => Panic
      | Ok f1 =>
          match bases_of (flPacked f1) (is_variable_length line) toks' [] with
          | inr _ => Panic
          | inl None => Err (ErrInvalidSegment (lit "trailer"))
          | inl (Some (bs, line')) => read_trailer (set_bases f1 bs) line' (is_variable_length line)
          end
      end
  end.

Lemma read_bases_tokens packed iv : forall fuel fuel' evs sc s acc r, calm 0 evs -> stands sc s ->
  (length s < fuel')%nat -> read_bases fuel packed iv evs sc acc = Some r ->
  match bases_of packed iv (tokens fuel' s) acc with
  | inr _ => r = BPanic
  | inl (Some (bs, line)) => r = BFailed bs line
  | inl None => exists bs sc' evs' s', r = BEnd bs sc' evs' /\ calm 0 evs' /\ stands sc' s' /\ next s' = None
  end.
Proof.
  induction fuel as [|fuel IH]; intros fuel' evs sc s acc r Cm St L H; [discriminate|].
  cbn [read_bases] in H. destruct fuel' as [|fuel']; [lia|]. cbn [tokens].
  destruct (scan evs sc) as [[[tok sc'] evs']|] eqn:Sc; [|discriminate].
  destruct (scan_spec _ _ _ _ _ _ Cm St Sc) as [Cm' Sp]. destruct (next s) as [[t s']|] eqn:Nx.
  - destruct Sp as [-> St']. cbn [bases_of].
    destruct (record_parse (new_data_record packed) t iv) as [b [n|e|]].
    + eapply IH; eauto. apply next_shorter in Nx. lia.
    + injection H as <-. reflexivity.
    + injection H as <-. reflexivity.
  - destruct Sp as [-> St']. injection H as <-. cbn [bases_of]. exists acc, sc', evs', s. auto.
Qed.

Lemma reader_tokens fuel evs f s r : calm 0 evs ->
  reader_read fuel evs f (new_scanner s) = Some r ->
  r = read_tokens (set_bases f []) (tokens (S (length s)) s).
Proof.
  intros Cm H. unfold reader_read in H.
  destruct (scan evs (new_scanner s)) as [[[tok sc'] evs']|] eqn:Sc; [|discriminate].
  destruct (scan_spec _ _ _ _ _ _ Cm (new_scanner_stands s) Sc) as [Cm' Sp]. cbn [tokens].
  destruct (next s) as [[t s']|] eqn:Nx; destruct Sp as [-> St']; [|injection H as <-; reflexivity].
  cbn [read_tokens]. destruct (read_header (set_bases f []) t) as [f1|e|]; [|injection H as <-; reflexivity..].
  destruct (read_bases fuel (flPacked f1) (is_variable_length t) evs' sc' []) as [b|] eqn:Rb; [|discriminate].
  apply next_shorter in Nx.
  pose proof (read_bases_tokens _ _ _ (length s) _ _ _ _ _ Cm' St' ltac:(lia) Rb) as B.
  destruct (bases_of (flPacked f1) (is_variable_length t) (tokens (length s) s') []) as [[[bs line]|]|].
  - subst b. injection H as <-. reflexivity.
  - destruct B as (bs & sc2 & evs2 & s2 & -> & Cm2 & St2 & Nx2).
    destruct (scan evs2 sc2) as [[[tok2 sc3] evs3]|] eqn:Sc2; [|discriminate].
    destruct (scan_spec _ _ _ _ _ _ Cm2 St2 Sc2) as [_ Sp2]. rewrite Nx2 in Sp2. destruct Sp2 as [-> _].
    injection H as <-. reflexivity.
  - subst b. injection H as <-. reflexivity.
Qed.

Lemma read_bases_some packed iv : forall fuel evs sc s acc, calm 0 evs -> stands sc s -> (length s < fuel)%nat ->
  scErr sc = true \/ (length (scRest sc) < useful evs)%nat ->
  exists r, read_bases fuel packed iv evs sc acc = Some r /\
  match r with BEnd _ sc' evs' => scErr sc' = true \/ (length (scRest sc') < useful evs')%nat | _ => True end.
Proof.
  induction fuel as [|fuel IH]; intros evs sc s acc Cm St L Us; [lia|]. cbn [read_bases].
  destruct (scan_some evs sc s St Us) as (tok & sc' & evs' & Sc & Us'). rewrite Sc.
  destruct (scan_spec _ _ _ _ _ _ Cm St Sc) as [Cm' Sp].
  destruct (next s) as [[t s']|] eqn:Nx; destruct Sp as [-> St'].
  - destruct (record_parse (new_data_record packed) t iv) as [b [n|e|]]; [|eexists; split; [reflexivity|exact I]..].
    apply (IH evs' sc' s'); auto. apply next_shorter in Nx. lia.
  - eexists. split; [reflexivity|]. exact Us'.
Qed.

Lemma reader_some fuel evs f s : calm 0 evs -> (length s < useful evs)%nat -> (length s < fuel)%nat ->
  exists r, reader_read fuel evs f (new_scanner s) = Some r.
Proof.
  intros Cm Us L. unfold reader_read.
  destruct (scan_some evs (new_scanner s) s (new_scanner_stands s)) as (tok & sc' & evs' & Sc & Us'); [right; exact Us|].
  rewrite Sc. destruct (scan_spec _ _ _ _ _ _ Cm (new_scanner_stands s) Sc) as [Cm' Sp].
  destruct (next s) as [[t s']|] eqn:Nx; destruct Sp as [-> St']; [|eauto].
  destruct (read_header (set_bases f []) t) as [f1|e|]; [|eauto..]. apply next_shorter in Nx.
  destruct (read_bases_some (flPacked f1) (is_variable_length t) fuel evs' sc' s' [] Cm' St' ltac:(lia) Us') as (b & Rb & Ub).
  rewrite Rb. pose proof (read_bases_tokens _ _ _ (length s) _ _ _ _ _ Cm' St' ltac:(lia) Rb) as B.
  destruct (bases_of (flPacked f1) (is_variable_length t) (tokens (length s) s') []) as [[[bs line]|]|]; [subst b; eauto| |subst b; eauto].
  destruct B as (bs & sc2 & evs2 & s2 & -> & Cm2 & St2 & Nx2).
  destruct (scan_some evs2 sc2 s2 St2 Ub) as (tok2 & sc3 & evs3 & Sc2 & _). rewrite Sc2.
  destruct (scan_spec _ _ _ _ _ _ Cm2 St2 Sc2) as [_ Sp2]. rewrite Nx2 in Sp2. destruct Sp2 as [-> _]. eauto.
Qed.

(* NewReader(r).Read() as a function of the bytes alone *)
Definition outcome (s : bytes) : res file := read_tokens (new_file_p false) (tokens (S (length s)) s).

Lemma read_from_outcome evs s r : patient evs -> read_from evs s = Some r -> r = outcome s.
Proof. intros P H. exact (reader_tokens _ _ _ _ _ (patient_calm _ P) H). Qed.

Lemma read_from_some evs s : patient evs -> (length s < useful evs)%nat -> read_from evs s = Some (outcome s).
Proof.
  intros P U. destruct (reader_some (S (length s)) evs (new_file_p false) s (patient_calm _ P) U) as (r & H); [lia|].
  unfold read_from. rewrite H. f_equal. eapply read_from_outcome; eauto.
Qed.
