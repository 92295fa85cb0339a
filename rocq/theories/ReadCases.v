(* The outcomes of reading as implications, and single cases *)
From Coq Require Import ZArith NArith Bool Ascii String List Lia.
Import ListNotations.
From Verif Require Import GoBase GoBaseFacts GoTime Regex Tables Codec Records
  SpecCodec SpecLayouts SpecRecords SpecReport SpecRead RecordFacts RoundTrip
  ParseFacts ReadField ReadRecords ReadOutcome ReadUnique Samples.
Local Open Scope string_scope.
Local Open Scope Z_scope.
Local Open Scope list_scope.
Local Notation length := List.length.

Lemma decided (A X Y : Prop) : (A /\ X) \/ (~ A /\ Y) -> (A -> X) /\ (~ A -> Y).
Proof. tauto. Qed.

(* ---- segments ---- *)

Lemma seg_reads s parts rest iv : seg_typed s -> cut (seg_doc (sKind s)) parts ->
  all_readable (seg_doc (sKind s)) parts ->
  exists st', seg_parse s (List.concat parts ++ rest) iv = (mkSegment (sKind s) st', Ok (seg_size (sKind s)))
    /\ seg_typed (mkSegment (sKind s) st') /\ read_whole (seg_doc (sKind s)) parts (sFields s) st'.
Proof. intros T C. apply (decided _ _ _ (seg_exact s parts rest iv T C)). Qed.

Lemma seg_fails s parts rest iv : seg_typed s -> cut (seg_doc (sKind s)) parts ->
  ~ all_readable (seg_doc (sKind s)) parts ->
  exists st' e, seg_parse s (List.concat parts ++ rest) iv = (mkSegment (sKind s) st', Err e)
    /\ read_until (seg_title (sKind s)) (seg_doc (sKind s)) parts (sFields s) st' e.
Proof. intros T C. apply (decided _ _ _ (seg_exact s parts rest iv T C)). Qed.

Lemma seg_accepts s parts rest iv : seg_typed s -> cut (seg_doc (sKind s)) parts ->
  (exists s' n, seg_parse s (List.concat parts ++ rest) iv = (s', Ok n)) <-> all_readable (seg_doc (sKind s)) parts.
Proof.
  intros T C. destruct (seg_exact s parts rest iv T C) as [(A & st' & E & _)|(N & st' & e & E & _)]; cbv zeta in E; rewrite E; split; intros H; auto; try contradiction.
  - eauto.
  - destruct H as (? & ? & H). discriminate H.
Qed.

(* ---- headers ---- *)

Lemma header_fixed_reads st parts rest : has_type header_struct st -> holds st "BlockDescriptorWord" (VInt 0) ->
  cut (header_doc false) parts -> all_readable (header_doc false) parts ->
  exists st' z, header_parse_char st (List.concat parts ++ rest) false = (st', Ok z)
    /\ read_whole (header_doc false) parts st st' /\ holds st' "RecordDescriptorWord" (VInt z).
Proof. intros T B C. apply (decided _ _ _ (header_fixed_exact st parts rest T B C)). Qed.

Lemma header_fixed_fails st parts rest : has_type header_struct st -> holds st "BlockDescriptorWord" (VInt 0) ->
  cut (header_doc false) parts -> ~ all_readable (header_doc false) parts ->
  exists st' e, header_parse_char st (List.concat parts ++ rest) false = (st', Err e)
    /\ read_until_fixed (header_title false) (header_doc false) parts st st' e.
Proof. intros T B C. apply (decided _ _ _ (header_fixed_exact st parts rest T B C)). Qed.

Lemma header_blocked_reads (p : bool) st w parts rest : has_type header_struct st -> length w = 4%nat ->
  cut (header_doc p) parts ->
  (p = true -> is_variable_length (w ++ List.concat parts ++ rest) = true) ->
  all_readable (block_word p :: header_doc p) (w :: parts) ->
  exists st' zb zr, holds st' "BlockDescriptorWord" (VInt zb) /\ holds st' "RecordDescriptorWord" (VInt zr)
    /\ (if p then header_parse_packed else header_parse_char) st (w ++ List.concat parts ++ rest) true = (st', Ok (if 0 <? zb then zb else zr))
    /\ read_whole (block_word p :: header_doc p) (w :: parts) st st'.
Proof. intros T L C V. apply (decided _ _ _ (header_blocked_exact p st w parts rest T L C V)). Qed.

Lemma header_blocked_fails (p : bool) st w parts rest : has_type header_struct st -> length w = 4%nat ->
  cut (header_doc p) parts ->
  (p = true -> is_variable_length (w ++ List.concat parts ++ rest) = true) ->
  ~ all_readable (block_word p :: header_doc p) (w :: parts) ->
  exists st' e, (if p then header_parse_packed else header_parse_char) st (w ++ List.concat parts ++ rest) true = (st', Err e)
    /\ read_until (header_title p) (block_word p :: header_doc p) (w :: parts) st st' e.
Proof. intros T L C V. apply (decided _ _ _ (header_blocked_exact p st w parts rest T L C V)). Qed.

(* ---- trailers ---- *)

Lemma trailer_reads (p : bool) st parts rest iv : has_type trailer_struct st -> cut (trailer_doc p) parts ->
  all_readable (trailer_doc p) parts ->
  exists st' z, (if p then trailer_parse_packed else trailer_parse_char) st (List.concat parts ++ rest) iv = (st', Ok z)
    /\ read_whole (trailer_doc p) parts st st' /\ holds st' "RecordDescriptorWord" (VInt z).
Proof. intros T C. apply (decided _ _ _ (trailer_exact p st parts rest iv T C)). Qed.

Lemma trailer_fails (p : bool) st parts rest iv : has_type trailer_struct st -> cut (trailer_doc p) parts ->
  ~ all_readable (trailer_doc p) parts ->
  exists st' e, (if p then trailer_parse_packed else trailer_parse_char) st (List.concat parts ++ rest) iv = (st', Err e)
    /\ read_until (trailer_title p) (trailer_doc p) parts st st' e.
Proof. intros T C. apply (decided _ _ _ (trailer_exact p st parts rest iv T C)). Qed.

(* ---- base segments ---- *)

Lemma base_fixed_reads b parts rest : base_typed b -> base_bdw_is b 0 -> cut (base_doc false) parts ->
  all_readable (base_doc false) parts ->
  exists b' ss n r block, base_parse_char b (List.concat parts ++ rest) false = (b', ended block (426 + n) r)
    /\ read_whole (base_doc false) parts (bFields b) (bFields b')
    /\ base_rdw_is b' block /\ segs_read rest ss n r /\ attached b b' ss.
Proof. intros T B C. apply (decided _ _ _ (base_fixed_exact b parts rest T B C)). Qed.

Lemma base_fixed_fails b parts rest : base_typed b -> base_bdw_is b 0 -> cut (base_doc false) parts ->
  ~ all_readable (base_doc false) parts ->
  exists b' e, base_parse_char b (List.concat parts ++ rest) false = (b', Err e)
    /\ read_until_fixed (base_title false) (base_doc false) parts (bFields b) (bFields b') e.
Proof. intros T B C. apply (decided _ _ _ (base_fixed_exact b parts rest T B C)). Qed.

Lemma base_variable_reads b w parts rest zb : base_typed b -> length w = 4%nat -> cut (base_doc false) parts ->
  stands_for (block_word false) w (VInt zb) -> 0 < zb -> all_readable (base_doc false) parts ->
  exists b' ss n r, base_parse_char b (w ++ List.concat parts ++ rest) true = (b', ended zb (430 + n) r)
    /\ read_whole (block_word false :: base_doc false) (w :: parts) (bFields b) (bFields b')
    /\ segs_read rest ss n r /\ attached b b' ss.
Proof.
  intros T L C S P A. assert (all_readable (block_word false :: base_doc false) (w :: parts)) as A'.
  { constructor; [right; eauto|exact A]. }
  destruct (decided _ _ _ (base_variable_exact b w parts rest T L C)) as [H _].
  destruct (H A') as (b' & ss & n & r & zb' & zr & S' & Hb & Hr & E & R & Sr & At).
  pose proof (stands_unique _ _ w _ _ (word_entry false) L S S') as X. injection X as <-.
  destruct (Z.ltb_spec 0 zb); [|lia]. exists b', ss, n, r. auto.
Qed.

Lemma base_unblocked_reads b w parts rest zb : base_typed b -> length w = 4%nat -> cut (base_doc false) parts ->
  stands_for (block_word false) w (VInt zb) -> zb <= 0 -> all_readable (base_doc false) parts ->
  exists b' ss n r zr, base_parse_char b (w ++ List.concat parts ++ rest) true
      = (b', if zb =? 0 then ended zr (426 + n) r else match r with Some e => Err e | None => Ok zr end)
    /\ read_whole (block_word false :: base_doc false) (w :: parts) (bFields b) (bFields b')
    /\ base_rdw_is b' zr /\ segs_read (skipn 422 (List.concat parts) ++ rest) ss n r /\ attached b b' ss.
Proof.
  intros T L C S P A. assert (all_readable (block_word false :: base_doc false) (w :: parts)) as A'.
  { constructor; [right; eauto|exact A]. }
  destruct (decided _ _ _ (base_variable_exact b w parts rest T L C)) as [H _].
  destruct (H A') as (b' & ss & n & r & zb' & zr & S' & Hb & Hr & E & R & Sr & At).
  pose proof (stands_unique _ _ w _ _ (word_entry false) L S S') as X. injection X as <-.
  destruct (Z.ltb_spec 0 zb); [lia|]. exists b', ss, n, r, zr. split; [exact E|auto].
Qed.

Lemma base_variable_fails b w parts rest : base_typed b -> length w = 4%nat -> cut (base_doc false) parts ->
  ~ all_readable (block_word false :: base_doc false) (w :: parts) ->
  exists b' e, base_parse_char b (w ++ List.concat parts ++ rest) true = (b', Err e)
    /\ read_until (base_title false) (block_word false :: base_doc false) (w :: parts) (bFields b) (bFields b') e.
Proof. intros T L C. apply (decided _ _ _ (base_variable_exact b w parts rest T L C)). Qed.

Lemma base_packed_reads b w parts rest : base_typed b -> length w = 4%nat -> cut (base_doc true) parts ->
  all_readable (base_doc true) parts ->
  exists b' ss n r block, base_parse_packed b (w ++ List.concat parts ++ rest) true = (b', ended block (370 + n) r)
    /\ read_whole (block_word true :: base_doc true) (w :: parts) (bFields b) (bFields b')
    /\ base_bdw_is b' block /\ segs_read rest ss n r /\ attached b b' ss.
Proof.
  intros T L C A. apply (decided _ _ _ (base_packed_exact b w parts rest T L C)).
  constructor; [apply word_readable; exact L|exact A].
Qed.

Lemma base_packed_fails b w parts rest : base_typed b -> length w = 4%nat -> cut (base_doc true) parts ->
  ~ all_readable (base_doc true) parts ->
  exists b' e, base_parse_packed b (w ++ List.concat parts ++ rest) true = (b', Err e)
    /\ read_until (base_title true) (block_word true :: base_doc true) (w :: parts) (bFields b) (bFields b') e.
Proof.
  intros T L C A. apply (decided _ _ _ (base_packed_exact b w parts rest T L C)).
  intros X. apply A. inversion X; subst; assumption.
Qed.

(* ---- cases ---- *)

Fixpoint slices (doc : list doc_field) (t : bytes) : list bytes :=
  match doc with [] => [] | d :: doc' => firstn (dWidth d) t :: slices doc' (skipn (dWidth d) t) end.

Lemma slices_cut doc : forall t, (doc_width doc <= length t)%nat -> cut doc (slices doc t).
Proof.
  induction doc as [|d doc IH]; intros t L; [constructor|]. cbn in L |- *. constructor; [rewrite firstn_length; lia|].
  apply IH. rewrite skipn_length. lia.
Qed.

(* replaces the bytes from position n *)
Definition overwritten (n : nat) (x t : bytes) : bytes := firstn n t ++ x ++ skipn (n + length x) t.

Definition j1_parts : list bytes := slices j1_doc (seg_string sample_j1).
Definition j1_wrong : list bytes := slices j1_doc (overwritten 78 (lit "13011990") (seg_string sample_j1)).
Definition k1_wrong : list bytes := slices k1_doc (overwritten 32 (lit "1X") (seg_string sample_k1)).
Definition header_parts (p : bool) : list bytes :=
  slices (header_doc p) (skipn 4 (header_string p (sample_header 480 (if p then 366 else 426)))).
Definition header_fixed : list bytes := slices (header_doc false) (header_string false (sample_header 0 426)).
Definition trailer_parts (p : bool) : list bytes :=
  slices (trailer_doc p) (trailer_string p (sample_trailer (if p then 366 else 426))).
Definition base_fixed : list bytes := slices (base_doc false) (base_string_char (sample_plain 0 426)).
Definition base_blocked : list bytes := slices (base_doc false) (skipn 4 (base_string_char (sample_plain 500 426))).
Definition base_packed : list bytes := slices (base_doc true) (skipn 4 (base_string_packed (sample_plain 500 366))).

Lemma slices_cut_of doc t : Nat.leb (doc_width doc) (length t) = true -> cut doc (slices doc t).
Proof. intros L. apply slices_cut, Nat.leb_le. exact L. Qed.

Lemma j1_case : seg_typed (new_segment J1) /\ cut (seg_doc J1) j1_parts /\ all_readable (seg_doc J1) j1_parts.
Proof.
  assert (cut (seg_doc J1) j1_parts) as C by (apply slices_cut_of; vm_compute; reflexivity).
  split; [apply new_segment_typed|]. split; [exact C|]. apply (seg_accepts (new_segment J1) j1_parts [] false (new_segment_typed J1) C).
  eexists _, _. vm_compute. reflexivity.
Qed.

Lemma j1_wrong_case : seg_typed (new_segment J1) /\ cut (seg_doc J1) j1_wrong /\ ~ all_readable (seg_doc J1) j1_wrong.
Proof.
  assert (cut (seg_doc J1) j1_wrong) as C by (apply slices_cut_of; vm_compute; reflexivity).
  split; [apply new_segment_typed|]. split; [exact C|]. intros A.
  apply (seg_accepts (new_segment J1) j1_wrong [] false (new_segment_typed J1) C) in A as (s' & n & E).
  apply (f_equal snd) in E. vm_compute in E. discriminate E.
Qed.

Lemma header_fixed_case : has_type header_struct new_header /\ holds new_header "BlockDescriptorWord" (VInt 0)
  /\ cut (header_doc false) header_fixed /\ all_readable (header_doc false) header_fixed.
Proof.
  assert (cut (header_doc false) header_fixed) as C by (apply slices_cut_of; vm_compute; reflexivity).
  assert (holds new_header "BlockDescriptorWord" (VInt 0)) as B by (left; reflexivity).
  split; [apply new_header_typed|]. split; [exact B|]. split; [exact C|].
  destruct (header_fixed_exact new_header header_fixed [] new_header_typed B C) as [[A _]|(_ & st' & e & E & _)]; [exact A|].
  exfalso. apply (f_equal snd) in E. vm_compute in E. discriminate E.
Qed.

Definition header_word (p : bool) : bytes := firstn 4 (header_string p (sample_header 480 (if p then 366 else 426))).

Lemma header_blocked_case (p : bool) : has_type header_struct new_header /\ length (header_word p) = 4%nat
  /\ cut (header_doc p) (header_parts p)
  /\ (p = true -> is_variable_length (header_word p ++ List.concat (header_parts p) ++ []) = true)
  /\ all_readable (block_word p :: header_doc p) (header_word p :: header_parts p).
Proof.
  assert (cut (header_doc p) (header_parts p)) as C by (apply slices_cut_of; destruct p; vm_compute; reflexivity).
  assert (length (header_word p) = 4%nat) as L by (destruct p; vm_compute; reflexivity).
  assert (p = true -> is_variable_length (header_word p ++ List.concat (header_parts p) ++ []) = true) as V
    by (intros ->; vm_compute; reflexivity).
  split; [apply new_header_typed|]. split; [exact L|]. split; [exact C|]. split; [exact V|].
  destruct (header_blocked_exact p new_header (header_word p) (header_parts p) [] new_header_typed L C V) as [[A _]|(_ & st' & e & E & _)]; [exact A|].
  exfalso. apply (f_equal snd) in E. destruct p; vm_compute in E; discriminate E.
Qed.

Lemma trailer_case (p : bool) : has_type trailer_struct new_trailer /\ cut (trailer_doc p) (trailer_parts p)
  /\ all_readable (trailer_doc p) (trailer_parts p).
Proof.
  assert (cut (trailer_doc p) (trailer_parts p)) as C by (apply slices_cut_of; destruct p; vm_compute; reflexivity).
  assert (has_type trailer_struct new_trailer) as T by (vm_compute; reflexivity).
  split; [exact T|]. split; [exact C|].
  destruct (trailer_exact p new_trailer (trailer_parts p) [] false T C) as [[A _]|(_ & st' & e & E & _)]; [exact A|].
  exfalso. apply (f_equal snd) in E. destruct p; vm_compute in E; discriminate E.
Qed.

Lemma new_base_typed : base_typed new_base.
Proof. split; [vm_compute; reflexivity|]. unfold segs_placed. cbn. repeat split; auto; try discriminate. Qed.

Lemma base_fixed_case : base_typed new_base /\ base_bdw_is new_base 0 /\ cut (base_doc false) base_fixed
  /\ all_readable (base_doc false) base_fixed.
Proof.
  assert (cut (base_doc false) base_fixed) as C by (apply slices_cut_of; vm_compute; reflexivity).
  assert (base_bdw_is new_base 0) as B by (left; reflexivity).
  split; [apply new_base_typed|]. split; [exact B|]. split; [exact C|].
  destruct (base_fixed_exact new_base base_fixed [] new_base_typed B C) as [[A _]|(_ & st' & e & E & _)]; [exact A|].
  exfalso. apply (f_equal snd) in E. vm_compute in E. discriminate E.
Qed.

Lemma block_500 : stands_for (block_word false) (lit "0500") (VInt 500).
Proof.
  split; [|discriminate]. exists (lit "0500"). split; [discriminate|]. split; [|left; split; [left; reflexivity|reflexivity]].
  apply Forall_forall. intros c I. cbn in I |- *. tauto.
Qed.

Lemma base_blocked_case : length (lit "0500") = 4%nat /\ cut (base_doc false) base_blocked
  /\ stands_for (block_word false) (lit "0500") (VInt 500) /\ all_readable (base_doc false) base_blocked.
Proof.
  assert (cut (base_doc false) base_blocked) as C by (apply slices_cut_of; vm_compute; reflexivity).
  split; [reflexivity|]. split; [exact C|]. split; [exact block_500|].
  destruct (base_variable_exact new_base (lit "0500") base_blocked [] new_base_typed eq_refl C) as [[A _]|(_ & st' & e & E & _)].
  - inversion A; subst; assumption.
  - exfalso. apply (f_equal snd) in E. vm_compute in E. discriminate E.
Qed.

Definition base_word : bytes := firstn 4 (base_string_packed (sample_plain 500 366)).

Lemma base_packed_case : length base_word = 4%nat /\ cut (base_doc true) base_packed /\ all_readable (base_doc true) base_packed.
Proof.
  assert (cut (base_doc true) base_packed) as C by (apply slices_cut_of; vm_compute; reflexivity).
  assert (length base_word = 4%nat) as L by (vm_compute; reflexivity).
  split; [exact L|]. split; [exact C|].
  destruct (base_packed_exact new_base base_word base_packed [] new_base_typed L C) as [[A _]|(_ & st' & e & E & _)].
  - inversion A; subst; assumption.
  - exfalso. apply (f_equal snd) in E. vm_compute in E. discriminate E.
Qed.

(* ---- what does not hold ---- *)

Lemma block_0 : stands_for (block_word false) (lit "0000") (VInt 0).
Proof.
  split; [|discriminate]. exists (lit "0000"). split; [discriminate|]. split; [|left; split; [left; reflexivity|reflexivity]].
  apply Forall_forall. intros c I. cbn in I |- *. tauto.
Qed.

(* an appended segment of a record with the block descriptor word 0000 is not read *)
Lemma unblocked_refuted : exists w parts rest ss n b', length w = 4%nat /\ cut (base_doc false) parts
  /\ all_readable (block_word false :: base_doc false) (w :: parts)
  /\ segs_read rest ss n None /\ ss <> []
  /\ base_parse_char new_base (w ++ List.concat parts ++ rest) true = (b', Ok 426)
  /\ base_segments b' = [].
Proof.
  destruct base_blocked_case as (_ & C & _ & A).
  destruct (segments_exact true 40 (seg_string sample_k1) 0 new_base) as (ss & n & r & Sr & E).
  { apply Nat.ltb_lt. vm_compute. reflexivity. }
  assert (r = None) as ->.
  { destruct r as [e|]; [|reflexivity]. exfalso. apply (f_equal snd) in E. vm_compute in E. discriminate E. }
  assert (ss <> []) as Ne.
  { intros ->. apply (f_equal (fun x => bK1 (fst x))) in E. vm_compute in E. discriminate E. }
  exists (lit "0000"), base_blocked, (seg_string sample_k1), ss, n,
    (fst (base_parse_char new_base (lit "0000" ++ List.concat base_blocked ++ seg_string sample_k1) true)).
  split; [reflexivity|]. split; [exact C|].
  split; [constructor; [right; eexists; exact block_0|exact A]|]. split; [exact Sr|]. split; [exact Ne|].
  split; [|vm_compute; reflexivity].
  rewrite (surjective_pairing (base_parse_char _ _ _)) at 1. f_equal; vm_compute; reflexivity.
Qed.

(* a wrong date is reported without a word about the field *)
Lemma named_refuted : exists s parts s' e, seg_typed s /\ cut (seg_doc (sKind s)) parts
  /\ ~ all_readable (seg_doc (sKind s)) parts
  /\ seg_parse s (List.concat parts) false = (s', Err e)
  /\ (forall d title, ~ speaks_of d title e).
Proof.
  destruct j1_wrong_case as (T & C & N).
  exists (new_segment J1), j1_wrong, (fst (seg_parse (new_segment J1) (List.concat j1_wrong) false)), ErrTimeParse.
  split; [exact T|]. split; [exact C|]. split; [exact N|]. split; [|intros d title []].
  rewrite (surjective_pairing (seg_parse _ _ _)) at 1. f_equal; vm_compute; reflexivity.
Qed.

(* a number that is present but wrong is said to be missing *)
Lemma required_refuted : exists s parts s' d w, seg_typed s /\ cut (seg_doc (sKind s)) parts
  /\ In (d, w) (combine (seg_doc (sKind s)) parts) /\ w = lit "1X"
  /\ seg_parse s (List.concat parts) false = (s', Err (ErrFieldRequired (dName d) (seg_title (sKind s)))).
Proof.
  exists (new_segment K1), k1_wrong, (fst (seg_parse (new_segment K1) (List.concat k1_wrong) false)),
    (Doc "CreditorClassification" 2 FNumber true), (lit "1X").
  split; [apply new_segment_typed|]. split; [apply slices_cut_of; vm_compute; reflexivity|].
  split; [vm_compute; tauto|]. split; [reflexivity|].
  rewrite (surjective_pairing (seg_parse _ _ _)) at 1. f_equal; vm_compute; reflexivity.
Qed.

(* fixed-length records are blamed for a field that they do not have *)
Definition base_wrong : list bytes := slices (base_doc false) (overwritten 0 (lit "zzzz") (base_string_char (sample_plain 0 426))).

Lemma block_word_refuted : exists b parts b' f, base_typed b /\ base_bdw_is b 0 /\ cut (base_doc false) parts
  /\ base_parse_char b (List.concat parts) false = (b', Err (ErrNumeric f (base_title false)))
  /\ ~ In f (map dName (base_doc false)).
Proof.
  exists new_base, base_wrong, (fst (base_parse_char new_base (List.concat base_wrong) false)), "BlockDescriptorWord".
  split; [apply new_base_typed|]. split; [left; reflexivity|]. split; [apply slices_cut_of; vm_compute; reflexivity|].
  split.
  - rewrite (surjective_pairing (base_parse_char _ _ _)) at 1. f_equal; vm_compute; reflexivity.
  - intros I. assert (existsb (String.eqb "BlockDescriptorWord") (map dName (base_doc false)) = false) as X by (vm_compute; reflexivity).
    assert (existsb (String.eqb "BlockDescriptorWord") (map dName (base_doc false)) = true) as Y; [|congruence].
    apply existsb_exists. exists "BlockDescriptorWord". split; [exact I|reflexivity].
Qed.

(* ---- more cases ---- *)

(* the part with the given number becomes no text *)
Definition spoiled (n : nat) (parts : list bytes) : list bytes :=
  firstn n parts ++ match skipn n parts with p :: q => repeat (ascii_of_N 1) (length p) :: q | [] => [] end.

Lemma spoiled_cut doc n parts : cut doc parts -> cut doc (spoiled n parts).
Proof.
  intros C. revert n. induction C as [|d p doc parts L C IH]; intros [|n]; unfold spoiled; cbn; try constructor; auto.
  - rewrite repeat_length. exact L.
  - apply IH.
Qed.

Lemma spoiled_unreadable d : forall n doc parts, nth_error doc n = Some d -> dKind d = FText -> Nat.leb 1 (dWidth d) = true -> cut doc parts ->
  ~ all_readable doc (spoiled n parts).
Proof.
  induction n as [|n IH]; intros doc parts E K W C A; destruct doc as [|d' doc]; try discriminate E;
    inversion C as [|? p ? q L C']; subst; unfold spoiled in A; cbn [firstn skipn app] in A; inversion A as [|? ? ? ? R A']; subst.
  - injection E as ->. destruct R as [R|(v & S)]; [congruence|]. unfold stands_for in S. rewrite K in S.
    destruct v; try contradiction. destruct S as [F _]. rewrite L in F. apply Nat.leb_le in W. destruct (dWidth d); [lia|].
    cbn in F. inversion F as [|? ? I _]; subst. clear -I. cbn in I. repeat destruct I as [I|I]; try discriminate I. exact I.
  - apply (IH doc q E K W C' A').
Qed.

Lemma spoiled_cases :
  (cut (header_doc false) (spoiled 2 header_fixed) /\ ~ all_readable (header_doc false) (spoiled 2 header_fixed))
  /\ (forall p : bool, cut (header_doc p) (spoiled 2 (header_parts p))
      /\ ~ all_readable (block_word p :: header_doc p) (header_word p :: spoiled 2 (header_parts p)))
  /\ (forall p : bool, cut (trailer_doc p) (spoiled 1 (trailer_parts p)) /\ ~ all_readable (trailer_doc p) (spoiled 1 (trailer_parts p)))
  /\ (cut (base_doc false) (spoiled 4 base_fixed) /\ ~ all_readable (base_doc false) (spoiled 4 base_fixed))
  /\ (cut (base_doc false) (spoiled 4 base_blocked)
      /\ ~ all_readable (block_word false :: base_doc false) (lit "0500" :: spoiled 4 base_blocked))
  /\ (cut (base_doc true) (spoiled 4 base_packed) /\ ~ all_readable (base_doc true) (spoiled 4 base_packed)).
Proof.
  assert (forall d ds w ws, ~ all_readable ds ws -> ~ all_readable (d :: ds) (w :: ws)) as Tl.
  { intros d ds w ws N A. apply N. inversion A; subst; assumption. }
  destruct header_fixed_case as (_ & _ & C1 & _). destruct base_fixed_case as (_ & _ & C2 & _).
  destruct base_blocked_case as (_ & C3 & _). destruct base_packed_case as (_ & C4 & _).
  split; [split; [apply spoiled_cut; exact C1|eapply spoiled_unreadable; [reflexivity|reflexivity|reflexivity|exact C1]]|].
  split; [intros p; destruct (header_blocked_case p) as (_ & _ & C & _); split; [apply spoiled_cut; exact C|apply Tl; destruct p; (eapply spoiled_unreadable; [reflexivity|reflexivity|reflexivity|exact C])]|].
  split; [intros p; destruct (trailer_case p) as (_ & C & _); split; [apply spoiled_cut; exact C|destruct p; (eapply spoiled_unreadable; [reflexivity|reflexivity|reflexivity|exact C])]|].
  split; [split; [apply spoiled_cut; exact C2|eapply spoiled_unreadable; [reflexivity|reflexivity|reflexivity|exact C2]]|].
  split; [split; [apply spoiled_cut; exact C3|apply Tl; eapply spoiled_unreadable; [reflexivity|reflexivity|reflexivity|exact C3]]|].
  split; [apply spoiled_cut; exact C4|eapply spoiled_unreadable; [reflexivity|reflexivity|reflexivity|exact C4]].
Qed.

Lemma short_texts (p : bool) t iv : (length t < record_size p)%nat ->
  (forall st, (if p then header_parse_packed else header_parse_char) st t iv = (st, Err (ErrSegmentLength (header_title p))))
  /\ (forall b, (if p then base_parse_packed else base_parse_char) b t iv = (b, Err (ErrSegmentLength (base_title p))))
  /\ (forall st, (if p then trailer_parse_packed else trailer_parse_char) st t iv = (st, Err (ErrSegmentLength (trailer_title p)))).
Proof. intros L. split; [intros; apply header_short; exact L|]. split; intros; [apply base_short|apply trailer_short]; exact L. Qed.

Lemma short_case : (length (lit "0426") < record_size true)%nat /\ (length (lit "J1") < seg_size J1)%nat.
Proof. split; apply Nat.ltb_lt; vm_compute; reflexivity. Qed.

Lemma unblocked_case : has_type header_struct new_header /\ (366 <= length (List.concat (header_parts true)))%nat
  /\ is_variable_length (List.concat (header_parts true)) = false.
Proof. split; [apply new_header_typed|]. split; [apply Nat.leb_le; vm_compute; reflexivity|vm_compute; reflexivity]. Qed.
