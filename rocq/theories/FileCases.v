(* Witnesses for the claims about files that do not hold, and sample files *)
From Coq Require Import ZArith NArith Bool Ascii String List Lia.
Import ListNotations.
From Verif Require Import GoBase GoBaseFacts GoTime Regex Tables Codec Records File SpecCodec SpecLayouts
  SpecRecords SpecFields FieldFacts FieldProps RecordFacts RoundTrip SpecFile Check Samples SpecFiles FileProps.
Local Open Scope string_scope.
Local Open Scope Z_scope.
Local Open Scope list_scope.
Local Notation length := List.length.

(* ---- sample files of the three kinds ---- *)

Definition fixed_file : file :=
  file_of FixedFile (sample_header 0 426) [sample_base 0 1264; sample_plain 0 426; sample_base 0 1300] (sample_trailer 426).
Definition variable_file : file :=
  file_of VariableFile (sample_header 430 426) [sample_base 1268 1264; sample_plain 430 426; sample_base 1300 1300] (sample_trailer 426).
Definition packed_file : file :=
  file_of PackedFile (sample_header 370 366) [sample_base 1208 1204; sample_plain 370 366; sample_base 1300 1296] (sample_trailer 366).

Definition no_breaksb (s : bytes) : bool := forallb (fun c => negb (is_crlf c)) s.
Lemma no_breaksb_ok s : no_breaksb s = true -> no_breaks s.
Proof.
  unfold no_breaksb. rewrite forallb_forall. intros H. split; intros I; apply H in I; vm_compute in I; discriminate.
Qed.

Lemma holds_str st n s : lookup n st = Some (VStr s) -> holds st n (VStr s).
Proof. apply lookup_In. Qed.

Ltac words := eexists; eexists; split; [apply holdsb_ok; vm_compute; reflexivity|];
  split; [apply holdsb_ok; vm_compute; reflexivity|].

Lemma fixed_file_in : file_in FixedFile fixed_file.
Proof.
  eexists; eexists; eexists. split; [reflexivity|]. split; [|split; [|split; [|exact I]]].
  - split; [apply header_fitsb_ok; vm_compute; reflexivity|]. exists 0, 426.
    split; [apply holdsb_ok; vm_compute; reflexivity|]. split; [apply holdsb_ok; vm_compute; reflexivity|]. lia.
  - repeat refine (Forall_cons _ _ _); [| | |constructor]; (split; [apply base_fitsb_ok; vm_compute; reflexivity|]);
      [exists 0, 1264|exists 0, 426|exists 0, 1300];
      (split; [apply holdsb_ok; vm_compute; reflexivity|]); (split; [apply holdsb_ok; vm_compute; reflexivity|]);
      vm_compute; split; congruence.
  - split; [apply trailer_fitsb_ok; vm_compute; reflexivity|]. split; [apply holds_str; vm_compute; reflexivity|].
    exists 426. split; [apply holdsb_ok; vm_compute; reflexivity|vm_compute; congruence].
Qed.

Lemma variable_file_in : file_in VariableFile variable_file.
Proof.
  eexists; eexists; eexists. split; [reflexivity|]. split; [|split; [|split; [|exact I]]].
  - split; [apply header_fitsb_ok; vm_compute; reflexivity|]. exists 430, 426.
    split; [apply holdsb_ok; vm_compute; reflexivity|]. split; [apply holdsb_ok; vm_compute; reflexivity|]. lia.
  - repeat refine (Forall_cons _ _ _); [| | |constructor]; (split; [apply base_fitsb_ok; vm_compute; reflexivity|]);
      [exists 1268, 1264|exists 430, 426|exists 1300, 1300];
      (split; [apply holdsb_ok; vm_compute; reflexivity|]); (split; [apply holdsb_ok; vm_compute; reflexivity|]);
      vm_compute; split; reflexivity.
  - split; [apply trailer_fitsb_ok; vm_compute; reflexivity|]. split; [apply holds_str; vm_compute; reflexivity|].
    exists 426. split; [apply holdsb_ok; vm_compute; reflexivity|vm_compute; congruence].
Qed.

Lemma separated_words bases t z0 : Forall (fun b => exists z, base_bdw_is b z /\ has_type base_struct (bFields b) /\ z < 18900) bases ->
  holds t "RecordDescriptorWord" (VInt z0) -> has_type trailer_struct t -> z0 < 18900 -> separated bases t.
Proof.
  intros F H T L l1 b l2 z E. right. intros W [k K].
  assert (z < 18900) as Lz.
  { destruct l2 as [|b2 l2]; cbn in W.
    - assert (z = z0) as ->; [|exact L].
      eapply (ParseProps.holds_inj _ _ _ _ _ W H). Unshelve.
      rewrite (has_type_names _ _ T). apply nodupb_NoDup. vm_compute. reflexivity.
    - rewrite Forall_forall in F. destruct (F b2) as (z' & Hz & Tb & Lz).
      { rewrite E. apply in_or_app. right. right. left. reflexivity. }
      assert (z = z') as ->; [|exact Lz].
      eapply (ParseProps.holds_inj _ _ _ _ _ W Hz). Unshelve.
      apply base_nodup. exact Tb. }
  subst z. destruct k; vm_compute in Lz; discriminate.
Qed.

Lemma packed_file_in : file_in PackedFile packed_file.
Proof.
  eexists; eexists; eexists. split; [reflexivity|]. split; [|split; [|split]].
  - split; [apply header_fitsb_ok; vm_compute; reflexivity|]. exists 370, 366.
    split; [apply holdsb_ok; vm_compute; reflexivity|]. split; [apply holdsb_ok; vm_compute; reflexivity|].
    split; [lia|]. exists (lit "HEADER"). split; [apply holds_str; vm_compute; reflexivity|vm_compute; reflexivity].
  - repeat refine (Forall_cons _ _ _); [| | |constructor]; (split; [apply base_fitsb_ok; vm_compute; reflexivity|]);
      [exists 1208, 1204|exists 370, 366|exists 1300, 1296];
      (split; [apply holdsb_ok; vm_compute; reflexivity|]); (split; [apply holdsb_ok; vm_compute; reflexivity|]);
      vm_compute; split; reflexivity.
  - split; [apply trailer_fitsb_ok; vm_compute; reflexivity|]. split; [apply holds_str; vm_compute; reflexivity|].
    exists 366. split; [apply holdsb_ok; vm_compute; reflexivity|vm_compute; congruence].
  - split; [|split; [|split]].
    + eapply (separated_words _ _ 366); [|apply holdsb_ok; vm_compute; reflexivity|reflexivity|lia].
      repeat refine (Forall_cons _ _ _); [exists 1208|exists 370|exists 1300|constructor];
        (split; [apply holdsb_ok; vm_compute; reflexivity|]); (split; [reflexivity|lia]).
    + apply no_breaksb_ok. vm_compute. reflexivity.
    + apply no_breaksb_ok. vm_compute. reflexivity.
    + repeat refine (Forall_cons _ _ _); [| | |constructor]; apply no_breaksb_ok; vm_compute; reflexivity.
Qed.

(* ---- C24: after a failed Parse ---- *)

Lemma failed_parse_changes : exists fuel f f' input iv e, file_ok f /\ file_validate f = Ok tt
  /\ file_parse fuel f input iv = Some (f', Err e) /\ f' <> f /\ length (flBases f) = 2%nat /\ flBases f' = [].
Proof.
  exists 1%nat, (sample_file false 0 1300).
  exists (set_bases (sample_file false 0 1300) []), [], false, (ErrSegmentLength "header record").
  split; [apply file_okb_ok; vm_compute; reflexivity|]. split; [vm_compute; reflexivity|].
  split; [vm_compute; reflexivity|]. split; [|split; reflexivity].
  intros E. apply (f_equal (fun f => length (flBases f))) in E. discriminate.
Qed.

(* ---- C45: Parse need not return ---- *)

(* a header, then a data record of announced length 430 and one of announced
   length -430: the loop goes back and forth between the two *)
Definition loop_header : bytes := header_string false (sample_header 430 426).
Definition loop_data (words : string) : bytes := lit words ++ skipn 8 (base_string_char (sample_plain 430 426)).
Definition loop_input : bytes := loop_header ++ loop_data "-0010430" ++ loop_data "-001-430".

Lemma loop_forever : forall fuel f, flPacked f = false -> (exists p h, flHeader f = RHeader p h /\ has_type header_struct h /\ p = false) ->
  file_parse fuel f loop_input true = None.
Proof.
  intros fuel f Ep (p & h & Eh & Th & ->).
  assert (strip loop_input = loop_input) as Es by (vm_compute; reflexivity).
  set (A := fst (record_parse (new_data_record false) (skipn 430 loop_input) true)).
  set (B := fst (record_parse (new_data_record false) (skipn 860 loop_input) true)).
  assert (record_parse (new_data_record false) (skipn 430 loop_input) true = (A, Ok 430)) as EA by (vm_compute; reflexivity).
  assert (record_parse (new_data_record false) (skipn 860 loop_input) true = (B, Ok (-430))) as EB by (vm_compute; reflexivity).
  clearbody A B.
  assert (forall n acc, parse_loop n false loop_input true 430 acc = LFuel
    /\ parse_loop n false loop_input true 860 acc = LFuel) as L.
  { induction n as [|n IH]; intros acc; [split; reflexivity|]. cbn [parse_loop].
    change (Z.of_nat (length loop_input)) with (Z.of_nat (Pos.to_nat 1290)). rewrite positive_nat_Z.
    change (Z.to_nat 430) with 430%nat. change (Z.to_nat 860) with 860%nat.
    rewrite EA, EB. split; apply IH. }
  unfold file_parse. rewrite Es. cbn [set_bases flHeader flPacked]. rewrite Eh, Ep.
  assert (snd (record_parse (RHeader false (sample_header 430 426)) loop_input true) = Ok 430) as Hh by (vm_compute; reflexivity).
  cbn [record_parse] in *.
  pose proof (header_parse_same false (sample_header 430 426) h loop_input true ltac:(apply has_typeb_ok; vm_compute; reflexivity) Th (or_intror (or_introl eq_refl))) as K.
  cbn zeta in K. destruct (header_parse_char (sample_header 430 426) loop_input true) as [x rx].
  cbn [fst snd] in *. subst rx. destruct K as [K1 K2]. specialize (K2 430 eq_refl).
  destruct (header_parse_char h loop_input true) as [y ry]. cbn [snd] in K1. subst ry.
  rewrite (proj1 (L fuel [])). reflexivity.
Qed.

Lemma never_returns : exists input, length input = Pos.to_nat 1290 /\
  forall fuel, file_parse fuel (new_file_p false) input true = None.
Proof.
  exists loop_input. split; [vm_compute; reflexivity|]. intros fuel. apply loop_forever; [reflexivity|].
  exists false, new_header. repeat split.
Qed.

(* ---- C57: a payment history that ends with a blank ---- *)

Definition blank_history : base :=
  with_field "PaymentHistoryProfile" (VStr (repeat "0"%char 23 ++ [" "%char])) (sample_plain 0 426).

Lemma valid_then_invalid : exists b b' n, base_sized b /\ record_validate (RBase false b) = None
  /\ record_parse (new_data_record false) (record_string (RBase false b)) false = (RBase false b', Ok n)
  /\ record_validate (RBase false b') <> None.
Proof.
  exists blank_history. eexists. eexists. split; [apply base_sizedb_ok; vm_compute; reflexivity|].
  split; [vm_compute; reflexivity|]. split; [vm_compute; reflexivity|]. vm_compute. discriminate.
Qed.

(* ---- C58 ---- *)

Lemma padded_too_short : exists b rdw, base_fits false b /\ base_bdw_is b (rdw + 4) /\ base_rdw_is b rdw
  /\ record_validate (RBase false b) = None
  /\ Z.of_nat (length (record_string (RBase false b))) = rdw.
Proof.
  exists (sample_plain 504 500), 500. split; [apply base_fitsb_ok; vm_compute; reflexivity|].
  split; [apply holdsb_ok; vm_compute; reflexivity|]. split; [apply holdsb_ok; vm_compute; reflexivity|].
  split; vm_compute; reflexivity.
Qed.

(* ---- C59 ---- *)

Lemma number_cut f z : of_type numeric f -> (1 <= fLength f)%nat -> 10 ^ Z.of_nat (fLength f) <= z ->
  exists z' k, 1 <= k /\ z' = z / 10 ^ k /\ z' < z
    /\ decimal_text (fLength f) z' (to_string f (Some (VInt z))).
Proof.
  destruct f as [start w ty req]. cbn [fLength]. intros T Hw Hz.
  assert (to_string (mkField start w ty req) (Some (VInt z)) = fmt_zero_pad w (itoa z)) as ->.
  { destruct T as [T|T]; cbn [fType] in T; subst ty; reflexivity. }
  assert (0 < 10 ^ Z.of_nat w) as Pw by (apply Z.pow_pos_nonneg; lia).
  unfold itoa. destruct (Z.ltb_spec z 0) as [|Z0]; [lia|].
  pose proof (utoa_digits z Z0) as D. pose proof (dval_utoa z Z0) as V.
  rewrite fmt_zero_pad_ascii by (apply (forallb_impl is_digit); [exact is_digit_ascii|exact D]).
  set (u := utoa z) in *.
  assert (w < length u)%nat as L.
  { pose proof (dval_range u D) as R. rewrite V in R.
    destruct (Nat.lt_ge_cases w (length u)) as [|G]; [assumption|].
    assert (10 ^ Z.of_nat (length u) <= 10 ^ Z.of_nat w) by (apply Z.pow_le_mono_r; lia). lia. }
  rewrite <- (firstn_skipn w u) in V, D. rewrite dval_app in V. rewrite forallb_app in D. apply andb_prop in D as [D1 D2].
  pose proof (dval_range _ D1) as R1. pose proof (dval_range _ D2) as R2.
  assert (length (firstn w u) = w) as L1 by (rewrite firstn_length; lia).
  assert (length (skipn w u) = (length u - w)%nat) as L2 by apply skipn_length.
  rewrite L1 in R1. rewrite L2 in R2, V. set (k := Z.of_nat (length u - w)) in *.
  exists (dval (firstn w u)), k. split; [lia|].
  split; [|split].
  - apply (Z.div_unique z (10 ^ k) _ (dval (skipn w u))); [left; exact R2|lia].
  - lia.
  - apply decimal_text_spec. replace (w - length u)%nat with 0%nat by lia. cbn [repeat app]. auto.
Qed.

Lemma number_altered : exists b b' n z z', base_sized b /\ record_validate (RBase false b) = None
  /\ holds (bFields b) "HighestCredit" (VInt z)
  /\ record_parse (new_data_record false) (record_string (RBase false b)) false = (RBase false b', Ok n)
  /\ record_validate (RBase false b') = None
  /\ holds (bFields b') "HighestCredit" (VInt z') /\ z' <> z.
Proof.
  exists (with_field "HighestCredit" (VInt 1234567890) (sample_plain 0 426)). eexists. eexists. exists 1234567890, 123456789.
  split; [apply base_sizedb_ok; vm_compute; reflexivity|]. split; [vm_compute; reflexivity|].
  split; [apply holdsb_ok; vm_compute; reflexivity|]. split; [vm_compute; reflexivity|].
  split; [vm_compute; reflexivity|]. split; [apply holdsb_ok; vm_compute; reflexivity|lia].
Qed.

(* ---- C63: the block descriptor word of an earlier header ---- *)

Lemma stale_word : exists f input, file_ok f /\ flPacked f = false
  /\ (exists f', file_parse 2 (new_file_p false) input false = Some (f', Ok tt))
  /\ (exists f' e, file_parse 2 f input false = Some (f', Err e)).
Proof.
  exists variable_file. exists (file_text false (file_of FixedFile (sample_header 0 426) [sample_plain 0 426] (sample_trailer 426))).
  split; [apply file_okb_ok; vm_compute; reflexivity|]. split; [reflexivity|]. split.
  - eexists. vm_compute. reflexivity.
  - eexists. eexists. vm_compute. reflexivity.
Qed.
