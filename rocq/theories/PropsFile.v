(* Properties of whole files: C07-C09, C24, C38, C39, C44-C46, C57-C59, C61, C63 *)
From Coq Require Import ZArith NArith Bool Ascii String List Lia.
Import ListNotations.
From Verif Require Import GoBase GoTime Tables Codec Records File Concurrent
  SpecCodec SpecLayouts SpecRecords SpecFields SpecFile SpecFiles Check Samples
  BreakFacts FileRoundTrip FileProps ConcurrentFacts FileCases OrderFacts TextFacts.
Local Open Scope string_scope.
Local Open Scope Z_scope.
Local Open Scope list_scope.
Local Notation length := List.length.

(* C07-C09: String, then Parse, gives the file back; with and without line
   breaks, for every number of goroutines *)
Theorem C07_fixed : forall f isNewLine goroutines fuel,
  file_in FixedFile f -> (length (flBases f) < fuel)%nat ->
  file_parse fuel (new_file_p false) (concurrent_string f isNewLine goroutines) false = Some (f, Ok tt).
Proof. exact (file_round_trip FixedFile). Qed.
Print Assumptions C07_fixed.

Theorem C08_variable : forall f isNewLine goroutines fuel,
  file_in VariableFile f -> (length (flBases f) < fuel)%nat ->
  file_parse fuel (new_file_p false) (concurrent_string f isNewLine goroutines) true = Some (f, Ok tt).
Proof. exact (file_round_trip VariableFile). Qed.
Print Assumptions C08_variable.

Theorem C09_packed : forall f isNewLine goroutines fuel,
  file_in PackedFile f -> (length (flBases f) < fuel)%nat ->
  file_parse fuel (new_file_p true) (concurrent_string f isNewLine goroutines) true = Some (f, Ok tt).
Proof. exact (file_round_trip PackedFile). Qed.
Print Assumptions C09_packed.

Example C07_case : file_in FixedFile fixed_file /\ length (flBases fixed_file) = 3%nat.
Proof. exact (conj fixed_file_in eq_refl). Qed.
Example C08_case : file_in VariableFile variable_file /\ length (flBases variable_file) = 3%nat.
Proof. exact (conj variable_file_in eq_refl). Qed.
Example C09_case : file_in PackedFile packed_file /\ length (flBases packed_file) = 3%nat.
Proof. exact (conj packed_file_in eq_refl). Qed.

(* C24: "a failed Parse leaves the file unchanged" is false: a valid file of two
   data records loses them when empty input is parsed *)
Theorem C24_refuted : exists fuel f f' input isVariableLength e, file_ok f /\ file_validate f = Ok tt
  /\ file_parse fuel f input isVariableLength = Some (f', Err e)
  /\ f' <> f /\ length (flBases f) = 2%nat /\ flBases f' = [].
Proof. exact failed_parse_changes. Qed.
Print Assumptions C24_refuted.

(* what is left: whether Parse fails or not, its outcome and the file it leaves
   never depend on the data records there were before, so old and new data records
   are not mixed; missing: the old header, data records and trailer are not kept *)
Theorem C24_no_mixture_partial : forall fuel packed h l l' t input isVariableLength,
  file_parse fuel (mkFile packed h l t) input isVariableLength
  = file_parse fuel (mkFile packed h l' t) input isVariableLength.
Proof. exact parse_forgets. Qed.
Print Assumptions C24_no_mixture_partial.

(* C38: the text does not depend on the number of goroutines ... *)
Theorem C38_goroutines : forall f isNewLine goroutines,
  concurrent_string f isNewLine goroutines = file_text isNewLine f.
Proof. exact concurrent_text. Qed.
Print Assumptions C38_goroutines.

(* ... nor on how their actions interleave: whenever the caller returns it
   returns this text, for every page size *)
Theorem C38_schedules : forall f isNewLine pageSize n s text,
  (0 < pageSize)%nat -> run f isNewLine n (start_file f pageSize) s -> stMain s = MFinished text ->
  text = file_text isNewLine f.
Proof. exact schedule_text. Qed.
Print Assumptions C38_schedules.

(* ... no schedule deadlocks, and all end within a number of actions that is
   linear in the number of data records *)
Theorem C38_returns : forall f isNewLine pageSize n s,
  run f isNewLine n (start_file f pageSize) s ->
  exists k s' text, run f isNewLine k s s' /\ stMain s' = MFinished text.
Proof. exact always_completes. Qed.
Print Assumptions C38_returns.

Theorem C38_bounded : forall f isNewLine pageSize n s,
  (0 < pageSize)%nat -> run f isNewLine n (start_file f pageSize) s ->
  (n <= 6 * length (flBases f) + 2)%nat.
Proof. exact schedule_bound. Qed.
Print Assumptions C38_bounded.

(* ... two goroutines never write the same page, the caller combines the pages
   only when every goroutine is done, and the wait group never goes negative *)
Theorem C38_exclusive : forall f isNewLine pageSize n s,
  run f isNewLine n (start_file f pageSize) s ->
  (forall j k i i' todo todo' data data', nth_error (stThreads s) j = Some (TWriting i todo data) ->
     nth_error (stThreads s) k = Some (TWriting i' todo' data') -> i = i' -> j = k)
  /\ (forall text, stMain s = MFinished text -> forall j t, nth_error (stThreads s) j = Some t -> t = TDone)
  /\ 0 <= stWait s.
Proof.
  exact (fun f nl size n s R => conj (proj1 (run_exclusive f nl _ n s R))
    (conj (proj2 (run_exclusive f nl _ n s R)) (run_counter f nl _ n s R))).
Qed.
Print Assumptions C38_exclusive.

(* a run in which the second goroutine stores its page before the first has
   written anything *)
Example C38_case : exists n s,
  run fixed_file true n (start_file fixed_file 2) s
  /\ nth_error (stThreads s) 1 = Some TDone
  /\ nth_error (stThreads s) 0 = Some (TWriting 0 (firstn 2 (flBases fixed_file)) []).
Proof.
  exists 8%nat. eexists. split.
  - eapply run_from; [eapply step_add|].
    eapply run_from; [eapply step_go|].
    eapply run_from; [eapply step_add|].
    eapply run_from; [eapply step_go|].
    eapply run_from; [eapply step_loop_end|].
    eapply run_from; [eapply step_write with (k := 1%nat); reflexivity|].
    eapply run_from; [eapply step_store with (k := 1%nat); reflexivity|].
    eapply run_from; [eapply step_done with (k := 1%nat); reflexivity|].
    apply run_nil.
  - split; reflexivity.
Qed.

(* C39: line breaks put in anywhere do not change what Parse does ... *)
Theorem C39_parse : forall fuel f s s' isVariableLength, broken_up s s' ->
  file_parse fuel f s' isVariableLength = file_parse fuel f s isVariableLength.
Proof. exact parse_broken_up. Qed.
Print Assumptions C39_parse.

(* ... and the two forms of the text differ in line breaks only *)
Theorem C39_string : forall f goroutines goroutines',
  no_breaks (record_string (flHeader f)) -> no_breaks (record_string (flTrailer f)) ->
  Forall (fun r => no_breaks (record_string r)) (flBases f) ->
  unbroken (concurrent_string f true goroutines) (concurrent_string f false goroutines').
Proof. exact text_unbroken. Qed.
Print Assumptions C39_string.

Example C39_case : broken_up (list_ascii_of_string "ab") ["a"; "010"; "013"; "b"; "010"]%char
  /\ no_breaks (record_string (flHeader packed_file)) /\ no_breaks (record_string (flTrailer packed_file))
  /\ Forall (fun r => no_breaks (record_string r)) (flBases packed_file).
Proof.
  split.
  - apply broken_byte. apply broken_break; [right; reflexivity|]. apply broken_break; [left; reflexivity|].
    apply broken_byte. apply broken_break; [right; reflexivity|]. apply broken_nil.
  - destruct packed_file_in as (h & bs & t & E & _ & _ & _ & _ & K). rewrite E at 1 2 3. rewrite E in K. exact K.
Qed.

(* C44: when Parse succeeds the announced lengths of header, data records and
   trailer add up to the length of the input without line breaks *)
Theorem C44_adds_up : forall fuel f input isVariableLength f',
  file_ok f -> file_parse fuel f input isVariableLength = Some (f', Ok tt) ->
  exists text hd ns tl, unbroken input text /\ announces (flHeader f') hd
    /\ Forall2 announces (flBases f') ns /\ announces (flTrailer f') tl
    /\ hd + total ns + tl = Z.of_nat (length text).
Proof. exact parse_adds_up. Qed.
Print Assumptions C44_adds_up.

Example C44_case : file_ok (new_file_p false) /\
  file_parse 4 (new_file_p false) (concurrent_string variable_file true 3) true = Some (variable_file, Ok tt).
Proof.
  split; [apply file_okb_ok; vm_compute; reflexivity|].
  apply (file_round_trip VariableFile); [exact variable_file_in|]. cbn. lia.
Qed.

(* C45: "Parse terminates on every input" is false: on these 1290 bytes of
   variable-blocked character input no number of iterations is enough *)
Theorem C45_refuted : exists input, length input = Pos.to_nat 1290 /\
  forall fuel, file_parse fuel (new_file_p false) input true = None.
Proof. exact never_returns. Qed.
Print Assumptions C45_refuted.

(* true for packed files and for fixed-length parsing, and for every input
   without minus signs: no more iterations than bytes.  Missing from the full
   claim: variable-blocked character input with minus signs *)
Theorem C45_fixed_partial : forall fuel f input isVariableLength,
  flPacked f = true \/ isVariableLength = false -> (length input < fuel)%nat ->
  exists f' r, file_parse fuel f input isVariableLength = Some (f', r).
Proof. exact parse_ends_fixed. Qed.
Print Assumptions C45_fixed_partial.

Theorem C45_no_minus_partial : forall fuel f input isVariableLength,
  ~ In "-"%char input -> (length input < fuel)%nat ->
  exists f' r, file_parse fuel f input isVariableLength = Some (f', r).
Proof. exact parse_ends_no_minus. Qed.
Print Assumptions C45_no_minus_partial.

(* for every file and input: Parse returns after at most one iteration for each byte,
   or it never returns.  Missing from the full claim: the second case is possible *)
Theorem C45_decided_partial : forall f input isVariableLength,
  (exists f' r, file_parse (S (length input)) f input isVariableLength = Some (f', r))
  \/ forall fuel, file_parse fuel f input isVariableLength = None.
Proof. exact parse_decided. Qed.
Print Assumptions C45_decided_partial.

(* once Parse has returned, more iterations change nothing *)
Theorem C45_stable : forall fuel fuel' f input isVariableLength x,
  file_parse fuel f input isVariableLength = Some x -> (fuel <= fuel')%nat ->
  file_parse fuel' f input isVariableLength = Some x.
Proof. exact parse_more. Qed.
Print Assumptions C45_stable.

Example C45_case : ~ In "-"%char (list_ascii_of_string "no minus sign here").
Proof. vm_compute. intros H. repeat destruct H as [H|H]; discriminate || contradiction. Qed.

(* C46: "Parse does not modify the caller's buffer" is false; it keeps it
   exactly when there are no line breaks *)
Theorem C46_kept_iff : forall input, delete_func_buffer input = input <-> no_breaks input.
Proof. exact buffer_kept. Qed.
Print Assumptions C46_kept_iff.

Theorem C46_refuted : exists input, delete_func_buffer input <> input.
Proof. exists [lf_char]. discriminate. Qed.
Print Assumptions C46_refuted.

Example C46_case : delete_func_buffer ["a"; "010"; "b"]%char = ["a"; "b"; "000"]%char /\ no_breaks ["a"; "b"]%char.
Proof. split; [reflexivity|]. apply no_breaksb_ok. reflexivity. Qed.

(* C57: a valid data record that fits is still valid after writing and reading *)
Theorem C57_valid : forall k b rest r n,
  base_in k b -> no_segment rest -> record_validate (RBase (packed_of k) b) = None ->
  record_parse (new_data_record (packed_of k)) (record_string (RBase (packed_of k) b) ++ rest) (blocked k) = (r, Ok n) ->
  record_validate r = None.
Proof. exact valid_again. Qed.
Print Assumptions C57_valid.

Example C57_case : base_in FixedFile (sample_base 0 1264) /\ no_segment []
  /\ record_validate (RBase false (sample_base 0 1264)) = None.
Proof.
  split; [|split; [|vm_compute; reflexivity]].
  - destruct fixed_file_in as (h & bs & t & E & _ & F & _). injection E as _ E _.
    assert (In (sample_base 0 1264) bs) as I.
    { destruct bs as [|b bs]; [discriminate|]. injection E as <- _. left. reflexivity. }
    rewrite Forall_forall in F. apply F. exact I.
  - left. cbn. lia.
Qed.

(* when only the widths of the fields are respected it is false: a payment
   history that ends in a blank, a value Validate accepts, loses it *)
Theorem C57_refuted : exists b b' n, base_sized b /\ record_validate (RBase false b) = None
  /\ record_parse (new_data_record false) (record_string (RBase false b)) false = (RBase false b', Ok n)
  /\ record_validate (RBase false b') <> None.
Proof. exact valid_then_invalid. Qed.
Print Assumptions C57_refuted.

(* C58: "the text of a variable-blocked character record is as long as its block
   descriptor word says" is false: a padded record is four bytes shorter *)
Theorem C58_refuted : exists b rdw, base_fits false b /\ base_bdw_is b (rdw + 4) /\ base_rdw_is b rdw
  /\ record_validate (RBase false b) = None
  /\ Z.of_nat (length (record_string (RBase false b))) = rdw.
Proof. exact padded_too_short. Qed.
Print Assumptions C58_refuted.

(* true when the record needs no padding; missing: padded records *)
Theorem C58_unpadded_partial : forall b rdw, base_fits false b -> base_bdw_is b (rdw + 4) -> base_rdw_is b rdw ->
  rdw = base_size false b -> Z.of_nat (length (record_string (RBase false b))) = rdw + 4.
Proof. exact unpadded_length. Qed.
Print Assumptions C58_unpadded_partial.

(* ... and only then *)
Theorem C58_exactly_partial : forall b rdw, base_fits false b -> base_bdw_is b (rdw + 4) -> base_rdw_is b rdw ->
  (Z.of_nat (length (record_string (RBase false b))) = rdw + 4 <-> rdw = base_size false b).
Proof. exact length_says_iff. Qed.
Print Assumptions C58_exactly_partial.

Example C58_case : base_fits false (sample_base 1268 1264) /\ base_bdw_is (sample_base 1268 1264) (1264 + 4)
  /\ base_rdw_is (sample_base 1268 1264) 1264 /\ 1264 = base_size false (sample_base 1268 1264).
Proof.
  split; [apply base_fitsb_ok; vm_compute; reflexivity|]. split; [apply holdsb_ok; vm_compute; reflexivity|].
  split; [apply holdsb_ok; vm_compute; reflexivity|vm_compute; reflexivity].
Qed.

(* C59: "numbers that do not fit are not silently altered" is false: the record
   below is valid before and after, but its highest credit has changed *)
Theorem C59_refuted : exists b b' n z z', base_sized b /\ record_validate (RBase false b) = None
  /\ holds (bFields b) "HighestCredit" (VInt z)
  /\ record_parse (new_data_record false) (record_string (RBase false b)) false = (RBase false b', Ok n)
  /\ record_validate (RBase false b') = None
  /\ holds (bFields b') "HighestCredit" (VInt z') /\ z' <> z.
Proof. exact number_altered. Qed.
Print Assumptions C59_refuted.

(* what the field shows instead: the leading digits (numbers that fit are shown
   as they are: C14_number_write) *)
Theorem C59_leading_digits : forall f z,
  of_type numeric f -> (1 <= fLength f)%nat -> 10 ^ Z.of_nat (fLength f) <= z ->
  exists z' k, 1 <= k /\ z' = z / 10 ^ k /\ z' < z
    /\ decimal_text (fLength f) z' (to_string f (Some (VInt z))).
Proof. exact number_cut. Qed.
Print Assumptions C59_leading_digits.

(* so a field shows the number exactly when the number fits *)
Theorem C59_exactly_partial : forall f z, of_type numeric f -> (1 <= fLength f)%nat -> 0 <= z ->
  (decimal_text (fLength f) z (to_string f (Some (VInt z))) <-> z < 10 ^ Z.of_nat (fLength f)).
Proof. exact number_shown_iff. Qed.
Print Assumptions C59_exactly_partial.

Example C59_case : of_type numeric (mkField 0 4 numeric applicable)
  /\ to_string (mkField 0 4 numeric applicable) (Some (VInt 123456)) = list_ascii_of_string "1234".
Proof. split; [left; reflexivity|vm_compute; reflexivity]. Qed.

(* C61: character records whose strings hold no line breaks are written without
   any; in particular records that fit and records that were read *)
Theorem C61_record : forall r, char_record r -> record_breakless r -> no_breaks (record_string r).
Proof. exact record_plain. Qed.
Print Assumptions C61_record.

Theorem C61_documented : forall k f, file_in k f -> file_breakless f.
Proof. exact file_in_breakless. Qed.
Print Assumptions C61_documented.

Theorem C61_parsed : forall fuel f input isVariableLength f',
  file_ok f -> file_parse fuel f input isVariableLength = Some (f', Ok tt) -> file_breakless f'.
Proof. exact parse_breakless. Qed.
Print Assumptions C61_parsed.

(* so in newline mode the text determines the texts of the records *)
Theorem C61_unambiguous : forall f g m n,
  file_ok f -> flPacked f = false -> file_breakless f ->
  file_ok g -> flPacked g = false -> file_breakless g ->
  concurrent_string f true m = concurrent_string g true n ->
  record_string (flHeader f) = record_string (flHeader g)
  /\ map record_string (flBases f) = map record_string (flBases g)
  /\ record_string (flTrailer f) = record_string (flTrailer g).
Proof. exact newline_text_inj. Qed.
Print Assumptions C61_unambiguous.

Example C61_case : file_ok fixed_file /\ flPacked fixed_file = false /\ file_breakless fixed_file
  /\ char_record (flHeader fixed_file).
Proof.
  split; [apply file_okb_ok; vm_compute; reflexivity|]. split; [reflexivity|].
  split; [exact (file_in_breakless _ _ fixed_file_in)|reflexivity].
Qed.

(* C63: "the result of Parse does not depend on the previous contents" is false:
   fixed-length parsing keeps the block descriptor word of the previous header *)
Theorem C63_refuted : exists f input, file_ok f /\ flPacked f = false
  /\ (exists f', file_parse 2 (new_file_p false) input false = Some (f', Ok tt))
  /\ (exists f' e, file_parse 2 f input false = Some (f', Err e)).
Proof. exact stale_word. Qed.
Print Assumptions C63_refuted.

(* true for packed files, for variable-blocked parsing and for files whose header
   holds the same block descriptor word: the same outcome, and on success the
   same file.  Missing: fixed-length parsing over another block descriptor word,
   and the contents left behind by a failure *)
Theorem C63_same_partial : forall fuel f g input isVariableLength,
  file_ok f -> file_ok g -> flPacked f = flPacked g ->
  flPacked f = true \/ isVariableLength = true \/ (exists z, header_block f z /\ header_block g z) ->
  option_map snd (file_parse fuel f input isVariableLength) = option_map snd (file_parse fuel g input isVariableLength)
  /\ forall f', file_parse fuel f input isVariableLength = Some (f', Ok tt) ->
       file_parse fuel g input isVariableLength = Some (f', Ok tt).
Proof. exact parse_same. Qed.
Print Assumptions C63_same_partial.

Example C63_case : file_ok variable_file /\ file_ok (new_file_p false)
  /\ flPacked variable_file = flPacked (new_file_p false)
  /\ header_block fixed_file 0 /\ header_block (new_file_p false) 0.
Proof.
  split; [apply file_okb_ok; vm_compute; reflexivity|]. split; [apply file_okb_ok; vm_compute; reflexivity|].
  split; [reflexivity|].
  split; eexists; eexists; (split; [reflexivity|]); apply holdsb_ok; vm_compute; reflexivity.
Qed.
