(* Properties C14 - C19: single fields *)
From Coq Require Import ZArith NArith Bool Ascii String List Lia.
Import ListNotations.
From Verif Require Import GoBase GoTime Tables Codec SpecCodec SpecFields FieldProps.
Local Open Scope string_scope.
Local Open Scope Z_scope.
Local Open Scope list_scope.
Local Notation length := List.length.

(* C14: numbers.  The bound 2^63 is the range of int64. *)
Theorem C14_number_write : forall f z,
  of_type numeric f -> (1 <= fLength f)%nat -> 0 <= z < 10 ^ Z.of_nat (fLength f) ->
  decimal_text (fLength f) z (to_string f (Some (VInt z))).
Proof. exact number_write. Qed.
Print Assumptions C14_number_write.

Theorem C14_number_read : forall f s,
  of_type numeric f -> s <> [] -> Forall (fun c => In c digits) s ->
  decimal s < 2 ^ 63 -> (fRequired f = required -> decimal s <> 0) ->
  reads f s (VInt (decimal s)).
Proof. exact number_read. Qed.
Print Assumptions C14_number_read.

Theorem C14_required_zero_refused : forall f s,
  of_type numeric f -> fRequired f = required ->
  Forall (fun c => In c digits) s -> decimal s = 0 -> refuses f s.
Proof. exact number_zero_refused. Qed.
Print Assumptions C14_required_zero_refused.

Example C14_case :
  to_string (mkField 7 9 numeric required) (Some (VInt 120500)) = list_ascii_of_string "000120500"
  /\ of_type numeric (mkField 7 9 numeric required) /\ 0 <= 120500 < 10 ^ Z.of_nat 9
  /\ decimal (list_ascii_of_string "000120500") = 120500.
Proof. repeat split; try reflexivity; try lia. left. reflexivity. Qed.

(* C15: text *)
Theorem C15_text_write : forall f s,
  fType f = alphanumeric -> Forall (fun c => code c < 128) s ->
  to_string f (Some (VStr s)) = firstn (fLength f) (s ++ repeat " "%char (fLength f)).
Proof. exact text_write. Qed.
Print Assumptions C15_text_write.

Theorem C15_text_read : forall f s,
  fType f = alphanumeric -> s <> [] -> Forall (fun c => In c text_chars) s ->
  exists v n, reads f s (VStr v) /\ s = v ++ repeat " "%char n /\ (forall r, v <> r ++ [" "%char]).
Proof. exact text_read. Qed.
Print Assumptions C15_text_read.

Theorem C15_text_refused : forall f s,
  fType f = alphanumeric -> ~ Forall (fun c => In c text_chars) s -> refuses f s.
Proof. exact text_refused. Qed.
Print Assumptions C15_text_refused.

Example C15_case :
  to_string (mkField 0 6 alphanumeric applicable) (Some (VStr (list_ascii_of_string "AB C"))) = list_ascii_of_string "AB C  "
  /\ to_string (mkField 0 3 alphanumeric applicable) (Some (VStr (list_ascii_of_string "AB C"))) = list_ascii_of_string "AB "
  /\ Forall (fun c => code c < 128) (list_ascii_of_string "AB C").
Proof. repeat split; repeat constructor. Qed.

(* C16: dates and timestamps of the character format.  Dates may carry any zone
   (offset of at most a day); what is written is the civil date they show. *)
Theorem C16_date_write : forall f t,
  of_type date f -> calendar_time t ->
  (forall o, tOff t = Some o -> - 86400 <= o <= 86400) ->
  (t = no_date -> to_string f (Some (VTime t)) = repeat "0"%char (fLength f)) /\
  (2 <= tYear t \/ (plain_date t /\ t <> no_date) ->
    date_text (tYear t) (tMonth t) (tDay t) (to_string f (Some (VTime t)))).
Proof. exact date_write. Qed.
Print Assumptions C16_date_write.

Theorem C16_date_reads : forall f s t,
  of_type date f -> length s = fLength f ->
  reads f s (VTime t) <->
  (zeros s /\ t = no_date /\ fRequired f <> required) \/
  (exists y m d, calendar_date y m d /\ date_text y m d s /\ t = at_midnight y m d).
Proof. exact date_reads. Qed.
Print Assumptions C16_date_reads.

Theorem C16_date_decides : forall f s,
  of_type date f -> refuses f s \/ exists t, reads f s (VTime t).
Proof. exact reads_or_refuses_date. Qed.
Print Assumptions C16_date_decides.

Theorem C16_stamp_write : forall f t,
  of_type timestamp f -> calendar_time t ->
  (forall o, tOff t = Some o -> - 86400 <= o <= 86400) ->
  (t = no_date -> to_string f (Some (VTime t)) = repeat "0"%char (fLength f)) /\
  (2 <= tYear t \/ (plain_stamp t /\ t <> no_date) -> stamp_text t (to_string f (Some (VTime t)))).
Proof. exact stamp_write. Qed.
Print Assumptions C16_stamp_write.

Theorem C16_stamp_reads : forall f s t,
  of_type timestamp f -> length s = fLength f -> fLength f = 14%nat ->
  reads f s (VTime t) <->
  (zeros s /\ t = no_date /\ fRequired f <> required) \/ (plain_stamp t /\ stamp_text t s).
Proof. exact stamp_reads. Qed.
Print Assumptions C16_stamp_reads.

Theorem C16_stamp_decides : forall f s,
  of_type timestamp f -> refuses f s \/ exists t, reads f s (VTime t).
Proof. exact reads_or_refuses_stamp. Qed.
Print Assumptions C16_stamp_decides.

Example C16_case :
  to_string (mkField 0 8 date applicable) (Some (VTime (mkTime 2024 2 29 23 5 6 7 (Some 3600)))) = list_ascii_of_string "02292024"
  /\ parse_value (mkField 0 8 date applicable) (list_ascii_of_string "02292023") "f" "r" = Err ErrTimeParse
  /\ parse_value (mkField 0 8 date applicable) (list_ascii_of_string "02292024") "f" "r" = Ok (VTime (at_midnight 2024 2 29))
  /\ to_string (mkField 0 14 timestamp applicable) (Some (VTime (mkTime 2024 2 29 23 5 6 0 None))) = list_ascii_of_string "02292024230506".
Proof. repeat split. Qed.

(* C17: packed numbers and descriptor words *)
Theorem C17_packed_number : forall f z,
  of_type packedNumber f -> (fLength f <= 8)%nat ->
  0 <= z < 256 ^ Z.of_nat (fLength f) -> z < 2 ^ 63 ->
  let s := to_string f (Some (VInt z)) in
  length s = fLength f /\ binary s = z /\ reads f s (VInt z).
Proof. exact packed_number_round. Qed.
Print Assumptions C17_packed_number.

Theorem C17_packed_bytes : forall f s,
  of_type packedNumber f -> length s = fLength f -> (fLength f <= 7)%nat ->
  reads f s (VInt (binary s)) /\ to_string f (Some (VInt (binary s))) = s.
Proof. exact packed_bytes_round. Qed.
Print Assumptions C17_packed_bytes.

Theorem C17_descriptor_word : forall f z,
  of_type descriptor f -> 0 <= z < 65536 ->
  let s := to_string f (Some (VInt z)) in
  written (Doc "" 4 FWord false) (VInt z) s /\ reads f s (VInt z).
Proof. exact word_round. Qed.
Print Assumptions C17_descriptor_word.

Example C17_case :
  to_string (mkField 0 5 packedNumber applicable) (Some (VInt 66051)) = map ascii_of_nat [0; 0; 1; 2; 3]%nat
  /\ parse_value (mkField 0 5 packedNumber applicable) (map ascii_of_nat [0; 0; 1; 2; 3]%nat) "f" "r" = Ok (VInt 66051).
Proof. split; reflexivity. Qed.

(* every packed number of the layouts is at most 7 bytes wide *)
Example C17_widths : forallb (fun p => orb (negb (N.eqb (N.land (fType (snd p)) packedNumber) packedNumber)) (Nat.leb (fLength (snd p)) 7))
  (headerRecordPackedFormat ++ baseSegmentPackedFormat ++ trailerRecordPackedFormat) = true.
Proof. reflexivity. Qed.

(* C18: packed dates and timestamps *)
Theorem C18_packed_date : forall f t,
  of_type packedDate f -> plain_date t ->
  written (Doc "" 5 FBinDate false) (VTime t) (to_string f (Some (VTime t))) /\
  reads f (to_string f (Some (VTime t))) (VTime t).
Proof. exact packed_date_write. Qed.
Print Assumptions C18_packed_date.

Theorem C18_packed_stamp : forall f t,
  of_type packedTimestamp f -> plain_stamp t ->
  written (Doc "" 8 FBinStamp false) (VTime t) (to_string f (Some (VTime t))) /\
  reads f (to_string f (Some (VTime t))) (VTime t).
Proof. exact packed_stamp_write. Qed.
Print Assumptions C18_packed_stamp.

Example C18_case :
  to_string (mkField 0 5 packedDate applicable) (Some (VTime (at_midnight 2020 12 31))) = map ascii_of_nat [0; 187; 221; 212; 115]%nat
  /\ (187 * 65536 + 221 * 256 + 212 = 12312020).
Proof. split; reflexivity. Qed.

(* C19: packed zero dates are NOT zero-filled: the zero date is written like any
   other, as the number 01010001; a zero-filled field does read as the zero date *)
Theorem C19_refuted : exists n f,
  In (n, f) baseSegmentPackedFormat /\ of_type packedDate f
  /\ to_string f (Some (VTime no_date)) <> repeat (ascii_of_N 0) (fLength f).
Proof.
  exists "DateClosed". destruct (lookup "DateClosed" baseSegmentPackedFormat) as [f|] eqn:E; [|discriminate].
  exists f. cbv in E. injection E as <-. split; [cbv; repeat (first [left; reflexivity|right])|].
  split; [first [left; reflexivity|right; reflexivity]|discriminate].
Qed.
Print Assumptions C19_refuted.

Theorem C19_zero_filled_is_read : forall f,
  (of_type packedDate f -> reads f (repeat (ascii_of_N 0) 5) (VTime no_date)) /\
  (of_type packedTimestamp f -> reads f (repeat (ascii_of_N 0) 8) (VTime no_date)).
Proof. exact (fun f => conj (packed_zero_read f) (packed_zero_stamp_read f)). Qed.
Print Assumptions C19_zero_filled_is_read.
