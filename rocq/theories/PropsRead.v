(* Properties C88, C89: what Parse reads, and what its errors say *)
From Coq Require Import ZArith NArith Bool Ascii String List Lia.
Import ListNotations.
From Verif Require Import GoBase GoTime Tables Codec Records
  SpecCodec SpecLayouts SpecRecords SpecReport SpecRead
  ReadOutcome ReadUnique ReadCases Samples.
Local Open Scope string_scope.
Local Open Scope Z_scope.
Local Open Scope list_scope.
Local Notation length := List.length.

(* ---- C88: reading is exact ---- *)

(* A segment is read exactly when the text of every field stands for a value. *)
Theorem C88_accepts : forall s parts rest iv, seg_typed s -> cut (seg_doc (sKind s)) parts ->
  (exists s' n, seg_parse s (List.concat parts ++ rest) iv = (s', Ok n)) <-> all_readable (seg_doc (sKind s)) parts.
Proof. exact seg_accepts. Qed.
Print Assumptions C88_accepts.

(* Then the fields hold these values and no other field changes. *)
Theorem C88_segment : forall s parts rest iv, seg_typed s -> cut (seg_doc (sKind s)) parts ->
  all_readable (seg_doc (sKind s)) parts ->
  exists st', seg_parse s (List.concat parts ++ rest) iv = (mkSegment (sKind s) st', Ok (seg_size (sKind s)))
    /\ seg_typed (mkSegment (sKind s) st') /\ read_whole (seg_doc (sKind s)) parts (sFields s) st'.
Proof. exact seg_reads. Qed.
Print Assumptions C88_segment.

(* the J1 segment of the samples *)
Example C88_segment_case : seg_typed (new_segment J1) /\ cut (seg_doc J1) j1_parts /\ all_readable (seg_doc J1) j1_parts.
Proof. exact j1_case. Qed.

Theorem C88_header_fixed : forall st parts rest, has_type header_struct st -> holds st "BlockDescriptorWord" (VInt 0) ->
  cut (header_doc false) parts -> all_readable (header_doc false) parts ->
  exists st' z, header_parse_char st (List.concat parts ++ rest) false = (st', Ok z)
    /\ read_whole (header_doc false) parts st st' /\ holds st' "RecordDescriptorWord" (VInt z).
Proof. exact header_fixed_reads. Qed.
Print Assumptions C88_header_fixed.

Example C88_header_fixed_case : has_type header_struct new_header /\ holds new_header "BlockDescriptorWord" (VInt 0)
  /\ cut (header_doc false) header_fixed /\ all_readable (header_doc false) header_fixed.
Proof. exact header_fixed_case. Qed.

(* with a block descriptor word: character headers of variable length, packed headers *)
Theorem C88_header_blocked : forall (p : bool) st w parts rest, has_type header_struct st -> length w = 4%nat ->
  cut (header_doc p) parts ->
  (p = true -> is_variable_length (w ++ List.concat parts ++ rest) = true) ->
  all_readable (block_word p :: header_doc p) (w :: parts) ->
  exists st' zb zr, holds st' "BlockDescriptorWord" (VInt zb) /\ holds st' "RecordDescriptorWord" (VInt zr)
    /\ (if p then header_parse_packed else header_parse_char) st (w ++ List.concat parts ++ rest) true = (st', Ok (if 0 <? zb then zb else zr))
    /\ read_whole (block_word p :: header_doc p) (w :: parts) st st'.
Proof. exact header_blocked_reads. Qed.
Print Assumptions C88_header_blocked.

Example C88_header_blocked_case : forall p : bool, has_type header_struct new_header /\ length (header_word p) = 4%nat
  /\ cut (header_doc p) (header_parts p)
  /\ (p = true -> is_variable_length (header_word p ++ List.concat (header_parts p) ++ []) = true)
  /\ all_readable (block_word p :: header_doc p) (header_word p :: header_parts p).
Proof. exact header_blocked_case. Qed.

Theorem C88_trailer : forall (p : bool) st parts rest iv, has_type trailer_struct st -> cut (trailer_doc p) parts ->
  all_readable (trailer_doc p) parts ->
  exists st' z, (if p then trailer_parse_packed else trailer_parse_char) st (List.concat parts ++ rest) iv = (st', Ok z)
    /\ read_whole (trailer_doc p) parts st st' /\ holds st' "RecordDescriptorWord" (VInt z).
Proof. exact trailer_reads. Qed.
Print Assumptions C88_trailer.

Example C88_trailer_case : forall p : bool, has_type trailer_struct new_trailer /\ cut (trailer_doc p) (trailer_parts p)
  /\ all_readable (trailer_doc p) (trailer_parts p).
Proof. exact trailer_case. Qed.

(* Base segments: after the fields the appended segments are read, up to the first text
   that does not begin one, or begins one that is too short, unreadable or invalid; the
   result is the size that the record gives itself, unless more than that was read. *)
Theorem C88_base_fixed : forall b parts rest, base_typed b -> base_bdw_is b 0 -> cut (base_doc false) parts ->
  all_readable (base_doc false) parts ->
  exists b' ss n r block, base_parse_char b (List.concat parts ++ rest) false = (b', ended block (426 + n) r)
    /\ read_whole (base_doc false) parts (bFields b) (bFields b')
    /\ base_rdw_is b' block /\ segs_read rest ss n r /\ attached b b' ss.
Proof. exact base_fixed_reads. Qed.
Print Assumptions C88_base_fixed.

Example C88_base_fixed_case : base_typed new_base /\ base_bdw_is new_base 0 /\ cut (base_doc false) base_fixed
  /\ all_readable (base_doc false) base_fixed.
Proof. exact base_fixed_case. Qed.

Theorem C88_base_variable : forall b w parts rest zb, base_typed b -> length w = 4%nat -> cut (base_doc false) parts ->
  stands_for (block_word false) w (VInt zb) -> 0 < zb -> all_readable (base_doc false) parts ->
  exists b' ss n r, base_parse_char b (w ++ List.concat parts ++ rest) true = (b', ended zb (430 + n) r)
    /\ read_whole (block_word false :: base_doc false) (w :: parts) (bFields b) (bFields b')
    /\ segs_read rest ss n r /\ attached b b' ss.
Proof. exact base_variable_reads. Qed.
Print Assumptions C88_base_variable.

Example C88_base_variable_case : length (lit "0500") = 4%nat /\ cut (base_doc false) base_blocked
  /\ stands_for (block_word false) (lit "0500") (VInt 500) /\ all_readable (base_doc false) base_blocked.
Proof. exact base_blocked_case. Qed.

(* With a block descriptor word that is not positive the segments are looked for four
   bytes too early, and a negative one lifts the limit on the size. *)
Theorem C88_base_unblocked : forall b w parts rest zb, base_typed b -> length w = 4%nat -> cut (base_doc false) parts ->
  stands_for (block_word false) w (VInt zb) -> zb <= 0 -> all_readable (base_doc false) parts ->
  exists b' ss n r zr, base_parse_char b (w ++ List.concat parts ++ rest) true
      = (b', if zb =? 0 then ended zr (426 + n) r else match r with Some e => Err e | None => Ok zr end)
    /\ read_whole (block_word false :: base_doc false) (w :: parts) (bFields b) (bFields b')
    /\ base_rdw_is b' zr /\ segs_read (skipn 422 (List.concat parts) ++ rest) ss n r /\ attached b b' ss.
Proof. exact base_unblocked_reads. Qed.
Print Assumptions C88_base_unblocked.

(* So an appended segment can be lost. *)
Theorem C88_unblocked_refuted : exists w parts rest ss n b', length w = 4%nat /\ cut (base_doc false) parts
  /\ all_readable (block_word false :: base_doc false) (w :: parts)
  /\ segs_read rest ss n None /\ ss <> []
  /\ base_parse_char new_base (w ++ List.concat parts ++ rest) true = (b', Ok 426)
  /\ base_segments b' = [].
Proof. exact unblocked_refuted. Qed.
Print Assumptions C88_unblocked_refuted.

Theorem C88_base_packed : forall b w parts rest, base_typed b -> length w = 4%nat -> cut (base_doc true) parts ->
  all_readable (base_doc true) parts ->
  exists b' ss n r block, base_parse_packed b (w ++ List.concat parts ++ rest) true = (b', ended block (370 + n) r)
    /\ read_whole (block_word true :: base_doc true) (w :: parts) (bFields b) (bFields b')
    /\ base_bdw_is b' block /\ segs_read rest ss n r /\ attached b b' ss.
Proof. exact base_packed_reads. Qed.
Print Assumptions C88_base_packed.

Example C88_base_packed_case : length base_word = 4%nat /\ cut (base_doc true) base_packed /\ all_readable (base_doc true) base_packed.
Proof. exact base_packed_case. Qed.

(* A text has one reading: the fields are determined by the text and what was there
   before, the appended segments and the error that ends them by the text. *)
Theorem C88_one_reading_segment : forall k parts st a b, cut (seg_doc k) parts ->
  has_type (seg_struct k) a -> has_type (seg_struct k) b ->
  read_whole (seg_doc k) parts st a -> read_whole (seg_doc k) parts st b -> a = b.
Proof. exact seg_one_reading. Qed.
Print Assumptions C88_one_reading_segment.

Theorem C88_one_reading_header : forall (p blocked : bool) parts st a b,
  let doc := if blocked then block_word p :: header_doc p else header_doc p in
  cut doc parts -> has_type header_struct a -> has_type header_struct b ->
  read_whole doc parts st a -> read_whole doc parts st b -> a = b.
Proof. exact header_one_reading. Qed.
Print Assumptions C88_one_reading_header.

Theorem C88_one_reading_base : forall (p blocked : bool) parts st a b,
  let doc := if blocked then block_word p :: base_doc p else base_doc p in
  cut doc parts -> has_type base_struct a -> has_type base_struct b ->
  read_whole doc parts st a -> read_whole doc parts st b -> a = b.
Proof. exact base_one_reading. Qed.
Print Assumptions C88_one_reading_base.

Theorem C88_one_reading_trailer : forall p parts st a b, cut (trailer_doc p) parts ->
  has_type trailer_struct a -> has_type trailer_struct b ->
  read_whole (trailer_doc p) parts st a -> read_whole (trailer_doc p) parts st b -> a = b.
Proof. exact trailer_one_reading. Qed.
Print Assumptions C88_one_reading_trailer.

Theorem C88_one_reading_appended : forall t ss n r, segs_read t ss n r ->
  forall ss' n' r', segs_read t ss' n' r' -> ss = ss' /\ n = n' /\ r = r'.
Proof. exact segs_one_reading. Qed.
Print Assumptions C88_one_reading_appended.

(* ---- C89: what the errors of Parse say ---- *)

(* When the text of a field stands for nothing, Parse fails at the first such field:
   the fields before it are filled in, no other has changed, and the error complains
   about this field. *)
Theorem C89_segment : forall s parts rest iv, seg_typed s -> cut (seg_doc (sKind s)) parts ->
  ~ all_readable (seg_doc (sKind s)) parts ->
  exists st' e, seg_parse s (List.concat parts ++ rest) iv = (mkSegment (sKind s) st', Err e)
    /\ read_until (seg_title (sKind s)) (seg_doc (sKind s)) parts (sFields s) st' e.
Proof. exact seg_fails. Qed.
Print Assumptions C89_segment.

(* the J1 segment of the samples with the thirteenth month in its date of birth *)
Example C89_segment_case : seg_typed (new_segment J1) /\ cut (seg_doc J1) j1_wrong /\ ~ all_readable (seg_doc J1) j1_wrong.
Proof. exact j1_wrong_case. Qed.

(* character records of fixed length: the first four bytes are read twice *)
Theorem C89_header_fixed : forall st parts rest, has_type header_struct st -> holds st "BlockDescriptorWord" (VInt 0) ->
  cut (header_doc false) parts -> ~ all_readable (header_doc false) parts ->
  exists st' e, header_parse_char st (List.concat parts ++ rest) false = (st', Err e)
    /\ read_until_fixed (header_title false) (header_doc false) parts st st' e.
Proof. exact header_fixed_fails. Qed.
Print Assumptions C89_header_fixed.

Theorem C89_header_blocked : forall (p : bool) st w parts rest, has_type header_struct st -> length w = 4%nat ->
  cut (header_doc p) parts ->
  (p = true -> is_variable_length (w ++ List.concat parts ++ rest) = true) ->
  ~ all_readable (block_word p :: header_doc p) (w :: parts) ->
  exists st' e, (if p then header_parse_packed else header_parse_char) st (w ++ List.concat parts ++ rest) true = (st', Err e)
    /\ read_until (header_title p) (block_word p :: header_doc p) (w :: parts) st st' e.
Proof. exact header_blocked_fails. Qed.
Print Assumptions C89_header_blocked.

Theorem C89_trailer : forall (p : bool) st parts rest iv, has_type trailer_struct st -> cut (trailer_doc p) parts ->
  ~ all_readable (trailer_doc p) parts ->
  exists st' e, (if p then trailer_parse_packed else trailer_parse_char) st (List.concat parts ++ rest) iv = (st', Err e)
    /\ read_until (trailer_title p) (trailer_doc p) parts st st' e.
Proof. exact trailer_fails. Qed.
Print Assumptions C89_trailer.

Theorem C89_base_fixed : forall b parts rest, base_typed b -> base_bdw_is b 0 -> cut (base_doc false) parts ->
  ~ all_readable (base_doc false) parts ->
  exists b' e, base_parse_char b (List.concat parts ++ rest) false = (b', Err e)
    /\ read_until_fixed (base_title false) (base_doc false) parts (bFields b) (bFields b') e.
Proof. exact base_fixed_fails. Qed.
Print Assumptions C89_base_fixed.

Theorem C89_base_variable : forall b w parts rest, base_typed b -> length w = 4%nat -> cut (base_doc false) parts ->
  ~ all_readable (block_word false :: base_doc false) (w :: parts) ->
  exists b' e, base_parse_char b (w ++ List.concat parts ++ rest) true = (b', Err e)
    /\ read_until (base_title false) (block_word false :: base_doc false) (w :: parts) (bFields b) (bFields b') e.
Proof. exact base_variable_fails. Qed.
Print Assumptions C89_base_variable.

Theorem C89_base_packed : forall b w parts rest, base_typed b -> length w = 4%nat -> cut (base_doc true) parts ->
  ~ all_readable (base_doc true) parts ->
  exists b' e, base_parse_packed b (w ++ List.concat parts ++ rest) true = (b', Err e)
    /\ read_until (base_title true) (block_word true :: base_doc true) (w :: parts) (bFields b) (bFields b') e.
Proof. exact base_packed_fails. Qed.
Print Assumptions C89_base_packed.

(* the header, base and trailer of the samples in which a text is no text *)
Example C89_record_cases :
  (cut (header_doc false) (spoiled 2 header_fixed) /\ ~ all_readable (header_doc false) (spoiled 2 header_fixed))
  /\ (forall p : bool, cut (header_doc p) (spoiled 2 (header_parts p))
      /\ ~ all_readable (block_word p :: header_doc p) (header_word p :: spoiled 2 (header_parts p)))
  /\ (forall p : bool, cut (trailer_doc p) (spoiled 1 (trailer_parts p)) /\ ~ all_readable (trailer_doc p) (spoiled 1 (trailer_parts p)))
  /\ (cut (base_doc false) (spoiled 4 base_fixed) /\ ~ all_readable (base_doc false) (spoiled 4 base_fixed))
  /\ (cut (base_doc false) (spoiled 4 base_blocked)
      /\ ~ all_readable (block_word false :: base_doc false) (lit "0500" :: spoiled 4 base_blocked))
  /\ (cut (base_doc true) (spoiled 4 base_packed) /\ ~ all_readable (base_doc true) (spoiled 4 base_packed)).
Proof. exact spoiled_cases. Qed.

(* Texts that are too short change nothing. *)
Theorem C89_short : forall (p : bool) t iv, (length t < record_size p)%nat ->
  (forall st, (if p then header_parse_packed else header_parse_char) st t iv = (st, Err (ErrSegmentLength (header_title p))))
  /\ (forall b, (if p then base_parse_packed else base_parse_char) b t iv = (b, Err (ErrSegmentLength (base_title p))))
  /\ (forall st, (if p then trailer_parse_packed else trailer_parse_char) st t iv = (st, Err (ErrSegmentLength (trailer_title p)))).
Proof. exact short_texts. Qed.
Print Assumptions C89_short.

Theorem C89_short_segment : forall s t iv, (length t < seg_size (sKind s))%nat ->
  seg_parse s t iv = (s, Err (ErrSegmentLength (seg_title (sKind s)))).
Proof. exact seg_short. Qed.
Print Assumptions C89_short_segment.

Example C89_short_case : (length (lit "0426") < record_size true)%nat /\ (length (lit "J1") < seg_size J1)%nat.
Proof. exact short_case. Qed.

(* Packed records without block descriptor word are refused as such. *)
Theorem C89_unblocked_base : forall b t, base_typed b -> (366 <= length t)%nat ->
  base_parse_packed b t false = (b, Err ErrBlockDescriptorWord).
Proof. exact base_packed_unblocked. Qed.
Print Assumptions C89_unblocked_base.

Theorem C89_unblocked_header : forall st t iv, has_type header_struct st -> (366 <= length t)%nat ->
  is_variable_length t = false -> header_parse_packed st t iv = (st, Err ErrBlockDescriptorWord).
Proof. exact header_packed_unblocked. Qed.
Print Assumptions C89_unblocked_header.

(* the packed header of the samples without its block descriptor word *)
Example C89_unblocked_case : has_type header_struct new_header /\ (366 <= length (List.concat (header_parts true)))%nat
  /\ is_variable_length (List.concat (header_parts true)) = false.
Proof. exact unblocked_case. Qed.

(* The errors do not always name the field, ... *)
Theorem C89_named_refuted : exists s parts s' e, seg_typed s /\ cut (seg_doc (sKind s)) parts
  /\ ~ all_readable (seg_doc (sKind s)) parts
  /\ seg_parse s (List.concat parts) false = (s', Err e)
  /\ (forall d title, ~ speaks_of d title e).
Proof. exact named_refuted. Qed.
Print Assumptions C89_named_refuted.

(* ... say that a number is missing when it is there but wrong, ... *)
Theorem C89_required_refuted : exists s parts s' d w, seg_typed s /\ cut (seg_doc (sKind s)) parts
  /\ In (d, w) (combine (seg_doc (sKind s)) parts) /\ w = lit "1X"
  /\ seg_parse s (List.concat parts) false = (s', Err (ErrFieldRequired (dName d) (seg_title (sKind s)))).
Proof. exact required_refuted. Qed.
Print Assumptions C89_required_refuted.

(* ... and blame records of fixed length for a field that they do not have. *)
Theorem C89_block_word_refuted : exists b parts b' f, base_typed b /\ base_bdw_is b 0 /\ cut (base_doc false) parts
  /\ base_parse_char b (List.concat parts) false = (b', Err (ErrNumeric f (base_title false)))
  /\ ~ In f (map dName (base_doc false)).
Proof. exact block_word_refuted. Qed.
Print Assumptions C89_block_word_refuted.
