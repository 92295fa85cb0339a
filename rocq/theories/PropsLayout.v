(* Properties C11, C12, C13, C20: positions, lengths and order of the written text *)
From Coq Require Import ZArith NArith Bool Ascii String List Lia Permutation.
Import ListNotations.
From Verif Require Import GoBase GoTime Tables Codec Records
  SpecCodec SpecLayouts SpecRecords RecordFacts RoundTrip Layout Check Samples.
Local Open Scope string_scope.
Local Open Scope Z_scope.
Local Open Scope list_scope.
Local Notation length := List.length.

(* C11: the text is the documented fields one after the other, each of its
   documented width; values need not fit (record_sized only asks for ASCII text
   and 4-digit years) *)
Theorem C11_segment : forall s, seg_sized s ->
  body_laid_out (seg_doc (sKind s)) (sFields s) (seg_string s).
Proof. exact (fun s H => proj1 (seg_laid_out s H)). Qed.
Print Assumptions C11_segment.

Theorem C11_header : forall packed h, has_type header_struct h -> record_sized h ->
  exists pre body pad, header_string packed h = pre ++ body ++ pad /\ blanks pad
    /\ bdw_laid_out packed h pre /\ body_laid_out (header_doc packed) h body.
Proof. exact header_laid_out. Qed.
Print Assumptions C11_header.

Theorem C11_trailer : forall packed t, has_type trailer_struct t -> record_sized t ->
  exists body pad, trailer_string packed t = body ++ pad /\ blanks pad
    /\ body_laid_out (trailer_doc packed) t body.
Proof. exact trailer_layout_text. Qed.
Print Assumptions C11_trailer.

Theorem C11_base : forall (packed : bool) b, base_sized b ->
  exists pre body segs pad,
    (if packed then base_string_packed b else base_string_char b) = pre ++ body ++ List.concat segs ++ pad
    /\ blanks pad
    /\ bdw_laid_out packed (bFields b) pre /\ body_laid_out (base_doc packed) (bFields b) body
    /\ Forall2 (fun s t => body_laid_out (seg_doc (sKind s)) (sFields s) t /\ length t = seg_size (sKind s))
         (segments_of b) segs.
Proof. exact base_laid_out. Qed.
Print Assumptions C11_base.

(* records whose values do not all fit: a balance above nine digits, a long name,
   a time of day in a date field *)
Definition odd_base : base :=
  let b := sample_base 0 2000 in
  mkBase (set_field "CurrentBalance" (VInt 12345678901)
         (set_field "Surname" (VStr (lit "A surname of more than twenty-five characters  "))
         (set_field "DateOpened" (VTime (mkTime 2020 2 29 23 59 58 999 (Some 3600))) (bFields b))))
    (bJ1 b) (bJ2 b) (bK1 b) (bK2 b) (bK3 b) (bK4 b) (bL1 b) (bN1 b).

Example C11_case : base_sized odd_base /\ base_sized (sample_base 1208 1204)
  /\ (forall k, seg_sized (sample_segment k))
  /\ has_type header_struct (sample_header 370 366) /\ record_sized (sample_header 370 366)
  /\ has_type trailer_struct (sample_trailer 426) /\ record_sized (sample_trailer 426).
Proof.
  split; [apply base_sizedb_ok; vm_compute; reflexivity|].
  split; [apply base_sizedb_ok; vm_compute; reflexivity|].
  split; [intros k; apply seg_sizedb_ok; destruct k; vm_compute; reflexivity|].
  split; [reflexivity|]. split; [apply record_sizedb_ok; vm_compute; reflexivity|].
  split; [reflexivity|]. apply record_sizedb_ok; vm_compute; reflexivity.
Qed.

(* C12: exact lengths *)
Theorem C12_segment : forall s, seg_sized s -> length (seg_string s) = seg_size (sKind s).
Proof. exact (fun s H => proj2 (seg_laid_out s H)). Qed.
Print Assumptions C12_segment.

Theorem C12_header : forall packed h bdw rdw n t, has_type header_struct h -> record_sized h ->
  holds h "BlockDescriptorWord" (VInt bdw) -> holds h "RecordDescriptorWord" (VInt rdw) ->
  bdw_size bdw n -> pad_target (if bdw =? 0 then rdw else bdw) t ->
  Z.of_nat (length (header_string packed h)) = Z.max (n + Z.of_nat (record_size packed)) t.
Proof. exact header_length. Qed.
Print Assumptions C12_header.

Theorem C12_trailer : forall packed h rdw t, has_type trailer_struct h -> record_sized h ->
  holds h "RecordDescriptorWord" (VInt rdw) -> pad_target rdw t ->
  Z.of_nat (length (trailer_string packed h)) = Z.max (Z.of_nat (record_size packed)) t.
Proof. exact trailer_length. Qed.
Print Assumptions C12_trailer.

Theorem C12_base : forall (packed : bool) b bdw rdw n t,
  base_sized b -> base_bdw_is b bdw -> base_rdw_is b rdw ->
  bdw_size bdw n -> pad_target (if packed && (0 <? bdw) then rdw + 4 else rdw) t ->
  Z.of_nat (length (if packed then base_string_packed b else base_string_char b))
  = Z.max (n + base_size packed b) t.
Proof. exact base_length. Qed.
Print Assumptions C12_base.

Example C12_case : base_sized odd_base /\ base_bdw_is odd_base 0 /\ base_rdw_is odd_base 2000
  /\ bdw_size 0 0 /\ pad_target 2000 2000 /\ bdw_size 1208 4 /\ pad_target (1204 + 4) 1208
  /\ base_bdw_is (sample_base 1208 1204) 1208.
Proof.
  split; [apply base_sizedb_ok; vm_compute; reflexivity|].
  split; [apply holdsb_ok; vm_compute; reflexivity|].
  split; [apply holdsb_ok; vm_compute; reflexivity|].
  unfold bdw_size, pad_target. repeat (split; [lia|]). apply holdsb_ok; vm_compute; reflexivity.
Qed.

(* C13: whatever the descriptor words hold *)
Theorem C13_base : forall (packed : bool) b, base_sized b ->
  Z.of_nat (length (if packed then base_string_packed b else base_string_char b))
  <= Z.max (base_size packed b + 4) 65535.
Proof. exact base_bound. Qed.
Print Assumptions C13_base.

Theorem C13_header : forall packed h, has_type header_struct h -> record_sized h ->
  (length (header_string packed h) <= Z.to_nat 65535)%nat.
Proof. exact header_bound. Qed.
Print Assumptions C13_header.

Theorem C13_trailer : forall packed h, has_type trailer_struct h -> record_sized h ->
  (length (trailer_string packed h) <= Z.to_nat 65535)%nat.
Proof. exact trailer_bound. Qed.
Print Assumptions C13_trailer.

Example C13_case : base_sized (sample_base (2 ^ 62) (2 ^ 63 - 1))
  /\ has_type header_struct (sample_header (- 2 ^ 63) (2 ^ 63 - 1))
  /\ record_sized (sample_header (- 2 ^ 63) (2 ^ 63 - 1)).
Proof.
  split; [apply base_sizedb_ok; vm_compute; reflexivity|]. split; [reflexivity|].
  apply record_sizedb_ok; vm_compute; reflexivity.
Qed.

(* C20: l' is the layout in the order of some iteration over the map, p what any
   correct sort by (start, name) makes of it *)
Theorem C20_map_order : forall l l' p st,
  In l ([base_layout false; base_layout true; header_layout false; header_layout true;
         trailer_layout false; trailer_layout true] ++ map seg_layout all_kinds) ->
  Permutation l l' -> Permutation l' p -> sorted_specs p ->
  flat_map (fun e => to_string (snd e) (lookup (fst e) st)) p = write_fields l st.
Proof. exact write_order_irrelevant_all. Qed.
Print Assumptions C20_map_order.

Example C20_case : Permutation (seg_layout K1) (rev (seg_layout K1))
  /\ Permutation (rev (seg_layout K1)) (to_specifications (rev (seg_layout K1)))
  /\ sorted_specs (to_specifications (rev (seg_layout K1))) /\ length (seg_layout K1) = 3%nat.
Proof.
  split; [apply Permutation_rev|]. split; [apply to_specifications_perm|].
  split; [|reflexivity]. apply to_specifications_sorted. apply nodupb_NoDup. reflexivity.
Qed.
