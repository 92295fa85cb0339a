(* Specification: what the streaming reader should make of a stream of bytes *)
From Coq Require Import ZArith NArith Bool Ascii String List.
Import ListNotations.
From Verif Require Import GoBase GoTime Tables Codec Records File SpecCodec SpecLayouts SpecRecords
  SpecFiles Reader.
Local Open Scope string_scope.
Local Open Scope Z_scope.
Local Open Scope list_scope.
Local Notation length := List.length.

(* ---- the way an io.Reader delivers its bytes ---- *)

(* no stretch of more than 100 reads that deliver nothing and report nothing *)
Definition patient (evs : list read_event) : Prop :=
  forall a b c, evs = a ++ b ++ c -> length b = 101%nat -> exists e, In e b /\ evMax e <> 0%nat.

(* the number of reads that deliver something or report the end *)
Fixpoint useful (evs : list read_event) : nat :=
  match evs with
  | [] => 0
  | e :: evs' => ((if Nat.eqb (evMax e) 0 then 0 else 1) + useful evs')%nat
  end.

(* ---- the length announced by a descriptor word ---- *)

(* a word of four bytes that is a decimal number; a leading plus sign is allowed *)
Definition decimal_word (w : bytes) (n : Z) : Prop :=
  exists ds, (w = ds \/ w = "+"%char :: ds) /\ ds <> [] /\ Forall (fun c => In c digits) ds
    /\ decimal ds = n.

Definition negative_word (w : bytes) : Prop :=
  exists ds, w = "-"%char :: ds /\ ds <> [] /\ Forall (fun c => In c digits) ds.

(* a decimal number of at least 426, or else a binary number of at least 366 *)
Definition word_says (w : bytes) (n : Z) : Prop :=
  (decimal_word w n /\ 426 <= n)
  \/ ((forall m, ~ decimal_word w m) /\ ~ negative_word w
      /\ exists a b c d, w = [a; b; c; d] /\ n = 256 * code a + code b /\ 366 <= n).

(* a record as long as its first four bytes say *)
Definition sized_record (r : bytes) : Prop :=
  exists w rest, r = w ++ rest /\ length w = 4%nat /\ word_says w (Z.of_nat (length r)).

(* [raw] is the record [r] with line breaks put in before its end *)
Definition raw_record (raw r : bytes) : Prop :=
  unbroken raw r /\ exists raw' c, raw = raw' ++ [c] /\ c <> cr_char /\ c <> lf_char.

(* ---- the buffer of the scanner is large enough ---- *)

Definition scanner_limit : Z := 65536.

(* What is left fits the buffer of the scanner, or it starts with a record that
   does, line breaks included, or with a word that announces no length *)
Inductive within_buffer : bytes -> Prop :=
| within_end : forall s, Z.of_nat (length s) <= scanner_limit -> within_buffer s
| within_record : forall raw rest r, raw_record raw r -> sized_record r ->
    Z.of_nat (length raw) <= scanner_limit -> within_buffer rest -> within_buffer (raw ++ rest)
| within_bad : forall raw rest w, unbroken raw w -> length w = 4%nat ->
    (forall n, ~ word_says w n) -> Z.of_nat (length raw) <= scanner_limit -> within_buffer (raw ++ rest).

(* ---- the identifier that marks a Metro 2 file ---- *)

Definition marked (f : file) : Prop :=
  exists p h, flHeader f = RHeader p h /\ holds h "RecordIdentifier" (VStr (lit "HEADER")).

(* a file that can be written and streamed back; unlike file_in nothing is asked of
   neighbouring records, since each record is cut off before it is read *)
Definition file_streams (k : blocking) (f : file) : Prop :=
  exists h bases t, f = file_of k h bases t
    /\ header_in k h /\ Forall (base_in k) bases /\ trailer_in k t /\ marked f
    /\ match k with
       | PackedFile => no_breaks (record_string (flHeader f)) /\ no_breaks (record_string (flTrailer f))
           /\ Forall (fun r => no_breaks (record_string r)) (flBases f)
       | _ => True
       end.
