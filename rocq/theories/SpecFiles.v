(* Specification: files that can be written and read back *)
From Coq Require Import ZArith NArith Bool Ascii String List.
Import ListNotations.
From Verif Require Import GoBase GoTime Tables Codec Records File SpecCodec SpecLayouts SpecRecords.
Local Open Scope string_scope.
Local Open Scope Z_scope.
Local Open Scope list_scope.
Local Notation length := List.length.

(* ---- the three kinds of files ---- *)

Inductive blocking := FixedFile | VariableFile | PackedFile.

Definition packed_of (k : blocking) : bool := match k with PackedFile => true | _ => false end.

(* records start with a block descriptor word *)
Definition blocked (k : blocking) : bool := match k with FixedFile => false | _ => true end.

(* a header that fits and whose descriptor words agree with its text *)
Definition header_in (k : blocking) (h : fields) : Prop :=
  header_fits (packed_of k) h /\
  exists bdw rdw, holds h "BlockDescriptorWord" (VInt bdw) /\ holds h "RecordDescriptorWord" (VInt rdw) /\
  match k with
  | FixedFile => bdw = 0 /\ 426 <= rdw
  | VariableFile => 430 <= bdw < 10000
  | PackedFile => 370 <= bdw < 65536 /\
      exists id, holds h "RecordIdentifier" (VStr id) /\ to_upper id = lit "HEADER"
  end.

(* a data record that fits and whose descriptor words agree with its text.
   BaseSegment.String pads up to the record descriptor word, not counting the
   block descriptor word (see C58) *)
Definition base_in (k : blocking) (b : base) : Prop :=
  base_fits (packed_of k) b /\
  exists bdw rdw, base_bdw_is b bdw /\ base_rdw_is b rdw /\
  match k with
  | FixedFile => bdw = 0 /\ base_size false b <= rdw
  | VariableFile => bdw = Z.max (base_size false b + 4) rdw /\ bdw < 10000
  | PackedFile => bdw = Z.max (base_size true b + 4) (rdw + 4) /\ bdw < 65536
  end.

Definition trailer_in (k : blocking) (t : fields) : Prop :=
  trailer_fits (packed_of k) t /\ holds t "RecordIdentifier" (VStr (lit "TRAILER")) /\
  exists rdw, holds t "RecordDescriptorWord" (VInt rdw) /\ Z.of_nat (record_size (packed_of k)) <= rdw.

(* a binary descriptor word that reads like the mark of a segment *)
Definition spells_mark (z : Z) : Prop := exists k, z = binary (seg_mark k).

(* the descriptor word that follows *)
Definition word_after (l : list base) (t : fields) (z : Z) : Prop :=
  match l with
  | [] => holds t "RecordDescriptorWord" (VInt z)
  | b :: _ => base_bdw_is b z
  end.

(* a packed data record without padding is not followed by a word that reads
   like the mark of a segment *)
Definition separated (bases : list base) (t : fields) : Prop :=
  forall l1 b l2 z, bases = l1 ++ b :: l2 ->
  (exists rdw, base_rdw_is b rdw /\ base_size true b < rdw) \/ (word_after l2 t z -> ~ spells_mark z).

Definition no_breaks (s : bytes) : Prop := ~ In cr_char s /\ ~ In lf_char s.

(* no string of the record holds a line break *)
Definition breakless (st : fields) : Prop := forall n s, holds st n (VStr s) -> no_breaks s.

Definition record_breakless (r : record) : Prop :=
  match r with
  | RHeader _ h => breakless h
  | RBase _ b => breakless (bFields b) /\ Forall (fun s => breakless (sFields s)) (segments_of b)
  | RTrailer _ t => breakless t
  end.

(* a record of the character format *)
Definition char_record (r : record) : Prop :=
  match r with RHeader p _ | RBase p _ | RTrailer p _ => p = false end.

Definition file_breakless (f : file) : Prop :=
  record_breakless (flHeader f) /\ Forall record_breakless (flBases f) /\ record_breakless (flTrailer f).

(* a file made of these records *)
Definition file_of (k : blocking) (h : fields) (bases : list base) (t : fields) : file :=
  mkFile (packed_of k) (RHeader (packed_of k) h) (map (RBase (packed_of k)) bases)
    (RTrailer (packed_of k) t).

Definition file_in (k : blocking) (f : file) : Prop :=
  exists h bases t, f = file_of k h bases t
    /\ header_in k h /\ Forall (base_in k) bases /\ trailer_in k t
    /\ match k with
       | PackedFile => separated bases t
           /\ no_breaks (record_string (flHeader f)) /\ no_breaks (record_string (flTrailer f))
           /\ Forall (fun r => no_breaks (record_string r)) (flBases f)
       | _ => True
       end.

(* ---- the text of a file ---- *)

(* header, data records and trailer; a line break after each but the last *)
Definition line_break (isNewLine : bool) : bytes := if isNewLine then [lf_char] else [].

Definition file_text (isNewLine : bool) (f : file) : bytes :=
  record_string (flHeader f) ++ line_break isNewLine
  ++ List.concat (map (fun r => record_string r ++ line_break isNewLine) (flBases f))
  ++ record_string (flTrailer f).

(* the first four bytes of a record *)
Definition begins_with_word (packed : bool) (z : Z) (s : bytes) : Prop :=
  exists w rest must, s = w ++ rest /\ length w = 4%nat
    /\ written (Doc "RecordDescriptorWord" 4 (if packed then FWord else FNumber) must) (VInt z) w.

(* s' is s with line breaks put in *)
Inductive broken_up : bytes -> bytes -> Prop :=
| broken_nil : broken_up [] []
| broken_byte : forall c s s', broken_up s s' -> broken_up (c :: s) (c :: s')
| broken_break : forall c s s', c = cr_char \/ c = lf_char -> broken_up s s' -> broken_up s (c :: s').

(* s' is s with all line breaks taken out *)
Inductive unbroken : bytes -> bytes -> Prop :=
| unbroken_nil : unbroken [] []
| unbroken_byte : forall c s s', c <> cr_char -> c <> lf_char -> unbroken s s' -> unbroken (c :: s) (c :: s')
| unbroken_break : forall c s s', c = cr_char \/ c = lf_char -> unbroken s s' -> unbroken (c :: s) s'.

(* ---- the length a record announces ---- *)

(* the block descriptor word if there is one, else the record descriptor word *)
Definition announces (r : record) (n : Z) : Prop :=
  match r with
  | RHeader _ st | RBase _ (mkBase st _ _ _ _ _ _ _ _) =>
      exists bdw rdw, holds st "BlockDescriptorWord" (VInt bdw)
        /\ holds st "RecordDescriptorWord" (VInt rdw)
        /\ (0 < bdw -> n = bdw) /\ (bdw <= 0 -> n = rdw)
  | RTrailer _ st => holds st "RecordDescriptorWord" (VInt n)
  end.

Definition total (l : list Z) : Z := fold_right Z.add 0 l.

(* the block descriptor word a file's header holds *)
Definition header_block (f : file) (z : Z) : Prop :=
  exists p h, flHeader f = RHeader p h /\ holds h "BlockDescriptorWord" (VInt z).
