(* Specification: what the text of a field stands for, what is said of a text that
   stands for nothing, and the outcome of reading records, field by field *)
From Coq Require Import ZArith NArith Bool Ascii String List.
Import ListNotations.
From Verif Require Import GoBase GoTime Tables Codec Records SpecCodec SpecLayouts SpecRecords SpecReport.
Local Open Scope string_scope.
Local Open Scope Z_scope.
Local Open Scope list_scope.
Local Notation length := List.length.

(* ---- single fields ---- *)

(* digits, with a sign or without *)
Definition signed_text (w : bytes) (z : Z) : Prop :=
  exists ds, ds <> [] /\ Forall (fun c => In c digits) ds
    /\ ((w = ds \/ w = "+"%char :: ds) /\ z = decimal ds \/ w = "-"%char :: ds /\ z = - decimal ds).

(* MMDDYYYY and MMDDYYYYHHMMSS *)
Definition date_text (w : bytes) (t : time) : Prop :=
  plain_date t /\ exists m d y, w = m ++ d ++ y
    /\ decimal_text 2 (tMonth t) m /\ decimal_text 2 (tDay t) d /\ decimal_text 4 (tYear t) y.
Definition stamp_text (w : bytes) (t : time) : Prop :=
  plain_stamp t /\ exists m d y h mi s, w = m ++ d ++ y ++ h ++ mi ++ s
    /\ decimal_text 2 (tMonth t) m /\ decimal_text 2 (tDay t) d /\ decimal_text 4 (tYear t) y
    /\ decimal_text 2 (tHour t) h /\ decimal_text 2 (tMin t) mi /\ decimal_text 2 (tSec t) s.

(* bytes between 0x00 and 0x73 *)
Definition marked (b : bytes) : bytes := ascii_of_N 0 :: b ++ [ascii_of_N 115].

(* a binary date: what is not marked, and the number zero, stand for no date *)
Definition binary_date (w : bytes) (t : time) (number : Z) (is_plain : Prop) : Prop :=
  t = no_date /\ (~ (exists b, w = marked b) \/ exists b, w = marked b /\ binary b = 0)
  \/ is_plain /\ exists b, w = marked b /\ binary b = number.

(* the text w of the field d stands for the value v *)
Definition stands_for (d : doc_field) (w : bytes) (v : value) : Prop :=
  match dKind d, v with
  | FNumber, VInt z => signed_text w z /\ (dMust d = true -> z <> 0)
  | FText, VStr s =>
      Forall (fun c => In c text_chars) w /\ (exists n, w = s ++ repeat " "%char n) /\ (forall r, s <> r ++ [" "%char])
  | FDate, VTime t => (t = no_date /\ dMust d = false /\ w = repeat "0"%char 8) \/ date_text w t
  | FStamp, VTime t => (t = no_date /\ dMust d = false /\ w = repeat "0"%char 14) \/ stamp_text w t
  | FWord, VInt z => exists a r, w = a ++ r /\ length a = 2%nat /\ z = binary a
  | FBinary, VInt z => z = binary w
  | FBinDate, VTime t => binary_date w t (tMonth t * 10^6 + tDay t * 10^4 + tYear t) (plain_date t)
  | FBinStamp, VTime t => binary_date w t
      (tMonth t * 10^12 + tDay t * 10^10 + tYear t * 10^6 + tHour t * 10^4 + tMin t * 100 + tSec t) (plain_stamp t)
  | _, _ => False
  end.

Definition readable (d : doc_field) (w : bytes) : Prop :=
  dKind d = FReserved \/ exists v, stands_for d w v.

(* digits of base sixteen *)
Definition hex_digits : bytes := list_ascii_of_string "0123456789abcdefABCDEF".

(* the text is one character over and over: 0, 9 or a blank *)
Definition blanked (w : bytes) : Prop :=
  exists c, In c (list_ascii_of_string "09 ") /\ w = repeat c (length w).

(* what is said about a text that stands for nothing: of numbers that must be present
   always, of dates that must be present if they are blanked, that they are missing; of
   other numbers without any digit of base sixteen that they are no numbers; of text
   that it is no text.  The remaining errors do not name the field. *)
Definition complaint (title : string) (d : doc_field) (w : bytes) (e : error) : Prop :=
  match dKind d with
  | FNumber =>
      if dMust d then e = ErrFieldRequired (dName d) title
      else (Forall (fun c => ~ In c hex_digits) w /\ e = ErrNumeric (dName d) title)
           \/ (Exists (fun c => In c hex_digits) w /\ e = ErrSyntax)
  | FText => e = ErrNonAlphanumeric (dName d) title
  | FDate | FStamp =>
      (dMust d = true /\ blanked w /\ e = ErrFieldRequired (dName d) title)
      \/ (~ (dMust d = true /\ blanked w) /\ e = ErrTimeParse)
  | FBinDate | FBinStamp => e = ErrTimeParse
  | _ => False
  end.

(* ---- fields one after the other ---- *)

(* the parts of the text, one for each field *)
Definition cut (doc : list doc_field) (parts : list bytes) : Prop :=
  Forall2 (fun d p => length p = dWidth d) doc parts.

Definition all_readable (doc : list doc_field) (parts : list bytes) : Prop := Forall2 readable doc parts.

(* the field holds what its text stands for *)
Definition filled_in (st : fields) (d : doc_field) (w : bytes) : Prop :=
  dKind d = FReserved \/ exists v, stands_for d w v /\ holds st (dName d) v.

(* fields that are not in the list keep their values *)
Definition kept (st st' : fields) (l : list string) : Prop :=
  forall n v, ~ In n l -> (holds st n v <-> holds st' n v).

(* st with the values of all the parts is st' *)
Definition read_whole (doc : list doc_field) (parts : list bytes) (st st' : fields) : Prop :=
  Forall2 (filled_in st') doc parts /\ kept st st' (map dName doc).

(* reading ends at the first part that stands for nothing *)
Definition read_until (title : string) (doc : list doc_field) (parts : list bytes) (st st' : fields) (e : error) : Prop :=
  exists d1 d d2 p1 p p2, doc = d1 ++ d :: d2 /\ parts = p1 ++ p :: p2
    /\ Forall2 (filled_in st') d1 p1 /\ kept st st' (map dName d1)
    /\ ~ readable d p /\ complaint title d p e.

(* the block descriptor word in front of a record *)
Definition block_word (packed : bool) : doc_field :=
  Doc "BlockDescriptorWord" 4 (if packed then FWord else FNumber) false.

(* records without block descriptor word: the first four bytes are read twice, first
   as the block descriptor word that is not there *)
Definition read_until_fixed (title : string) (doc : list doc_field) (parts : list bytes) (st st' : fields) (e : error) : Prop :=
  exists w, hd_error parts = Some w /\
    (~ readable (block_word false) w /\ st' = st /\ complaint title (block_word false) w e
     \/ readable (block_word false) w /\ read_until title doc parts st st' e).

(* ---- appended segments ---- *)

(* t begins with the segments ss, taking n bytes; they are followed by none, or by one
   that is too short, unreadable or invalid *)
Inductive segs_read : bytes -> list segment -> nat -> option error -> Prop :=
| segs_none t : no_segment t -> segs_read t [] 0 None
| segs_short k t : (2 < length t < seg_size k)%nat -> firstn 2 t = seg_mark k ->
    segs_read t [] 0 (Some (ErrSegmentLength (seg_title k)))
| segs_unreadable k parts rest st e : cut (seg_doc k) parts ->
    firstn 2 (List.concat parts) = seg_mark k ->
    read_until (seg_title k) (seg_doc k) parts (sFields (new_segment k)) st e ->
    segs_read (List.concat parts ++ rest) [] 0 (Some e)
| segs_invalid k parts rest st e : cut (seg_doc k) parts ->
    firstn 2 (List.concat parts) = seg_mark k ->
    seg_typed (mkSegment k st) -> read_whole (seg_doc k) parts (sFields (new_segment k)) st ->
    seg_validate (mkSegment k st) = Some e ->
    segs_read (List.concat parts ++ rest) [] 0 (Some e)
| segs_next k parts rest st ss n r : cut (seg_doc k) parts ->
    firstn 2 (List.concat parts) = seg_mark k ->
    seg_typed (mkSegment k st) -> read_whole (seg_doc k) parts (sFields (new_segment k)) st ->
    seg_validate (mkSegment k st) = None ->
    segs_read rest ss n r ->
    segs_read (List.concat parts ++ rest) (mkSegment k st :: ss) (seg_size k + n) r.

(* the error speaks of the field, and calls the record by its title *)
Definition speaks_of (d : doc_field) (title : string) (e : error) : Prop :=
  match e with
  | ErrFieldRequired f r | ErrInvalidValueOfField f r | ErrNonAlphanumeric f r | ErrUpperAlpha f r
  | ErrNumeric f r => names f (dName d) /\ r = title
  | _ => False
  end.

(* ---- base segments ---- *)

Definition kind_dec (j k : segkind) : {j = k} + {j <> k}.
Proof. decide equality. Defined.

Definition of_kind (k : segkind) (ss : list segment) : list segment :=
  filter (fun s => if kind_dec (sKind s) k then true else false) ss.

(* the last one of the kind; the one there was if there is none *)
Definition latest (k : segkind) (ss : list segment) (old : option segment) : option segment :=
  match rev (of_kind k ss) with s :: _ => Some s | [] => old end.

(* the base b with the segments ss read into it has the segments of b' *)
Definition attached (b b' : base) (ss : list segment) : Prop :=
  bJ1 b' = of_kind J1 ss /\ bJ2 b' = of_kind J2 ss
  /\ bK1 b' = latest K1 ss (bK1 b) /\ bK2 b' = latest K2 ss (bK2 b) /\ bK3 b' = latest K3 ss (bK3 b)
  /\ bK4 b' = latest K4 ss (bK4 b) /\ bL1 b' = latest L1 ss (bL1 b) /\ bN1 b' = latest N1 ss (bN1 b).

(* the result: the size that the record gives itself, unless more was read *)
Definition ended (block : Z) (size : nat) (r : option error) : res Z :=
  match r with
  | Some e => Err e
  | None => if block <? Z.of_nat size then Err ErrFailedParsing else Ok block
  end.
