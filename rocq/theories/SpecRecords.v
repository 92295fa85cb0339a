(* Specification: well-formed segments and records. *)
From Coq Require Import ZArith NArith Bool Ascii String List.
Import ListNotations.
From Verif Require Import GoBase GoTime Tables Codec Records SpecCodec SpecLayouts.
Local Open Scope string_scope.
Local Open Scope Z_scope.
Local Open Scope list_scope.
Local Notation length := List.length.

(* ---- appended segments ---- *)

Definition seg_doc (k : segkind) : list doc_field :=
  match k with
  | J1 => j1_doc | J2 => j2_doc | K1 => k1_doc | K2 => k2_doc
  | K3 => k3_doc | K4 => k4_doc | L1 => l1_doc | N1 => n1_doc
  end.

(* documented sizes in bytes *)
Definition seg_size (k : segkind) : nat :=
  match k with
  | J1 => 100 | J2 => 200 | K1 => 34 | K2 => 34
  | K3 => 40 | K4 => 30 | L1 => 54 | N1 => 146
  end.

(* the two letters that introduce the segment *)
Definition seg_mark (k : segkind) : bytes :=
  match k with
  | J1 => ["J"; "1"]%char | J2 => ["J"; "2"]%char | K1 => ["K"; "1"]%char | K2 => ["K"; "2"]%char
  | K3 => ["K"; "3"]%char | K4 => ["K"; "4"]%char | L1 => ["L"; "1"]%char | N1 => ["N"; "1"]%char
  end.

(* a value of the Go struct type of the segment kind *)
Definition seg_typed (s : segment) : Prop := has_type (seg_struct (sKind s)) (sFields s).

(* ... whose values fit *)
Definition seg_fits (s : segment) : Prop :=
  seg_typed s /\ record_fits (seg_doc (sKind s)) (sFields s).

(* ... which is introduced by its mark and valid *)
Definition seg_good (s : segment) : Prop :=
  seg_fits s /\ holds (sFields s) "SegmentIdentifier" (VStr (seg_mark (sKind s)))
  /\ seg_validate s = None.

Fixpoint segs_size (l : list segment) : nat :=
  match l with [] => 0 | s :: l' => seg_size (sKind s) + segs_size l' end.

(* the bytes do not look like a further segment *)
Definition no_segment (rest : bytes) : Prop :=
  (length rest <= 2)%nat \/ (forall k, firstn 2 rest <> seg_mark k).

(* ---- base segments ---- *)

Definition base_doc (packed : bool) : list doc_field :=
  if packed then base_packed_doc else base_char_doc.
Definition header_doc (packed : bool) : list doc_field :=
  if packed then header_packed_doc else header_char_doc.
Definition trailer_doc (packed : bool) : list doc_field :=
  if packed then trailer_packed_doc else trailer_char_doc.
Definition record_size (packed : bool) : nat := if packed then 366 else 426.

(* the segments held by a base segment, in the order of the format, each in the
   place for its kind (what AddApplicableSegment guarantees, see C54) *)
Definition segs_placed (b : base) : Prop :=
  Forall (fun s => sKind s = J1) (bJ1 b) /\ Forall (fun s => sKind s = J2) (bJ2 b) /\
  (forall s, bK1 b = Some s -> sKind s = K1) /\ (forall s, bK2 b = Some s -> sKind s = K2) /\
  (forall s, bK3 b = Some s -> sKind s = K3) /\ (forall s, bK4 b = Some s -> sKind s = K4) /\
  (forall s, bL1 b = Some s -> sKind s = L1) /\ (forall s, bN1 b = Some s -> sKind s = N1).

Definition opt_to_list {A} (o : option A) : list A := match o with Some a => [a] | None => [] end.

Definition segments_of (b : base) : list segment :=
  bJ1 b ++ bJ2 b ++ opt_to_list (bK1 b) ++ opt_to_list (bK2 b) ++ opt_to_list (bK3 b)
  ++ opt_to_list (bK4 b) ++ opt_to_list (bL1 b) ++ opt_to_list (bN1 b).

Definition base_typed (b : base) : Prop := has_type base_struct (bFields b) /\ segs_placed b.

(* values fit, segments fit and are valid *)
Definition base_fits (packed : bool) (b : base) : Prop :=
  base_typed b /\ record_fits (base_doc packed) (bFields b) /\ Forall seg_good (segments_of b).

Definition base_bdw_is (b : base) (z : Z) : Prop := holds (bFields b) "BlockDescriptorWord" (VInt z).
Definition base_rdw_is (b : base) (z : Z) : Prop := holds (bFields b) "RecordDescriptorWord" (VInt z).

(* size of the record body and its segments *)
Definition base_size (packed : bool) (b : base) : Z :=
  Z.of_nat (record_size packed + segs_size (segments_of b)).

(* ---- headers and trailers ---- *)

Definition header_fits (packed : bool) (h : fields) : Prop :=
  has_type header_struct h /\ record_fits (header_doc packed) h.
Definition trailer_fits (packed : bool) (t : fields) : Prop :=
  has_type trailer_struct t /\ record_fits (trailer_doc packed) t.

(* ---- layout of the whole text ---- *)

(* the optional block descriptor word in front of a base segment or header *)
Definition bdw_laid_out (packed : bool) (st : fields) (pre : bytes) : Prop :=
  exists z, holds st "BlockDescriptorWord" (VInt z)
    /\ (z = 0 -> pre = [])
    /\ (z <> 0 -> field_laid_out st
          (Doc "BlockDescriptorWord" 4 (if packed then FWord else FNumber) false) pre).

Definition blanks (s : bytes) : Prop := exists n, s = repeat " "%char n.

Definition seg_sized (s : segment) : Prop := seg_typed s /\ record_sized (sFields s).
Definition base_sized (b : base) : Prop :=
  base_typed b /\ record_sized (bFields b) /\ Forall seg_sized (segments_of b).

(* descriptor words above 65535 and non-positive ones ask for no padding *)
Definition pad_target (z : Z) (t : Z) : Prop :=
  (0 < z <= 65535 /\ t = z) \/ (~ 0 < z <= 65535 /\ t = 0).

(* bytes taken by the block descriptor word *)
Definition bdw_size (z : Z) (n : Z) : Prop := (z = 0 /\ n = 0) \/ (z <> 0 /\ n = 4).

(* ---- what reading may produce ---- *)

(* a segment read from the text p *)
Definition seg_read_from (s : segment) (p : bytes) : Prop :=
  length p = seg_size (sKind s) /\ firstn 2 p = seg_mark (sKind s)
  /\ seg_typed s /\ record_reads (seg_doc (sKind s)) (sFields s)
  /\ holds (sFields s) "SegmentIdentifier" (VStr (seg_mark (sKind s)))
  /\ seg_validate s = None.

(* a base segment that reading may produce *)
Definition base_reads (packed : bool) (b : base) : Prop :=
  base_typed b /\ record_reads (base_doc packed) (bFields b)
  /\ Forall (fun s => exists p, seg_read_from s p) (segments_of b).

(* no number is negative and no date that must be present is missing *)
Definition settled (doc : list doc_field) (st : fields) : Prop :=
  forall d v, In d doc -> holds st (dName d) v ->
  match v with
  | VInt z => 0 <= z
  | VTime t => dMust d = true -> dKind d = FDate \/ dKind d = FStamp -> t <> no_date
  | VStr _ => True
  end.

Definition seg_settled (s : segment) : Prop := settled (seg_doc (sKind s)) (sFields s).
Definition base_settled (packed : bool) (b : base) : Prop :=
  settled (base_doc packed) (bFields b) /\ Forall seg_settled (segments_of b).

(* segments in the order of the format, at most one of the kinds K1 to N1 *)
Definition in_order (ks : list segkind) : Prop :=
  exists n1 n2 rest, ks = repeat J1 n1 ++ repeat J2 n2 ++ rest
    /\ exists keep : segkind -> bool, rest = filter keep [K1; K2; K3; K4; L1; N1].

(* texts of segments of these kinds, as they would be written *)
Definition segs_text (ks : list segkind) (parts : list bytes) : Prop :=
  Forall2 (fun k p => firstn 2 p = seg_mark k /\ canonical_body (seg_doc k) p) ks parts.

(* ---- appended segments in any order ---- *)

(* the fields of the record without appended segments *)
Definition fields_fit (packed : bool) (b : base) : Prop :=
  has_type base_struct (bFields b) /\ record_fits (base_doc packed) (bFields b).

Definition kind_eq_dec (a b : segkind) : {a = b} + {a <> b}.
Proof. decide equality. Defined.

(* those of one kind, in order *)
Definition of_kind (k : segkind) (l : list segment) : list segment :=
  filter (fun s => if kind_eq_dec (sKind s) k then true else false) l.

Definition last_of {A} (l : list A) : option A := hd_error (rev l).

(* the record holds these fields and these segments: all J1 and J2 in order, the
   last one of the other kinds *)
Definition grouped (st : fields) (segs : list segment) (b : base) : Prop :=
  bFields b = st /\ bJ1 b = of_kind J1 segs /\ bJ2 b = of_kind J2 segs
  /\ bK1 b = last_of (of_kind K1 segs) /\ bK2 b = last_of (of_kind K2 segs)
  /\ bK3 b = last_of (of_kind K3 segs) /\ bK4 b = last_of (of_kind K4 segs)
  /\ bL1 b = last_of (of_kind L1 segs) /\ bN1 b = last_of (of_kind N1 segs).
