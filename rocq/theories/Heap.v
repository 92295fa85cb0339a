(* The file interface with pointers: lib.Record and lib.Segment values are pointers,
   and a data record keeps its J1 and J2 segments in Go slices *)
From Coq Require Import ZArith NArith Bool Ascii String List.
Import ListNotations.
From Verif Require Import GoBase GoTime Tables Codec Records File.
Local Open Scope string_scope.
Local Open Scope Z_scope.
Local Open Scope list_scope.
Local Notation length := List.length.

(* ---- memory ---- *)

(* []Segment, a part of an array of pointers: the array and the number of elements.
   Every slice of the code starts at the start of its array.  base_segment.go:501-508 *)
Inductive slice :=
| Nil
| Slice (array len : nat).

(* BaseSegment and PackedBaseSegment, base_segment.go:24-515: the exported
   fields, two slices and six pointers that may be nil *)
Record hbase := mkHBase {
  hbFields : fields;
  hbJ1 : slice;
  hbJ2 : slice;
  hbK1 : option nat;
  hbK2 : option nat;
  hbK3 : option nat;
  hbK4 : option nat;
  hbL1 : option nat;
  hbN1 : option nat }.

(* what a lib.Record points to, record.go:60-96 *)
Inductive hrecord :=
| HHeader (packed : bool) (st : fields)
| HBase (packed : bool) (b : hbase)
| HTrailer (packed : bool) (st : fields).

(* segments, arrays of segment pointers, records; a pointer is a position; record.go:8, segment.go:8 *)
Record heap := mkHeap {
  hSegments : list segment;
  hArrays : list (list nat);
  hRecords : list hrecord }.

(* fileInstance, file_instance.go:27-34; f.Bases is kept by value *)
Record hfile := mkHFile {
  hfPacked : bool;
  hfHeader : nat;
  hfBases : list nat;
  hfTrailer : nat }.

(* an assignment through a pointer or to an element of a slice, e.g. file_instance.go:124-132 *)
Fixpoint upd {A} (i : nat) (x : A) (l : list A) : list A :=
  match l, i with
  | [], _ => []
  | _ :: l', O => x :: l'
  | y :: l', S i' => y :: upd i' x l'
  end.

(* never reached: no pointer is nil where it is used; segment.go:8 *)
Definition no_seg : segment := mkSegment J1 [].
(* never reached: no pointer is nil where it is used; record.go:8 *)
Definition no_rec : hrecord := HHeader false [].

(* ---- what pointers stand for ---- *)

(* segment.go:8 *)
Definition seg_value (h : heap) (s : nat) : segment := nth s (hSegments h) no_seg.

(* base_segment.go:501-508 *)
Definition slice_refs (h : heap) (sl : slice) : list nat :=
  match sl with
  | Nil => []
  | Slice a n => firstn n (nth a (hArrays h) [])
  end.

(* base_segment.go:24-512 *)
Definition base_value (h : heap) (b : hbase) : base :=
  mkBase (hbFields b) (map (seg_value h) (slice_refs h (hbJ1 b))) (map (seg_value h) (slice_refs h (hbJ2 b)))
    (option_map (seg_value h) (hbK1 b)) (option_map (seg_value h) (hbK2 b)) (option_map (seg_value h) (hbK3 b))
    (option_map (seg_value h) (hbK4 b)) (option_map (seg_value h) (hbL1 b)) (option_map (seg_value h) (hbN1 b)).

(* record.go:8 *)
Definition cell_value (h : heap) (c : hrecord) : record :=
  match c with
  | HHeader p st => RHeader p st
  | HBase p b => RBase p (base_value h b)
  | HTrailer p st => RTrailer p st
  end.

(* record.go:8 *)
Definition cell (h : heap) (r : nat) : hrecord := nth r (hRecords h) no_rec.

(* record.go:8 *)
Definition record_value (h : heap) (r : nat) : record := cell_value h (cell h r).

(* file_instance.go:27-34 *)
Definition file_value (h : heap) (f : hfile) : file :=
  mkFile (hfPacked f) (record_value h (hfHeader f)) (map (record_value h) (hfBases f)) (record_value h (hfTrailer f)).

(* ---- allocation and assignment ---- *)

(* the & of segment.go:70-124 *)
Definition new_segment_at (h : heap) (s : segment) : heap * nat :=
  (mkHeap (hSegments h ++ [s]) (hArrays h) (hRecords h), length (hSegments h)).

(* the & of record.go:60-96 *)
Definition new_record_at (h : heap) (c : hrecord) : heap * nat :=
  (mkHeap (hSegments h) (hArrays h) (hRecords h ++ [c]), length (hRecords h)).

(* assignment through a *HeaderRecord, *BaseSegment or *TrailerRecord,
   e.g. header_record.go:112-127 *)
Definition set_cell (h : heap) (r : nat) (c : hrecord) : heap :=
  mkHeap (hSegments h) (hArrays h) (upd r c (hRecords h)).

(* assignment through a pointer to a segment, e.g. j1_segment.go:115-127 *)
Definition set_seg (h : heap) (s : nat) (x : segment) : heap :=
  mkHeap (upd s x (hSegments h)) (hArrays h) (hRecords h).

Section Spare.

(* the room an array has beyond its elements when append makes a new one that copies
   this many elements; the language leaves it open *)
Variable spare : nat -> nat.

(* append(sl, x): into the same array while there is room, else into a new one;
   base_segment.go:699 and 701, 1216 and 1218 *)
Definition slice_append (h : heap) (sl : slice) (x : nat) : heap * slice :=
  match sl with
  | Nil => (mkHeap (hSegments h) (hArrays h ++ [x :: repeat O (spare 0)]) (hRecords h), Slice (length (hArrays h)) 1)
  | Slice a n =>
      let arr := nth a (hArrays h) [] in
      if Nat.ltb n (length arr)
      then (mkHeap (hSegments h) (upd a (upd n x arr) (hArrays h)) (hRecords h), Slice a (S n))
      else (mkHeap (hSegments h) (hArrays h ++ [firstn n arr ++ x :: repeat O (spare n)]) (hRecords h),
            Slice (length (hArrays h)) (S n))
  end.

(* ---- AddApplicableSegment ---- *)

(* the switch of base_segment.go:697-714 and 1209-1226 *)
Definition h_put (h : heap) (k : segkind) (s : nat) (b : hbase) : heap * hbase :=
  let '(mkHBase st j1 j2 k1 k2 k3 k4 l1 n1) := b in
  match k with
  | J1 => let '(h', sl) := slice_append h j1 s in (h', mkHBase st sl j2 k1 k2 k3 k4 l1 n1)
  | J2 => let '(h', sl) := slice_append h j2 s in (h', mkHBase st j1 sl k1 k2 k3 k4 l1 n1)
  | K1 => (h, mkHBase st j1 j2 (Some s) k2 k3 k4 l1 n1)
  | K2 => (h, mkHBase st j1 j2 k1 (Some s) k3 k4 l1 n1)
  | K3 => (h, mkHBase st j1 j2 k1 k2 (Some s) k4 l1 n1)
  | K4 => (h, mkHBase st j1 j2 k1 k2 k3 (Some s) l1 n1)
  | L1 => (h, mkHBase st j1 j2 k1 k2 k3 k4 (Some s) n1)
  | N1 => (h, mkHBase st j1 j2 k1 k2 k3 k4 l1 (Some s))
  end.

(* base_segment.go:692-717 and 1209-1234; header_record.go:179,308; trailer_record.go:235,347 *)
Definition h_add_segment (h : heap) (r s : nat) : heap :=
  match cell h r with
  | HBase p b =>
      match seg_validate (seg_value h s) with
      | Some _ => h
      | None => let '(h', b') := h_put h (sKind (seg_value h s)) s b in set_cell h' r (HBase p b')
      end
  | _ => h
  end.

(* ---- the file ---- *)

(* file_instance.go:37-54 *)
Definition h_set_record (h : heap) (f : hfile) (r : nat) : hfile :=
  let v := record_value h r in
  match record_validate v with
  | Some _ => f
  | None =>
      if (hfPacked f && String.eqb (record_name v) "headerPacked")
         || (negb (hfPacked f) && String.eqb (record_name v) "header")
      then mkHFile (hfPacked f) r (hfBases f) (hfTrailer f)
      else if (hfPacked f && String.eqb (record_name v) "trailerPacked")
         || (negb (hfPacked f) && String.eqb (record_name v) "trailer")
      then mkHFile (hfPacked f) (hfHeader f) (hfBases f) r
      else f
  end.

(* file_instance.go:57-72 *)
Definition h_add_data_record (h : heap) (f : hfile) (r : nat) : hfile :=
  let v := record_value h r in
  match record_validate v with
  | Some _ => f
  | None =>
      if (hfPacked f && String.eqb (record_name v) "basePacked")
         || (negb (hfPacked f) && String.eqb (record_name v) "base")
      then mkHFile (hfPacked f) (hfHeader f) (hfBases f ++ [r]) (hfTrailer f)
      else f
  end.

(* GeneratorTrailer, file_instance.go:92-135: a new record *)
Definition h_generate (h : heap) (f : hfile) : option (heap * nat) :=
  match file_generate_trailer (file_value h f) with
  | Ok (RTrailer p st) => Some (new_record_at h (HTrailer p st))
  | _ => None
  end.

(* the loops of SetType, file_instance.go:431-440 and 464-473: copies of the structs, so
   of their slices and pointers, not of what these point to *)
Fixpoint h_convert_bases (packed : bool) (h : heap) (l : list nat) : heap * option (list nat) :=
  match l with
  | [] => (h, Some [])
  | r :: l' =>
      match cell h r with
      | HBase p b =>
          if Bool.eqb p (negb packed) then
            let '(h1, n) := new_record_at h (HBase packed b) in
            match h_convert_bases packed h1 l' with
            | (h2, Some l2) => (h2, Some (n :: l2))
            | (h2, None) => (h2, None)
            end
          else (h, None)
      | _ => (h, None)
      end
  end.

(* file_instance.go:411-488 *)
Definition h_set_type (h : heap) (f : hfile) (newType : bytes) : heap * hfile :=
  if negb (bytes_eqb newType (lit "character")) && negb (bytes_eqb newType (lit "packed"))
  then (h, f)
  else if bytes_eqb (format_name (hfPacked f)) newType then (h, f)
  else
    let p := bytes_eqb newType (lit "packed") in
    match cell h (hfHeader f) with
    | HHeader hp st =>
        if negb (Bool.eqb hp (negb p)) then (h, f) else
        let '(h1, hd) := new_record_at h (HHeader p st) in
        let f1 := mkHFile (hfPacked f) hd (hfBases f) (hfTrailer f) in
        match h_convert_bases p h1 (hfBases f) with
        | (h2, None) => (h2, f1)
        | (h2, Some bs) =>
            let f2 := mkHFile (hfPacked f) hd bs (hfTrailer f) in
            match cell h2 (hfTrailer f) with
            | HTrailer tp st' =>
                if negb (Bool.eqb tp (negb p)) then (h2, f2) else
                let '(h3, t) := new_record_at h2 (HTrailer p st') in
                (h3, mkHFile p hd bs t)
            | _ => (h2, f2)
            end
        end
    | _ => (h, f)
    end.

(* the records Parse makes: new ones, each with segments of its own; base_segment.go:1505-1542 *)
Fixpoint store_segments (h : heap) (l : list segment) : heap * list nat :=
  match l with
  | [] => (h, [])
  | s :: l' => let '(h1, n) := new_segment_at h s in let '(h2, ns) := store_segments h1 l' in (h2, n :: ns)
  end.

(* base_segment.go:1505-1542 *)
Definition store_slice (h : heap) (l : list segment) : heap * slice :=
  match store_segments h l with
  | (h1, []) => (h1, Nil)
  | (h1, refs) =>
      (mkHeap (hSegments h1) (hArrays h1 ++ [refs ++ repeat O (spare (length refs))]) (hRecords h1),
       Slice (length (hArrays h1)) (length refs))
  end.

(* base_segment.go:1505-1542 *)
Definition store_option (h : heap) (o : option segment) : heap * option nat :=
  match o with
  | None => (h, None)
  | Some s => let '(h1, n) := new_segment_at h s in (h1, Some n)
  end.

(* file_instance.go:220-238 *)
Definition store_record (h : heap) (v : record) : heap * nat :=
  match v with
  | RHeader p st => new_record_at h (HHeader p st)
  | RTrailer p st => new_record_at h (HTrailer p st)
  | RBase p (mkBase st j1 j2 k1 k2 k3 k4 l1 n1) =>
      let '(h1, j1') := store_slice h j1 in
      let '(h2, j2') := store_slice h1 j2 in
      let '(h3, k1') := store_option h2 k1 in
      let '(h4, k2') := store_option h3 k2 in
      let '(h5, k3') := store_option h4 k3 in
      let '(h6, k4') := store_option h5 k4 in
      let '(h7, l1') := store_option h6 l1 in
      let '(h8, n1') := store_option h7 n1 in
      new_record_at h8 (HBase p (mkHBase st j1' j2' k1' k2' k3' k4' l1' n1'))
  end.

(* file_instance.go:220-238 *)
Fixpoint store_records (h : heap) (l : list record) : heap * list nat :=
  match l with
  | [] => (h, [])
  | v :: l' => let '(h1, n) := store_record h v in let '(h2, ns) := store_records h1 l' in (h2, n :: ns)
  end.

(* Parse of the record behind a pointer writes its fields; headers and trailers have
   no more than fields, header_record.go:112-127 and 189-243, trailer_record.go:175-187 and
   248-286 *)
Definition write_back (h : heap) (r : nat) (v : record) : heap :=
  match v with
  | RHeader p st => set_cell h r (HHeader p st)
  | RTrailer p st => set_cell h r (HTrailer p st)
  | RBase _ _ => h
  end.

(* file_instance.go:202-255; None: still running when the fuel is used up, or the file has
   a data record as its header or trailer, which no call gives it *)
Definition h_parse (fuel : nat) (h : heap) (f : hfile) (input : bytes) (isVariableLength : bool)
    : option (heap * hfile) :=
  let record := strip input in
  match cell h (hfHeader f), cell h (hfTrailer f) with
  | HHeader _ _, HTrailer _ _ =>
      let '(v, x) := record_parse (record_value h (hfHeader f)) record isVariableLength in
      let h1 := write_back h (hfHeader f) v in
      let f1 := mkHFile (hfPacked f) (hfHeader f) [] (hfTrailer f) in
      match x with
      | Err _ | Panic => Some (h1, f1)
      | Ok head =>
          match parse_loop fuel (hfPacked f) record isVariableLength head [] with
          | LFuel => None
          | LPanic => Some (h1, f1)
          | LReturn bs _ =>
              let '(h2, refs) := store_records h1 bs in
              Some (h2, mkHFile (hfPacked f) (hfHeader f) refs (hfTrailer f))
          | LBreak bs offset =>
              let '(h2, refs) := store_records h1 bs in
              let f2 := mkHFile (hfPacked f) (hfHeader f) refs (hfTrailer f) in
              if (offset <=? 0) || (Z.of_nat (length record) <=? offset)
              then Some (h2, f2)
              else
                let '(t, _) := record_parse (record_value h2 (hfTrailer f))
                                 (skipn (Z.to_nat offset) record) isVariableLength in
                Some (write_back h2 (hfTrailer f) t, f2)
          end
      end
  | _, _ => None
  end.

(* ---- programs ---- *)

(* the variables of a program that uses the library: files, and pointers to the records
   and segments of the heap; callers of file.go:51-69, record.go:60-96, segment.go:70-124 *)
Record world := mkWorld { wHeap : heap; wFiles : list hfile }.

(* the exported functions and methods of pkg/lib and pkg/file named beside each;
   record.go:8, file_instance.go *)
Inductive hcall :=
| HNewFile (packed : bool)                           (* NewFile *)
| HNewHeader (packed : bool)                         (* NewHeaderRecord, NewPackedHeaderRecord *)
| HNewBase (packed : bool)                           (* NewBaseSegment, NewPackedBaseSegment *)
| HNewTrailer (packed : bool)                        (* NewTrailerRecord, NewPackedTrailerRecord *)
| HNewSegment (s : segment)                          (* a segment made by the program *)
| HWriteRecord (r : nat) (st : fields)               (* assignments to the fields of a record *)
| HWriteSegment (s : nat) (st : fields)              (* assignments to the fields of a segment *)
| HAddSegment (r s : nat)                            (* r.AddApplicableSegment(s) *)
| HSetRecord (i r : nat)                             (* files[i].SetRecord(r) *)
| HAddDataRecord (i r : nat)                         (* files[i].AddDataRecord(r) *)
| HSetType (i : nat) (t : bytes)                     (* files[i].SetType(t) *)
| HParse (i : nat) (input : bytes) (isVariableLength : bool)  (* files[i].Parse(input, ...) *)
| HGenerate (i : nat).                               (* t, _ := files[i].GeneratorTrailer() *)

(* assignments to exported fields;
   fields of base_segment.go:24-512, header_record.go and trailer_record.go *)
Definition write_fields (c : hrecord) (st : fields) : hrecord :=
  match c with
  | HHeader p _ => HHeader p st
  | HBase p (mkHBase _ j1 j2 k1 k2 k3 k4 l1 n1) => HBase p (mkHBase st j1 j2 k1 k2 k3 k4 l1 n1)
  | HTrailer p _ => HTrailer p st
  end.

(* a call on a file.File, file_instance.go:37-488 *)
Definition with_file (w : world) (i : nat) (g : hfile -> option (heap * hfile)) : option world :=
  match nth_error (wFiles w) i with
  | Some f =>
      match g f with
      | Some (h, f') => Some (mkWorld h (upd i f' (wFiles w)))
      | None => None
      end
  | None => None
  end.

(* record.go:60-96 and file.go:51-69 for the records and files a program makes *)
Definition h_step (fuel : nat) (w : world) (c : hcall) : option world :=
  let h := wHeap w in
  match c with
  | HNewFile p =>
      let '(h1, hd) := new_record_at h (HHeader p new_header) in
      let '(h2, t) := new_record_at h1 (HTrailer p new_trailer) in
      Some (mkWorld h2 (wFiles w ++ [mkHFile p hd [] t]))
  | HNewHeader p => Some (mkWorld (fst (new_record_at h (HHeader p new_header))) (wFiles w))
  | HNewTrailer p => Some (mkWorld (fst (new_record_at h (HTrailer p new_trailer))) (wFiles w))
  | HNewBase p =>
      Some (mkWorld (fst (new_record_at h (HBase p
              (mkHBase (new_fields base_struct) Nil Nil None None None None None None)))) (wFiles w))
  | HNewSegment s => Some (mkWorld (fst (new_segment_at h s)) (wFiles w))
  | HWriteRecord r st =>
      if Nat.ltb r (length (hRecords h))
      then Some (mkWorld (set_cell h r (write_fields (cell h r) st)) (wFiles w)) else None
  | HWriteSegment s st =>
      if Nat.ltb s (length (hSegments h))
      then Some (mkWorld (set_seg h s (mkSegment (sKind (seg_value h s)) st)) (wFiles w)) else None
  | HAddSegment r s =>
      if Nat.ltb r (length (hRecords h)) && Nat.ltb s (length (hSegments h))
      then Some (mkWorld (h_add_segment h r s) (wFiles w)) else None
  | HSetRecord i r =>
      if Nat.ltb r (length (hRecords h)) then with_file w i (fun f => Some (h, h_set_record h f r)) else None
  | HAddDataRecord i r =>
      if Nat.ltb r (length (hRecords h)) then with_file w i (fun f => Some (h, h_add_data_record h f r)) else None
  | HSetType i t => with_file w i (fun f => Some (h_set_type h f t))
  | HParse i input iv => with_file w i (fun f => h_parse fuel h f input iv)
  | HGenerate i => with_file w i (fun f => match h_generate h f with Some (h', _) => Some (h', f) | None => None end)
  end.

End Spare.
