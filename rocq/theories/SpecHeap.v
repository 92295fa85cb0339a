(* Specification: programs that use files, records and segments through pointers *)
From Coq Require Import ZArith NArith Bool Ascii String List.
Import ListNotations.
From Verif Require Import GoBase GoTime Tables Codec Records File
  SpecCodec SpecLayouts SpecRecords SpecFile SpecValidate SpecCounters SpecApi Heap.
Local Open Scope string_scope.
Local Open Scope Z_scope.
Local Open Scope list_scope.
Local Notation length := List.length.

(* ---- pointers of files and records ---- *)

Definition slots (f : hfile) : list nat := hfHeader f :: hfTrailer f :: hfBases f.

Definition in_files (w : world) (r : nat) : Prop := exists f, In f (wFiles w) /\ In r (slots f).

(* the pointers to segments of a kind that a record has *)
Definition pointers (h : heap) (k : segkind) (r : nat) : list nat :=
  match cell h r with
  | HBase _ b =>
      match k with
      | J1 => slice_refs h (hbJ1 b) | J2 => slice_refs h (hbJ2 b)
      | K1 => opt_list (hbK1 b) | K2 => opt_list (hbK2 b) | K3 => opt_list (hbK3 b)
      | K4 => opt_list (hbK4 b) | L1 => opt_list (hbL1 b) | N1 => opt_list (hbN1 b)
      end
  | _ => []
  end.

Definition attached_in (h : heap) (s r : nat) : Prop := exists k, In s (pointers h k r).

(* ---- considerate programs ---- *)

(* the records a call leaves behind: SetType puts copies in the place of the records of
   the file *)
Definition left_behind (w : world) (c : hcall) (w' : world) : list nat :=
  match c with
  | HSetType i _ =>
      match nth_error (wFiles w) i, nth_error (wFiles w') i with
      | Some f, Some f' => if Bool.eqb (hfPacked f) (hfPacked f') then [] else slots f
      | _, _ => []
      end
  | _ => []
  end.

(* a record is given to one file only, once, and is not used any more when a file has
   put a copy in its place *)
Definition considerate (w : world) (left : list nat) (c : hcall) : Prop :=
  match c with
  | HAddSegment r _ => ~ In r left
  | HSetRecord _ r | HAddDataRecord _ r => ~ In r left /\ ~ in_files w r
  | _ => True
  end.

Definition start : world := mkWorld (mkHeap [] [] []) [].

(* the states of considerate programs, with the records left behind so far *)
Inductive state (spare : nat -> nat) : world -> list nat -> Prop :=
| state_start : state spare start []
| state_call w left fuel c w' : state spare w left -> considerate w left c ->
    h_step spare fuel w c = Some w' -> state spare w' (left ++ left_behind w c w').

(* ---- what calls do to the values ---- *)

(* assignments to the fields of a record *)
Definition fields_written (st : fields) (v : record) : record :=
  match v with
  | RHeader p _ => RHeader p st
  | RBase p b => RBase p (set_bFields b st)
  | RTrailer p _ => RTrailer p st
  end.

(* a record after assignments to the fields of segment s, in terms of its pointers *)
Definition segment_written (h : heap) (s : nat) (st : fields) (r : nat) (v : record) : Prop :=
  match record_value h r, v with
  | RBase p b, RBase q b' =>
      p = q /\ bFields b = bFields b'
      /\ forall k, segs_of k b' =
           map (fun x => if Nat.eqb x s then mkSegment (sKind (seg_value h x)) st else seg_value h x) (pointers h k r)
  | u, _ => v = u
  end.

(* a record that exists before a call, after it: besides assignments of the program and
   AddApplicableSegment, only Parse changes records, the header and the trailer of its file *)
Definition record_effect (w : world) (c : hcall) (r : nat) (v : record) : Prop :=
  let h := wHeap w in
  match c with
  | HWriteRecord r' st => v = if Nat.eqb r r' then fields_written st (record_value h r) else record_value h r
  | HAddSegment r' s =>
      v = if Nat.eqb r r' then fst (record_add_segment (seg_value h s) (record_value h r)) else record_value h r
  | HWriteSegment s st => segment_written h s st r v
  | HParse i _ _ =>
      (forall f, nth_error (wFiles w) i = Some f -> r <> hfHeader f /\ r <> hfTrailer f) -> v = record_value h r
  | _ => v = record_value h r
  end.

(* a segment that exists before a call, after it *)
Definition segment_effect (w : world) (c : hcall) (s : nat) (v : segment) : Prop :=
  let u := seg_value (wHeap w) s in
  match c with
  | HWriteSegment s' st => v = if Nat.eqb s s' then mkSegment (sKind u) st else u
  | _ => v = u
  end.

(* a file that exists before a call, after it, where all records are values *)
Definition file_effect (fuel : nat) (w : world) (c : hcall) (i : nat) (f : hfile) (v : file) : Prop :=
  let h := wHeap w in
  let u := file_value h f in
  match c with
  | HSetRecord j r => v = if Nat.eqb j i then fst (file_set_record u (record_value h r)) else u
  | HAddDataRecord j r => v = if Nat.eqb j i then fst (file_add_data_record u (record_value h r)) else u
  | HSetType j t => v = if Nat.eqb j i then fst (file_set_type u t) else u
  | HParse j input iv => if Nat.eqb j i then exists x, file_parse fuel u input iv = Some (v, x) else v = u
  | HAddSegment _ _ | HWriteRecord _ _ | HWriteSegment _ _ =>
      flPacked v = flPacked u /\ record_effect w c (hfHeader f) (flHeader v)
      /\ Forall2 (record_effect w c) (hfBases f) (flBases v)
      /\ record_effect w c (hfTrailer f) (flTrailer v)
  | HNewFile _ | HNewHeader _ | HNewBase _ | HNewTrailer _ | HNewSegment _ | HGenerate _ => v = u
  end.

(* what a call makes, at the next free positions *)
Definition call_makes (w : world) (c : hcall) (w' : world) : Prop :=
  let h := wHeap w in
  let h' := wHeap w' in
  let r := length (hRecords h) in
  match c with
  | HNewFile p => exists f, wFiles w' = wFiles w ++ [f] /\ Forall (fun x => (r <= x)%nat) (slots f)
      /\ file_value h' f = mkFile p (RHeader p new_header) [] (RTrailer p new_trailer)
  | HNewHeader p => length (hRecords h') = S r /\ record_value h' r = RHeader p new_header
  | HNewBase p => length (hRecords h') = S r /\ record_value h' r = RBase p new_base
  | HNewTrailer p => length (hRecords h') = S r /\ record_value h' r = RTrailer p new_trailer
  | HNewSegment s => hSegments h' = hSegments h ++ [s]
  | HGenerate i => length (hRecords h') = S r
      /\ forall f, nth_error (wFiles w) i = Some f -> file_generate_trailer (file_value h f) = Ok (record_value h' r)
  | _ => True
  end.

(* ---- programs that write what no file has ---- *)

(* fields of the Go types *)
Definition written_ok (w : world) (c : hcall) : Prop :=
  match c with
  | HNewSegment s => seg_typed s
  | HWriteSegment s st =>
      has_type (seg_struct (sKind (seg_value (wHeap w) s))) st
      /\ forall r, in_files w r -> ~ attached_in (wHeap w) s r
  | HWriteRecord r st =>
      match record_value (wHeap w) r with
      | RHeader _ _ => has_type header_struct st
      | RBase _ _ => has_type base_struct st
      | RTrailer _ _ => has_type trailer_struct st
      end /\ ~ in_files w r
  | _ => True
  end.

Inductive careful_state (spare : nat -> nat) : world -> list nat -> Prop :=
| careful_start : careful_state spare start []
| careful_call w left fuel c w' : careful_state spare w left -> considerate w left c -> written_ok w c ->
    h_step spare fuel w c = Some w' -> careful_state spare w' (left ++ left_behind w c w').

(* ---- programs written down ---- *)

(* the calls one after another *)
Fixpoint run (spare : nat -> nat) (fuel : nat) (w : world) (cs : list hcall) : option world :=
  match cs with
  | [] => Some w
  | c :: cs' => match h_step spare fuel w c with Some w' => run spare fuel w' cs' | None => None end
  end.

(* how Go grows slices of up to 256 pointers: the new array has twice the room, and room
   for one element at first *)
Definition doubling (n : nat) : nat := Nat.pred n.
