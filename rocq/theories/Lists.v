(* The lists of data records that GetDataRecords returns: parts of the array in which the
   file keeps its data records *)
From Coq Require Import ZArith NArith Bool Ascii String List.
Import ListNotations.
From Verif Require Import GoBase GoTime Tables Codec Records File Heap.
Local Open Scope string_scope.
Local Open Scope nat_scope.
Local Open Scope list_scope.
Local Notation length := List.length.

(* fileInstance, file_instance.go:27-34; f.Bases is a slice, a part of an array of pointers to records *)
Record lfile := mkLFile {
  lfPacked : bool;
  lfHeader : nat;
  lfBases : slice;
  lfTrailer : nat }.

(* a program with files and with variables of type []lib.Record; the arrays hold
   pointers to records; file_instance.go:29 and 87 *)
Record lworld := mkLWorld {
  lwHeap : heap;
  lwArrays : list (list nat);
  lwFiles : list lfile;
  lwLists : list slice }.

(* the elements of a slice, file_instance.go:29 *)
Definition elements (arrays : list (list nat)) (sl : slice) : list nat :=
  match sl with
  | Nil => []
  | Slice a n => firstn n (nth a arrays [])
  end.

(* file_instance.go:27-34 *)
Definition lfile_value (arrays : list (list nat)) (f : lfile) : hfile :=
  mkHFile (lfPacked f) (lfHeader f) (elements arrays (lfBases f)) (lfTrailer f).

Section Room.

(* the room append leaves in new arrays of segments, and in new arrays of records *)
Variable spare room : nat -> nat.

(* append(sl, x), file_instance.go:64 and 66, 236, 439, 471 *)
Definition append_to (arrays : list (list nat)) (sl : slice) (x : nat) : list (list nat) * slice :=
  match sl with
  | Nil => (arrays ++ [x :: repeat O (room 0)], Slice (length arrays) 1)
  | Slice a n =>
      let arr := nth a arrays [] in
      if Nat.ltb n (length arr)
      then (upd a (upd n x arr) arrays, Slice a (S n))
      else (arrays ++ [firstn n arr ++ x :: repeat O (room n)], Slice (length arrays) (S n))
  end.

(* the appends of a loop, file_instance.go:220-238, 433-440 and 465-472 *)
Fixpoint append_all (arrays : list (list nat)) (sl : slice) (l : list nat) : list (list nat) * slice :=
  match l with
  | [] => (arrays, sl)
  | x :: l' => let '(arrays', sl') := append_to arrays sl x in append_all arrays' sl' l'
  end.

(* file_instance.go:37-54 *)
Definition l_set_record (h : heap) (arrays : list (list nat)) (f : lfile) (r : nat) : lfile :=
  let g := h_set_record h (lfile_value arrays f) r in
  mkLFile (lfPacked f) (hfHeader g) (lfBases f) (hfTrailer g).

(* file_instance.go:57-72 *)
Definition l_add_data_record (h : heap) (arrays : list (list nat)) (f : lfile) (r : nat) : list (list nat) * lfile :=
  let v := record_value h r in
  match record_validate v with
  | Some _ => (arrays, f)
  | None =>
      if (lfPacked f && String.eqb (record_name v) "basePacked")
         || (negb (lfPacked f) && String.eqb (record_name v) "base")
      then
        let '(arrays', sl) := append_to arrays (lfBases f) r in
        (arrays', mkLFile (lfPacked f) (lfHeader f) sl (lfTrailer f))
      else (arrays, f)
  end.

(* file_instance.go:411-488: var bases []lib.Record is nil, its elements are appended to it *)
Definition l_set_type (h : heap) (arrays : list (list nat)) (f : lfile) (newType : bytes)
    : heap * list (list nat) * lfile :=
  if negb (bytes_eqb newType (lit "character")) && negb (bytes_eqb newType (lit "packed"))
  then (h, arrays, f)
  else if bytes_eqb (format_name (lfPacked f)) newType then (h, arrays, f)
  else
    let p := bytes_eqb newType (lit "packed") in
    match cell h (lfHeader f) with
    | HHeader hp st =>
        if negb (Bool.eqb hp (negb p)) then (h, arrays, f) else
        let '(h1, hd) := new_record_at h (HHeader p st) in
        match h_convert_bases p h1 (elements arrays (lfBases f)) with
        | (h2, None) => (h2, arrays, mkLFile (lfPacked f) hd (lfBases f) (lfTrailer f))
        | (h2, Some bs) =>
            let '(arrays', sl) := append_all arrays Nil bs in
            match cell h2 (lfTrailer f) with
            | HTrailer tp st' =>
                if negb (Bool.eqb tp (negb p))
                then (h2, arrays', mkLFile (lfPacked f) hd sl (lfTrailer f))
                else
                  let '(h3, t) := new_record_at h2 (HTrailer p st') in
                  (h3, arrays', mkLFile p hd sl t)
            | _ => (h2, arrays', mkLFile (lfPacked f) hd sl (lfTrailer f))
            end
        end
    | _ => (h, arrays, f)
    end.

(* file_instance.go:202-255: f.Bases = []lib.Record{}, an array without room, line 209, to
   which the records are appended, line 236 *)
Definition l_parse (fuel : nat) (h : heap) (arrays : list (list nat)) (f : lfile) (input : bytes)
    (isVariableLength : bool) : option (heap * list (list nat) * lfile) :=
  match h_parse spare fuel h (lfile_value arrays f) input isVariableLength with
  | Some (h', g) =>
      let '(arrays', sl) := append_all (arrays ++ [[]]) (Slice (length arrays) 0) (hfBases g) in
      Some (h', arrays', mkLFile (lfPacked f) (hfHeader g) sl (hfTrailer g))
  | None => None
  end.

(* what a program does: calls, and what it can do with a list of data records;
   file_instance.go:87-89 *)
Inductive lcall :=
| LCall (c : hcall)
| LGet (i : nat)              (* v := files[i].GetDataRecords() *)
| LClone (v : nat)            (* u := slices.Clone(v), a new array *)
| LAppend (v x : nat)         (* v = append(v, x) *)
| LAssign (v k x : nat).      (* v[k] = x *)

(* a call on a file.File, file_instance.go:37-488 *)
Definition with_lfile (w : lworld) (i : nat) (g : lfile -> option (heap * list (list nat) * lfile)) : option lworld :=
  match nth_error (lwFiles w) i with
  | Some f =>
      match g f with
      | Some (h, arrays, f') => Some (mkLWorld h arrays (upd i f' (lwFiles w)) (lwLists w))
      | None => None
      end
  | None => None
  end.

(* file.go:51-69, file_instance.go:37-488, record.go:60-96 *)
Definition l_call (fuel : nat) (w : lworld) (c : hcall) : option lworld :=
  let h := lwHeap w in
  let arrays := lwArrays w in
  match c with
  | HNewFile p =>
      let '(h1, hd) := new_record_at h (HHeader p new_header) in
      let '(h2, t) := new_record_at h1 (HTrailer p new_trailer) in
      Some (mkLWorld h2 arrays (lwFiles w ++ [mkLFile p hd Nil t]) (lwLists w))
  | HSetRecord i r =>
      if Nat.ltb r (length (hRecords h))
      then with_lfile w i (fun f => Some (h, arrays, l_set_record h arrays f r)) else None
  | HAddDataRecord i r =>
      if Nat.ltb r (length (hRecords h))
      then with_lfile w i (fun f => let '(arrays', f') := l_add_data_record h arrays f r in Some (h, arrays', f'))
      else None
  | HSetType i t => with_lfile w i (fun f => Some (l_set_type h arrays f t))
  | HParse i input iv => with_lfile w i (fun f => l_parse fuel h arrays f input iv)
  | HGenerate i =>
      with_lfile w i (fun f => match h_generate h (lfile_value arrays f) with
                               | Some (h', _) => Some (h', arrays, f)
                               | None => None
                               end)
  | HNewHeader _ | HNewBase _ | HNewTrailer _ | HNewSegment _ | HWriteRecord _ _ | HWriteSegment _ _ | HAddSegment _ _ =>
      match h_step spare fuel (mkWorld h []) c with
      | Some w' => Some (mkLWorld (wHeap w') arrays (lwFiles w) (lwLists w))
      | None => None
      end
  end.

(* file_instance.go:87-89, and the statements of the program; an index that is out of
   range is None, as is a variable or a pointer that does not exist *)
Definition l_step (fuel : nat) (w : lworld) (c : lcall) : option lworld :=
  let arrays := lwArrays w in
  match c with
  | LCall c => l_call fuel w c
  | LGet i =>
      match nth_error (lwFiles w) i with
      | Some f => Some (mkLWorld (lwHeap w) arrays (lwFiles w) (lwLists w ++ [lfBases f]))
      | None => None
      end
  | LClone v =>
      match nth_error (lwLists w) v with
      | Some sl =>
          let l := elements arrays sl in
          Some (mkLWorld (lwHeap w) (arrays ++ [l ++ repeat O (room (length l))]) (lwFiles w)
                  (lwLists w ++ [Slice (length arrays) (length l)]))
      | None => None
      end
  | LAppend v x =>
      match nth_error (lwLists w) v with
      | Some sl =>
          if Nat.ltb x (length (hRecords (lwHeap w))) then
            let '(arrays', sl') := append_to arrays sl x in
            Some (mkLWorld (lwHeap w) arrays' (lwFiles w) (upd v sl' (lwLists w)))
          else None
      | None => None
      end
  | LAssign v k x =>
      match nth_error (lwLists w) v with
      | Some (Slice a n) =>
          if Nat.ltb x (length (hRecords (lwHeap w))) && Nat.ltb k n
          then Some (mkLWorld (lwHeap w) (upd a (upd k x (nth a arrays [])) arrays) (lwFiles w) (lwLists w))
          else None
      | _ => None
      end
  end.

End Room.
