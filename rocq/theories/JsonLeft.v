(* What a JSON decoding leaves in its target when it fails: the functions of
   JsonFile.v with the state they leave behind (pkg/lib/base_segment.go,
   pkg/file/file_instance.go, pkg/file/file.go).
   encoding/json on structs is transcribed (trusted): a value of the wrong kind is
   noted and the decoding goes on; an error of an Unmarshaler ends it. *)
From Coq Require Import ZArith NArith Bool Ascii String List.
Import ListNotations.
From Verif Require Import GoBase GoTime GoLayout Tables JsonTables Codec Records File Reader Json JsonFile.
Local Open Scope string_scope.
Local Open Scope Z_scope.
Local Open Scope list_scope.

(* no error; an error that is noted (decodeState.saveError); an error that ends
   the decoding; encoding/json decodeState.value, for file_instance.go:356-368 *)
Inductive verdict := Done | Noted | Ended.

(* a member into a struct field; utils.Time is set before its error is returned,
   pkg/utils/time.go:15-24; else encoding/json decodeState.literalStore, array and
   object, for file_instance.go:356-368 *)
Definition left_field (rt : runtime) (old : value) (j : json) : value * verdict :=
  match old with
  | VInt _ =>
      match j with
      | JNum t => match parse_int 64 t with (z, None) => (VInt z, Done) | _ => (old, Noted) end
      | JNull => (old, Done)
      | _ => (old, Noted)
      end
  | VStr _ =>
      match j with
      | JStr s => (VStr s, Done)
      | JNull => (old, Done)
      | _ => (old, Noted)
      end
  | VTime _ =>
      match time_unmarshal (rtZone rt) (print j) with
      | Some t => (VTime t, Done)
      | None => (VTime zero_time, Ended)
      end
  end.

(* the struct, and whether there was an error; encoding/json decodeState.object,
   for file_instance.go:356-368 *)
Fixpoint left_members (rt : runtime) (tags : list tag) (l : list (bytes * json)) (st : fields) : fields * bool :=
  match l with
  | [] => (st, false)
  | (k, j) :: r =>
      match find_tag tags k with
      | Some t =>
          match lookup (tgField t) st with
          | Some old =>
              match left_field rt old j with
              | (v, Done) => left_members rt tags r (set_field (tgField t) v st)
              | (_, Noted) => (fst (left_members rt tags r st), true)
              | (v, Ended) => (set_field (tgField t) v st, true)
              end
          | None => (st, true)
          end
      | None => left_members rt tags r st
      end
  end.

(* json.Unmarshal into a struct; file_instance.go:356-368 *)
Definition left_struct (rt : runtime) (tags : list tag) (j : json) (st : fields) : fields * bool :=
  match j with
  | JObj l => left_members rt tags l st
  | JNull => (st, false)
  | _ => (st, true)
  end.

(* ---- data records ---- *)

(* base_segment.go:1544-1573; a segment that cannot be read or added is not added *)
Definition left_segment (rt : runtime) (name : bytes) (j : json) (b : base) : base * res unit :=
  match kind_of_name name with
  | None => (b, Ok tt)
  | Some k =>
      match decode_struct rt (seg_tags k) j (sFields (new_segment k)) with
      | None => (b, Err (ErrOther "unable to parse segment"))
      | Some st =>
          match base_add_segment (mkSegment k st) b with
          | (b', None) => (b', Ok tt)
          | (b', Some e) => (b', Err e)
          end
      end
  end.

(* the loops of base_segment.go:788-797 and 1303-1312 *)
Fixpoint left_segments (rt : runtime) (name : bytes) (l : list json) (b : base) : base * res unit :=
  match l with
  | [] => (b, Ok tt)
  | j :: r =>
      match left_segment rt name j b with
      | (b', Ok _) => left_segments rt name r b'
      | e => e
      end
  end.

(* one iteration of base_segment.go:759-805 *)
Definition left_base_member (rt : runtime) (m : bytes * json) (b : base) : base * res unit :=
  let '(key, j) := m in
  if bytes_eqb key (lit "base") then
    match decode_struct rt base_tags j (new_fields base_struct) with
    | Some st => (set_bFields b st, Ok tt)
    | None => (b, Err (ErrOther "unable to parse base segment"))
    end
  else if bytes_eqb key (lit "j1") || bytes_eqb key (lit "j2") then
    match json_list rt j with
    | Some l => left_segments rt key l b
    | None => (b, Err (ErrOther "unable to parse segment"))
    end
  else left_segment rt key j b.

(* the loop of base_segment.go:756-807 and 1273-1322 *)
Fixpoint left_base_members (rt : runtime) (l : list (bytes * json)) (b : base) : base * res unit :=
  match l with
  | [] => (b, Ok tt)
  | m :: r =>
      match left_base_member rt m b with
      | (b', Ok _) => left_base_members rt r b'
      | e => e
      end
  end.

(* base_segment.go:749-808 and :1266-1325; [n] numbers the loop over the map *)
Definition left_base (rt : runtime) (n : nat) (j : json) (b : base) : base * res unit :=
  match json_map rt j with
  | Some l => left_base_members rt (rtOrder rt n l) (clear_j b)
  | None => (b, Err (ErrOther "invalid json format"))
  end.

(* ---- files ---- *)

(* json.Unmarshal into an existing record; file_instance.go:356-368 *)
Definition left_record (rt : runtime) (n : nat) (j : json) (r : record) : record * res unit :=
  let outcome (failed : bool) := if failed then Err (ErrOther "Unable to parse input json file") else Ok tt in
  match r with
  | RHeader p st => let '(st', e) := left_struct rt header_tags j st in (RHeader p st', outcome e)
  | RTrailer p st => let '(st', e) := left_struct rt trailer_tags j st in (RTrailer p st', outcome e)
  | RBase p b =>
      match left_base rt n j b with
      | (b', Ok _) => (RBase p b', Ok tt)
      | (b', Err _) => (RBase p b', Err (ErrOther "Unable to parse input json file"))
      | (b', Panic) => (RBase p b', Panic)
      end
  end.

(* file_instance.go:376-398; a data record that cannot be read is not added *)
Fixpoint left_data (rt : runtime) (n : nat) (l : list json) (f : file) : file * res unit :=
  match l with
  | [] => (f, Ok tt)
  | j :: r =>
      match left_record rt n j (new_data_record (flPacked f)) with
      | (b, Ok _) => left_data rt (S n) r (set_bases f (flBases f ++ [b]))
      | (_, e) => (f, e)
      end
  end.

(* one iteration of file_instance.go:350-400 *)
Definition left_file_member (rt : runtime) (m : bytes * json) (f : file) : file * res unit :=
  let '(name, j) := m in
  if bytes_eqb name (lit "header") then let '(r, e) := left_record rt 0 j (flHeader f) in (set_header f r, e)
  else if bytes_eqb name (lit "trailer") then let '(r, e) := left_record rt 0 j (flTrailer f) in (set_trailer f r, e)
  else if bytes_eqb name (lit "data") then
    match json_list rt j with
    | Some l => left_data rt 1 l f
    | None => (f, Err (ErrOther "Unable to parse input json file"))
    end
  else (f, Ok tt).

(* the loop of file_instance.go:350-400 *)
Fixpoint left_file_members (rt : runtime) (l : list (bytes * json)) (f : file) : file * res unit :=
  match l with
  | [] => (f, Ok tt)
  | m :: r =>
      match left_file_member rt m f with
      | (f', Ok _) => left_file_members rt r f'
      | e => e
      end
  end.

(* file_instance.go:343-403 *)
Definition left_file (rt : runtime) (j : json) (f : file) : file * res unit :=
  match json_map rt j with
  | Some l => left_file_members rt (rtOrder rt 0 l) f
  | None => (f, Err (ErrOther "json"))
  end.

(* file.go:104-134: the file that is returned, also with an error, and the error *)
Definition left_create (rt : runtime) (text : bytes) : option file * res unit :=
  match decode text with
  | None => (None, Err (ErrOther "reading header"))
  | Some j =>
      match decode_dummy rt j with
      | None => (None, Err (ErrOther "reading header"))
      | Some h => let '(f, e) := left_file rt j (new_file_p (dummy_packed h)) in (Some f, e)
      end
  end.

(* file.go:72-135, and CreateFile, file.go:138-141, with the file that is returned; on
   input that is not JSON there is none with an error, file.go:154-221 *)
Definition left_new (rt : runtime) (evs : list read_event) (input : bytes) : option (option file * res unit) :=
  match input with
  | [] => Some (None, Err (ErrOther "EOF"))
  | _ =>
      if looks_like_json input then Some (left_create rt input)
      else option_map (fun r => match r with Ok f => (Some f, Ok tt) | Err e => (None, Err e) | Panic => (None, Panic) end) (read_from evs input)
  end.
