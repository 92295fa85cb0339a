(* JSON of records and files: MarshalJSON and UnmarshalJSON of data records
   (pkg/lib/base_segment.go) and of files (pkg/file/file_instance.go), and
   NewFileFromReader and CreateFile (pkg/file/file.go).
   encoding/json on structs, maps and interfaces is transcribed (trusted); what
   a failed decoding leaves behind in its target is in JsonLeft.v. *)
From Coq Require Import ZArith NArith Bool Ascii String List.
Import ListNotations.
From Verif Require Import GoBase GoTime GoLayout Tables JsonTables Codec Records File Reader Json.
Local Open Scope string_scope.
Local Open Scope Z_scope.
Local Open Scope list_scope.
Local Notation length := List.length.

(* What is not determined by the program:
   - rtFloat: the text of a number literal after it has been read into a
     float64 and written again (None: out of range).  It is only consulted for
     literals other than integers up to 2^53, which a float64 holds exactly and
     prints unchanged;
   - rtZone: what the host makes of a time zone abbreviation (GoLayout.v);
   - rtOrder: the order in which range visits a map, for every loop separately. *)
Record runtime := mkRuntime {
  rtFloat : bytes -> option bytes;
  rtZone : bytes -> time -> time;
  rtOrder : nat -> list (bytes * json) -> list (bytes * json) }.

(* ---- interface{}: json.Unmarshal into any value, json.Marshal of it ---- *)

(* an integer in shortest decimal form of magnitude at most 2^53;
   a number that is the same after encoding/json has read it as float64 and written it, base_segment.go:751-800 *)
Definition exact_integer (t : bytes) : bool :=
  match parse_int 64 t with
  | (z, None) => bytes_eqb (itoa z) t && (Z.abs z <=? 2 ^ 53)
  | (_, Some _) => false
  end.
(* numbers in base_segment.go:751-800 and file_instance.go:343-403 *)
Definition renumber (rt : runtime) (t : bytes) : option bytes :=
  if exact_integer t then Some t else rtFloat rt t.

(* strings.Compare; the order encoding/json gives the keys of a map,
   for pkg/client/model_data_record.go:331-337 and file_instance.go:343-403 *)
Fixpoint bytes_cmp (a b : bytes) : comparison :=
  match a, b with
  | [], [] => Eq
  | [], _ => Lt
  | _, [] => Gt
  | x :: a', y :: b' =>
      match (bval x ?= bval y)%Z with Eq => bytes_cmp a' b' | c => c end
  end.

(* assignment to a key of a map, kept sorted by key;
   a map of base_segment.go:751 or file_instance.go:344 *)
Fixpoint put_member (k : bytes) (v : json) (l : list (bytes * json)) : list (bytes * json) :=
  match l with
  | [] => [(k, v)]
  | (k', v') :: r =>
      match bytes_cmp k k' with
      | Lt => (k, v) :: l
      | Eq => (k, v) :: r
      | Gt => (k', v') :: put_member k v r
      end
  end.
(* a map of base_segment.go:751 or file_instance.go:344 *)
Definition put_members (l : list (bytes * json)) : list (bytes * json) :=
  fold_left (fun acc m => put_member (fst m) (snd m) acc) l [].

(* the value that arrives after json.Unmarshal into an interface and
   json.Marshal of that: numbers pass through float64, the last of several
   members with the same key stays, members are sorted by key *)
Fixpoint remarshal (rt : runtime) (j : json) : option json :=
  match j with
  | JNull => Some JNull
  | JBool b => Some (JBool b)
  | JNum t => option_map JNum (renumber rt t)
  | JStr s => Some (JStr (clean s))
  | JArr l =>
      option_map JArr
        ((fix go (l : list json) : option (list json) :=
            match l with
            | [] => Some []
            | x :: r =>
                match remarshal rt x, go r with
                | Some x', Some r' => Some (x' :: r')
                | _, _ => None
                end
            end) l)
  | JObj l =>
      option_map (fun l' => JObj (put_members l'))
        ((fix go (l : list (bytes * json)) : option (list (bytes * json)) :=
            match l with
            | [] => Some []
            | (k, x) :: r =>
                match remarshal rt x, go r with
                | Some x', Some r' => Some ((clean k, x') :: r')
                | _, _ => None
                end
            end) l)
  end.

(* json.Unmarshal into map[string]interface{}; the values as json.Marshal writes them;
   base_segment.go:751-754, file_instance.go:344-347 *)
Definition json_map (rt : runtime) (j : json) : option (list (bytes * json)) :=
  match remarshal rt j with
  | Some (JObj l) => Some l
  | Some JNull => Some []
  | _ => None
  end.

(* json.Unmarshal into []interface{}; the elements as json.Marshal writes them;
   base_segment.go:783-797, file_instance.go:370-398 *)
Definition json_list (rt : runtime) (j : json) : option (list json) :=
  match remarshal rt j with
  | Some (JArr l) => Some l
  | Some JNull => Some []
  | _ => None
  end.

(* ---- structs ---- *)

(* encoding/json/fold.go foldName on a key that is compared with an ASCII name:
   ASCII letters to upper case, U+017F to S and U+212A to K *)
Fixpoint fold_name (s : bytes) : bytes :=
  match s with
  | [] => []
  | a :: r =>
      match r with
      | b :: r1 =>
          if bytes_eqb [a; b] (map ascii_of_N [197; 191]%N) then "S"%char :: fold_name r1
          else match r1 with
               | c :: r2 =>
                   if bytes_eqb [a; b; c] (map ascii_of_N [226; 132; 170]%N) then "K"%char :: fold_name r2
                   else upper_char a :: fold_name r
               | [] => upper_char a :: fold_name r
               end
      | [] => [upper_char a]
      end
  end.

(* the field a key belongs to: an exact match first, else a match up to case;
   encoding/json decodeState.object, for base_segment.go:767-770 *)
Definition find_tag (tags : list tag) (key : bytes) : option tag :=
  match find (fun t => bytes_eqb key (lit (tgKey t))) tags with
  | Some t => Some t
  | None => find (fun t => bytes_eqb (fold_name key) (fold_name (lit (tgKey t)))) tags
  end.

(* a member into a struct field of kind int, int64, string or utils.Time;
   null leaves numbers and strings alone but is handed to utils.Time *)
Definition decode_field (rt : runtime) (old : value) (j : json) : option value :=
  match old with
  | VInt _ =>
      match j with
      | JNum t => match parse_int 64 t with (z, None) => Some (VInt z) | _ => None end
      | JNull => Some old
      | _ => None
      end
  | VStr _ =>
      match j with
      | JStr s => Some (VStr s)
      | JNull => Some old
      | _ => None
      end
  | VTime _ => option_map VTime (time_unmarshal (rtZone rt) (print j))
  end.

(* encoding/json decodeState.object, for base_segment.go:767-770 *)
Fixpoint decode_members (rt : runtime) (tags : list tag) (l : list (bytes * json)) (st : fields)
  : option fields :=
  match l with
  | [] => Some st
  | (k, j) :: r =>
      match find_tag tags k with
      | Some t =>
          match lookup (tgField t) st with
          | Some old =>
              match decode_field rt old j with
              | Some v => decode_members rt tags r (set_field (tgField t) v st)
              | None => None
              end
          | None => None
          end
      | None => decode_members rt tags r st
      end
  end.

(* json.Unmarshal into a struct; base_segment.go:767-781, file_instance.go:356-368 *)
Definition decode_struct (rt : runtime) (tags : list tag) (j : json) (st : fields) : option fields :=
  match j with
  | JObj l => decode_members rt tags l st
  | JNull => Some st
  | _ => None
  end.

(* a field of a struct: nothing for an empty field with omitempty;
   encoding/json structEncoder, for base_segment.go:720-746 *)
Definition encode_field (t : tag) (v : value) : list (bytes * json) :=
  let member j := [(lit (tgKey t), j)] in
  match v with
  | VInt z => if tgOmit t && (z =? 0) then [] else member (JNum (itoa z))
  | VStr s => if tgOmit t && (length s =? 0)%nat then [] else member (JStr (clean s))
  | VTime d => member (JStr (time_json_text d))
  end.

(* json.Marshal of a struct; base_segment.go:720-746 *)
Definition encode_struct (tags : list tag) (st : fields) : json :=
  JObj (flat_map (fun t => match lookup (tgField t) st with
                           | Some v => encode_field t v
                           | None => []
                           end) tags).

(* ---- data records ---- *)

(* the tags of j1_segment.go, j2_segment.go, kn_segment.go, l1_segment.go, n1_segment.go *)
Definition seg_tags (k : segkind) : list tag :=
  match k with
  | J1 => j1_tags | J2 => j2_tags | K1 => k1_tags | K2 => k2_tags
  | K3 => k3_tags | K4 => k4_tags | L1 => l1_tags | N1 => n1_tags
  end.

(* base_segment.go:720-746 and 1237-1263 *)
Definition encode_segment (s : segment) : json := encode_struct (seg_tags (sKind s)) (sFields s).

(* base_segment.go:720-746 and :1237-1263 with dataRecordJson :519-529 *)
Definition encode_base (b : base) : json :=
  let many k := match segs_of k b with
                | [] => []
                | l => [(lit (seg_name k), JArr (map encode_segment l))]
                end in
  let one k := match segs_of k b with
               | s :: _ => [(lit (seg_name k), encode_segment s)]
               | [] => []
               end in
  JObj ((lit "base", encode_struct base_tags (bFields b))
        :: many J1 ++ many J2 ++ one K1 ++ one K2 ++ one K3 ++ one K4 ++ one L1 ++ one N1).

(* the switch of base_segment.go:1544-1573 *)
Definition kind_of_name (name : bytes) : option segkind :=
  find (fun k => bytes_eqb name (lit (seg_name k))) all_kinds.

(* base_segment.go:1544-1573; a key that names no segment is ignored *)
Definition unmarshal_segment (rt : runtime) (name : bytes) (j : json) (b : base) : res base :=
  match kind_of_name name with
  | None => Ok b
  | Some k =>
      match decode_struct rt (seg_tags k) j (sFields (new_segment k)) with
      | None => Err (ErrOther "unable to parse segment")
      | Some st =>
          match base_add_segment (mkSegment k st) b with
          | (b', None) => Ok b'
          | (_, Some e) => Err e
          end
      end
  end.

(* the loops of base_segment.go:788-797 and 1303-1312 *)
Fixpoint unmarshal_segments (rt : runtime) (name : bytes) (l : list json) (b : base) : res base :=
  match l with
  | [] => Ok b
  | j :: r =>
      match unmarshal_segment rt name j b with
      | Ok b' => unmarshal_segments rt name r b'
      | e => e
      end
  end.

(* one iteration of base_segment.go:759-805 *)
Definition unmarshal_base_member (rt : runtime) (m : bytes * json) (b : base) : res base :=
  let '(key, j) := m in
  if bytes_eqb key (lit "base") then
    match decode_struct rt base_tags j (new_fields base_struct) with
    | Some st => Ok (set_bFields b st)
    | None => Err (ErrOther "unable to parse base segment")
    end
  else if bytes_eqb key (lit "j1") || bytes_eqb key (lit "j2") then
    match json_list rt j with
    | Some l => unmarshal_segments rt key l b
    | None => Err (ErrOther "unable to parse segment")
    end
  else unmarshal_segment rt key j b.

(* the loop of base_segment.go:756-807 and 1273-1322 *)
Fixpoint unmarshal_base_members (rt : runtime) (l : list (bytes * json)) (b : base) : res base :=
  match l with
  | [] => Ok b
  | m :: r =>
      match unmarshal_base_member rt m b with
      | Ok b' => unmarshal_base_members rt r b'
      | e => e
      end
  end.

(* base_segment.go:749-808 and :1266-1325; [n] numbers the loop over the map *)
Definition unmarshal_base (rt : runtime) (n : nat) (j : json) (b : base) : res base :=
  match json_map rt j with
  | Some l => unmarshal_base_members rt (rtOrder rt n l) (clear_j b)
  | None => Err (ErrOther "invalid json format")
  end.

(* ---- files ---- *)

(* json.Marshal of a header, data or trailer record; file_instance.go:27-34, base_segment.go:720-746 *)
Definition encode_record (r : record) : json :=
  match r with
  | RHeader _ st => encode_struct header_tags st
  | RTrailer _ st => encode_struct trailer_tags st
  | RBase _ b => encode_base b
  end.

(* file_instance.go:26-29; [isNil]: the slice of data records is nil *)
Definition encode_file (isNil : bool) (f : file) : json :=
  JObj [(lit "header", encode_record (flHeader f));
        (lit "data", match flBases f with
                     | [] => if isNil then JNull else JArr []
                     | l => JArr (map encode_record l)
                     end);
        (lit "trailer", encode_record (flTrailer f))].

(* json.Unmarshal into an existing record; [n] as in unmarshal_base; file_instance.go:350-400 *)
Definition decode_record (rt : runtime) (n : nat) (j : json) (r : record) : res record :=
  let failed := Err (ErrOther "Unable to parse input json file") in
  match r with
  | RHeader p st =>
      match decode_struct rt header_tags j st with Some st' => Ok (RHeader p st') | None => failed end
  | RTrailer p st =>
      match decode_struct rt trailer_tags j st with Some st' => Ok (RTrailer p st') | None => failed end
  | RBase p b =>
      match unmarshal_base rt n j b with Ok b' => Ok (RBase p b') | Err _ => failed | Panic => Panic end
  end.

(* file_instance.go:376-398 *)
Fixpoint decode_data (rt : runtime) (n : nat) (l : list json) (f : file) : res file :=
  match l with
  | [] => Ok f
  | j :: r =>
      match decode_record rt n j (new_data_record (flPacked f)) with
      | Ok b => decode_data rt (S n) r (set_bases f (flBases f ++ [b]))
      | Err e => Err e
      | Panic => Panic
      end
  end.

(* one iteration of file_instance.go:350-400 *)
Definition decode_file_member (rt : runtime) (m : bytes * json) (f : file) : res file :=
  let '(name, j) := m in
  if bytes_eqb name (lit "header") then
    match decode_record rt 0 j (flHeader f) with
    | Ok r => Ok (set_header f r) | Err e => Err e | Panic => Panic
    end
  else if bytes_eqb name (lit "trailer") then
    match decode_record rt 0 j (flTrailer f) with
    | Ok r => Ok (set_trailer f r) | Err e => Err e | Panic => Panic
    end
  else if bytes_eqb name (lit "data") then
    match json_list rt j with
    | Some l => decode_data rt 1 l f
    | None => Err (ErrOther "Unable to parse input json file")
    end
  else Ok f.

(* the loop of file_instance.go:350-400 *)
Fixpoint decode_file_members (rt : runtime) (l : list (bytes * json)) (f : file) : res file :=
  match l with
  | [] => Ok f
  | m :: r =>
      match decode_file_member rt m f with
      | Ok f' => decode_file_members rt r f'
      | e => e
      end
  end.

(* file_instance.go:343-403 *)
Definition unmarshal_file (rt : runtime) (j : json) (f : file) : res file :=
  match json_map rt j with
  | Some l => decode_file_members rt (rtOrder rt 0 l) f
  | None => Err (ErrOther "json")
  end.

(* ---- NewFileFromReader ---- *)

(* file.go:40-48, headerInformation: block descriptor word, record descriptor
   word; None for a nil Header *)
Definition header_info_tags : list tag :=
  [mkTag "BlockDescriptorWord" "blockDescriptorWord" false;
   mkTag "RecordDescriptorWord" "recordDescriptorWord" false;
   mkTag "RecordIdentifier" "recordIdentifier" false].
(* file.go:40-48 *)
Definition header_info0 : fields :=
  [("BlockDescriptorWord", VInt 0); ("RecordDescriptorWord", VInt 0); ("RecordIdentifier", VStr [])].
(* file.go:40-48 *)
Definition dummy_tags : list tag := [mkTag "Header" "header" false].

(* file.go:108-112 *)
Fixpoint decode_dummy_members (rt : runtime) (l : list (bytes * json)) (h : option fields)
  : option (option fields) :=
  match l with
  | [] => Some h
  | (k, j) :: r =>
      match find_tag dummy_tags k with
      | None => decode_dummy_members rt r h
      | Some _ =>
          match j with
          | JNull => decode_dummy_members rt r None
          | _ =>
              match decode_struct rt header_info_tags j
                      (match h with Some st => st | None => header_info0 end) with
              | Some st => decode_dummy_members rt r (Some st)
              | None => None
              end
          end
      end
  end.
(* file.go:108-112 *)
Definition decode_dummy (rt : runtime) (j : json) : option (option fields) :=
  match j with
  | JObj l => decode_dummy_members rt l None
  | JNull => Some None
  | _ => None
  end.

(* file.go:114-121: whether the file is read as a packed file *)
Definition dummy_packed (h : option fields) : bool :=
  match h with
  | None => false
  | Some st =>
      if get_int "RecordDescriptorWord" st =? Z.of_nat UnpackedRecordLength then false
      else 0 <? get_int "BlockDescriptorWord" st
  end.

(* file.go:104-134, given the JSON value at the head of the text *)
Definition file_from_json (rt : runtime) (text : bytes) : res file :=
  match decode text with
  | None => Err (ErrOther "reading header")
  | Some j =>
      match decode_dummy rt j with
      | None => Err (ErrOther "reading header")
      | Some h => unmarshal_file rt j (new_file_p (dummy_packed h))
      end
  end.

(* file.go:90-97 *)
Definition looks_like_json (input : bytes) : bool :=
  existsb (fun c => byte_eqb c "{") (firstn 1024 input).

(* file.go:72-135, and CreateFile, file.go:138-141, on a reader that delivers [input] and then io.EOF; [evs] are
   the reads of the streaming reader (None: they are not enough to finish) *)
Definition new_file_from_reader (rt : runtime) (evs : list read_event) (input : bytes)
  : option (res file) :=
  match input with
  | [] => Some (Err (ErrOther "EOF"))
  | _ =>
      if looks_like_json input then Some (file_from_json rt input)
      else read_from evs input
  end.
