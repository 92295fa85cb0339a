(* pkg/lib/converters.go and pkg/lib/validators.go *)
From Coq Require Import ZArith NArith Bool Ascii String List.
Import ListNotations.
From Verif Require Import GoBase GoTime Regex Tables.
Local Open Scope Z_scope.

(* values held by struct fields; pkg/lib/base_segment.go:24-512 *)
Inductive value := VInt (z : Z) | VStr (s : bytes) | VTime (t : time).

(* reflect.Value.Kind, pkg/lib/converters.go:143-159 *)
Definition kind_of (v : value) : kind :=
  match v with VInt _ => KInt | VStr _ => KStr | VTime _ => KTime end.
(* comparison of kinds, pkg/lib/converters.go:143-159 *)
Definition kind_eqb (a b : kind) : bool :=
  match a, b with KInt, KInt | KStr, KStr | KTime, KTime => true | _, _ => false end.

(* a struct value: its exported fields in declaration order, as seen by reflect;
   pkg/lib/base_segment.go:24-512 *)
Definition fields := list (string * value).

(* Go zero values; for pkg/lib/record.go:60-96 and pkg/lib/segment.go:70-124 *)
Definition zero_value (k : kind) : value :=
  match k with KInt => VInt 0 | KStr => VStr [] | KTime => VTime zero_time end.
(* a new struct, pkg/lib/record.go:60-96 and pkg/lib/segment.go:70-124 *)
Definition new_fields (s : structure) : fields :=
  map (fun p => (fst p, zero_value (snd p))) s.

(* reflect FieldByName / map access by key; pkg/lib/converters.go:119-164 *)
Fixpoint lookup {A} (n : string) (l : list (string * A)) : option A :=
  match l with
  | [] => None
  | (k, a) :: l' => if String.eqb n k then Some a else lookup n l'
  end.

(* assignment to a field that exists; pkg/lib/converters.go:143-159 *)
Fixpoint set_field (n : string) (v : value) (st : fields) : fields :=
  match st with
  | [] => []
  | (k, a) :: st' =>
      if String.eqb n k then (k, v) :: st' else (k, a) :: set_field n v st'
  end.

(* direct field access in Go code, r.Name; the default is only reached when the
   struct does not have the field, which the structures of Tables.v rule out;
   e.g. pkg/lib/base_segment.go:942-952 *)
Definition get_int (n : string) (st : fields) : Z :=
  match lookup n st with Some (VInt z) => z | _ => 0 end.
(* likewise, e.g. pkg/lib/kn_segment.go:195-211 *)
Definition get_str (n : string) (st : fields) : bytes :=
  match lookup n st with Some (VStr s) => s | _ => [] end.
(* likewise, e.g. pkg/lib/base_segment.go:918-939 *)
Definition get_time (n : string) (st : fields) : time :=
  match lookup n st with Some (VTime t) => t | _ => zero_time end.

(* elm.Type&flag > 0; pkg/lib/converters.go:26-47 *)
Definition has (t flag : N) : bool := negb (N.eqb (N.land t flag) 0).

(* ---- converters.go: reading ---- *)

(* converters.go:167-173 *)
Definition time_from_timestamp_string (s : bytes) : res time :=
  if all_char zero_char s then Ok zero_time
  else match parse_timestamp s with Some t => Ok t | None => Err ErrTimeParse end.

(* converters.go:175-181 *)
Definition time_from_date_string (s : bytes) : res time :=
  if all_char zero_char s then Ok zero_time
  else match parse_date s with Some t => Ok t | None => Err ErrTimeParse end.

(* converters.go:183-203 (size 8, 14 digits) and 205-225 (size 5, 8 digits):
   the value is 0 unless the field is 00 .. 73; it is then formatted back to
   decimal text.  Indexing a field shorter than [size] would panic. *)
Definition packed_time_value (size : nat) (s : bytes) : res Z :=
  match s, nth_error s (size - 1) with
  | c0 :: _, Some cl =>
      if (bval c0 =? 0) && (bval cl =? 115)
      then safecast_i64 (be_val (firstn (size - 2) (skipn 1 s)))
      else Ok 0
  | _, _ => Panic
  end.

(* converters.go:183-203 *)
Definition time_from_packed_timestamp_string (s : bytes) : res time :=
  match packed_time_value 8 s with
  | Ok v => time_from_timestamp_string (fmt_0d 14 v)
  | Err e => Err e
  | Panic => Panic
  end.

(* converters.go:205-225 *)
Definition time_from_packed_date_string (s : bytes) : res time :=
  match packed_time_value 5 s with
  | Ok v => time_from_date_string (fmt_0d 8 v)
  | Err e => Err e
  | Panic => Panic
  end.

(* converters.go:227-242: Uint64 reads the first eight bytes of the zero-extended field *)
Definition packed_number_from_string (s : bytes) : res Z :=
  safecast_i64 (be_val (firstn 8 (repeat (zbyte 0) (8 - List.length s) ++ s))).

(* binary.BigEndian.Uint16, panics below two bytes *)
Definition uint16 (s : bytes) : res Z :=
  match s with
  | a :: b :: _ => Ok (256 * bval a + bval b)
  | _ => Panic
  end.

(* passing on an error, converters.go:25-55 *)
Definition res_map {A B} (f : A -> B) (r : res A) : res B :=
  match r with Ok a => Ok (f a) | Err e => Err e | Panic => Panic end.

(* converters.go:25-55 *)
Definition parse_value (elm : field) (data : bytes) (fname rname : string) : res value :=
  if has (fType elm) numeric then
    match parse_int 64 data with
    | (v, None) => Ok (VInt v)
    | (_, Some e) => Err e
    end
  else if has (fType elm) timestamp then res_map VTime (time_from_timestamp_string data)
  else if has (fType elm) date then res_map VTime (time_from_date_string data)
  else if has (fType elm) alphanumeric then Ok (VStr (trim_right data))
  else if has (fType elm) alpha then Ok (VStr (to_upper data))
  else if has (fType elm) descriptor then res_map VInt (uint16 data)
  else if has (fType elm) packedTimestamp then res_map VTime (time_from_packed_timestamp_string data)
  else if has (fType elm) packedDate then res_map VTime (time_from_packed_date_string data)
  else if has (fType elm) packedNumber then res_map VInt (packed_number_from_string data)
  else Err (ErrInvalidValueOfField fname rname).

(* ---- converters.go: writing ---- *)

(* converters.go:57-62 *)
Definition fill_string (elm : field) : bytes :=
  if has (fType elm) zeroFill then repeat zero_char (fLength elm)
  else repeat blank_char (fLength elm).

(* fmt.Sprintf("%v", x) on an integer or string field; time values are never
   written through this verb (type mismatch between layout and struct, excluded
   by [to_string_panics] and the table checks); converters.go:74 *)
Definition fmt_v (v : value) : bytes :=
  match v with VInt z => itoa z | VStr s => s | VTime _ => [] end.

(* converters.go:244-273; [txt] is time.Format with the given layout *)
Definition packed_time_string (v : value) (format : time -> bytes) (size : nat) : bytes :=
  let n := match v with VTime t => fst (parse_int 64 (format t)) | _ => 0 end in
  if 0 <? n then zbyte 0 :: be_bytes (size - 2) n ++ [zbyte 115]
  else repeat (zbyte 0) size.

(* converters.go:275-294 *)
Definition packed_number_string (z : Z) (len : nat) : bytes :=
  if 0 <? z then be_bytes len z else repeat (zbyte 0) len.

(* converters.go:296-303 *)
Definition descriptor_string (z : Z) : bytes :=
  be_bytes 2 (safecast_u16 z) ++ [zbyte 0; zbyte 0].

(* reflect.Value.Int, converters.go:68, 278, 299 *)
Definition int_of (v : value) : Z := match v with VInt z => z | _ => 0 end.

(* converters.go:64-102; [None] is the invalid reflect.Value *)
Definition to_string (elm : field) (data : option value) : bytes :=
  match data with
  | None => fill_string elm
  | Some v =>
      if has (fType elm) omitted && (int_of v =? 0) then []
      else if has (fType elm) numeric then fmt_zero_pad (fLength elm) (fmt_v v)
      else if has (fType elm) timestamp then
        match v with
        | VTime t => if is_zero t then repeat zero_char (fLength elm) else format_timestamp t
        | _ => repeat zero_char (fLength elm)
        end
      else if has (fType elm) date then
        match v with
        | VTime t => if is_zero t then repeat zero_char (fLength elm) else format_date t
        | _ => repeat zero_char (fLength elm)
        end
      else if has (fType elm) alphanumeric || has (fType elm) alpha then
        fmt_left (fLength elm) (fmt_v v)
      else if has (fType elm) descriptor then descriptor_string (int_of v)
      else if has (fType elm) packedTimestamp then packed_time_string v format_timestamp 8
      else if has (fType elm) packedDate then packed_time_string v format_date 5
      else if has (fType elm) packedNumber then packed_number_string (int_of v) (fLength elm)
      else fill_string elm
  end.

(* the run-time panics of toString: the type assertion to int of an omitted
   field (converters.go:68) and reflect.Value.Int on a non-integer
   (converters.go:278,299) *)
Definition to_string_panics (elm : field) (data : option value) : bool :=
  match data with
  | None => false
  | Some v =>
      let int := match v with VInt _ => true | _ => false end in
      if has (fType elm) omitted && negb int then true
      else if has (fType elm) omitted && (int_of v =? 0) then false
      else if has (fType elm) numeric || has (fType elm) timestamp || has (fType elm) date
              || has (fType elm) alphanumeric || has (fType elm) alpha then false
      else if has (fType elm) descriptor then negb int
      else if has (fType elm) packedTimestamp || has (fType elm) packedDate then false
      else if has (fType elm) packedNumber then negb int
      else false
  end.

(* order used by converters.go:109-114 *)
Definition spec_le (a b : string * field) : bool :=
  if Nat.eqb (fStart (snd a)) (fStart (snd b))
  then match String.compare (fst a) (fst b) with Gt => false | _ => true end
  else Nat.ltb (fStart (snd a)) (fStart (snd b)).

(* one step of the sort of converters.go:109-114 *)
Fixpoint insert_spec (x : string * field) (l : layout) : layout :=
  match l with
  | [] => [x]
  | y :: l' => if spec_le x y then x :: l else y :: insert_spec x l'
  end.

(* converters.go:104-116; sort.Slice is modelled by insertion sort *)
Fixpoint to_specifications (l : layout) : layout :=
  match l with
  | [] => []
  | x :: l' => insert_spec x (to_specifications l')
  end.

(* the loop "for _, spec := range specifications { buf.WriteString(...) }"
   shared by every String method, e.g. base_segment.go:579-588 *)
Definition write_fields (l : layout) (st : fields) : bytes :=
  flat_map (fun p => to_string (snd p) (lookup (fst p) st)) (to_specifications l).

(* ---- validators.go ---- *)

(* validators.go:116-127 *)
Definition valid_filled_string (s : bytes) : bool :=
  all_char zero_char s || all_char nine_char s || all_char blank_char s.

(* validators.go:47-79; None means no error *)
Definition is_valid_type (elm : field) (data : bytes) (fname rname : string) : option error :=
  let missing :=
    match fRequired elm with
    | required =>
        if has (fType elm) numeric then fst (atoi data) =? 0
        else if has (fType elm) alphanumeric || has (fType elm) alpha || has (fType elm) descriptor
        then Nat.eqb (List.length data) 0
        else if has (fType elm) timestamp || has (fType elm) date
        then valid_filled_string data && Nat.eqb (List.length data) (fLength elm)
        else false
    | _ => false
    end in
  if missing then Some (ErrFieldRequired fname rname)
  else if has (fType elm) numeric then
    if numeric_regex data then None else Some (ErrNumeric fname rname)
  else if has (fType elm) alphanumeric then
    if alphanumeric_regex data then Some (ErrNonAlphanumeric fname rname) else None
  else if has (fType elm) alpha then
    if upper_alphanumeric_regex data then Some (ErrUpperAlpha fname rname) else None
  else if has (fType elm) descriptor || has (fType elm) packedDate || has (fType elm) packedNumber
          || has (fType elm) packedTimestamp || has (fType elm) timestamp || has (fType elm) date
  then None
  else Some (ErrInvalidValueOfField fname rname).

(* validators.go:39-45 *)
Definition is_phone_number (number : Z) (rname : string) : option error :=
  if matches phone_regex (fmt_0d 10 number) then None else Some (ErrPhoneNumber rname).

(* reflect.Value.IsZero; validators.go:86-114 *)
Definition value_is_zero (v : value) : bool :=
  match v with
  | VInt z => z =? 0
  | VStr s => match s with [] => true | _ => false end
  | VTime t => struct_is_zero t
  end.

(* the methods named Validate<Field> of a record type;
   looked up by name, validators.go:81-83 and 86-114 *)
Definition validators (A : Type) := list (string * (A -> option error)).

(* validators.go:86-114, the loop over struct fields; also written out in
   base_segment.go:1124-1152, header_record.go:275-290, trailer_record.go:314-329.
   [st] are the fields, [r] the receiver passed to the methods. *)
Fixpoint validate_fields {A} (r : A) (l : layout) (vs : validators A) (rname : string)
    (st : fields) : option error :=
  match st with
  | [] => None
  | (n, v) :: st' =>
      let missing :=
        match lookup n l with
        | Some f => match fRequired f with required => value_is_zero v | _ => false end
        | None => false
        end in
      if missing then Some (ErrFieldRequired n rname)
      else
        match match lookup n vs with Some m => m r | None => None end with
        | Some e => Some e
        | None => validate_fields r l vs rname st'
        end
  end.

(* ---- reading records ---- *)

(* treatment of the BlockDescriptorWord field by the different Parse loops;
   converters.go:119-164, base_segment.go:1002-1043, header_record.go:194-237, trailer_record.go:253-283 *)
Inductive bdw_policy :=
| BdwSkip    (* converters.go:147-150, not variable length: the value is dropped *)
| BdwShift   (* the value is set and later fields are read 4 bytes further *)
| BdwError   (* base_segment.go:1031-1034, header_record.go:223-226 *)
| BdwPlain.  (* trailer_record.go:275-282: no special case *)

(* reflect SetInt / SetString / Set: panics when the kinds differ; converters.go:143-159 *)
Definition can_assign (n : string) (v : value) (st : fields) : bool :=
  match lookup n st with Some w => kind_eqb (kind_of v) (kind_of w) | None => false end.

(* converters.go:119-164; base_segment.go:1002-1043, header_record.go:194-237 and
   trailer_record.go:253-283 are the same loop with the policies above.
   [chk] is the length check made before slicing (absent in
   trailer_record.go:253-283).  Fields already set stay set when an error occurs. *)
Fixpoint parse_fields (pol : bdw_policy) (chk : bool) (l : layout) (rname : string)
    (record : bytes) (names : list string) (offset : nat) (st : fields) : fields * res unit :=
  match names with
  | [] => (st, Ok tt)
  | n :: names' =>
      match lookup n l with
      | None => (st, Err (ErrInvalidValueOfField n rname))
      | Some f =>
          if chk && Nat.ltb (List.length record) (fStart f + fLength f + offset)
          then (st, Err (ErrSegmentLength rname))
          else
            match slice record (fStart f + offset) (fStart f + fLength f + offset) with
            | None => (st, Panic)
            | Some data =>
                match is_valid_type f data n rname with
                | Some e => (st, Err e)
                | None =>
                    match parse_value f data n rname with
                    | Err e => (st, Err e)
                    | Panic => (st, Panic)
                    | Ok v =>
                        let continue off :=
                          if can_assign n v st
                          then parse_fields pol chk l rname record names' off (set_field n v st)
                          else (st, Panic) in
                        match v with
                        | VInt _ =>
                            if String.eqb n "BlockDescriptorWord" then
                              match pol with
                              | BdwSkip => parse_fields pol chk l rname record names' offset st
                              | BdwShift => continue (offset + 4)%nat
                              | BdwError => (st, Err ErrBlockDescriptorWord)
                              | BdwPlain => continue offset
                              end
                            else continue offset
                        | _ => continue offset
                        end
                    end
                end
            end
      end
  end.
