(* pkg/file/file_instance.go and NewFile of pkg/file/file.go *)
From Coq Require Import ZArith NArith Bool Ascii String List.
Import ListNotations.
From Verif Require Import GoBase GoTime Regex Tables Codec Records.
Local Open Scope string_scope.
Local Open Scope Z_scope.
Local Open Scope list_scope.
Local Notation length := List.length.

(* file_instance.go:27-34; the format string is "packed" or "character" *)
Record file := mkFile {
  flPacked : bool;
  flHeader : record;
  flBases : list record;
  flTrailer : record }.

(* utils/constants.go; utils/constants.go:9 and 11; GetType, file_instance.go:406-408 *)
Definition format_name (packed : bool) : bytes :=
  if packed then lit "packed" else lit "character".

(* file.go:51-69 *)
Definition new_file (format : bytes) : res file :=
  if bytes_eqb format (lit "character")
  then Ok (mkFile false (RHeader false new_header) [] (RTrailer false new_trailer))
  else if bytes_eqb format (lit "packed")
  then Ok (mkFile true (RHeader true new_header) [] (RTrailer true new_trailer))
  else Err (ErrInvalidSegment format).

(* file.go:51-69 with a known format *)
Definition new_file_p (packed : bool) : file :=
  mkFile packed (RHeader packed new_header) [] (RTrailer packed new_trailer).

(* assignment to the field of file_instance.go:27-34 *)
Definition set_header (f : file) (r : record) : file :=
  mkFile (flPacked f) r (flBases f) (flTrailer f).
(* assignment to the field of file_instance.go:27-34; it is read by GetDataRecords, file_instance.go:87-89 *)
Definition set_bases (f : file) (l : list record) : file :=
  mkFile (flPacked f) (flHeader f) l (flTrailer f).
(* assignment to the field of file_instance.go:27-34 *)
Definition set_trailer (f : file) (r : record) : file :=
  mkFile (flPacked f) (flHeader f) (flBases f) r.

(* file_instance.go:37-54 *)
Definition file_set_record (f : file) (r : record) : file * option error :=
  match record_validate r with
  | Some e => (f, Some e)
  | None =>
      if (flPacked f && String.eqb (record_name r) "headerPacked")
         || (negb (flPacked f) && String.eqb (record_name r) "header")
      then (set_header f r, None)
      else if (flPacked f && String.eqb (record_name r) "trailerPacked")
         || (negb (flPacked f) && String.eqb (record_name r) "trailer")
      then (set_trailer f r, None)
      else (f, Some (ErrInvalidRecord (lit (record_name r))))
  end.

(* file_instance.go:57-72 *)
Definition file_add_data_record (f : file) (r : record) : file * option error :=
  match record_validate r with
  | Some e => (f, Some e)
  | None =>
      if flPacked f && String.eqb (record_name r) "basePacked"
      then (set_bases f (flBases f ++ [r]), None)
      else if negb (flPacked f) && String.eqb (record_name r) "base"
      then (set_bases f (flBases f ++ [r]), None)
      else (f, Some (ErrInvalidRecord (lit (record_name r))))
  end.

(* file_instance.go:75-84 *)
Definition file_get_record (f : file) (name : bytes) : res record :=
  if bytes_eqb name (lit "header") then Ok (flHeader f)
  else if bytes_eqb name (lit "trailer") then Ok (flTrailer f)
  else Err (ErrInvalidRecord name).

(* ---- trailer generation ---- *)

(* file_instance.go:559-608: the counter that an account status increments *)
Definition status_counter (status : bytes) : list string :=
  let c s n := (lit s, n) in
  match find (fun p => bytes_eqb status (fst p))
    [ c "DF" "TotalStatusCodeDF"; c "DA" "TotalStatusCodeDA"; c "05" "TotalStatusCode05";
      c "11" "TotalStatusCode11"; c "13" "TotalStatusCode13"; c "61" "TotalStatusCode61";
      c "62" "TotalStatusCode62"; c "63" "TotalStatusCode63"; c "64" "TotalStatusCode64";
      c "65" "TotalStatusCode65"; c "71" "TotalStatusCode71"; c "78" "TotalStatusCode78";
      c "80" "TotalStatusCode80"; c "82" "TotalStatusCode82"; c "83" "TotalStatusCode83";
      c "84" "TotalStatusCode84"; c "88" "TotalStatusCode88"; c "89" "TotalStatusCode89";
      c "93" "TotalStatusCode93"; c "94" "TotalStatusCode94"; c "95" "TotalStatusCode95";
      c "96" "TotalStatusCode96"; c "97" "TotalStatusCode97" ] with
  | Some (_, n) => [n]
  | None => []
  end.

(* file_instance.go:836-842 *)
Definition is_valid_ssn (ssn : Z) : bool := negb ((ssn <=? 0) || (999999999 <=? ssn)).

(* an if around increments, file_instance.go:559-834 *)
Definition when (b : bool) (l : list string) : list string := if b then l else [].

(* file_instance.go:611-636 and 637-662 (packed), 724-749 and 750-775 (character):
   counters incremented for one J1 / J2 segment *)
Definition j_counters (total ssn birth : string) (s : segment) : list string :=
  let st := sFields s in
  when (bytes_eqb (get_str "ECOACode" st) (lit "Z")) ["TotalECOACodeZ"]
  ++ match seg_validate s with
     | Some _ => []
     | None =>
         [total]
         ++ when (is_valid_ssn (get_int "SocialSecurityNumber" st))
              ["TotalSocialNumbersAllSegments"; ssn]
         ++ when (negb (is_zero (get_time "DateBirth" st))) ["TotalDatesBirthAllSegments"; birth]
         ++ when (0 <? get_int "TelephoneNumber" st) ["TotalTelephoneNumbersAllSegments"]
     end.

(* file_instance.go:610-721 (packed) and 723-834 (character), the same code twice *)
Definition segment_counters (b : base) : list string :=
  flat_map (j_counters "TotalConsumerSegmentsJ1" "TotalSocialNumbersJ1Segments"
              "TotalDatesBirthJ1Segments") (segs_of J1 b)
  ++ flat_map (j_counters "TotalConsumerSegmentsJ2" "TotalSocialNumbersJ2Segments"
              "TotalDatesBirthJ2Segments") (segs_of J2 b)
  ++ flat_map (fun s => when (Nat.ltb 0 (length (get_str "OriginalCreditorName" (sFields s))))
                          ["TotalOriginalCreditorSegments"]) (segs_of K1 b)
  ++ flat_map (fun s => when (one_of_int (get_int "PurchasedIndicator" (sFields s)) [2; 1])
                          ["TotalPurchasedToSegments"]) (segs_of K2 b)
  ++ flat_map (fun s => when (get_int "AgencyIdentifier" (sFields s) =? 0)
                          ["TotalMortgageInformationSegments"]) (segs_of K3 b)
  ++ flat_map (fun s => when (one_of_int (get_int "SpecializedPaymentIndicator" (sFields s)) [1; 2])
                          ["TotalPaymentInformationSegments"]) (segs_of K4 b)
  ++ flat_map (fun s => when (one_of_int (get_int "ChangeIndicator" (sFields s)) [1; 2; 3])
                          ["TotalChangeSegments"]) (segs_of L1 b)
  ++ flat_map (fun s => when (Nat.ltb 0 (length (get_str "EmployerName" (sFields s))))
                          ["TotalEmploymentSegments"]) (segs_of N1 b).

(* body of the loop in generatorTrailer, file_instance.go:495-519, and
   generatorPackedTrailer, 528-554: the counters incremented for one data record *)
Definition base_counters (b : base) : list string :=
  let st := bFields b in
  when (is_valid_ssn (get_int "SocialSecurityNumber" st))
    ["TotalSocialNumbersAllSegments"; "TotalSocialNumbersBaseSegments"]
  ++ when (negb (is_zero (get_time "DateBirth" st)))
    ["TotalDatesBirthAllSegments"; "TotalDatesBirthBaseSegments"]
  ++ when (bytes_eqb (get_str "ECOACode" st) (lit "Z")) ["TotalECOACodeZ"]
  ++ when (0 <? get_int "TelephoneNumber" st) ["TotalTelephoneNumbersAllSegments"]
  ++ status_counter (get_str "AccountStatus" st)
  ++ segment_counters b.

(* trailer.Field++; file_instance.go:559-834 *)
Definition incr (st : fields) (n : string) : fields := set_field n (VInt (get_int n st + 1)) st.

(* generatorTrailer / generatorPackedTrailer, file_instance.go:490-557.  A data
   record of the other format makes the type assertion fail; the code then calls
   Validate on a nil pointer, which panics. *)
Definition generate_information (packed : bool) (bases : list record) : res fields :=
  let n := Z.of_nat (length bases) in
  let start := set_field "BlockCount" (VInt (n + 2))
                 (set_field "TotalBaseRecords" (VInt n) (new_fields trailer_struct)) in
  fold_left (fun acc r =>
    match acc with
    | Ok st =>
        match r with
        | RBase p b => if Bool.eqb p packed then Ok (fold_left incr (base_counters b) st) else Panic
        | _ => Panic
        end
    | x => x
    end) bases (Ok start).

(* GeneratorTrailer, file_instance.go:92-135 *)
Definition file_generate_trailer (f : file) : res record :=
  match generate_information (flPacked f) (flBases f) with
  | Ok info =>
      let size := Z.of_nat (if flPacked f then PackedRecordLength else UnpackedRecordLength) in
      Ok (RTrailer (flPacked f)
            (set_field "RecordIdentifier" (VStr (lit "TRAILER"))
               (set_field "RecordDescriptorWord" (VInt size) info)))
  | Err e => Err e
  | Panic => Panic
  end.

(* ---- Validate ---- *)

(* the fields reflect sees, file_instance.go:175-197 *)
Definition record_fields (r : record) : fields :=
  match r with RHeader _ st => st | RBase _ b => bFields b | RTrailer _ st => st end.

(* comparison of one field, file_instance.go:190-196: integers and strings *)
Definition value_eqb (a b : value) : bool :=
  match a, b with
  | VInt x, VInt y => x =? y
  | VStr x, VStr y => bytes_eqb x y
  | _, _ => false
  end.

(* file_instance.go:176-197 *)
Fixpoint compare_information (info trailer : fields) : option error :=
  match info with
  | [] => None
  | (n, v) :: info' =>
      if existsb (String.eqb n) ["BlockDescriptorWord"; "RecordDescriptorWord"; "RecordIdentifier"]
      then compare_information info' trailer
      else
        match lookup n trailer with
        | None => Some (ErrInvalidValueOfField n "trailer record")
        | Some w => if value_eqb v w then compare_information info' trailer
                    else Some (ErrInvalidValueOfField n "trailer record")
        end
  end.

(* the loop of file_instance.go:155-160 *)
Fixpoint first_error {A} (g : A -> option error) (l : list A) : option error :=
  match l with
  | [] => None
  | x :: l' => match g x with Some e => Some e | None => first_error g l' end
  end.

(* file_instance.go:138-199 *)
Definition file_validate (f : file) : res unit :=
  match record_validate (flHeader f) with
  | Some e => Err e
  | None =>
  match record_validate (flTrailer f) with
  | Some e => Err e
  | None =>
  match first_error record_validate (flBases f) with
  | Some e => Err e
  | None =>
  match generate_information (flPacked f) (flBases f) with
  | Err e => Err e
  | Panic => Panic
  | Ok info =>
      match compare_information info (record_fields (flTrailer f)) with
      | Some e => Err e
      | None => Ok tt
      end
  end end end end.

(* ---- Parse ---- *)

(* file_instance.go:206 *)
Definition is_crlf (c : byte) : bool := byte_eqb c cr_char || byte_eqb c lf_char.

(* slices.DeleteFunc, file_instance.go:205-207 *)
Definition strip (s : bytes) : bytes := filter (fun c => negb (is_crlf c)) s.

(* contents of the caller's slice after slices.DeleteFunc: the kept bytes, then
   zeroed tail; file_instance.go:205-207 *)
Definition delete_func_buffer (s : bytes) : bytes :=
  strip s ++ repeat (zbyte 0) (length s - length (strip s)).

(* how the loop of file_instance.go:220-238 ends *)
Inductive loop_result :=
| LBreak (bases : list record) (offset : Z)     (* a data record failed to parse: break *)
| LReturn (bases : list record) (e : error)     (* return from Parse *)
| LPanic
| LFuel.                                        (* not finished within the fuel *)

(* file_instance.go:221-226 *)
Definition new_data_record (packed : bool) : record := RBase packed new_base.

(* the loop of file_instance.go:220-241 *)
Fixpoint parse_loop (fuel : nat) (packed : bool) (record : bytes) (isVariableLength : bool)
    (offset : Z) (bases : list Records.record) : loop_result :=
  match fuel with
  | O => LFuel
  | S fuel' =>
      if (offset <=? 0) || (Z.of_nat (length record) <=? offset)
      then LReturn bases (ErrSegmentLength "base record")
      else
        match record_parse (new_data_record packed) (skipn (Z.to_nat offset) record)
                isVariableLength with
        | (_, Err _) => LBreak bases offset
        | (_, Panic) => LPanic
        | (b, Ok read) =>
            parse_loop fuel' packed record isVariableLength (offset + read) (bases ++ [b])
        end
  end.

(* file_instance.go:202-255; None: still running when the fuel is used up *)
Definition file_parse (fuel : nat) (f : file) (input : bytes) (isVariableLength : bool)
    : option (file * res unit) :=
  let record := strip input in
  let f0 := set_bases f [] in
  match record_parse (flHeader f0) record isVariableLength with
  | (h, Err e) => Some (set_header f0 h, Err e)
  | (h, Panic) => Some (set_header f0 h, Panic)
  | (h, Ok head) =>
      let f1 := set_header f0 h in
      match parse_loop fuel (flPacked f) record isVariableLength head [] with
      | LFuel => None
      | LPanic => Some (f1, Panic)
      | LReturn bs e => Some (set_bases f1 bs, Err e)
      | LBreak bs offset =>
          let f2 := set_bases f1 bs in
          if (offset <=? 0) || (Z.of_nat (length record) <=? offset)
          then Some (f2, Err (ErrSegmentLength "trailer record"))
          else
            match record_parse (flTrailer f2) (skipn (Z.to_nat offset) record) isVariableLength with
            | (t, Err e) => Some (set_trailer f2 t, Err e)
            | (t, Panic) => Some (set_trailer f2 t, Panic)
            | (t, Ok tread) =>
                let f3 := set_trailer f2 t in
                if offset + tread =? Z.of_nat (length record) then Some (f3, Ok tt)
                else Some (f3, Err ErrFailedParsing)
            end
      end
  end.

(* ---- String ---- *)

(* file_instance.go:269-335; Bytes, file_instance.go:338-340, is String with line breaks left out *)
Definition newline (isNewLine : bool) : bytes := if isNewLine then [lf_char] else [].

(* file_instance.go:284-291: pages of at most pageSize records; the fuel is the
   number of records, each page takes at least one when pageSize > 0 *)
Fixpoint pages (fuel pageSize : nat) (l : list record) : list (list record) :=
  match fuel with
  | O => []
  | S fuel' =>
      match l with
      | [] => []
      | _ => firstn pageSize l :: pages fuel' pageSize (skipn pageSize l)
      end
  end.

(* file_instance.go:283: ceil of the quotient (exact arithmetic; see DESIGN.md) *)
Definition page_size (n : nat) (goroutines : Z) : nat :=
  Z.to_nat ((Z.of_nat n + goroutines - 1) / goroutines).

(* the text one goroutine produces for its page, file_instance.go:306-314 *)
Definition page_text (isNewLine : bool) (page : list record) : bytes :=
  flat_map (fun r => record_string r ++ newline isNewLine) page.

(* file_instance.go:269-335 *)
Definition concurrent_string (f : file) (isNewLine : bool) (goroutines : Z) : bytes :=
  let g := if goroutines <? 1 then 1 else goroutines in
  let header := record_string (flHeader f) ++ newline isNewLine in
  let ps := pages (length (flBases f)) (page_size (length (flBases f)) g) (flBases f) in
  let dataPages := map (page_text isNewLine) ps in
  header ++ List.concat dataPages ++ record_string (flTrailer f).

(* ---- SetType ---- *)

(* conversions such as lib.HeaderRecord( *rec ), file_instance.go:420-486 *)
Definition convert_bases (packed : bool) (l : list record) : option (list record) :=
  fold_right (fun r acc =>
    match r, acc with
    | RBase p b, Some l' => if Bool.eqb p (negb packed) then Some (RBase packed b :: l') else None
    | _, _ => None
    end) (Some []) l.

(* file_instance.go:411-488 *)
Definition file_set_type (f : file) (newType : bytes) : file * option error :=
  if negb (bytes_eqb newType (lit "character")) && negb (bytes_eqb newType (lit "packed"))
  then (f, Some (ErrOther "invalid type"))
  else if bytes_eqb (format_name (flPacked f)) newType then (f, None)
  else
    let p := bytes_eqb newType (lit "packed") in
    match flHeader f with
    | RHeader hp st =>
        if negb (Bool.eqb hp (negb p)) then (f, Some (ErrOther "unexpected header")) else
        let f1 := set_header f (RHeader p st) in
        match convert_bases p (flBases f1) with
        | None => (f1, Some (ErrOther "unexpected base"))
        | Some bs =>
            let f2 := set_bases f1 bs in
            match flTrailer f2 with
            | RTrailer tp st' =>
                if negb (Bool.eqb tp (negb p)) then (f2, Some (ErrOther "unexpected trailer")) else
                (mkFile p (flHeader f2) (flBases f2) (RTrailer p st'), None)
            | _ => (f2, Some (ErrOther "unexpected trailer"))
            end
        end
    | _ => (f, Some (ErrOther "unexpected header"))
    end.
