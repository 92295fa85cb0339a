(* Segments and records of pkg/lib: header_record.go, trailer_record.go,
   base_segment.go, j1_segment.go, j2_segment.go, kn_segment.go, l1_segment.go,
   n1_segment.go, segment.go, record.go *)
From Coq Require Import ZArith NArith Bool Ascii String List.
Import ListNotations.
From Verif Require Import GoBase GoTime Regex Tables Codec.
Local Open Scope string_scope.
Local Open Scope Z_scope.
Local Open Scope list_scope.
Local Notation length := List.length.

(* record.go:22-24 *)
Definition UnpackedRecordLength : nat := 426.
(* record.go:21-24 *)
Definition PackedRecordLength : nat := 366.
(* record.go:31 *)
Definition maxRecordPad : Z := 65535.

(* record.go:53-58 *)
Definition clampedBlockSize (requested : Z) : Z :=
  if (requested <=? 0) || (maxRecordPad <? requested) then 0 else requested.

(* the padding at the end of the String methods, e.g. base_segment.go:617-619:
   [buf] is what has been written so far *)
Definition pad_block (blockSize : Z) (buf : bytes) : bytes :=
  buf ++ repeat blank_char (Z.to_nat (blockSize - Z.of_nat (length buf))).

(* ================= applicable segments ================= *)

(* segment.go:35-50 *)
Inductive segkind := J1 | J2 | K1 | K2 | K3 | K4 | L1 | N1.

(* the Segment interface, segment.go:8, and the types of j1_segment.go, j2_segment.go, kn_segment.go, l1_segment.go, n1_segment.go *)
Record segment := mkSegment { sKind : segkind; sFields : fields }.

(* segment.go:36-50, segment names *)
Definition seg_name (k : segkind) : string :=
  match k with
  | J1 => "j1" | J2 => "j2" | K1 => "k1" | K2 => "k2"
  | K3 => "k3" | K4 => "k4" | L1 => "l1" | N1 => "n1"
  end.

(* segment.go:53-67, segment identifiers *)
Definition seg_identifier (k : segkind) : string :=
  match k with
  | J1 => "J1" | J2 => "J2" | K1 => "K1" | K2 => "K2"
  | K3 => "K3" | K4 => "K4" | L1 => "L1" | N1 => "N1"
  end.

(* segment.go:17-33, segment lengths; Length: j1_segment.go:154-156, j2_segment.go:210-212,
   kn_segment.go:109-111, 190-192, 283-285, 377-379, l1_segment.go:87-89, n1_segment.go:90-92 *)
Definition seg_length (k : segkind) : nat :=
  match k with
  | J1 => 100 | J2 => 200 | K1 => 34 | K2 => 34
  | K3 => 40 | K4 => 30 | L1 => 54 | N1 => 146
  end.

(* record name used in error messages, e.g. j1_segment.go:117 *)
Definition seg_rname (k : segkind) : string :=
  match k with
  | J1 => "j1 segment" | J2 => "j2 segment" | K1 => "k1 segment" | K2 => "k2 segment"
  | K3 => "k3 segment" | K4 => "k4 segment" | L1 => "l1 segment" | N1 => "n1 segment"
  end.

(* the layouts given to the Parse and String methods: j1_segment.go:115-141, j2_segment.go:171-197, kn_segment.go:70-96, 151-177, 244-275, 338-369, l1_segment.go:48-74, n1_segment.go:51-77 *)
Definition seg_layout (k : segkind) : layout :=
  match k with
  | J1 => j1SegmentFormat | J2 => j2SegmentFormat
  | K1 => k1SegmentFormat | K2 => k2SegmentFormat
  | K3 => k3SegmentFormat | K4 => k4SegmentFormat
  | L1 => l1SegmentFormat | N1 => n1SegmentFormat
  end.

(* the struct types: j1_segment.go, j2_segment.go, kn_segment.go, l1_segment.go, n1_segment.go; Name: j1_segment.go:110-112, j2_segment.go:166-168, kn_segment.go:65-67, 146-148, 239-241, 333-335, l1_segment.go:43-45, n1_segment.go:46-48 *)
Definition seg_struct (k : segkind) : structure :=
  match k with
  | J1 => j1_struct | J2 => j2_struct | K1 => k1_struct | K2 => k2_struct
  | K3 => k3_struct | K4 => k4_struct | L1 => l1_struct | N1 => n1_struct
  end.

(* segment.go:70-124, NewJ1Segment .. NewN1Segment *)
Definition new_segment (k : segkind) : segment :=
  mkSegment k (set_field "SegmentIdentifier" (VStr (lit (seg_identifier k)))
                 (new_fields (seg_struct k))).

(* ---- Validate methods of the segments ---- *)

(* utils/errors.go:56-58, returned by the Validate methods *)
Definition invalid (f r : string) : option error := Some (ErrInvalidValueOfField f r).

(* a switch on an integer with constant cases, e.g. base_segment.go:942-952 *)
Definition one_of_int (z : Z) (l : list Z) : bool := existsb (Z.eqb z) l.

(* j1_segment.go:159-166, j2_segment.go:215-222 *)
Definition validate_generation_code (rname : string) (st : fields) : option error :=
  if one_of (get_str "GenerationCode" st) ["J"; "S"; "2"; "3"; "4"; "5"; "6"; "7"; "8"; "9"; ""]
  then None else invalid "generation code" rname.

(* j1_segment.go:169-174, j2_segment.go:225-230, base_segment.go:909-914 and 1423-1428 *)
Definition validate_telephone (rname : string) (st : fields) : option error :=
  is_phone_number (get_int "TelephoneNumber" st) rname.

(* both social security number and date of birth absent;
   j1_segment.go:177-190, j2_segment.go:253-274, base_segment.go:918-939 *)
Definition no_ssn_no_birth (st : fields) : bool :=
  (get_int "SocialSecurityNumber" st =? 0) && is_zero (get_time "DateBirth" st).

(* j1_segment.go:177-190 *)
Definition j1_validate_ssn (fname : string) (st : fields) : option error :=
  if no_ssn_no_birth st then invalid fname "base segment" else None.

(* j1_segment.go:159-190 *)
Definition j1_validators : validators fields :=
  [ ("GenerationCode", validate_generation_code "j1 segment");
    ("TelephoneNumber", validate_telephone "j1 segment");
    ("SocialSecurityNumber", j1_validate_ssn "social security number");
    ("DateBirth", j1_validate_ssn "date birth") ].

(* j2_segment.go:253-274 *)
Definition j2_validate_ssn (fname : string) (st : fields) : option error :=
  if no_ssn_no_birth st then
    if bytes_eqb (to_upper (get_str "ECOACode" st)) (lit "W") then None
    else invalid fname "base segment"
  else None.

(* j2_segment.go:233-241 *)
Definition j2_validate_address_indicator (st : fields) : option error :=
  if one_of (get_str "AddressIndicator" st)
       ["C"; "Y"; "N"; "M"; "S"; "B"; "U"; "D"; "P"; " "; ""]
  then None else invalid "address indicator" "j2 segment".

(* j2_segment.go:244-250 *)
Definition j2_validate_residence_code (st : fields) : option error :=
  if one_of (get_str "ResidenceCode" st) ["O"; "R"; " "; ""]
  then None else invalid "residence code" "j2 segment".

(* j2_segment.go:215-274 *)
Definition j2_validators : validators fields :=
  [ ("GenerationCode", validate_generation_code "j2 segment");
    ("TelephoneNumber", validate_telephone "j2 segment");
    ("AddressIndicator", j2_validate_address_indicator);
    ("ResidenceCode", j2_validate_residence_code);
    ("SocialSecurityNumber", j2_validate_ssn "social security number");
    ("DateBirth", j2_validate_ssn "date birth") ].

(* kn_segment.go:114-124 *)
Definition k1_validators : validators fields :=
  [ ("CreditorClassification", fun st =>
       if one_of_int (get_int "CreditorClassification" st)
            [1; 2; 3; 4; 5; 6; 7; 8; 9; 10; 11; 12; 13; 14; 15]
       then None else invalid "creditor classification" "k1 segment") ].

(* kn_segment.go:195-211 *)
Definition k2_validators : validators fields :=
  [ ("PurchasedIndicator", fun st =>
       if one_of_int (get_int "PurchasedIndicator" st) [1; 2; 9]
       then None else invalid "purchased indicator" "k2 segment");
    ("PurchasedName", fun st =>
       if (get_int "PurchasedIndicator" st =? 9)
          && negb (valid_filled_string (get_str "PurchasedName" st))
       then invalid "purchased name" "k2 segment" else None) ].

(* kn_segment.go:288-304 *)
Definition k3_validators : validators fields :=
  [ ("AgencyIdentifier", fun st =>
       if one_of_int (get_int "AgencyIdentifier" st) [0; 1; 2]
       then None else invalid "agency identifier" "k3 segment");
    ("AccountNumber", fun st =>
       if (get_int "AgencyIdentifier" st =? 0)
          && negb (valid_filled_string (get_str "AccountNumber" st))
       then invalid "account number" "k3 segment" else None) ].

(* kn_segment.go:382-388 *)
Definition k4_validators : validators fields :=
  [ ("SpecializedPaymentIndicator", fun st =>
       if one_of_int (get_int "SpecializedPaymentIndicator" st) [1; 2]
       then None else invalid "specialized payment indicator" "k4 segment") ].

(* l1_segment.go:91-118 *)
Definition l1_validators : validators fields :=
  [ ("ChangeIndicator", fun st =>
       if one_of_int (get_int "ChangeIndicator" st) [1; 2; 3]
       then None else invalid "change indicator" "l1 segment");
    ("NewConsumerAccountNumber", fun st =>
       if (get_int "ChangeIndicator" st =? 2)
          && negb (valid_filled_string (get_str "NewConsumerAccountNumber" st))
       then invalid "new consumer account number" "l1 segment" else None);
    ("NewIdentificationNumber", fun st =>
       if (get_int "ChangeIndicator" st =? 1)
          && negb (valid_filled_string (get_str "NewIdentificationNumber" st))
       then invalid "new identification number" "l1 segment" else None) ].

(* n1_segment.go has no Validate<Field> method *)
Definition seg_validators (k : segkind) : validators fields :=
  match k with
  | J1 => j1_validators | J2 => j2_validators | K1 => k1_validators | K2 => k2_validators
  | K3 => k3_validators | K4 => k4_validators | L1 => l1_validators | N1 => []
  end.

(* Validate: j1_segment.go:149-151, j2_segment.go:205-207, kn_segment.go:104-106, 185-187,
   278-280, 372-374, l1_segment.go:82-84, n1_segment.go:85-87 *)
Definition seg_validate (s : segment) : option error :=
  validate_fields (sFields s) (seg_layout (sKind s)) (seg_validators (sKind s))
    (seg_rname (sKind s)) (sFields s).

(* parseRecordValues: policy for its isVariableLength argument, converters.go:146-151 *)
Definition char_policy (isVariableLength : bool) : bdw_policy :=
  if isVariableLength then BdwShift else BdwSkip.

(* Parse: j1_segment.go:115-127, j2_segment.go:171-183, kn_segment.go:70-82,151-163,244-256,
   338-350, l1_segment.go:48-60, n1_segment.go:51-63 *)
Definition seg_parse (s : segment) (record : bytes) (isVariableLength : bool)
    : segment * res nat :=
  let k := sKind s in
  if Nat.ltb (length record) (seg_length k) then (s, Err (ErrSegmentLength (seg_rname k)))
  else
    let '(st, r) := parse_fields (char_policy isVariableLength) true (seg_layout k) (seg_rname k)
                      record (map fst (sFields s)) 0 (sFields s) in
    (mkSegment k st, match r with Ok _ => Ok (seg_length k) | Err e => Err e | Panic => Panic end).

(* String and Bytes: j1_segment.go:130-146 and the same loop in the other segments,
   j2_segment.go:186-202, kn_segment.go:85-101, 166-182, 259-275, 353-369,
   l1_segment.go:63-79, n1_segment.go:66-82 *)
Definition seg_string (s : segment) : bytes := write_fields (seg_layout (sKind s)) (sFields s).

(* ================= base segment ================= *)

(* base_segment.go:24-512; character and packed base segments are the same struct *)
Record base := mkBase {
  bFields : fields;
  bJ1 : list segment;
  bJ2 : list segment;
  bK1 : option segment;
  bK2 : option segment;
  bK3 : option segment;
  bK4 : option segment;
  bL1 : option segment;
  bN1 : option segment }.

(* record.go:88-96, NewBaseSegment / NewPackedBaseSegment *)
Definition new_base : base := mkBase (new_fields base_struct) [] [] None None None None None None.

(* assignment to the fields, base_segment.go:537-574 *)
Definition set_bFields (b : base) (st : fields) : base :=
  mkBase st (bJ1 b) (bJ2 b) (bK1 b) (bK2 b) (bK3 b) (bK4 b) (bL1 b) (bN1 b).

(* r.j1Segments = []Segment{}; r.j2Segments = []Segment{}; base_segment.go:552-553 and 1048-1049 *)
Definition clear_j (b : base) : base :=
  mkBase (bFields b) [] [] (bK1 b) (bK2 b) (bK3 b) (bK4 b) (bL1 b) (bN1 b).

(* the switch of AddApplicableSegment, base_segment.go:697-714 and 1209-1226 *)
Definition put_segment (s : segment) (b : base) : base :=
  match sKind s with
  | J1 => mkBase (bFields b) (bJ1 b ++ [s]) (bJ2 b) (bK1 b) (bK2 b) (bK3 b) (bK4 b) (bL1 b) (bN1 b)
  | J2 => mkBase (bFields b) (bJ1 b) (bJ2 b ++ [s]) (bK1 b) (bK2 b) (bK3 b) (bK4 b) (bL1 b) (bN1 b)
  | K1 => mkBase (bFields b) (bJ1 b) (bJ2 b) (Some s) (bK2 b) (bK3 b) (bK4 b) (bL1 b) (bN1 b)
  | K2 => mkBase (bFields b) (bJ1 b) (bJ2 b) (bK1 b) (Some s) (bK3 b) (bK4 b) (bL1 b) (bN1 b)
  | K3 => mkBase (bFields b) (bJ1 b) (bJ2 b) (bK1 b) (bK2 b) (Some s) (bK4 b) (bL1 b) (bN1 b)
  | K4 => mkBase (bFields b) (bJ1 b) (bJ2 b) (bK1 b) (bK2 b) (bK3 b) (Some s) (bL1 b) (bN1 b)
  | L1 => mkBase (bFields b) (bJ1 b) (bJ2 b) (bK1 b) (bK2 b) (bK3 b) (bK4 b) (Some s) (bN1 b)
  | N1 => mkBase (bFields b) (bJ1 b) (bJ2 b) (bK1 b) (bK2 b) (bK3 b) (bK4 b) (bL1 b) (Some s)
  end.

(* AddApplicableSegment, base_segment.go:692-717 and 1209-1234 *)
Definition base_add_segment (s : segment) (b : base) : base * option error :=
  match seg_validate s with
  | Some e => (b, Some e)
  | None => (put_segment s b, None)
  end.

(* a segment that may be nil, base_segment.go:648-689 *)
Definition opt_list {A} (o : option A) : list A := match o with Some a => [a] | None => [] end.

(* GetSegments by kind, base_segment.go:648-689 and 1160-1201 *)
Definition segs_of (k : segkind) (b : base) : list segment :=
  match k with
  | J1 => bJ1 b | J2 => bJ2 b
  | K1 => opt_list (bK1 b) | K2 => opt_list (bK2 b)
  | K3 => opt_list (bK3 b) | K4 => opt_list (bK4 b)
  | L1 => opt_list (bL1 b) | N1 => opt_list (bN1 b)
  end.

(* the names of segment.go:35-50 *)
Definition all_kinds : list segkind := [J1; J2; K1; K2; K3; K4; L1; N1].

(* GetSegments(name): unknown names give nil; base_segment.go:648-689 and 1165-1201 *)
Definition base_get_segments (name : bytes) (b : base) : list segment :=
  match find (fun k => bytes_eqb name (lit (seg_name k))) all_kinds with
  | Some k => segs_of k b
  | None => []
  end.

(* the order in which String appends segments, base_segment.go:590-614, 1084-1108 *)
Definition base_segments (b : base) : list segment :=
  bJ1 b ++ bJ2 b ++ opt_list (bK1 b) ++ opt_list (bK2 b) ++ opt_list (bK3 b)
  ++ opt_list (bK4 b) ++ opt_list (bL1 b) ++ opt_list (bN1 b).

(* switch of readApplicableSegments on the first two bytes, base_segment.go:1510-1529 *)
Definition kind_of_identifier (id : bytes) : option segkind :=
  find (fun k => bytes_eqb id (lit (seg_identifier k))) all_kinds.

(* readApplicableSegments, base_segment.go:1505-1542; [record] is the remaining
   input record[offset:] and [offset] what has been consumed.  The fuel bounds
   the number of iterations; each consumes at least 30 bytes. *)
Fixpoint read_segments (fuel : nat) (record : bytes) (offset : nat) (b : base)
    (isVariableLength : bool) : base * res nat :=
  match fuel with
  | O => (b, Err ErrFuel)
  | S fuel' =>
      if Nat.ltb 2 (length record) then
        match kind_of_identifier (firstn 2 record) with
        | None => (b, Ok offset)
        | Some k =>
            match seg_parse (new_segment k) record isVariableLength with
            | (_, Err e) => (b, Err e)
            | (_, Panic) => (b, Panic)
            | (s, Ok read) =>
                match base_add_segment s b with
                | (b', Some e) => (b', Err e)
                | (b', None) =>
                    read_segments fuel' (skipn read record) (offset + read) b' isVariableLength
                end
            end
        end
      else (b, Ok offset)
  end.

(* the field BlockDescriptorWord, base_segment.go:24-512 *)
Definition base_bdw (b : base) : Z := get_int "BlockDescriptorWord" (bFields b).
(* the field RecordDescriptorWord, base_segment.go:24-512 *)
Definition base_rdw (b : base) : Z := get_int "RecordDescriptorWord" (bFields b).

(* BaseSegment.Parse, base_segment.go:537-574 *)
Definition base_parse_char (b : base) (record : bytes) (isVariableLength : bool)
    : base * res Z :=
  if Nat.ltb (length record) UnpackedRecordLength then (b, Err (ErrSegmentLength "base segment"))
  else
    let '(st, r) := parse_fields (char_policy isVariableLength) true baseSegmentCharacterFormat
                      "base segment" record (map fst (bFields b)) 0 (bFields b) in
    let b1 := set_bFields b st in
    match r with
    | Err e => (b1, Err e)
    | Panic => (b1, Panic)
    | Ok _ =>
        let offset := if 0 <? base_bdw b1 then (UnpackedRecordLength + 4)%nat
                      else UnpackedRecordLength in
        let b2 := clear_j b1 in
        if Nat.ltb (length record) offset then (b2, Err (ErrSegmentLength "base segment"))
        else
          match read_segments (S (length record)) (skipn offset record) 0 b2 isVariableLength with
          | (b3, Err e) => (b3, Err e)
          | (b3, Panic) => (b3, Panic)
          | (b3, Ok read) =>
              let total := Z.of_nat (read + offset) in
              if (0 <? base_bdw b3) && (base_bdw b3 <? total) then (b3, Err ErrFailedParsing)
              else if (base_bdw b3 =? 0) && (base_rdw b3 <? total) then (b3, Err ErrFailedParsing)
              else if 0 <? base_bdw b3 then (b3, Ok (base_bdw b3))
              else (b3, Ok (base_rdw b3))
          end
    end.

(* PackedBaseSegment.Parse, base_segment.go:997-1064 *)
Definition base_parse_packed (b : base) (record : bytes) (isVariableLength : bool)
    : base * res Z :=
  if Nat.ltb (length record) PackedRecordLength then (b, Err (ErrSegmentLength "packed base segment"))
  else
    let '(st, r) := parse_fields (if isVariableLength then BdwShift else BdwError) true
                      baseSegmentPackedFormat "packed base segment" record
                      (map fst (bFields b)) 0 (bFields b) in
    let b1 := set_bFields b st in
    match r with
    | Err e => (b1, Err e)
    | Panic => (b1, Panic)
    | Ok _ =>
        let offset := (PackedRecordLength + 4)%nat in
        let b2 := clear_j b1 in
        if Nat.ltb (length record) offset then (b2, Err (ErrSegmentLength "packed base segment"))
        else
          match read_segments (S (length record)) (skipn offset record) 0 b2 isVariableLength with
          | (b3, Err e) => (b3, Err e)
          | (b3, Panic) => (b3, Panic)
          | (b3, Ok read) =>
              if base_bdw b3 <? Z.of_nat (read + offset) then (b3, Err ErrFailedParsing)
              else (b3, Ok (base_bdw b3))
          end
    end.

(* BaseSegment.String, base_segment.go:577-622 *)
Definition base_string_char (b : base) : bytes :=
  pad_block (clampedBlockSize (base_rdw b))
    (write_fields baseSegmentCharacterFormat (bFields b)
     ++ flat_map seg_string (base_segments b)).

(* PackedBaseSegment.String, base_segment.go:1067-1116 *)
Definition base_string_packed (b : base) : bytes :=
  pad_block (clampedBlockSize (if 0 <? base_bdw b then base_rdw b + 4 else base_rdw b))
    (write_fields baseSegmentPackedFormat (bFields b)
     ++ flat_map seg_string (base_segments b)).

(* ---- Validate methods of the base segment, base_segment.go:814-989 (character)
   and 1328-1503 (packed); they differ in the record name of the messages and in
   the payment history code 'Z' ---- *)

Definition payment_history_codes (packed : bool) : list byte :=
  (["0"; "1"; "2"; "3"; "4"; "5"; "6"; "B"; "D"; "E"; "G"; "H"; "J"; "K"; "L"]%char
   ++ (if packed then [] else ["Z"%char]) ++ [" "%char])%list.

(* base_segment.go:840-850, 1354-1364 *)
Definition validate_terms_duration (rname : string) (st : fields) : option error :=
  let d := get_str "TermsDuration" st in
  if one_of d ["LOC"; "001"; "REV"] then None
  else match atoi d with
       | (_, None) => None
       | (_, Some _) => invalid "terms duration" rname
       end.

(* base_segment.go:864-879, 1378-1393 *)
Definition validate_payment_rating (rname : string) (st : fields) : option error :=
  let rating := get_str "PaymentRating" st in
  if one_of (get_str "AccountStatus" st) ["05"; "13"; "65"; "88"; "89"; "94"; "95"] then
    if one_of rating ["0"; "1"; "2"; "3"; "4"; "5"; "6"; "G"; "L"] then None
    else invalid "payment rating" rname
  else if bytes_eqb rating [] then None else invalid "payment rating" rname.

(* base_segment.go:882-898, 1396-1412 *)
Definition validate_payment_history (packed : bool) (rname : string) (st : fields) : option error :=
  let p := get_str "PaymentHistoryProfile" st in
  if negb (Nat.eqb (length p) 24) then invalid "payment history profile" rname
  else if forallb (fun c => existsb (byte_eqb c) (payment_history_codes packed)) p
  then None else invalid "payment history profile" rname.

(* base_segment.go:918-939, 1432-1453 *)
Definition base_validate_ssn (fname : string) (st : fields) : option error :=
  if no_ssn_no_birth st then
    if one_of (get_str "ECOACode" st) ["2"; "5"] then None
    else invalid fname "base segment"
  else None.

(* the names of records in errors, base_segment.go:814-989 and 1328-1503 *)
Definition base_rname (packed : bool) : string :=
  if packed then "packed base segment" else "base segment".

(* base_segment.go:814-989 and 1328-1503 *)
Definition base_validators (packed : bool) : validators fields :=
  let rname := base_rname packed in
  [ ("CorrectionIndicator", fun st =>
       if one_of_int (get_int "CorrectionIndicator" st) [0; 1] then None
       else invalid "correction indicator" rname);
    ("IdentificationNumber", fun st =>
       if valid_filled_string (get_str "IdentificationNumber" st)
       then invalid "identification number" rname else None);
    ("PortfolioType", fun st =>
       if one_of (get_str "PortfolioType" st) ["C"; "I"; "M"; "O"; "R"; "L"] then None
       else invalid "portfolio type" rname);
    ("TermsDuration", validate_terms_duration rname);
    ("TermsFrequency", fun st =>
       if one_of (get_str "TermsFrequency" st)
            ["D"; "P"; "W"; "B"; "E"; "M"; "L"; "Q"; "T"; "S"; "Y"; ""] then None
       else invalid "terms frequency" rname);
    ("PaymentRating", validate_payment_rating rname);
    ("PaymentHistoryProfile", validate_payment_history packed rname);
    ("InterestTypeIndicator", fun st =>
       if one_of (get_str "InterestTypeIndicator" st) ["F"; "V"; ""] then None
       else invalid "interest type indicator" rname);
    ("TelephoneNumber", validate_telephone rname);
    ("SocialSecurityNumber", base_validate_ssn "social security number");
    ("DateBirth", base_validate_ssn "date birth");
    ("AccountStatus", fun st =>
       if one_of (get_str "AccountStatus" st)
            ["DF"; "DA"; "11"; "61"; "62"; "63"; "64"; "71"; "78"; "80"; "82"; "83"; "84"; "93";
             "96"; "97"; "05"; "13"; "65"; "88"; "89"; "94"; "95"] then None
       else invalid "account status" rname);
    ("AccountType", fun st =>
       if one_of (get_str "AccountType" st)
            ["00"; "01"; "02"; "03"; "04"; "05"; "06"; "07"; "08"; "0A"; "0C"; "0F"; "0G"; "10";
             "11"; "12"; "13"; "15"; "17"; "18"; "19"; "20"; "25"; "26"; "29"; "2A"; "2C"; "37";
             "3A"; "43"; "47"; "48"; "4D"; "50"; "5A"; "5B"; "65"; "66"; "67"; "68"; "69"; "6A";
             "6B"; "6D"; "70"; "71"; "72"; "73"; "74"; "75"; "77"; "7A"; "7B"; "89"; "8A"; "8B";
             "90"; "91"; "92"; "93"; "95"; "9A"; "9B"] then None
       else invalid "account type" rname);
    ("SpecialComment", fun st =>
       if one_of (get_str "SpecialComment" st)
            [""; "B"; "C"; "H"; "I"; "M"; "O"; "S"; "V"; "AB"; "AC"; "AH"; "AI"; "AM"; "AN"; "AO";
             "AP"; "AS"; "AT"; "AU"; "AV"; "AW"; "AX"; "AZ"; "BA"; "BB"; "BC"; "BD"; "BE"; "BF";
             "BG"; "BH"; "BI"; "BJ"; "BK"; "BL"; "BN"; "BO"; "BP"; "BS"; "BT"; "CH"; "CI"; "CJ";
             "CK"; "CL"; "CM"; "CN"; "CO"; "CP"; "CS"; "DE"] then None
       else invalid "special comment" rname) ].

(* the layouts of base_segment.go:537-622 and 997-1116 *)
Definition base_layout (packed : bool) : layout :=
  if packed then baseSegmentPackedFormat else baseSegmentCharacterFormat.

(* BaseSegment.Validate base_segment.go:630-635, PackedBaseSegment.Validate 1124-1152 *)
Definition base_validate (packed : bool) (b : base) : option error :=
  validate_fields (bFields b) (base_layout packed) (base_validators packed)
    (base_rname packed) (bFields b).

(* ================= header record ================= *)

(* record.go:61-72 *)
Definition new_header : fields :=
  set_field "RecordIdentifier" (VStr (lit "HEADER")) (new_fields header_struct).

(* pkg/utils/file.go:26-34 *)
Definition is_variable_length (data : bytes) : bool :=
  Nat.ltb 15 (length data) && bytes_eqb (to_upper (firstn 6 (skipn 8 data))) (lit "HEADER").

(* the field BlockDescriptorWord, header_record.go:112-127 *)
Definition header_bdw (st : fields) : Z := get_int "BlockDescriptorWord" st.
(* the field RecordDescriptorWord, header_record.go:112-127 *)
Definition header_rdw (st : fields) : Z := get_int "RecordDescriptorWord" st.

(* header_record.go:123-126 and 239-242 *)
Definition header_result (st : fields) : res Z :=
  if 0 <? header_bdw st then Ok (header_bdw st) else Ok (header_rdw st).

(* HeaderRecord.Parse, header_record.go:112-127 *)
Definition header_parse_char (st : fields) (record : bytes) (isVariableLength : bool)
    : fields * res Z :=
  if Nat.ltb (length record) UnpackedRecordLength then (st, Err (ErrSegmentLength "header record"))
  else
    let '(st', r) := parse_fields (char_policy isVariableLength) true headerRecordCharacterFormat
                       "header record" record (map fst st) 0 st in
    (st', match r with Ok _ => header_result st' | Err e => Err e | Panic => Panic end).

(* PackedHeaderRecord.Parse, header_record.go:189-243; the isVariableLength argument is ignored *)
Definition header_parse_packed (st : fields) (record : bytes) (isVariableLength : bool)
    : fields * res Z :=
  if Nat.ltb (length record) PackedRecordLength
  then (st, Err (ErrSegmentLength "packed header record"))
  else
    let '(st', r) := parse_fields (if is_variable_length record then BdwShift else BdwError) true
                       headerRecordPackedFormat "packed header record" record (map fst st) 0 st in
    (st', match r with Ok _ => header_result st' | Err e => Err e | Panic => Panic end).

(* the layouts of header_record.go:112-151 and 189-267 *)
Definition header_layout (packed : bool) : layout :=
  if packed then headerRecordPackedFormat else headerRecordCharacterFormat.

(* header_record.go:130-151 and 246-267 *)
Definition header_string (packed : bool) (st : fields) : bytes :=
  pad_block (clampedBlockSize (if header_bdw st =? 0 then header_rdw st else header_bdw st))
    (write_fields (header_layout packed) st).

(* header_record.go:159-161 and 275-290 *)
Definition header_validate (packed : bool) (st : fields) : option error :=
  validate_fields st (header_layout packed) []
    (if packed then "packed header record" else "header record") st.

(* ================= trailer record ================= *)

(* record.go:75-86 *)
Definition new_trailer : fields :=
  set_field "RecordIdentifier" (VStr (lit "TRAILER")) (new_fields trailer_struct).

(* the field RecordDescriptorWord, trailer_record.go:175-187 *)
Definition trailer_rdw (st : fields) : Z := get_int "RecordDescriptorWord" st.

(* the layouts of trailer_record.go:175-207 and 248-306 *)
Definition trailer_layout (packed : bool) : layout :=
  if packed then trailerRecordPackedFormat else trailerRecordCharacterFormat.

(* TrailerRecord.Parse, trailer_record.go:175-187 *)
Definition trailer_parse_char (st : fields) (record : bytes) (isVariableLength : bool)
    : fields * res Z :=
  if Nat.ltb (length record) UnpackedRecordLength then (st, Err (ErrSegmentLength "trailer record"))
  else
    let '(st', r) := parse_fields (char_policy isVariableLength) true trailerRecordCharacterFormat
                       "trailer record" record (map fst st) 0 st in
    (st', match r with Ok _ => Ok (trailer_rdw st') | Err e => Err e | Panic => Panic end).

(* PackedTrailerRecord.Parse, trailer_record.go:248-286 *)
Definition trailer_parse_packed (st : fields) (record : bytes) (isVariableLength : bool)
    : fields * res Z :=
  if Nat.ltb (length record) PackedRecordLength
  then (st, Err (ErrSegmentLength "packed trailer record"))
  else
    let '(st', r) := parse_fields BdwPlain false trailerRecordPackedFormat
                       "packed trailer record" record (map fst st) 0 st in
    (st', match r with Ok _ => Ok (trailer_rdw st') | Err e => Err e | Panic => Panic end).

(* trailer_record.go:190-207 and 289-306 *)
Definition trailer_string (packed : bool) (st : fields) : bytes :=
  pad_block (clampedBlockSize (trailer_rdw st)) (write_fields (trailer_layout packed) st).

(* trailer_record.go:215-217 and 314-329 *)
Definition trailer_validate (packed : bool) (st : fields) : option error :=
  validate_fields st (trailer_layout packed) []
    (if packed then "packed trailer record" else "trailer record") st.

(* ================= the lib.Record interface ================= *)

(* record.go:8-18 *)
Inductive record :=
| RHeader (packed : bool) (st : fields)
| RBase (packed : bool) (b : base)
| RTrailer (packed : bool) (st : fields).

(* Name: record.go:34-44, base_segment.go:532-534 and 992-994, header_record.go:107-109 and
   184-186, trailer_record.go:170-172 and 243-245 *)
Definition record_name (r : record) : string :=
  match r with
  | RHeader false _ => "header"
  | RBase false _ => "base"
  | RTrailer false _ => "trailer"
  | RHeader true _ => "headerPacked"
  | RBase true _ => "basePacked"
  | RTrailer true _ => "trailerPacked"
  end.

(* Parse: base_segment.go:537-574 and 997-1064, header_record.go:112-127 and 189-243, trailer_record.go:175-187 and 248-286 *)
Definition record_parse (r : record) (data : bytes) (isVariableLength : bool) : record * res Z :=
  match r with
  | RHeader p st =>
      let '(st', x) := (if p then header_parse_packed else header_parse_char)
                         st data isVariableLength in (RHeader p st', x)
  | RBase p b =>
      let '(b', x) := (if p then base_parse_packed else base_parse_char)
                        b data isVariableLength in (RBase p b', x)
  | RTrailer p st =>
      let '(st', x) := (if p then trailer_parse_packed else trailer_parse_char)
                         st data isVariableLength in (RTrailer p st', x)
  end.

(* String and Bytes: base_segment.go:577-627 and 1067-1121, header_record.go:130-156 and 246-272, trailer_record.go:190-212 and 289-311 *)
Definition record_string (r : record) : bytes :=
  match r with
  | RHeader p st => header_string p st
  | RBase p b => (if p then base_string_packed else base_string_char) b
  | RTrailer p st => trailer_string p st
  end.

(* ---- run-time panics of the String methods ---- *)

(* toString of some field panics while the fields are written, converters.go:64-102 *)
Definition fields_panic (l : layout) (st : fields) : bool :=
  existsb (fun p => to_string_panics (snd p) (lookup (fst p) st)) l.

(* String of the appended segments, j1_segment.go:130-141 and the others *)
Definition seg_panics (s : segment) : bool := fields_panic (seg_layout (sKind s)) (sFields s).

(* String of the records, base_segment.go:577-622, 1067-1116, header_record.go:130-151,
   246-267, trailer_record.go:190-207, 289-306 *)
Definition record_panics (r : record) : bool :=
  match r with
  | RHeader p h => fields_panic (header_layout p) h
  | RBase p b => fields_panic (base_layout p) (bFields b) || existsb seg_panics (base_segments b)
  | RTrailer p t => fields_panic (trailer_layout p) t
  end.

(* Validate: base_segment.go:630-635 and 1124-1152, header_record.go:159-161 and 275-289, trailer_record.go:215-217 and 314-329 *)
Definition record_validate (r : record) : option error :=
  match r with
  | RHeader p st => header_validate p st
  | RBase p b => base_validate p b
  | RTrailer p st => trailer_validate p st
  end.

(* BlockSize: header_record.go:164,293; base_segment.go:638,1155; trailer_record.go:220,332 *)
Definition record_block_size (r : record) : Z :=
  match r with
  | RHeader _ st => header_bdw st
  | RBase _ b => base_bdw b
  | RTrailer _ st => trailer_rdw st
  end.

(* Length: header_record.go:169,298; base_segment.go:643,1160; trailer_record.go:225,337 *)
Definition record_length (r : record) : Z :=
  match r with
  | RHeader _ st => header_rdw st
  | RBase _ b => base_rdw b
  | RTrailer _ st => trailer_rdw st
  end.

(* GetSegments: header_record.go:174,303; trailer_record.go:230,342 return nil *)
Definition record_get_segments (name : bytes) (r : record) : list segment :=
  match r with
  | RBase _ b => base_get_segments name b
  | _ => []
  end.

(* AddApplicableSegment: header_record.go:179,308; trailer_record.go:235,347 always fail *)
Definition record_add_segment (s : segment) (r : record) : record * option error :=
  match r with
  | RBase p b => let '(b', e) := base_add_segment s b in (RBase p b', e)
  | RHeader p _ =>
      (r, Some (ErrApplicableSegment (if p then "packed header record" else "header record")
                  (seg_name (sKind s))))
  | RTrailer p _ =>
      (* trailer_record.go:348 names the packed header *)
      (r, Some (ErrApplicableSegment (if p then "packed header record" else "trailer record")
                  (seg_name (sKind s))))
  end.
