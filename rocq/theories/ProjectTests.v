(* The project's own tests, on the model: what the tests of /repo assert about
   the bytes in /repo/test/testdata (TestData.v) holds of the modelled
   functions.  Each example names the test.  Not here: tests of net/http, mux,
   cobra and the file system, and those only asserting that no crash occurs on
   a run the model cannot distinguish from an ordinary one. *)
From Coq Require Import ZArith NArith Bool Ascii String List.
Import ListNotations.
From Verif Require Import GoBase GoTime GoLayout Regex Tables JsonTables Codec Records File Reader Json JsonFile Errors Server TestData.
Local Open Scope string_scope.
Local Open Scope Z_scope.
Local Open Scope list_scope.
Local Notation length := List.length.

(* ---- what the tests use ---- *)

(* utils.ReadFile, utils/file.go:14-23, on lines shorter than the scanner's
   limit: the lines without their ends (\n or \r\n) *)
Fixpoint read_file (s : bytes) : bytes :=
  match s with
  | [] => []
  | a :: r =>
      if byte_eqb a lf_char then read_file r
      else if byte_eqb a cr_char then
        match r with
        | b :: r' => if byte_eqb b lf_char then read_file r' else a :: read_file r
        | [] => []
        end
      else a :: read_file r
  end.

(* strings.ReplaceAll(s, "\n", "") *)
Definition drop_newlines (s : bytes) : bytes := filter (fun c => negb (byte_eqb c lf_char)) s.

(* a host; the tests do not depend on it *)
Definition host : runtime := mkRuntime (fun _ => None) (fun _ t => t) (fun _ l => l).
Definition reads : list read_event := repeat (mkEvent 4096 false) 200.

Definition no_error {A} (r : res A) : bool := match r with Ok _ => true | _ => false end.
Definition an_error {A} (r : res A) : bool := match r with Err _ => true | _ => false end.
Definition valid (e : option error) : bool := match e with None => true | Some _ => false end.
Definition says (e : option error) (text : string) : bool :=
  match e with
  | Some e => match error_text e with Some t => bytes_eqb t (lit text) | None => false end
  | None => false
  end.

Definition parsed (r : record) (data : bytes) (isVariableLength : bool) : option record :=
  match record_parse r data isVariableLength with (r', Ok _) => Some r' | _ => None end.
Definition parsed_segment (k : segkind) (data : bytes) : option segment :=
  match seg_parse (new_segment k) data false with (s, Ok _) => Some s | _ => None end.
Definition parsed_file (packed isVariableLength : bool) (data : bytes) : option file :=
  match file_parse 100 (new_file_p packed) data isVariableLength with Some (f, Ok _) => Some f | _ => None end.

(* json.Unmarshal(text, f) with f from NewFile, json.Unmarshal(text, record) *)
Definition json_file (packed : bool) (text : bytes) : option file :=
  match decode text with
  | Some j => match unmarshal_file host j (new_file_p packed) with Ok f => Some f | _ => None end
  | None => None
  end.
Definition json_record (r : record) (text : bytes) : option record :=
  match decode text with
  | Some j => match decode_record host 1 j r with Ok r' => Some r' | _ => None end
  | None => None
  end.
Definition json_segment (k : segkind) (text : bytes) : option segment :=
  match decode text with
  | Some j =>
      match decode_struct host (seg_tags k) j (sFields (new_segment k)) with
      | Some st => Some (mkSegment k st) | None => None
      end
  | None => None
  end.
Definition opened (text : bytes) : option (res file) := new_file_from_reader host reads text.

(* assignment to a field *)
Definition with_field (n : string) (v : value) (r : record) : record :=
  match r with
  | RHeader p st => RHeader p (set_field n v st)
  | RTrailer p st => RTrailer p (set_field n v st)
  | RBase p b => RBase p (set_bFields b (set_field n v (bFields b)))
  end.
Definition seg_with (n : string) (v : value) (s : segment) : segment := mkSegment (sKind s) (set_field n v (sFields s)).

Definition check {A} (o : option A) (p : A -> bool) : bool := match o with Some a => p a | None => false end.
Definition all (l : list bool) : bool := forallb (fun b => b) l.
Definition same (a b : bytes) : bool := bytes_eqb a b.
Definition count (name : string) (n : nat) (r : record) : bool := Nat.eqb (length (record_get_segments (lit name) r)) n.

(* SetUpSuite of pkg/lib/suite_test.go and pkg/file/suite_test.go *)
Definition sampleBaseSegment := read_file base_segment_dat.
Definition samplePackedBaseSegment := read_file packed_base_segment_dat.
Definition sampleHeaderRecord := read_file header_record_dat.
Definition samplePackedHeaderRecord := read_file packed_header_record_dat.
Definition sampleTrailerRecord := read_file trailer_record_dat.
Definition samplePackedTrailerRecord := read_file packed_trailer_record_dat.
Definition sampleJ1Segment := read_file j1_segment_dat.
Definition sampleJ2Segment := read_file j2_segment_dat.
Definition sampleK1Segment := read_file k1_segment_dat.
Definition sampleK2Segment := read_file k2_segment_dat.
Definition sampleK3Segment := read_file k3_segment_dat.
Definition sampleK4Segment := read_file k4_segment_dat.
Definition sampleL1Segment := read_file l1_segment_dat.
Definition sampleN1Segment := read_file n1_segment_dat.
Definition unpackedFixedLengthRaw := read_file unpacked_fixed_file_dat.
Definition unpackedFixedLengthJson := read_file unpacked_fixed_file_json.
Definition unpackedVariableBlockedJson := read_file unpacked_variable_file_json.
Definition packedRaw := read_file packed_file_dat.
Definition packedJson := read_file packed_file_json.
Definition baseSegmentJson := read_file base_segment_json.

Definition ERROR (data : bytes) : bytes := lit "ERROR" ++ data.
Definition base_rec (packed : bool) : record := RBase packed new_base.

Ltac run := vm_compute; reflexivity.

(* ==== pkg/lib ==== *)

(* record_test.go TestClampedBlockSize:10-33 *)
Example test_record_clamped : all
  [ Z.eqb (clampedBlockSize 0) 0
  ; Z.eqb (clampedBlockSize (-1)) 0
  ; Z.eqb (clampedBlockSize 426) 426
  ; Z.eqb (clampedBlockSize 366) 366
  ; Z.eqb (clampedBlockSize maxRecordPad) maxRecordPad
  ; Z.eqb (clampedBlockSize (maxRecordPad + 1)) 0
  ; Z.eqb (clampedBlockSize 5175555555) 0 ] = true.
Proof. run. Qed.

(* record_test.go:35-87: String of records with a record descriptor word out of range *)
Example test_huge_words : all
  [ let t := record_string (with_field "RecordDescriptorWord" (VInt 5175555555) (RHeader false (map (fun p => (fst p, zero_value (kind_of (snd p)))) new_header))) in
    Nat.leb (length t) (N.to_nat 65535) && negb (Nat.eqb (length t) 0)
  ; Nat.leb (length (record_string (with_field "RecordDescriptorWord" (VInt 5175555555) (RTrailer false new_trailer)))) (N.to_nat 65535)
  ; Nat.leb (length (record_string (with_field "RecordDescriptorWord" (VInt 5175555555) (base_rec false)))) (N.to_nat 65535)
  ; negb (record_panics (with_field "RecordDescriptorWord" (VInt (-1)) (RHeader false new_header))) ] = true.
Proof. run. Qed.

(* pkg/lib/base_segment_test.go:17-22, header_record_test.go:14-19, trailer_record_test.go:14-23 *)
Example test_short_records : all
  [ an_error (snd (record_parse (base_rec false) (lit "12345") false))
  ; an_error (snd (record_parse (RHeader false new_header) (lit "12345") false))
  ; an_error (snd (record_parse (RTrailer false new_trailer) (lit "12345") false))
  ; an_error (snd (record_parse (RTrailer true new_trailer) (lit "12345") false)) ] = true.
Proof. run. Qed.

(* pkg/lib/base_segment_test.go:24-71 *)
Example test_base_segment : all
  [ check (parsed (base_rec false) sampleBaseSegment true) (fun r => all
      [ valid (record_validate r)
      ; same (record_string r) sampleBaseSegment
      ; String.eqb (record_name r) "base"
      ; Z.eqb (record_length r) 1264
      ; Z.eqb (record_block_size r) 1268
      ; count "j1" 1 r
      ; count "j2" 2 r
      ; count "k1" 1 r
      ; count "k2" 1 r
      ; count "k3" 1 r
      ; count "k4" 1 r
      ; count "l1" 1 r
      ; count "n1" 1 r
      ; count "unknown" 0 r
      ; valid (record_validate (with_field "CurrentBalance" (VInt 0) r)) ])
  ; an_error (snd (record_parse (base_rec false) (ERROR sampleBaseSegment) false)) ] = true.
Proof. run. Qed.

(* pkg/lib/base_segment_test.go:134-182 *)
Example test_packed_base_segment : all
  [ check (parsed (base_rec true) samplePackedBaseSegment true) (fun r => all
      [ valid (record_validate r)
      ; same (record_string r) samplePackedBaseSegment
      ; String.eqb (record_name r) "basePacked"
      ; Z.eqb (record_length r) 1106
      ; Z.eqb (record_block_size r) 1110
      ; count "j1" 1 r
      ; count "j2" 2 r
      ; count "k1" 0 r
      ; count "k2" 0 r
      ; count "k3" 1 r
      ; count "k4" 0 r
      ; count "l1" 1 r
      ; count "n1" 1 r
      ; count "unknown" 0 r
      ; valid (record_validate (with_field "CurrentBalance" (VInt 0) r)) ])
  ; an_error (snd (record_parse (base_rec true) (ERROR samplePackedBaseSegment) false)) ] = true.
Proof. run. Qed.

(* header_record_test.go:21-40 *)
Example test_header : all
  [ check (parsed (RHeader false new_header) sampleHeaderRecord true) (fun r => all
      [ valid (record_validate r)
      ; same (record_string r) sampleHeaderRecord
      ; String.eqb (record_name r) "header"
      ; Z.eqb (record_length r) 426
      ; Z.eqb (record_block_size r) 430
      ; count "k1" 0 r
      ; negb (valid (snd (record_add_segment (new_segment J1) r))) ])
  ; an_error (snd (record_parse (RHeader false new_header) (ERROR sampleHeaderRecord) false)) ] = true.
Proof. run. Qed.

(* header_record_test.go:43-61 *)
Example test_packed_header : all
  [ check (parsed (RHeader true new_header) samplePackedHeaderRecord false) (fun r => all
      [ valid (record_validate r)
      ; same (record_string r) samplePackedHeaderRecord
      ; String.eqb (record_name r) "headerPacked"
      ; Z.eqb (record_length r) 366
      ; Z.eqb (record_block_size r) 370
      ; count "k1" 0 r
      ; negb (valid (snd (record_add_segment (new_segment J1) r))) ])
  ; an_error (snd (record_parse (RHeader true new_header) (ERROR samplePackedHeaderRecord) false)) ] = true.
Proof. run. Qed.

(* trailer_record_test.go:25-44 *)
Example test_trailer : all
  [ check (parsed (RTrailer false new_trailer) sampleTrailerRecord false) (fun r => all
      [ valid (record_validate r)
      ; same (record_string r) sampleTrailerRecord
      ; String.eqb (record_name r) "trailer"
      ; Z.eqb (record_length r) 426
      ; Z.eqb (record_block_size r) 426
      ; count "k1" 0 r
      ; negb (valid (snd (record_add_segment (new_segment J1) r))) ])
  ; an_error (snd (record_parse (RTrailer false new_trailer) (ERROR sampleTrailerRecord) false)) ] = true.
Proof. run. Qed.

(* trailer_record_test.go:47-65 *)
Example test_packed_trailer : all
  [ check (parsed (RTrailer true new_trailer) samplePackedTrailerRecord false) (fun r => all
      [ valid (record_validate r)
      ; same (record_string r) samplePackedTrailerRecord
      ; String.eqb (record_name r) "trailerPacked"
      ; Z.eqb (record_length r) 366
      ; Z.eqb (record_block_size r) 366
      ; count "k1" 0 r
      ; negb (valid (snd (record_add_segment (new_segment J1) r))) ])
  ; an_error (snd (record_parse (RTrailer true new_trailer) (ERROR samplePackedTrailerRecord) false)) ] = true.
Proof. run. Qed.

(* pkg/lib/base_segment_test.go:75-132, 405-510 *)
Example test_base_validators : all
  [ check (parsed (base_rec false) sampleBaseSegment true) (fun r => all
      [ negb (valid (record_validate (with_field "IdentificationNumber" (VStr []) r)))
      ; says (record_validate (with_field "PortfolioType" (VStr (lit "A")) r)) "portfolio type in base segment has an invalid value"
      ; says (record_validate (with_field "TermsDuration" (VStr (lit "AAA")) r)) "terms duration in base segment has an invalid value"
      ; says (record_validate (with_field "PaymentHistoryProfile" (VStr (lit "Z")) r)) "payment history profile in base segment has an invalid value"
      ; says (record_validate (with_field "InterestTypeIndicator" (VStr (lit "Z")) r)) "interest type indicator in base segment has an invalid value"
      ; says (record_validate (with_field "AccountStatus" (VStr (lit "FF")) r)) "account status in base segment has an invalid value"
      ; says (record_validate (with_field "AccountType" (VStr (lit "FF")) r)) "account type in base segment has an invalid value"
      ; says (record_validate (with_field "SpecialComment" (VStr (lit "FF")) r)) "special comment in base segment has an invalid value"
      ; valid (record_validate (with_field "TelephoneNumber" (VInt 0) r))
      ; let r1 := with_field "SocialSecurityNumber" (VInt 0) r in valid (record_validate r1) && negb (valid (record_validate (with_field "DateBirth" (VTime zero_time) r1)))
      ; let r1 := with_field "DateBirth" (VTime zero_time) r in valid (record_validate r1) && negb (valid (record_validate (with_field "SocialSecurityNumber" (VInt 0) r1))) ]) ] = true.
Proof. run. Qed.

(* pkg/lib/base_segment_test.go:184-240, 424-488 *)
Example test_packed_base_validators : all
  [ check (parsed (base_rec true) samplePackedBaseSegment true) (fun r => all
      [ negb (valid (record_validate (with_field "IdentificationNumber" (VStr []) r)))
      ; says (record_validate (with_field "PortfolioType" (VStr (lit "A")) r)) "portfolio type in packed base segment has an invalid value"
      ; says (record_validate (with_field "TermsDuration" (VStr (lit "AAA")) r)) "terms duration in packed base segment has an invalid value"
      ; says (record_validate (with_field "PaymentHistoryProfile" (VStr (lit "Z")) r)) "payment history profile in packed base segment has an invalid value"
      ; says (record_validate (with_field "InterestTypeIndicator" (VStr (lit "Z")) r)) "interest type indicator in packed base segment has an invalid value"
      ; says (record_validate (with_field "AccountStatus" (VStr (lit "FF")) r)) "account status in packed base segment has an invalid value"
      ; says (record_validate (with_field "AccountType" (VStr (lit "FF")) r)) "account type in packed base segment has an invalid value"
      ; says (record_validate (with_field "SpecialComment" (VStr (lit "FF")) r)) "special comment in packed base segment has an invalid value"
      ; valid (record_validate (with_field "TelephoneNumber" (VInt 0) r))
      ; let r1 := with_field "SocialSecurityNumber" (VInt 0) r in valid (record_validate r1) && negb (valid (record_validate (with_field "DateBirth" (VTime zero_time) r1)))
      ; let r1 := with_field "DateBirth" (VTime zero_time) r in valid (record_validate r1) && negb (valid (record_validate (with_field "SocialSecurityNumber" (VInt 0) r1))) ]) ] = true.
Proof. run. Qed.

(* pkg/lib/base_segment_test.go:485-510 *)
Example test_base_own_validators : all
  [ check (parsed (base_rec false) sampleBaseSegment true) (fun r => match r with RBase _ b =>
    let run_one (n : string) (st : fields) := match lookup n (base_validators false) with Some g => g st | None => Some ErrFailedParsing end in all
      [ valid (run_one "PortfolioType" (set_field "PortfolioType" (VStr (lit "L")) (bFields b)))
      ; Z.eqb (get_int "CorrectionIndicator" (bFields b)) 0
      ; valid (run_one "CorrectionIndicator" (set_field "CorrectionIndicator" (VInt 1) (bFields b)))
      ; negb (valid (run_one "CorrectionIndicator" (set_field "CorrectionIndicator" (VInt 2) (bFields b)))) ] | _ => false end) ] = true.
Proof. run. Qed.

Definition j1_json : bytes := lit "{  ""segmentIdentifier"": ""J1"", ""surname"": ""BEAUCHAMP"", ""firstName"": ""KEVIN"", ""generationCode"": ""S"",
  ""socialSecurityNumber"": 445112877, ""dateBirth"": ""2020-01-02T00:00:00Z"", ""telephoneNumber"": 4335552333,
  ""ecoaCode"": ""2"", ""consumerInformationIndicator"": ""R""}".
Definition j1_json_bare : bytes := lit "{  ""segmentIdentifier"": ""J1"", ""surname"": ""BEAUCHAMP"", ""firstName"": ""KEVIN"",
  ""socialSecurityNumber"": 445112877, ""dateBirth"": ""2020-01-02T00:00:00Z"", ""telephoneNumber"": 4335552333,
  ""ecoaCode"": ""2"", ""consumerInformationIndicator"": ""R""}".
Definition j2_json_bare : bytes := lit "{  ""segmentIdentifier"": ""J2"", ""surname"": ""BEAUCHAMP"", ""firstName"": ""KEVIN"",
  ""socialSecurityNumber"": 445112877, ""dateBirth"": ""2020-01-02T00:00:00Z"", ""telephoneNumber"": 4335552333,
  ""ecoaCode"": ""2"", ""consumerInformationIndicator"": ""R"", ""countryCode"": ""US"",
  ""firstLineAddress"": ""234 HARRISON PLACE"", ""secondLineAddress"": ""SUITE #305"", ""city"": ""LANSING"", ""state"": ""MI"",
  ""zipCode"": ""72654"", ""addressIndicator"": ""Y"", ""residenceCode"": ""O""}".
Definition k3_json : bytes := lit "{ ""segmentIdentifier"": ""K3"", ""mortgageIdentificationNumber"": ""Mortgage Number"" }".

(* pkg/lib/base_segment_test.go:242-296 *)
Example test_add_segment : all
  [ check (json_segment J1 j1_json) (fun s => match record_add_segment s (base_rec false) with (r, None) => all
      [ count "j1" 1 r
      ; count "j2" 0 r
      ; count "k1" 0 r
      ; count "k2" 0 r
      ; count "k3" 0 r
      ; count "k4" 0 r
      ; count "l1" 0 r
      ; count "n1" 0 r ] | _ => false end)
  ; check (json_segment K3 k3_json) (fun s => match record_add_segment s (base_rec false) with (r, None) => count "k3" 1 r | _ => false end)
  ; negb (valid (snd (record_add_segment (new_segment K1) (base_rec false))))
  ; negb (valid (snd (record_add_segment (new_segment K2) (base_rec false))))
  ; negb (valid (snd (record_add_segment (new_segment K4) (base_rec false)))) ] = true.
Proof. run. Qed.

(* pkg/lib/base_segment_test.go:312-366 *)
Example test_packed_add_segment : all
  [ check (json_segment J1 j1_json) (fun s => match record_add_segment s (base_rec true) with (r, None) => all
      [ count "j1" 1 r
      ; count "j2" 0 r
      ; count "k1" 0 r
      ; count "k2" 0 r
      ; count "k3" 0 r
      ; count "k4" 0 r
      ; count "l1" 0 r
      ; count "n1" 0 r ] | _ => false end)
  ; check (json_segment K3 k3_json) (fun s => match record_add_segment s (base_rec true) with (r, None) => count "k3" 1 r | _ => false end) ] = true.
Proof. run. Qed.

(* pkg/lib/base_segment_test.go:298-310 *)
Example test_base_json : all
  [ check (parsed (base_rec false) sampleBaseSegment true) (fun r => check (json_record r (print (encode_record r))) (fun r2 =>
      same (record_string r2) sampleBaseSegment && String.eqb (record_name r2) "base")) ] = true.
Proof. run. Qed.

(* pkg/lib/base_segment_test.go:368-380 *)
Example test_packed_base_json : all
  [ check (parsed (base_rec true) samplePackedBaseSegment true) (fun r => check (json_record r (print (encode_record r))) (fun r2 =>
      same (record_string r2) samplePackedBaseSegment && String.eqb (record_name r2) "basePacked")) ] = true.
Proof. run. Qed.

(* j1_segment_test.go:16-31, 69-70 *)
Example test_j1 : all
  [ check (parsed_segment J1 sampleJ1Segment) (fun s => all
      [ valid (seg_validate s)
      ; same (seg_string s) sampleJ1Segment
      ; String.eqb (seg_name (sKind s)) "j1" ])
  ; an_error (snd (seg_parse (new_segment J1) (ERROR sampleJ1Segment) false))
  ; an_error (snd (seg_parse (new_segment J1) (firstn 16 sampleJ1Segment) false)) ] = true.
Proof. run. Qed.

(* j2_segment_test.go:16-31, 102-103 *)
Example test_j2 : all
  [ check (parsed_segment J2 sampleJ2Segment) (fun s => all
      [ valid (seg_validate s)
      ; same (seg_string s) sampleJ2Segment
      ; String.eqb (seg_name (sKind s)) "j2" ])
  ; an_error (snd (seg_parse (new_segment J2) (ERROR sampleJ2Segment) false))
  ; an_error (snd (seg_parse (new_segment J2) (firstn 16 sampleJ2Segment) false)) ] = true.
Proof. run. Qed.

(* kn_segment_test.go K1 *)
Example test_k1 : all
  [ check (parsed_segment K1 sampleK1Segment) (fun s => all
      [ valid (seg_validate s)
      ; same (seg_string s) sampleK1Segment
      ; String.eqb (seg_name (sKind s)) "k1" ])
  ; an_error (snd (seg_parse (new_segment K1) (ERROR sampleK1Segment) false))
  ; an_error (snd (seg_parse (new_segment K1) (firstn 16 sampleK1Segment) false)) ] = true.
Proof. run. Qed.

(* kn_segment_test.go K2 *)
Example test_k2 : all
  [ check (parsed_segment K2 sampleK2Segment) (fun s => all
      [ valid (seg_validate s)
      ; same (seg_string s) sampleK2Segment
      ; String.eqb (seg_name (sKind s)) "k2" ])
  ; an_error (snd (seg_parse (new_segment K2) (ERROR sampleK2Segment) false))
  ; an_error (snd (seg_parse (new_segment K2) (firstn 16 sampleK2Segment) false)) ] = true.
Proof. run. Qed.

(* kn_segment_test.go K3 *)
Example test_k3 : all
  [ check (parsed_segment K3 sampleK3Segment) (fun s => all
      [ valid (seg_validate s)
      ; same (seg_string s) sampleK3Segment
      ; String.eqb (seg_name (sKind s)) "k3" ])
  ; an_error (snd (seg_parse (new_segment K3) (ERROR sampleK3Segment) false))
  ; an_error (snd (seg_parse (new_segment K3) (firstn 16 sampleK3Segment) false)) ] = true.
Proof. run. Qed.

(* kn_segment_test.go K4 *)
Example test_k4 : all
  [ check (parsed_segment K4 sampleK4Segment) (fun s => all
      [ valid (seg_validate s)
      ; same (seg_string s) sampleK4Segment
      ; String.eqb (seg_name (sKind s)) "k4" ])
  ; an_error (snd (seg_parse (new_segment K4) (ERROR sampleK4Segment) false))
  ; an_error (snd (seg_parse (new_segment K4) (firstn 16 sampleK4Segment) false)) ] = true.
Proof. run. Qed.

(* l1_segment_test.go:13-28, 62-65 *)
Example test_l1 : all
  [ check (parsed_segment L1 sampleL1Segment) (fun s => all
      [ valid (seg_validate s)
      ; same (seg_string s) sampleL1Segment
      ; String.eqb (seg_name (sKind s)) "l1" ])
  ; an_error (snd (seg_parse (new_segment L1) (ERROR sampleL1Segment) false))
  ; an_error (snd (seg_parse (new_segment L1) (firstn 16 sampleL1Segment) false)) ] = true.
Proof. run. Qed.

(* n1_segment_test.go:9-27 *)
Example test_n1 : all
  [ check (parsed_segment N1 sampleN1Segment) (fun s => all
      [ valid (seg_validate s)
      ; same (seg_string s) sampleN1Segment
      ; String.eqb (seg_name (sKind s)) "n1" ])
  ; an_error (snd (seg_parse (new_segment N1) (skipn 2 sampleN1Segment) false))
  ; an_error (snd (seg_parse (new_segment N1) (firstn 16 sampleN1Segment) false)) ] = true.
Proof. run. Qed.

(* j1_segment_test.go *)
Example test_j1_validators : all
  [ check (parsed_segment J1 sampleJ1Segment) (fun s => all
      [ says (seg_validate (seg_with "GenerationCode" (VStr (lit "0")) s)) "generation code in j1 segment has an invalid value"
      ; valid (seg_validate (seg_with "TelephoneNumber" (VInt 0) s))
      ; let s1 := seg_with "SocialSecurityNumber" (VInt 0) s in valid (seg_validate s1) && negb (valid (seg_validate (seg_with "DateBirth" (VTime zero_time) s1)))
      ; let s1 := seg_with "DateBirth" (VTime zero_time) s in valid (seg_validate s1) && negb (valid (seg_validate (seg_with "SocialSecurityNumber" (VInt 0) s1)))
      ; check (json_segment J1 j1_json_bare) (fun s => valid (seg_validate s)) ]) ] = true.
Proof. run. Qed.

(* j2_segment_test.go *)
Example test_j2_validators : all
  [ check (parsed_segment J2 sampleJ2Segment) (fun s => all
      [ says (seg_validate (seg_with "GenerationCode" (VStr (lit "0")) s)) "generation code in j2 segment has an invalid value"
      ; says (seg_validate (seg_with "AddressIndicator" (VStr (lit "0")) s)) "address indicator in j2 segment has an invalid value"
      ; says (seg_validate (seg_with "ResidenceCode" (VStr (lit "0")) s)) "residence code in j2 segment has an invalid value"
      ; valid (seg_validate (seg_with "TelephoneNumber" (VInt 0) s))
      ; let s1 := seg_with "SocialSecurityNumber" (VInt 0) s in valid (seg_validate s1) && negb (valid (seg_validate (seg_with "DateBirth" (VTime zero_time) s1)))
      ; let s1 := seg_with "DateBirth" (VTime zero_time) s in valid (seg_validate s1) && negb (valid (seg_validate (seg_with "SocialSecurityNumber" (VInt 0) s1)))
      ; check (json_segment J2 j2_json_bare) (fun s => valid (seg_validate s)) ]) ] = true.
Proof. run. Qed.

(* kn_segment_test.go *)
Example test_k1_validators : all
  [ check (parsed_segment K1 sampleK1Segment) (fun s => all
      [ says (seg_validate (seg_with "CreditorClassification" (VInt 22) s)) "creditor classification in k1 segment has an invalid value" ]) ] = true.
Proof. run. Qed.

(* kn_segment_test.go *)
Example test_k2_validators : all
  [ check (parsed_segment K2 sampleK2Segment) (fun s => all
      [ says (seg_validate (seg_with "PurchasedIndicator" (VInt 3) s)) "purchased indicator in k2 segment has an invalid value"
      ; says (seg_validate (seg_with "PurchasedIndicator" (VInt 9) (seg_with "PurchasedName" (VStr (lit "err")) s))) "purchased name in k2 segment has an invalid value" ]) ] = true.
Proof. run. Qed.

(* kn_segment_test.go *)
Example test_k3_validators : all
  [ check (parsed_segment K3 sampleK3Segment) (fun s => all
      [ says (seg_validate (seg_with "AgencyIdentifier" (VInt 5) s)) "agency identifier in k3 segment has an invalid value"
      ; says (seg_validate (seg_with "AgencyIdentifier" (VInt 0) (seg_with "AccountNumber" (VStr (lit "error")) s))) "account number in k3 segment has an invalid value" ]) ] = true.
Proof. run. Qed.

(* kn_segment_test.go *)
Example test_k4_validators : all
  [ check (parsed_segment K4 sampleK4Segment) (fun s => all
      [ says (seg_validate (seg_with "SpecializedPaymentIndicator" (VInt 3) s)) "specialized payment indicator in k4 segment has an invalid value" ]) ] = true.
Proof. run. Qed.

(* l1_segment_test.go *)
Example test_l1_validators : all
  [ check (parsed_segment L1 sampleL1Segment) (fun s => all
      [ says (seg_validate (seg_with "ChangeIndicator" (VInt 2) (seg_with "NewConsumerAccountNumber" (VStr (lit "error")) s))) "new consumer account number in l1 segment has an invalid value"
      ; says (seg_validate (seg_with "ChangeIndicator" (VInt 1) (seg_with "NewIdentificationNumber" (VStr (lit "error")) s))) "new identification number in l1 segment has an invalid value"
      ; says (seg_validate (seg_with "ChangeIndicator" (VInt 5) s)) "change indicator in l1 segment has an invalid value" ]) ] = true.
Proof. run. Qed.

(* validators_test.go:11-55; the greek text is in UTF-8 *)
Example test_validators : all
  [ upper_alphanumeric_regex (lit "ab91")
  ; negb (upper_alphanumeric_regex (lit "AB91"))
  ; valid_filled_string (lit "9")
  ; valid_filled_string (lit " ")
  ; alphanumeric_regex (codes [207; 160; 207; 155; 206; 178; 49; 50; 51]%N)
  ; negb (valid (is_valid_type (mkField 0 9 alphanumeric required) [] "" ""))
  ; negb (valid (is_valid_type (mkField 0 9 date required) (lit "999999999") "" ""))
  ; negb (valid (is_valid_type (mkField 0 9 32768 required) (lit "999999999") "" "")) ] = true.
Proof. run. Qed.

(* ==== pkg/utils ==== *)

(* time_test.go:18-46: a time in JSON *)
Example test_time : all
  [ same (quote (time_json_text zero_time)) (lit """""")
  ; same (quote (time_json_text (mkTime 2020 1 2 15 4 5 0 None))) (lit """2020-01-02T15:04:05Z""")
  ; check (time_unmarshal (fun _ t => t) (lit """""")) is_zero ] = true.
Proof. run. Qed.

(* ==== pkg/file ==== *)

(* file_test.go:94-120 *)
Example test_json_variable : all
  [ check (json_file false unpackedVariableBlockedJson) (fun f => all
      [ same (file_string 4 f true) unpacked_variable_file_dat
      ; same (concurrent_string f true 2) unpacked_variable_file_dat
      ; same (drop_newlines (print_indent (lit "  ") 0 (encode_file true f))) unpackedVariableBlockedJson ]) ] = true.
Proof. run. Qed.

(* file_test.go:122-135 *)
Example test_json_fixed : all
  [ check (json_file false unpackedFixedLengthJson) (fun f => all
      [ same (drop_newlines (print_indent (lit "  ") 0 (encode_file true f))) unpackedFixedLengthJson ]) ] = true.
Proof. run. Qed.

(* file_test.go:219-232 *)
Example test_json_packed : all
  [ check (json_file true packedJson) (fun f => all
      [ same (drop_newlines (print_indent (lit "  ") 0 (encode_file true f))) packedJson ]) ] = true.
Proof. run. Qed.

(* file_test.go:137-217 *)
Example test_parse_fixed : all
  [ check (parsed_file false false unpackedFixedLengthRaw) (fun f =>
      no_error (file_generate_trailer f) &&
      forallb (fun st => match flBases f with b :: l => no_error (file_generate_trailer (set_bases f (with_field "AccountStatus" (VStr (lit st)) b :: l))) | [] => false end)
        ["DF"; "DA"; "05"; "11"; "13"; "61"; "63"; "64"; "65"; "71"; "78"; "80"; "82"; "83"; "84"; "88"; "89"; "93"; "94"; "95"; "96"; "97"]) ] = true.
Proof. run. Qed.

(* file_test.go:234-237 *)
Example test_parse_packed : all
  [ check (parsed_file true true packedRaw) (fun _ => true) ] = true.
Proof. run. Qed.

(* file_test.go:241-269 *)
Example test_set_block : all
  [ let zeros := RHeader false (map (fun p => (fst p, zero_value (kind_of (snd p)))) new_header) in
    check (json_record zeros (lit "{ ""blockDescriptorWord"": 430, ""recordDescriptorWord"": 426, ""recordIdentifier"": ""HEADER"",
  ""transUnionProgramIdentifier"": ""5555555555"", ""activityDate"": ""2002-08-20T00:00:00Z"",
  ""dateCreated"": ""1999-05-10T00:00:00Z"", ""programDate"": ""1999-05-10T00:00:00Z"",
  ""programRevisionDate"": ""1999-05-10T00:00:00Z"", ""reporterName"": ""YOUR BUSINESS NAME HERE"",
  ""reporterAddress"": ""LINE ONE OF YOUR ADDRESS LINE TWO OF YOUR ADDRESS LINE THERE OF YOUR ADDRESS"",
  ""reporterTelephoneNumber"": 1234567890 }")) (fun r =>
      match file_set_record (new_file_p false) r with
      | (f, None) =>
          match file_get_record (new_file_p false) (lit "header"), file_get_record f (lit "header") with
          | Ok old, Ok new => negb (Z.eqb (record_block_size old) (record_block_size new))
          | _, _ => false
          end
      | _ => false
      end) ] = true.
Proof. run. Qed.

(* file_test.go:271-281 *)
Example test_data_record : all
  [ check (json_record (base_rec false) baseSegmentJson) (fun r =>
      match file_add_data_record (new_file_p false) r with (f, None) => Nat.eqb (length (flBases f)) 1 | _ => false end) ] = true.
Proof. run. Qed.

(* file_test.go:283-294 *)
Example test_generate : all
  [ check (json_file false unpackedFixedLengthJson) (fun f =>
      match file_generate_trailer f with
      | Ok t => match file_set_record f t with (f1, None) => no_error (file_validate f1) | _ => false end
      | _ => false
      end) ] = true.
Proof. run. Qed.

(* file_test.go:296-307 *)
Example test_generate_packed : all
  [ check (json_file true packedJson) (fun f =>
      match file_generate_trailer f with
      | Ok t => match file_set_record f t with (f1, None) => no_error (file_validate f1) | _ => false end
      | _ => false
      end) ] = true.
Proof. run. Qed.

(* file_test.go:309-328 *)
Example test_file_validate : all
  [ check (json_file true packedJson) (fun f => all
      [ no_error (file_validate f); no_error (file_get_record f (lit "trailer")); an_error (file_get_record f (lit "base")) ]) ] = true.
Proof. run. Qed.

(* file_test.go:330-358 *)
Example test_create_file : all
  [ check (opened packedJson) no_error
  ; check (opened packed_file_json) no_error
  ; check (opened packedRaw) (fun x => match x with Ok f => same (file_string 4 f false) packed_file_dat && same (concurrent_string f false 2) packed_file_dat | _ => false end)
  ; check (opened packed_file_dat) (fun x => match x with Ok f => same (file_string 4 f false) packed_file_dat && same (concurrent_string f false 2) packed_file_dat | _ => false end) ] = true.
Proof. run. Qed.

(* file_test.go:361-384 *)
Example test_create_file_failed : all
  [ check (opened (skipn 8 packedRaw)) an_error
  ; check (opened (lit "{ ""header"": { ""recordDescriptorWord"": 480, ""recordIdentifier"": ""error"", } }")) an_error
  ; an_error (new_file (lit "unknown")) ] = true.
Proof. run. Qed.

(* file_test.go:24-46 *)
Example test_huge_word_file : all
  [ check (opened (lit "{ ""header"": { ""recordDescriptorWord"": 5175555555, ""recordIdentifier"": ""HEADER"" }, ""trailer"": { ""recordDescriptorWord"": 426, ""recordIdentifier"": ""TRAILER"" } }")) (fun x => match x with Ok f => Nat.leb (length (file_string 4 f false)) (N.to_nat 1048576) | Err _ => true | Panic => false end) ] = true.
Proof. run. Qed.

(* file_test.go:49-91 *)
Example test_crashers : all
  [ check (opened crasher_095fc33d) an_error
  ; check (opened crasher_0a80c2ff) an_error
  ; check (opened crasher_10c93541) an_error
  ; check (opened crasher_616e90a0) an_error ] = true.
Proof. run. Qed.

(* file_test.go:387-465 *)
Example test_readers : all
  [ check (read_from reads unpacked_fixed_file_dat) (fun x => match x with Ok f => no_error (file_validate f) | _ => false end)
  ; check (read_from reads packed_file_dat) (fun x => match x with Ok f => no_error (file_validate f) | _ => false end) ] = true.
Proof. run. Qed.

(* file_test.go:396-400, 433-447: the benchmark (not run by go test) that reads
   unpacked_variable_file.dat demands no error.  The block descriptor word of its data record
   says 0426 while its record descriptor word says 1000: the streaming reader cuts the record
   short and Parse refuses it.  So on the model the benchmark fails, and no test that go test
   runs reads this file (it is only compared with what String writes, test_json_variable) *)
Example bench_reader_fails : all
  [ check (read_from reads unpacked_variable_file_dat) an_error
  ; match file_parse 100 (new_file_p false) (read_file unpacked_variable_file_dat) true with Some (_, x) => an_error x | None => false end ] = true.
Proof. run. Qed.

(* ==== pkg/server ==== *)

(* getWriter: a multipart form with the file under "file" and fields *)
Definition form (file : option bytes) (fields : list (string * string)) : request :=
  mkRequest (lit "multipart/form-data; boundary=x")
            (match file with Some t => Some (mkSource t reads) | None => None end)
            (mkSource [] []) (fun _ => [])
            (fun k => match lookup k fields with Some v => lit v | None => [] end).
(* makeRequest with Content-Type application/json and a query *)
Definition json_body (text : bytes) (query : list (string * string)) : request :=
  let get k := match lookup k query with Some v => lit v | None => [] end in
  mkRequest (lit "application/json") None (mkSource text reads) get get.
Definition code (n : Z) (o : option reply) : bool :=
  match o with Some (Reply c _ _) => Z.eqb c n | _ => false end.
Definition sends (t : bytes) (o : option reply) : bool :=
  match o with Some (Reply c _ (BodyText b)) => Z.eqb c 200 && same b t | _ => false end.

(* suite_test.go:98-258 *)
Example test_server : all
  [ match serve_health with Reply c _ _ => Z.eqb c 200 | _ => false end
  ; code 200 (serve_print 4 host (form (Some packed_file_json) [("format", "json")]))
  ; code 200 (serve_print 4 host (form (Some packed_file_json) [("format", "metro")]))
  ; code 501 (serve_print 4 host (form (Some packed_file_json) [("format", "unknown")]))
  ; sends unpacked_fixed_request_dat (serve_print 4 host (json_body unpacked_fixed_file_json [("format", "metro")]))
  ; code 200 (serve_convert 4 host (form (Some packed_file_json) [("format", "json")]))
  ; code 200 (serve_convert 4 host (form (Some packed_file_json) [("format", "metro")]))
  ; code 501 (serve_convert 4 host (form (Some packed_file_json) [("format", "unknown")]))
  ; code 200 (serve_convert 4 host (form (Some packed_file_json) [("format", "json"); ("generate", "true")]))
  ; code 200 (serve_validator host (form (Some packed_file_json) []))
  ; code 400 (serve_print 4 host (form (None) [("format", "json")]))
  ; code 200 (serve_print 4 host (form (Some base_segment_json) [("format", "json")]))
  ; code 200 (serve_convert 4 host (form (Some base_segment_json) [("format", "json")]))
  ; sends unpacked_fixed_request_dat (serve_convert 4 host (json_body unpacked_fixed_file_json [("format", "metro")])) ] = true.
Proof. run. Qed.

(* ==== cmd/metro2 ==== *)

Definition failed (o : option done) : bool := match o with Some (Failed _) => true | _ => false end.
Definition wrote (o : option done) : bool := match o with Some (Wrote _) => true | _ => false end.
Definition args (input : option bytes) (format : string) (generate : bool) : flags :=
  mkFlags (match input with Some t => Some (mkSource t reads) | None => None end) (lit format) [] generate true true.

(* cmd_test.go:46-119 *)
Example test_commands : all
  [ failed (cli_convert 4 host (args None "json" false))
  ; wrote (cli_convert 4 host (args (Some packed_file_json) "json" false))
  ; wrote (cli_convert 4 host (args (Some packed_file_json) "metro" false))
  ; failed (cli_convert 4 host (args (Some packed_file_json) "unknown" false))
  ; wrote (cli_convert 4 host (args (Some packed_file_json) "metro" true))
  ; wrote (cli_print 4 host (args (Some packed_file_json) "metro" false))
  ; wrote (cli_print 4 host (args (Some packed_file_json) "json" false))
  ; failed (cli_print 4 host (args (Some packed_file_json) "unknown" false))
  ; wrote (cli_validate host (args (Some packed_file_json) "" false)) ] = true.
Proof. run. Qed.

(* ==== test/fuzz ==== *)

Definition unharmed (f : file) : bool :=
  match file_validate f with Panic => false | _ => true end
  && negb (existsb record_panics (flHeader f :: flBases f ++ [flTrailer f])).

(* fuzz_test.go FuzzReader:19-42 on its seeds *)
Example test_fuzz_reader_seeds : all
  [ forallb (fun x => check (opened x) (fun r => match r with Ok f => unharmed f | Err _ => true | Panic => false end))
    [[]; lit "{}"; base_segment_dat; base_segment_json; header_record_dat;
     j1_segment_dat; j2_segment_dat; k1_segment_dat; k2_segment_dat; k3_segment_dat;
     k4_segment_dat; l1_segment_dat; n1_segment_dat; packed_base_segment_dat; packed_file_dat;
     packed_file_json; packed_header_record_dat; packed_trailer_record_dat; trailer_record_dat; unpacked_fixed_file_dat;
     unpacked_fixed_file_json; unpacked_fixed_request_dat; unpacked_variable_file_dat; unpacked_variable_file_json; crasher_095fc33d;
     crasher_0a80c2ff; crasher_10c93541; crasher_616e90a0] ] = true.
Proof. run. Qed.

(* fuzz_test.go FuzzJSON:44-65 on its seeds *)
Example test_fuzz_json_seeds : all
  [ forallb (fun x => forallb (fun p => match decode x with Some j => match unmarshal_file host j (new_file_p p) with Ok f => unharmed f | Err _ => true | Panic => false end | None => true end) [false; true])
    [[]; lit "{}"; base_segment_json; packed_file_json; unpacked_fixed_file_json;
     unpacked_variable_file_json] ] = true.
Proof. run. Qed.
