(* The types of the generated client (pkg/client/model_*.go): what json.Marshal
   makes of them and what json.Unmarshal makes of a JSON text.
   encoding/json on structs, pointers, slices and maps and the JSON methods of
   time.Time are transcribed (trusted). A struct is the list of its values by
   key; a nil pointer is None. Not modelled: what a failed decoding leaves
   behind, slices that are decoded into twice, dates spelt with escapes. *)
From Coq Require Import ZArith NArith Bool Ascii String List.
Import ListNotations.
From Verif Require Import GoBase GoTime GoLayout Tables JsonTables Codec Records Json JsonFile.
Local Open Scope string_scope.
Local Open Scope Z_scope.
Local Open Scope list_scope.
Local Notation length := List.length.

(* int32 or int64, string, time.Time *)
Inductive ctype := CInt (bits : Z) | CText | CStamp.
(* key, type, whether it is a pointer (with omitempty);
   a field with its tag, e.g. pkg/client/model_k3_segment.go:21-26 *)
Record cfield := mkC { cKey : string; cType : ctype; cPtr : bool }.

(* pkg/client/model_header_record.go:22-41, ToMap 602-647 *)
Definition c_header : list cfield :=
  [ mkC "blockDescriptorWord" (CInt 32) true;
    mkC "recordDescriptorWord" (CInt 32) false;
    mkC "recordIdentifier" CText false;
    mkC "cycleIdentifier" CText true;
    mkC "innovisProgramIdentifier" CText true;
    mkC "equifaxProgramIdentifier" CText true;
    mkC "experianProgramIdentifier" CText true;
    mkC "transUnionProgramIdentifier" CText true;
    mkC "activityDate" CStamp false;
    mkC "dateCreated" CStamp false;
    mkC "programDate" CStamp true;
    mkC "programRevisionDate" CStamp true;
    mkC "reporterName" CText false;
    mkC "reporterAddress" CText false;
    mkC "reporterTelephoneNumber" (CInt 64) true;
    mkC "softwareVendorName" CText true;
    mkC "softwareVersionNumber" CText true;
    mkC "prbcProgramIdentifier" CText true ].

(* pkg/client/model_trailer_record.go:21-68, ToMap 1553-1690 *)
Definition c_trailer : list cfield :=
  [ mkC "blockDescriptorWord" (CInt 32) true;
    mkC "recordDescriptorWord" (CInt 32) false;
    mkC "recordIdentifier" CText false;
    mkC "totalBaseRecords" (CInt 32) true;
    mkC "totalStatusCodeDF" (CInt 32) true;
    mkC "totalConsumerSegmentsJ1" (CInt 32) true;
    mkC "totalConsumerSegmentsJ2" (CInt 32) true;
    mkC "blockCount" (CInt 32) true;
    mkC "totalStatusCodeDA" (CInt 32) true;
    mkC "totalStatusCode05" (CInt 32) true;
    mkC "totalStatusCode11" (CInt 32) true;
    mkC "totalStatusCode13" (CInt 32) true;
    mkC "totalStatusCode61" (CInt 32) true;
    mkC "totalStatusCode62" (CInt 32) true;
    mkC "totalStatusCode63" (CInt 32) true;
    mkC "totalStatusCode64" (CInt 32) true;
    mkC "totalStatusCode65" (CInt 32) true;
    mkC "totalStatusCode71" (CInt 32) true;
    mkC "totalStatusCode78" (CInt 32) true;
    mkC "totalStatusCode80" (CInt 32) true;
    mkC "totalStatusCode82" (CInt 32) true;
    mkC "totalStatusCode83" (CInt 32) true;
    mkC "totalStatusCode84" (CInt 32) true;
    mkC "totalStatusCode88" (CInt 32) true;
    mkC "totalStatusCode89" (CInt 32) true;
    mkC "totalStatusCode93" (CInt 32) true;
    mkC "totalStatusCode94" (CInt 32) true;
    mkC "totalStatusCode95" (CInt 32) true;
    mkC "totalStatusCode96" (CInt 32) true;
    mkC "totalStatusCode97" (CInt 32) true;
    mkC "totalECOACodeZ" (CInt 32) true;
    mkC "totalEmploymentSegments" (CInt 32) true;
    mkC "totalOriginalCreditorSegments" (CInt 32) true;
    mkC "totalPurchasedToSegments" (CInt 32) true;
    mkC "totalMortgageInformationSegments" (CInt 32) true;
    mkC "totalPaymentInformationSegments" (CInt 32) true;
    mkC "totalChangeSegments" (CInt 32) true;
    mkC "totalSocialNumbersAllSegments" (CInt 32) true;
    mkC "totalSocialNumbersBaseSegments" (CInt 32) true;
    mkC "totalSocialNumbersJ1Segments" (CInt 32) true;
    mkC "totalSocialNumbersJ2Segments" (CInt 32) true;
    mkC "totalDatesBirthAllSegments" (CInt 32) true;
    mkC "totalDatesBirthBaseSegments" (CInt 32) true;
    mkC "totalDatesBirthJ1Segments" (CInt 32) true;
    mkC "totalDatesBirthJ2Segments" (CInt 32) true;
    mkC "totalTelephoneNumbersAllSegments" (CInt 32) true ].

(* pkg/client/model_base_segment.go:22-68, ToMap 1423-1529 *)
Definition c_base : list cfield :=
  [ mkC "blockDescriptorWord" (CInt 32) true;
    mkC "recordDescriptorWord" (CInt 32) false;
    mkC "timeStamp" CStamp true;
    mkC "identificationNumber" CText false;
    mkC "cycleIdentifier" CText true;
    mkC "consumerAccountNumber" CText false;
    mkC "portfolioType" CText true;
    mkC "accountType" CText false;
    mkC "dateOpened" CStamp true;
    mkC "creditLimit" (CInt 32) true;
    mkC "highestCredit" (CInt 32) false;
    mkC "termsDuration" CText false;
    mkC "termsFrequency" CText true;
    mkC "scheduledMonthlyPaymentAmount" (CInt 32) true;
    mkC "actualPaymentAmount" (CInt 32) true;
    mkC "accountStatus" CText false;
    mkC "paymentRating" CText true;
    mkC "paymentHistoryProfile" CText false;
    mkC "specialComment" CText true;
    mkC "complianceConditionCode" CText true;
    mkC "currentBalance" (CInt 32) false;
    mkC "amountPastDue" (CInt 32) true;
    mkC "originalChargeOffAmount" (CInt 32) true;
    mkC "dateAccountInformation" CStamp false;
    mkC "dateFirstDelinquency" CStamp true;
    mkC "dateClosed" CStamp true;
    mkC "dateLastPayment" CStamp true;
    mkC "interestTypeIndicator" CText true;
    mkC "surname" CText false;
    mkC "firstName" CText false;
    mkC "middleName" CText true;
    mkC "generationCode" CText true;
    mkC "socialSecurityNumber" (CInt 32) true;
    mkC "dateBirth" CStamp true;
    mkC "telephoneNumber" (CInt 64) true;
    mkC "ecoaCode" CText false;
    mkC "consumerInformationIndicator" CText true;
    mkC "countryCode" CText true;
    mkC "firstLineAddress" CText false;
    mkC "secondLineAddress" CText true;
    mkC "city" CText true;
    mkC "state" CText false;
    mkC "zipCode" CText false;
    mkC "addressIndicator" CText true;
    mkC "residenceCode" CText true ].

(* pkg/client/model_j1_segment.go:22-33, ToMap 352-377 *)
Definition c_j1 : list cfield :=
  [ mkC "segmentIdentifier" CText false;
    mkC "surname" CText false;
    mkC "firstName" CText false;
    mkC "middleName" CText true;
    mkC "generationCode" CText true;
    mkC "socialSecurityNumber" (CInt 32) true;
    mkC "dateBirth" CStamp true;
    mkC "telephoneNumber" (CInt 64) true;
    mkC "ecoaCode" CText false;
    mkC "consumerInformationIndicator" CText true ].

(* pkg/client/model_j2_segment.go:22-41, ToMap 588-629 *)
Definition c_j2 : list cfield :=
  [ mkC "segmentIdentifier" CText false;
    mkC "surname" CText false;
    mkC "firstName" CText false;
    mkC "middleName" CText true;
    mkC "generationCode" CText true;
    mkC "socialSecurityNumber" (CInt 32) true;
    mkC "dateBirth" CStamp true;
    mkC "telephoneNumber" (CInt 64) true;
    mkC "ecoaCode" CText false;
    mkC "consumerInformationIndicator" CText true;
    mkC "countryCode" CText true;
    mkC "firstLineAddress" CText false;
    mkC "secondLineAddress" CText true;
    mkC "city" CText false;
    mkC "state" CText false;
    mkC "zipCode" CText false;
    mkC "addressIndicator" CText true;
    mkC "residenceCode" CText true ].

(* pkg/client/model_k1_segment.go:21-25, ToMap 127-133 *)
Definition c_k1 : list cfield :=
  [ mkC "segmentIdentifier" CText false;
    mkC "originalCreditorName" CText false;
    mkC "creditorClassification" (CInt 32) false ].

(* pkg/client/model_k2_segment.go:21-25, ToMap 127-133 *)
Definition c_k2 : list cfield :=
  [ mkC "segmentIdentifier" CText false;
    mkC "purchasedIndicator" (CInt 32) false;
    mkC "purchasedName" CText false ].

(* pkg/client/model_k3_segment.go:21-26, ToMap 174-187 *)
Definition c_k3 : list cfield :=
  [ mkC "segmentIdentifier" CText false;
    mkC "agencyIdentifier" (CInt 32) true;
    mkC "accountNumber" CText true;
    mkC "mortgageIdentificationNumber" CText true ].

(* pkg/client/model_k4_segment.go:22-28, ToMap 201-215 *)
Definition c_k4 : list cfield :=
  [ mkC "segmentIdentifier" CText false;
    mkC "specializedPaymentIndicator" (CInt 32) false;
    mkC "deferredPaymentStartDate" CStamp true;
    mkC "balloonPaymentDueDate" CStamp true;
    mkC "balloonPaymentAmount" (CInt 32) true ].

(* pkg/client/model_l1_segment.go:21-26, ToMap 167-178 *)
Definition c_l1 : list cfield :=
  [ mkC "segmentIdentifier" CText false;
    mkC "changeIndicator" (CInt 32) false;
    mkC "newConsumerAccountNumber" CText true;
    mkC "balloonPaymentDueDate" CText true ].

(* pkg/client/model_n1_segment.go:21-30, ToMap 299-322 *)
Definition c_n1 : list cfield :=
  [ mkC "segmentIdentifier" CText false;
    mkC "employerName" CText false;
    mkC "firstLineEmployerAddress" CText true;
    mkC "secondLineEmployerAddress" CText true;
    mkC "employerCity" CText true;
    mkC "employerState" CText true;
    mkC "zipCode" CText true;
    mkC "occupation" CText true ].

(* pkg/client/model_data_record.go:21-31 *)
Definition c_segment (k : segkind) : list cfield :=
  match k with
  | J1 => c_j1 | J2 => c_j2 | K1 => c_k1 | K2 => c_k2
  | K3 => c_k3 | K4 => c_k4 | L1 => c_l1 | N1 => c_n1
  end.

(* a struct, e.g. pkg/client/model_k3_segment.go:21-26; None is a nil pointer *)
Definition cobject := list (string * option value).

(* pkg/client/model_data_record.go:21-31 *)
Record crecord := mkCRecord {
  crBase : cobject;
  crJ1 : option (list cobject); crJ2 : option (list cobject);
  crK1 : option cobject; crK2 : option cobject; crK3 : option cobject;
  crK4 : option cobject; crL1 : option cobject; crN1 : option cobject }.

(* pkg/client/model_file.go:21-25 *)
Record cfile := mkCFile { cfHeader : cobject; cfData : option (list crecord); cfTrailer : cobject }.

(* ---- json.Marshal ---- *)

(* time.Time.MarshalJSON: RFC3339Nano without trailing zeros; an error for years
   of other than four digits and zones of a day or more *)
Definition nano_text (ns : Z) : bytes :=
  if ns =? 0 then []
  else "."%char :: rev (drop_while (fun c => byte_eqb c "0") (rev (append_int 9 ns))).
(* time.Time.MarshalJSON, for pkg/client/model_header_record.go:594-600 *)
Definition strict_text (t : time) : option bytes :=
  if (0 <=? tYear t) && (tYear t <=? 9999) && (Z.abs (match tOff t with Some o => o | None => 0 end) <? 86400)
  then Some (append_int 4 (tYear t) ++ lit "-" ++ append_int 2 (tMonth t) ++ lit "-" ++ append_int 2 (tDay t)
             ++ lit "T" ++ append_int 2 (tHour t) ++ lit ":" ++ append_int 2 (tMin t) ++ lit ":" ++ append_int 2 (tSec t)
             ++ nano_text (tNsec t) ++ format_zone (tOff t))
  else None.

(* json.Marshal of a value of the map, pkg/client/model_k3_segment.go:166-172 *)
Definition c_value (v : value) : option json :=
  match v with
  | VInt z => Some (JNum (itoa z))
  | VStr s => Some (JStr (clean s))
  | VTime t => option_map JStr (strict_text t)
  end.

(* ToMap of an object: a pointer that is nil is left out;
   e.g. pkg/client/model_k3_segment.go:174-187 *)
Fixpoint c_members (o : cobject) : option (list (bytes * json)) :=
  match o with
  | [] => Some []
  | (k, None) :: r => c_members r
  | (k, Some v) :: r =>
      match c_value v, c_members r with
      | Some j, Some l => Some ((lit k, j) :: l)
      | _, _ => None
      end
  end.
(* MarshalJSON: the map with its keys sorted; e.g. pkg/client/model_k3_segment.go:166-172 *)
Definition c_object (o : cobject) : option json :=
  option_map (fun l => JObj (put_members l)) (c_members o).

(* an error of one element is an error of the whole; json.Marshal,
   for pkg/client/model_data_record.go:331-337 *)
Fixpoint all_some {A} (l : list (option A)) : option (list A) :=
  match l with
  | [] => Some []
  | Some x :: r => option_map (cons x) (all_some r)
  | None :: _ => None
  end.
(* json.Marshal of a slice, pkg/client/model_data_record.go:331-367 *)
Definition c_array (l : list (option json)) : option json := option_map JArr (all_some l).

(* an optional member; pkg/client/model_data_record.go:331-367 *)
Definition c_member {A} (key : string) (enc : A -> option json) (x : option A) : list (option (bytes * json)) :=
  match x with
  | None => []
  | Some a => [option_map (fun j => (lit key, j)) (enc a)]
  end.

(* pkg/client/model_data_record.go:331-367 *)
Definition c_record (r : crecord) : option json :=
  option_map (fun l => JObj (put_members l))
    (all_some (c_member "base" c_object (Some (crBase r))
      ++ c_member "j1" (fun l => c_array (map c_object l)) (crJ1 r) ++ c_member "j2" (fun l => c_array (map c_object l)) (crJ2 r)
      ++ c_member "k1" c_object (crK1 r) ++ c_member "k2" c_object (crK2 r) ++ c_member "k3" c_object (crK3 r)
      ++ c_member "k4" c_object (crK4 r) ++ c_member "l1" c_object (crL1 r) ++ c_member "n1" c_object (crN1 r))).

(* pkg/client/model_file.go:126-142 *)
Definition c_file (f : cfile) : option json :=
  option_map (fun l => JObj (put_members l))
    (all_some (c_member "header" c_object (Some (cfHeader f)) ++ c_member "data" (fun l => c_array (map c_record l)) (cfData f)
      ++ c_member "trailer" c_object (Some (cfTrailer f)))).

(* ---- json.Unmarshal ---- *)

(* of the types of the fields, e.g. pkg/client/model_k3_segment.go:21-26 *)
Definition c_zero_value (t : ctype) : value :=
  match t with CInt _ => VInt 0 | CText => VStr [] | CStamp => VTime zero_time end.
(* a new struct, e.g. pkg/client/model_k3_segment.go:41-44 *)
Definition c_zero (tbl : list cfield) : cobject :=
  map (fun c => (cKey c, if cPtr c then None else Some (c_zero_value (cType c)))) tbl.

(* time.Time.UnmarshalJSON: time.Parse with time.RFC3339 *)
Definition strict_time (zone : bytes -> time -> time) (s : bytes) : option time :=
  parse_layout zone "2006-01-02T15:04:05Z07:00" s.

(* a member into a field that holds [old]: null empties pointers and leaves the
   rest alone; into a field, e.g. pkg/client/model_k3_segment.go:21-26 *)
Definition c_decode_value (zone : bytes -> time -> time) (c : cfield) (old : option value) (j : json) : option (option value) :=
  match j with
  | JNull => Some (if cPtr c then None else old)
  | _ =>
      match cType c, j with
      | CInt bits, JNum t =>
          match parse_int 64 t with
          | (z, None) => if (- 2 ^ (bits - 1) <=? z) && (z <? 2 ^ (bits - 1)) then Some (Some (VInt z)) else None
          | _ => None
          end
      | CText, JStr s => Some (Some (VStr s))
      | CStamp, JStr s => option_map (fun t => Some (VTime t)) (strict_time zone s)
      | _, _ => None
      end
  end.

(* the tags, e.g. pkg/client/model_k3_segment.go:21-26 *)
Definition c_tags (keys : list string) : list tag := map (fun k => mkTag k k false) keys.
(* encoding/json decodeState.object, e.g. pkg/client/model_k3_segment.go:21-26 *)
Definition c_find (tbl : list cfield) (k : bytes) : option cfield :=
  match find_tag (c_tags (map cKey tbl)) k with
  | Some t => find (fun c => String.eqb (cKey c) (tgKey t)) tbl
  | None => None
  end.
(* reading a field, e.g. pkg/client/model_k3_segment.go:21-26 *)
Definition c_get (k : string) (o : cobject) : option value :=
  match find (fun m => String.eqb (fst m) k) o with Some m => snd m | None => None end.
(* assignment to a field, e.g. pkg/client/model_k3_segment.go:21-26 *)
Definition c_set (k : string) (v : option value) (o : cobject) : cobject :=
  map (fun m => if String.eqb (fst m) k then (k, v) else m) o.

(* encoding/json decodeState.object, e.g. into pkg/client/model_k3_segment.go:21-26 *)
Fixpoint c_decode_members (zone : bytes -> time -> time) (tbl : list cfield) (l : list (bytes * json)) (o : cobject) : option cobject :=
  match l with
  | [] => Some o
  | (k, j) :: r =>
      match c_find tbl k with
      | Some c =>
          match c_decode_value zone c (c_get (cKey c) o) j with
          | Some v => c_decode_members zone tbl r (c_set (cKey c) v o)
          | None => None
          end
      | None => c_decode_members zone tbl r o
      end
  end.
(* json.Unmarshal into a struct, e.g. pkg/client/model_k3_segment.go:21-26 *)
Definition c_decode (zone : bytes -> time -> time) (tbl : list cfield) (j : json) (o : cobject) : option cobject :=
  match j with
  | JObj l => c_decode_members zone tbl l o
  | JNull => Some o
  | _ => None
  end.

(* into a pointer to an object; pkg/client/model_data_record.go:25-30 *)
Definition c_decode_ptr (zone : bytes -> time -> time) (tbl : list cfield) (j : json) (o : option cobject) : option (option cobject) :=
  match j with
  | JNull => Some None
  | _ => option_map Some (c_decode zone tbl j (match o with Some x => x | None => c_zero tbl end))
  end.
(* into a slice; pkg/client/model_data_record.go:23-24, pkg/client/model_file.go:23 *)
Definition c_decode_slice {A} (dec : json -> option A) (j : json) : option (option (list A)) :=
  match j with
  | JNull => Some None
  | JArr l => option_map Some (all_some (map dec l))
  | _ => None
  end.

(* pkg/client/model_data_record.go:46-49 *)
Definition crecord0 : crecord := mkCRecord (c_zero c_base) None None None None None None None None.
(* the tags of pkg/client/model_data_record.go:21-31 *)
Definition record_keys : list string := ["base"; "j1"; "j2"; "k1"; "k2"; "k3"; "k4"; "l1"; "n1"].
(* encoding/json decodeState.object, for the tags of pkg/client/model_data_record.go:21-31 *)
Definition c_key (keys : list string) (k : bytes) : string :=
  match find_tag (c_tags keys) k with Some t => tgKey t | None => "" end.

(* into a field of pkg/client/model_data_record.go:21-31 *)
Definition c_decode_record_member (zone : bytes -> time -> time) (m : bytes * json) (r : crecord) : option crecord :=
  let '(k, j) := m in
  let '(mkCRecord b j1 j2 k1 k2 k3 k4 l1 n1) := r in
  let key := c_key record_keys k in
  let many tbl := c_decode_slice (fun x => c_decode zone tbl x (c_zero tbl)) j in
  if String.eqb key "base" then option_map (fun x => mkCRecord x j1 j2 k1 k2 k3 k4 l1 n1) (c_decode zone c_base j b)
  else if String.eqb key "j1" then option_map (fun x => mkCRecord b x j2 k1 k2 k3 k4 l1 n1) (many c_j1)
  else if String.eqb key "j2" then option_map (fun x => mkCRecord b j1 x k1 k2 k3 k4 l1 n1) (many c_j2)
  else if String.eqb key "k1" then option_map (fun x => mkCRecord b j1 j2 x k2 k3 k4 l1 n1) (c_decode_ptr zone c_k1 j k1)
  else if String.eqb key "k2" then option_map (fun x => mkCRecord b j1 j2 k1 x k3 k4 l1 n1) (c_decode_ptr zone c_k2 j k2)
  else if String.eqb key "k3" then option_map (fun x => mkCRecord b j1 j2 k1 k2 x k4 l1 n1) (c_decode_ptr zone c_k3 j k3)
  else if String.eqb key "k4" then option_map (fun x => mkCRecord b j1 j2 k1 k2 k3 x l1 n1) (c_decode_ptr zone c_k4 j k4)
  else if String.eqb key "l1" then option_map (fun x => mkCRecord b j1 j2 k1 k2 k3 k4 x n1) (c_decode_ptr zone c_l1 j l1)
  else if String.eqb key "n1" then option_map (fun x => mkCRecord b j1 j2 k1 k2 k3 k4 l1 x) (c_decode_ptr zone c_n1 j n1)
  else Some r.
(* into pkg/client/model_data_record.go:21-31 *)
Fixpoint c_decode_record_members (zone : bytes -> time -> time) (l : list (bytes * json)) (r : crecord) : option crecord :=
  match l with
  | [] => Some r
  | m :: l' => match c_decode_record_member zone m r with Some r' => c_decode_record_members zone l' r' | None => None end
  end.
(* into pkg/client/model_data_record.go:21-31 *)
Definition c_decode_record (zone : bytes -> time -> time) (j : json) (r : crecord) : option crecord :=
  match j with
  | JObj l => c_decode_record_members zone l r
  | JNull => Some r
  | _ => None
  end.

(* pkg/client/model_file.go:41-44 *)
Definition cfile0 : cfile := mkCFile (c_zero c_header) None (c_zero c_trailer).
(* into a field of pkg/client/model_file.go:21-25 *)
Definition c_decode_file_member (zone : bytes -> time -> time) (m : bytes * json) (f : cfile) : option cfile :=
  let '(k, j) := m in
  let '(mkCFile h d t) := f in
  let key := c_key ["header"; "data"; "trailer"] k in
  if String.eqb key "header" then option_map (fun x => mkCFile x d t) (c_decode zone c_header j h)
  else if String.eqb key "data" then option_map (fun x => mkCFile h x t) (c_decode_slice (fun x => c_decode_record zone x crecord0) j)
  else if String.eqb key "trailer" then option_map (fun x => mkCFile h d x) (c_decode zone c_trailer j t)
  else Some f.
(* into pkg/client/model_file.go:21-25 *)
Fixpoint c_decode_file_members (zone : bytes -> time -> time) (l : list (bytes * json)) (f : cfile) : option cfile :=
  match l with
  | [] => Some f
  | m :: l' => match c_decode_file_member zone m f with Some f' => c_decode_file_members zone l' f' | None => None end
  end.
(* json.Unmarshal into a File; pkg/client/model_file.go:21-25 *)
Definition c_decode_file (zone : bytes -> time -> time) (j : json) : option cfile :=
  match j with
  | JObj l => c_decode_file_members zone l cfile0
  | JNull => Some cfile0
  | _ => None
  end.
