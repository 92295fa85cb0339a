(* Specification: the JSON objects published in api/openapi.yaml *)
From Coq Require Import ZArith NArith Bool Ascii String List.
Import ListNotations.
From Verif Require Import GoBase GoTime Tables JsonTables Codec Records File Reader Json JsonFile Server SpecCodec SpecLayouts SpecRecords SpecJson SpecServer SpecSparse.
Local Open Scope string_scope.
Local Open Scope Z_scope.
Local Open Scope list_scope.
Local Notation length := List.length.

(* ---- properties ---- *)

Inductive ptype :=
| TInt (bits : Z)               (* type: integer, format: int32 or int64 *)
| TText                         (* type: string *)
| TStamp                        (* type: string, format: date-time *)
| TCode (codes : list string)   (* type: string, with an enum *)
| TNumber (codes : list Z).     (* type: integer, with an enum *)

Record property := mkProperty { pKey : string; pType : ptype; pRequired : bool }.
Definition schema := list property.

(* api/openapi.yaml:215-268 *)
Definition header_schema : schema :=
  [ mkProperty "blockDescriptorWord" (TInt 32) false;
    mkProperty "recordDescriptorWord" (TInt 32) true;
    mkProperty "recordIdentifier" (TCode ["HEADER"]) true;
    mkProperty "cycleIdentifier" TText false;
    mkProperty "innovisProgramIdentifier" TText false;
    mkProperty "equifaxProgramIdentifier" TText false;
    mkProperty "experianProgramIdentifier" TText false;
    mkProperty "transUnionProgramIdentifier" TText false;
    mkProperty "activityDate" TStamp true;
    mkProperty "dateCreated" TStamp true;
    mkProperty "programDate" TStamp false;
    mkProperty "programRevisionDate" TStamp false;
    mkProperty "reporterName" TText true;
    mkProperty "reporterAddress" TText true;
    mkProperty "reporterTelephoneNumber" (TInt 64) false;
    mkProperty "softwareVendorName" TText false;
    mkProperty "softwareVersionNumber" TText false;
    mkProperty "prbcProgramIdentifier" TText false ].

(* api/openapi.yaml:269-412 *)
Definition trailer_schema : schema :=
  [ mkProperty "blockDescriptorWord" (TInt 32) false;
    mkProperty "recordDescriptorWord" (TInt 32) true;
    mkProperty "recordIdentifier" (TCode ["TRAILER"]) true;
    mkProperty "totalBaseRecords" (TInt 32) false;
    mkProperty "totalStatusCodeDF" (TInt 32) false;
    mkProperty "totalConsumerSegmentsJ1" (TInt 32) false;
    mkProperty "totalConsumerSegmentsJ2" (TInt 32) false;
    mkProperty "blockCount" (TInt 32) false;
    mkProperty "totalStatusCodeDA" (TInt 32) false;
    mkProperty "totalStatusCode05" (TInt 32) false;
    mkProperty "totalStatusCode11" (TInt 32) false;
    mkProperty "totalStatusCode13" (TInt 32) false;
    mkProperty "totalStatusCode61" (TInt 32) false;
    mkProperty "totalStatusCode62" (TInt 32) false;
    mkProperty "totalStatusCode63" (TInt 32) false;
    mkProperty "totalStatusCode64" (TInt 32) false;
    mkProperty "totalStatusCode65" (TInt 32) false;
    mkProperty "totalStatusCode71" (TInt 32) false;
    mkProperty "totalStatusCode78" (TInt 32) false;
    mkProperty "totalStatusCode80" (TInt 32) false;
    mkProperty "totalStatusCode82" (TInt 32) false;
    mkProperty "totalStatusCode83" (TInt 32) false;
    mkProperty "totalStatusCode84" (TInt 32) false;
    mkProperty "totalStatusCode88" (TInt 32) false;
    mkProperty "totalStatusCode89" (TInt 32) false;
    mkProperty "totalStatusCode93" (TInt 32) false;
    mkProperty "totalStatusCode94" (TInt 32) false;
    mkProperty "totalStatusCode95" (TInt 32) false;
    mkProperty "totalStatusCode96" (TInt 32) false;
    mkProperty "totalStatusCode97" (TInt 32) false;
    mkProperty "totalECOACodeZ" (TInt 32) false;
    mkProperty "totalEmploymentSegments" (TInt 32) false;
    mkProperty "totalOriginalCreditorSegments" (TInt 32) false;
    mkProperty "totalPurchasedToSegments" (TInt 32) false;
    mkProperty "totalMortgageInformationSegments" (TInt 32) false;
    mkProperty "totalPaymentInformationSegments" (TInt 32) false;
    mkProperty "totalChangeSegments" (TInt 32) false;
    mkProperty "totalSocialNumbersAllSegments" (TInt 32) false;
    mkProperty "totalSocialNumbersBaseSegments" (TInt 32) false;
    mkProperty "totalSocialNumbersJ1Segments" (TInt 32) false;
    mkProperty "totalSocialNumbersJ2Segments" (TInt 32) false;
    mkProperty "totalDatesBirthAllSegments" (TInt 32) false;
    mkProperty "totalDatesBirthBaseSegments" (TInt 32) false;
    mkProperty "totalDatesBirthJ1Segments" (TInt 32) false;
    mkProperty "totalDatesBirthJ2Segments" (TInt 32) false;
    mkProperty "totalTelephoneNumbersAllSegments" (TInt 32) false ].
(* api/openapi.yaml:439-658 *)
Definition base_schema : schema :=
  [ mkProperty "blockDescriptorWord" (TInt 32) false;
    mkProperty "recordDescriptorWord" (TInt 32) true;
    mkProperty "timeStamp" TStamp false;
    mkProperty "identificationNumber" TText true;
    mkProperty "cycleIdentifier" TText false;
    mkProperty "consumerAccountNumber" TText true;
    mkProperty "portfolioType" (TCode ["C"; "I"; "M"; "O"; "R"; "L"]) false;
    mkProperty "accountType" TText true;
    mkProperty "dateOpened" TStamp false;
    mkProperty "creditLimit" (TInt 32) false;
    mkProperty "highestCredit" (TInt 32) true;
    mkProperty "termsDuration" TText true;
    mkProperty "termsFrequency" (TCode ["D"; "P"; "W"; "B"; "E"; "M"; "L"; "Q"; "T"; "S"; "Y"]) false;
    mkProperty "scheduledMonthlyPaymentAmount" (TInt 32) false;
    mkProperty "actualPaymentAmount" (TInt 32) false;
    mkProperty "accountStatus" (TCode ["DF"; "DA"; "11"; "61"; "62"; "63"; "64"; "71"; "78"; "80"; "82"; "83"; "84"; "93"; "96"; "97"; "05"; "13"; "65"; "88"; "89"; "94"; "95"]) true;
    mkProperty "paymentRating" (TCode ["0"; "1"; "2"; "3"; "4"; "5"; "6"; "G"; "L"]) false;
    mkProperty "paymentHistoryProfile" (TCode ["0"; "1"; "2"; "3"; "4"; "5"; "6"; "B"; "D"; "E"; "G"; "H"; "J"; "K"; "L"]) true;
    mkProperty "specialComment" TText false;
    mkProperty "complianceConditionCode" TText false;
    mkProperty "currentBalance" (TInt 32) true;
    mkProperty "amountPastDue" (TInt 32) false;
    mkProperty "originalChargeOffAmount" (TInt 32) false;
    mkProperty "dateAccountInformation" TStamp true;
    mkProperty "dateFirstDelinquency" TStamp false;
    mkProperty "dateClosed" TStamp false;
    mkProperty "dateLastPayment" TStamp false;
    mkProperty "interestTypeIndicator" TText false;
    mkProperty "surname" TText true;
    mkProperty "firstName" TText true;
    mkProperty "middleName" TText false;
    mkProperty "generationCode" (TCode ["J"; "3"; "6"; "9"; "S"; "4"; "7"; "2"; "5"; "8"]) false;
    mkProperty "socialSecurityNumber" (TInt 32) false;
    mkProperty "dateBirth" TStamp false;
    mkProperty "telephoneNumber" (TInt 64) false;
    mkProperty "ecoaCode" TText true;
    mkProperty "consumerInformationIndicator" TText false;
    mkProperty "countryCode" TText false;
    mkProperty "firstLineAddress" TText true;
    mkProperty "secondLineAddress" TText false;
    mkProperty "city" TText false;
    mkProperty "state" TText true;
    mkProperty "zipCode" TText true;
    mkProperty "addressIndicator" (TCode ["C"; "Y"; "N"; "M"; "S"; "B"; "U"; "D"; "P"]) false;
    mkProperty "residenceCode" (TCode ["O"; "R"]) false ].
(* api/openapi.yaml:659-694 *)
Definition j1_schema : schema :=
  [ mkProperty "segmentIdentifier" (TCode ["J1"]) true;
    mkProperty "surname" TText true;
    mkProperty "firstName" TText true;
    mkProperty "middleName" TText false;
    mkProperty "generationCode" (TCode ["J"; "S"; "2"]) false;
    mkProperty "socialSecurityNumber" (TInt 32) false;
    mkProperty "dateBirth" TStamp false;
    mkProperty "telephoneNumber" (TInt 64) false;
    mkProperty "ecoaCode" TText true;
    mkProperty "consumerInformationIndicator" TText false ].
(* api/openapi.yaml:695-763 *)
Definition j2_schema : schema :=
  [ mkProperty "segmentIdentifier" (TCode ["J2"]) true;
    mkProperty "surname" TText true;
    mkProperty "firstName" TText true;
    mkProperty "middleName" TText false;
    mkProperty "generationCode" (TCode ["J"; "S"; "2"]) false;
    mkProperty "socialSecurityNumber" (TInt 32) false;
    mkProperty "dateBirth" TStamp false;
    mkProperty "telephoneNumber" (TInt 64) false;
    mkProperty "ecoaCode" TText true;
    mkProperty "consumerInformationIndicator" TText false;
    mkProperty "countryCode" TText false;
    mkProperty "firstLineAddress" TText true;
    mkProperty "secondLineAddress" TText false;
    mkProperty "city" TText true;
    mkProperty "state" TText true;
    mkProperty "zipCode" TText true;
    mkProperty "addressIndicator" (TCode ["C"; "Y"; "N"; "M"; "S"; "B"; "U"; "D"; "P"]) false;
    mkProperty "residenceCode" (TCode ["O"; "R"]) false ].
(* api/openapi.yaml:764-794 *)
Definition k1_schema : schema :=
  [ mkProperty "segmentIdentifier" (TCode ["K1"]) true;
    mkProperty "originalCreditorName" TText true;
    mkProperty "creditorClassification" (TNumber [1; 2; 3; 4; 5; 6; 7; 8; 9; 10; 11; 12; 13; 14; 15]) true ].
(* api/openapi.yaml:795-813 *)
Definition k2_schema : schema :=
  [ mkProperty "segmentIdentifier" (TCode ["K2"]) true;
    mkProperty "purchasedIndicator" (TNumber [1; 2; 9]) true;
    mkProperty "purchasedName" TText true ].
(* api/openapi.yaml:814-832 *)
Definition k3_schema : schema :=
  [ mkProperty "segmentIdentifier" (TCode ["K3"]) true;
    mkProperty "agencyIdentifier" (TNumber [0; 1; 2]) false;
    mkProperty "accountNumber" TText false;
    mkProperty "mortgageIdentificationNumber" TText false ].
(* api/openapi.yaml:833-856 *)
Definition k4_schema : schema :=
  [ mkProperty "segmentIdentifier" (TCode ["K4"]) true;
    mkProperty "specializedPaymentIndicator" (TNumber [1; 2]) true;
    mkProperty "deferredPaymentStartDate" TStamp false;
    mkProperty "balloonPaymentDueDate" TStamp false;
    mkProperty "balloonPaymentAmount" (TInt 32) false ].
(* api/openapi.yaml:857-872 *)
Definition l1_schema : schema :=
  [ mkProperty "segmentIdentifier" (TCode ["L1"]) true;
    mkProperty "changeIndicator" (TInt 32) true;
    mkProperty "newConsumerAccountNumber" TText false;
    mkProperty "balloonPaymentDueDate" TText false ].
(* api/openapi.yaml:873-895 *)
Definition n1_schema : schema :=
  [ mkProperty "segmentIdentifier" (TCode ["N1"]) true;
    mkProperty "employerName" TText true;
    mkProperty "firstLineEmployerAddress" TText false;
    mkProperty "secondLineEmployerAddress" TText false;
    mkProperty "employerCity" TText false;
    mkProperty "employerState" TText false;
    mkProperty "zipCode" TText false;
    mkProperty "occupation" TText false ].


(* ---- objects ---- *)

Inductive object := OHeader | OTrailer | OBase | OSegment (k : segkind).

Definition obj_schema (o : object) : schema :=
  match o with
  | OHeader => header_schema | OTrailer => trailer_schema | OBase => base_schema
  | OSegment J1 => j1_schema | OSegment J2 => j2_schema | OSegment K1 => k1_schema | OSegment K2 => k2_schema
  | OSegment K3 => k3_schema | OSegment K4 => k4_schema | OSegment L1 => l1_schema | OSegment N1 => n1_schema
  end.
Definition obj_struct (o : object) : structure :=
  match o with OHeader => header_struct | OTrailer => trailer_struct | OBase => base_struct | OSegment k => seg_struct k end.
Definition obj_id (o : object) : string * bytes :=
  match o with
  | OHeader => ("RecordIdentifier", list_ascii_of_string "HEADER")
  | OTrailer => ("RecordIdentifier", list_ascii_of_string "TRAILER")
  | OBase => no_id
  | OSegment k => segment_id k
  end.
(* what json.Marshal writes for the struct *)
Definition obj_json (o : object) (st : fields) : json :=
  encode_struct (match o with OHeader => header_tags | OTrailer => trailer_tags | OBase => base_tags | OSegment k => seg_tags k end) st.

(* properties published but not kept in the struct *)
Definition unknown_properties (o : object) : list string :=
  match o with
  | OTrailer => ["blockDescriptorWord"]
  | OSegment L1 => ["balloonPaymentDueDate"]
  | _ => []
  end.
(* fields kept in the struct but not published *)
Definition unpublished_fields (o : object) : list string :=
  match o with
  | OBase => ["ProcessingIndicator"; "CorrectionIndicator"]
  | OSegment L1 => ["NewIdentificationNumber"]
  | _ => []
  end.

(* fields written even when empty: those required, and some more *)
Definition also_written (o : object) : list string :=
  match o with
  | OHeader => ["ReporterTelephoneNumber"]
  | OTrailer =>
      [ "TotalBaseRecords"; "TotalStatusCodeDF"; "BlockCount"; "TotalStatusCodeDA"; "TotalStatusCode05"; "TotalStatusCode11";
        "TotalStatusCode13"; "TotalStatusCode61"; "TotalStatusCode62"; "TotalStatusCode63"; "TotalStatusCode64"; "TotalStatusCode65";
        "TotalStatusCode71"; "TotalStatusCode78"; "TotalStatusCode80"; "TotalStatusCode82"; "TotalStatusCode83"; "TotalStatusCode84";
        "TotalStatusCode88"; "TotalStatusCode89"; "TotalStatusCode93"; "TotalStatusCode94"; "TotalStatusCode95"; "TotalStatusCode96";
        "TotalStatusCode97"; "TotalECOACodeZ"; "TotalEmploymentSegments"; "TotalOriginalCreditorSegments"; "TotalPurchasedToSegments";
        "TotalMortgageInformationSegments"; "TotalPaymentInformationSegments"; "TotalChangeSegments"; "TotalSocialNumbersAllSegments";
        "TotalSocialNumbersBaseSegments"; "TotalSocialNumbersJ1Segments"; "TotalSocialNumbersJ2Segments"; "TotalDatesBirthAllSegments";
        "TotalDatesBirthBaseSegments"; "TotalDatesBirthJ1Segments"; "TotalDatesBirthJ2Segments"; "TotalTelephoneNumbersAllSegments" ]
  | OBase => [ "ProcessingIndicator"; "PortfolioType"; "InterestTypeIndicator"; "TelephoneNumber"; "CountryCode"; "City";
               "AddressIndicator"; "ResidenceCode" ]
  | OSegment J1 => ["TelephoneNumber"]
  | OSegment J2 => ["TelephoneNumber"; "CountryCode"; "AddressIndicator"; "ResidenceCode"]
  | OSegment K3 => ["MortgageIdentificationNumber"]
  | OSegment K4 => ["BalloonPaymentAmount"]
  | OSegment N1 => [ "FirstLineEmployerAddress"; "SecondLineEmployerAddress"; "EmployerCity"; "EmployerState"; "ZipCode"; "Occupation" ]
  | OSegment _ => []
  end.
(* required, but left out when it is zero *)
Definition not_written (o : object) : list string := match o with OBase => ["HighestCredit"] | _ => [] end.

(* p is the property of the field n *)
Definition property_of (o : object) (p : property) (n : string) : Prop := In p (obj_schema o) /\ lit (pKey p) = json_key n.
Definition always_written (o : object) (n : string) : Prop :=
  In n (also_written o) \/ ((exists p, property_of o p n /\ pRequired p = true) /\ ~ In n (not_written o)).

(* the kind of the field a property is read into *)
Definition type_kind (t : ptype) : kind :=
  match t with TInt _ | TNumber _ => KInt | TText | TCode _ => KStr | TStamp => KTime end.

(* ---- values ---- *)

(* a date-time of RFC 3339, to the nanosecond *)
Definition date_time_text (t : time) (s : bytes) : Prop :=
  calendar_time t /\ exists y m d h mi sec f z, s = y ++ lit "-" ++ m ++ lit "-" ++ d ++ lit "T" ++ h ++ lit ":" ++ mi ++ lit ":" ++ sec ++ f ++ z
  /\ decimal_text 4 (tYear t) y /\ decimal_text 2 (tMonth t) m /\ decimal_text 2 (tDay t) d
  /\ decimal_text 2 (tHour t) h /\ decimal_text 2 (tMin t) mi /\ decimal_text 2 (tSec t) sec
  /\ fraction_text (tNsec t) f /\ zone_text (tOff t) z.

Definition value_ok (t : ptype) (j : json) : Prop :=
  match t with
  | TInt b => exists z, j = JNum (itoa z) /\ - 2 ^ (b - 1) <= z < 2 ^ (b - 1)
  | TText => exists s, j = JStr s
  | TStamp => exists d s, j = JStr s /\ date_time_text d s
  | TCode codes => exists c, In c codes /\ j = JStr (list_ascii_of_string c)
  | TNumber codes => exists z, In z codes /\ j = JNum (itoa z)
  end.

(* the value is one of those published *)
Definition documented (t : ptype) (v : value) : Prop :=
  match t, v with
  | TInt b, VInt z => - 2 ^ (b - 1) <= z < 2 ^ (b - 1)
  | TText, VStr _ => True
  | TStamp, VTime d => d <> no_date
  | TCode codes, VStr s => exists c, In c codes /\ s = list_ascii_of_string c
  | TNumber codes, VInt z => In z codes
  | _, _ => False
  end.

Definition empty (v : value) : Prop := v = VInt 0 \/ v = VStr [].

(* ---- conformity ---- *)

(* required properties are there and published ones have values of their type;
   [closed]: there are no others *)
Definition conforms (closed : bool) (sc : schema) (j : json) : Prop :=
  exists l, j = JObj l
  /\ (forall p, In p sc -> pRequired p = true -> exists v, In (lit (pKey p), v) l)
  /\ (forall p v, In p sc -> In (lit (pKey p), v) l -> value_ok (pType p) v)
  /\ (closed = true -> forall k v, In (k, v) l -> exists p, In p sc /\ k = lit (pKey p)).

Definition array_of (P : json -> Prop) (j : json) : Prop := exists a, j = JArr a /\ Forall P a.

(* DataRecord, api/openapi.yaml:413-438 *)
Definition conforms_record (closed : bool) (j : json) : Prop :=
  exists l, j = JObj l /\ (exists v, In (lit "base", v) l)
  /\ (forall v, In (lit "base", v) l -> conforms closed base_schema v)
  /\ (forall v, In (lit "j1", v) l -> array_of (conforms closed j1_schema) v)
  /\ (forall v, In (lit "j2", v) l -> array_of (conforms closed j2_schema) v)
  /\ (forall k v, k <> J1 -> k <> J2 -> In (lit (seg_name k), v) l -> conforms closed (obj_schema (OSegment k)) v).

(* File, api/openapi.yaml:202-214 *)
Definition conforms_file (closed : bool) (j : json) : Prop :=
  exists l, j = JObj l /\ (exists v, In (lit "header", v) l) /\ (exists v, In (lit "trailer", v) l)
  /\ (forall v, In (lit "header", v) l -> conforms closed header_schema v)
  /\ (forall v, In (lit "data", v) l -> array_of (conforms_record closed) v)
  /\ (forall v, In (lit "trailer", v) l -> conforms closed trailer_schema v).

(* x is a segment in a data record of j *)
Definition segment_in (j : json) (k : segkind) (x : json) : Prop :=
  exists l a r, j = JObj l /\ In (lit "data", JArr a) l /\ In (JObj r) a
  /\ (In (lit (seg_name k), x) r \/ exists xs, In (lit (seg_name k), JArr xs) r /\ In x xs).

(* the segment x describes is not valid *)
Definition invalid_segment (k : segkind) (x : json) : Prop :=
  exists l s, x = JObj l /\ sKind s = k /\ describes (seg_struct k) (segment_id k) l (sFields s) /\ seg_validate s <> None.

(* ---- operations, api/openapi.yaml:22-197 ---- *)

Inductive operation := OpPrint | OpValidator | OpConvert.

Definition answer (op : operation) (cpus : Z) (rt : runtime) (rq : request) : option reply :=
  match op with
  | OpPrint => serve_print cpus rt rq
  | OpValidator => serve_validator rt rq
  | OpConvert => serve_convert cpus rt rq
  end.

(* the published answers *)
Definition published_statuses (op : operation) : list Z :=
  match op with OpPrint => [200; 400] | OpValidator | OpConvert => [200; 400; 501] end.
(* the published formats *)
Definition published_formats : list string := ["json"; "metro2"].

Definition asks_format (rq : request) (w : bytes) : Prop :=
  (rqType rq = lit "application/json" /\ rqQuery rq "format" = w) \/ (rqType rq <> lit "application/json" /\ rqForm rq "format" = w).
