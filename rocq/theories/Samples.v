(* Sample records with the data of /repo/test/testdata (base_segment.json,
   unpacked_fixed_file.json, packed_file.json); used in Examples only. *)
From Coq Require Import ZArith NArith Bool Ascii String List.
Import ListNotations.
From Verif Require Import GoBase GoTime Tables Codec Records File File.
Local Open Scope string_scope.
Local Open Scope Z_scope.
Local Open Scope list_scope.

Definition fill (s : structure) (l : list (string * value)) : fields :=
  map (fun p => (fst p, match lookup (fst p) l with Some v => v | None => zero_value (snd p) end)) s.

Definition sample_j1 : segment := mkSegment J1 (fill j1_struct
  [ ("SegmentIdentifier", VStr (lit "J1"));
    ("Surname", VStr (lit "BEAUCHAMP"));
    ("FirstName", VStr (lit "KEVIN"));
    ("GenerationCode", VStr (lit "S"));
    ("SocialSecurityNumber", VInt 445112877);
    ("DateBirth", VTime (mkTime 2020 1 2 0 0 0 0 None));
    ("TelephoneNumber", VInt 4335552333);
    ("ECOACode", VStr (lit "2"));
    ("ConsumerInformationIndicator", VStr (lit "R")) ]).

Definition sample_j2 : segment := mkSegment J2 (fill j2_struct
  [ ("SegmentIdentifier", VStr (lit "J2"));
    ("Surname", VStr (lit "BEAUCHAMP"));
    ("FirstName", VStr (lit "KEVIN"));
    ("GenerationCode", VStr (lit "S"));
    ("SocialSecurityNumber", VInt 445112877);
    ("DateBirth", VTime (mkTime 2020 1 2 0 0 0 0 None));
    ("TelephoneNumber", VInt 4335552333);
    ("ECOACode", VStr (lit "2"));
    ("ConsumerInformationIndicator", VStr (lit "R"));
    ("CountryCode", VStr (lit "US"));
    ("FirstLineAddress", VStr (lit "234 HARRISON PLACE"));
    ("SecondLineAddress", VStr (lit "SUITE #305"));
    ("City", VStr (lit "LANSING"));
    ("State", VStr (lit "MI"));
    ("ZipCode", VStr (lit "72654"));
    ("AddressIndicator", VStr (lit "Y"));
    ("ResidenceCode", VStr (lit "O")) ]).

Definition sample_k1 : segment := mkSegment K1 (fill k1_struct
  [ ("SegmentIdentifier", VStr (lit "K1"));
    ("OriginalCreditorName", VStr (lit "WETCOSAT INDUSTRIES LTD."));
    ("CreditorClassification", VInt 4) ]).

Definition sample_k2 : segment := mkSegment K2 (fill k2_struct
  [ ("SegmentIdentifier", VStr (lit "K2"));
    ("PurchasedIndicator", VInt 1);
    ("PurchasedName", VStr (lit "Purchased From Name")) ]).

Definition sample_k3 : segment := mkSegment K3 (fill k3_struct
  [ ("SegmentIdentifier", VStr (lit "K3"));
    ("MortgageIdentificationNumber", VStr (lit "Mortgage Number")) ]).

Definition sample_k4 : segment := mkSegment K4 (fill k4_struct
  [ ("SegmentIdentifier", VStr (lit "K4"));
    ("SpecializedPaymentIndicator", VInt 1);
    ("DeferredPaymentStartDate", VTime (mkTime 2020 1 20 0 0 0 0 None));
    ("BalloonPaymentDueDate", VTime (mkTime 2020 1 20 0 0 0 0 None));
    ("BalloonPaymentAmount", VInt 1234) ]).

Definition sample_l1 : segment := mkSegment L1 (fill l1_struct
  [ ("SegmentIdentifier", VStr (lit "L1"));
    ("ChangeIndicator", VInt 1);
    ("NewConsumerAccountNumber", VStr (lit "New Consumer Account Number")) ]).

Definition sample_n1 : segment := mkSegment N1 (fill n1_struct
  [ ("SegmentIdentifier", VStr (lit "N1"));
    ("EmployerName", VStr (lit "Employer Name"));
    ("FirstLineEmployerAddress", VStr (lit "First Line of Employer Address"));
    ("SecondLineEmployerAddress", VStr (lit "Second Line of Employer Address"));
    ("EmployerCity", VStr (lit "Employer City"));
    ("EmployerState", VStr (lit "MI"));
    ("ZipCode", VStr (lit "23456"));
    ("Occupation", VStr (lit "Occupation")) ]).

Definition sample_segment (k : segkind) : segment :=
  match k with
  | J1 => sample_j1 | J2 => sample_j2 | K1 => sample_k1 | K2 => sample_k2
  | K3 => sample_k3 | K4 => sample_k4 | L1 => sample_l1 | N1 => sample_n1
  end.

(* base segment fields with the given descriptor words *)
Definition sample_base_fields (bdw rdw : Z) : fields := fill base_struct
  ([ ("BlockDescriptorWord", VInt bdw);
    ("RecordDescriptorWord", VInt rdw);
    ("ProcessingIndicator", VInt 1);
    ("TimeStamp", VTime (mkTime 2020 1 1 1 11 22 0 None));
    ("IdentificationNumber", VStr (lit "6666666"));
    ("ConsumerAccountNumber", VStr (lit "553723456"));
    ("PortfolioType", VStr (lit "M"));
    ("AccountType", VStr (lit "48"));
    ("DateOpened", VTime (mkTime 2019 11 22 0 0 0 0 None));
    ("HighestCredit", VInt 2438);
    ("TermsDuration", VStr (lit "LOC"));
    ("ActualPaymentAmount", VInt 100);
    ("AccountStatus", VStr (lit "62"));
    ("PaymentHistoryProfile", VStr (lit "BBBBBBBBBBBBBBBBBBBBBBBB"));
    ("SpecialComment", VStr (lit "AS"));
    ("ComplianceConditionCode", VStr (lit "XA"));
    ("CurrentBalance", VInt 2233);
    ("DateAccountInformation", VTime (mkTime 2002 9 20 0 0 0 0 None));
    ("DateFirstDelinquency", VTime (mkTime 2001 7 19 0 0 0 0 None));
    ("DateClosed", VTime (mkTime 2002 8 2 0 0 0 0 None));
    ("DateLastPayment", VTime (mkTime 2002 8 2 0 0 0 0 None));
    ("InterestTypeIndicator", VStr (lit ""));
    ("Surname", VStr (lit "SMITH-JONES"));
    ("FirstName", VStr (lit "JUNIOR"));
    ("GenerationCode", VStr (lit "S"));
    ("SocialSecurityNumber", VInt 159328759);
    ("DateBirth", VTime (mkTime 1972 3 18 0 0 0 0 None));
    ("TelephoneNumber", VInt 5175555555);
    ("ECOACode", VStr (lit "1"));
    ("CountryCode", VStr (lit "US"));
    ("FirstLineAddress", VStr (lit "RMXH+6W Casper, Wyoming,"));
    ("SecondLineAddress", VStr (lit "United States"));
    ("City", VStr (lit "U.S. Postal"));
    ("State", VStr (lit "MI"));
    ("ZipCode", VStr (lit "72654"));
    ("AddressIndicator", VStr (lit "Y"));
    ("ResidenceCode", VStr (lit "O")) ]).

(* one J1, two J2 and all other segments: 838 bytes *)
Definition sample_base (bdw rdw : Z) : base :=
  mkBase (sample_base_fields bdw rdw) [sample_j1] [sample_j2; sample_j2] (Some sample_k1)
    (Some sample_k2) (Some sample_k3) (Some sample_k4) (Some sample_l1) (Some sample_n1).

(* no appended segments *)
Definition sample_plain (bdw rdw : Z) : base :=
  mkBase (sample_base_fields bdw rdw) [] [] None None None None None None.

Definition sample_header (bdw rdw : Z) : fields := fill header_struct
  [ ("BlockDescriptorWord", VInt bdw);
    ("RecordDescriptorWord", VInt rdw);
    ("RecordIdentifier", VStr (lit "HEADER"));
    ("TransUnionProgramIdentifier", VStr (lit "5555555555"));
    ("ActivityDate", VTime (mkTime 2002 8 20 0 0 0 0 None));
    ("DateCreated", VTime (mkTime 1999 5 10 0 0 0 0 None));
    ("ProgramDate", VTime (mkTime 1999 5 10 0 0 0 0 None));
    ("ProgramRevisionDate", VTime (mkTime 1999 5 10 0 0 0 0 None));
    ("ReporterName", VStr (lit "YOUR BUSINESS NAME HERE"));
    ("ReporterAddress", VStr (lit "LINE ONE OF YOUR ADDRESS LINE TWO OF YOUR ADDRESS LINE THERE OF YOUR ADDRESS"));
    ("ReporterTelephoneNumber", VInt 1234567890) ].

Definition sample_trailer (rdw : Z) : fields := fill trailer_struct
  [ ("RecordDescriptorWord", VInt rdw);
    ("RecordIdentifier", VStr (lit "TRAILER"));
    ("TotalBaseRecords", VInt 1);
    ("TotalStatusCodeDF", VInt 0);
    ("TotalConsumerSegmentsJ1", VInt 1);
    ("TotalConsumerSegmentsJ2", VInt 1);
    ("BlockCount", VInt 3);
    ("TotalStatusCodeDA", VInt 0);
    ("TotalStatusCode05", VInt 0);
    ("TotalStatusCode11", VInt 0);
    ("TotalStatusCode13", VInt 0);
    ("TotalStatusCode61", VInt 0);
    ("TotalStatusCode62", VInt 1);
    ("TotalStatusCode63", VInt 0);
    ("TotalStatusCode64", VInt 0);
    ("TotalStatusCode65", VInt 0);
    ("TotalStatusCode71", VInt 0);
    ("TotalStatusCode78", VInt 0);
    ("TotalStatusCode80", VInt 0);
    ("TotalStatusCode82", VInt 0);
    ("TotalStatusCode83", VInt 0);
    ("TotalStatusCode84", VInt 0);
    ("TotalStatusCode88", VInt 0);
    ("TotalStatusCode89", VInt 0);
    ("TotalStatusCode93", VInt 0);
    ("TotalStatusCode94", VInt 0);
    ("TotalStatusCode95", VInt 0);
    ("TotalStatusCode96", VInt 0);
    ("TotalStatusCode97", VInt 0);
    ("TotalECOACodeZ", VInt 0);
    ("TotalEmploymentSegments", VInt 1);
    ("TotalOriginalCreditorSegments", VInt 0);
    ("TotalPurchasedToSegments", VInt 0);
    ("TotalMortgageInformationSegments", VInt 1);
    ("TotalPaymentInformationSegments", VInt 0);
    ("TotalChangeSegments", VInt 1);
    ("TotalSocialNumbersAllSegments", VInt 3);
    ("TotalSocialNumbersBaseSegments", VInt 1);
    ("TotalSocialNumbersJ1Segments", VInt 1);
    ("TotalSocialNumbersJ2Segments", VInt 1);
    ("TotalDatesBirthAllSegments", VInt 3);
    ("TotalDatesBirthBaseSegments", VInt 1);
    ("TotalDatesBirthJ1Segments", VInt 1);
    ("TotalDatesBirthJ2Segments", VInt 1);
    ("TotalTelephoneNumbersAllSegments", VInt 3) ].

(* a sample with one field replaced *)
Definition with_field (n : string) (v : value) (b : base) : base := set_bFields b (set_field n v (bFields b)).

(* files of two data records; the trailer is the generated one *)
Definition sample_file (packed : bool) (bdw rdw : Z) : file :=
  let f := mkFile packed (RHeader packed (sample_header bdw rdw))
    [RBase packed (sample_base bdw rdw); RBase packed (sample_plain bdw rdw)]
    (RTrailer packed new_trailer) in
  match file_generate_trailer f with Ok t => set_trailer f t | _ => f end.
