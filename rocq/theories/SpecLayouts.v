(* The documented record layouts: the fields in the order in which they follow
   each other, with their widths in bytes.  Positions are not written down; they
   follow from the order and the widths.  The optional block descriptor word that
   may precede a base segment or header is not part of the body. *)
From Coq Require Import String List.
Import ListNotations.
From Verif Require Import SpecCodec.
Local Open Scope string_scope.

(* Base segment, character format, 426 bytes (fields documented in base_segment.go:24-512) *)
Definition base_char_doc : list doc_field :=
  [ Doc "RecordDescriptorWord" 4 FNumber true;
    Doc "ProcessingIndicator" 1 FNumber false;
    Doc "TimeStamp" 14 FStamp false;
    Doc "CorrectionIndicator" 1 FNumber false;
    Doc "IdentificationNumber" 20 FText true;
    Doc "CycleIdentifier" 2 FText false;
    Doc "ConsumerAccountNumber" 30 FText true;
    Doc "PortfolioType" 1 FText true;
    Doc "AccountType" 2 FText true;
    Doc "DateOpened" 8 FDate true;
    Doc "CreditLimit" 9 FNumber false;
    Doc "HighestCredit" 9 FNumber false;
    Doc "TermsDuration" 3 FText true;
    Doc "TermsFrequency" 1 FText false;
    Doc "ScheduledMonthlyPaymentAmount" 9 FNumber false;
    Doc "ActualPaymentAmount" 9 FNumber false;
    Doc "AccountStatus" 2 FText true;
    Doc "PaymentRating" 1 FText false;
    Doc "PaymentHistoryProfile" 24 FText true;
    Doc "SpecialComment" 2 FText false;
    Doc "ComplianceConditionCode" 2 FText false;
    Doc "CurrentBalance" 9 FNumber false;
    Doc "AmountPastDue" 9 FNumber false;
    Doc "OriginalChargeOffAmount" 9 FNumber false;
    Doc "DateAccountInformation" 8 FDate true;
    Doc "DateFirstDelinquency" 8 FDate false;
    Doc "DateClosed" 8 FDate false;
    Doc "DateLastPayment" 8 FDate false;
    Doc "InterestTypeIndicator" 1 FText false;
    Doc "Reserved2" 17 FReserved false;
    Doc "Surname" 25 FText true;
    Doc "FirstName" 20 FText true;
    Doc "MiddleName" 20 FText false;
    Doc "GenerationCode" 1 FText false;
    Doc "SocialSecurityNumber" 9 FNumber false;
    Doc "DateBirth" 8 FDate false;
    Doc "TelephoneNumber" 10 FNumber false;
    Doc "ECOACode" 1 FText true;
    Doc "ConsumerInformationIndicator" 2 FText false;
    Doc "CountryCode" 2 FText false;
    Doc "FirstLineAddress" 32 FText true;
    Doc "SecondLineAddress" 32 FText false;
    Doc "City" 20 FText true;
    Doc "State" 2 FText true;
    Doc "ZipCode" 9 FText true;
    Doc "AddressIndicator" 1 FText false;
    Doc "ResidenceCode" 1 FText false ].

(* Base segment, packed format, 366 bytes *)
Definition base_packed_doc : list doc_field :=
  [ Doc "RecordDescriptorWord" 4 FWord true;
    Doc "ProcessingIndicator" 1 FNumber false;
    Doc "TimeStamp" 8 FBinStamp false;
    Doc "CorrectionIndicator" 1 FNumber false;
    Doc "IdentificationNumber" 20 FText true;
    Doc "CycleIdentifier" 2 FText false;
    Doc "ConsumerAccountNumber" 30 FText true;
    Doc "PortfolioType" 1 FText true;
    Doc "AccountType" 2 FText true;
    Doc "DateOpened" 5 FBinDate true;
    Doc "CreditLimit" 5 FBinary false;
    Doc "HighestCredit" 5 FBinary false;
    Doc "TermsDuration" 3 FText true;
    Doc "TermsFrequency" 1 FText false;
    Doc "ScheduledMonthlyPaymentAmount" 5 FBinary false;
    Doc "ActualPaymentAmount" 5 FBinary false;
    Doc "AccountStatus" 2 FText true;
    Doc "PaymentRating" 1 FText false;
    Doc "PaymentHistoryProfile" 24 FText true;
    Doc "SpecialComment" 2 FText false;
    Doc "ComplianceConditionCode" 2 FText false;
    Doc "CurrentBalance" 5 FBinary false;
    Doc "AmountPastDue" 5 FBinary false;
    Doc "OriginalChargeOffAmount" 5 FBinary false;
    Doc "DateAccountInformation" 5 FBinDate true;
    Doc "DateFirstDelinquency" 5 FBinDate false;
    Doc "DateClosed" 5 FBinDate false;
    Doc "DateLastPayment" 5 FBinDate false;
    Doc "InterestTypeIndicator" 1 FText false;
    Doc "Reserved2" 17 FReserved false;
    Doc "Surname" 25 FText true;
    Doc "FirstName" 20 FText true;
    Doc "MiddleName" 20 FText false;
    Doc "GenerationCode" 1 FText false;
    Doc "SocialSecurityNumber" 5 FBinary false;
    Doc "DateBirth" 5 FBinDate false;
    Doc "TelephoneNumber" 6 FBinary false;
    Doc "ECOACode" 1 FText true;
    Doc "ConsumerInformationIndicator" 2 FText false;
    Doc "CountryCode" 2 FText false;
    Doc "FirstLineAddress" 32 FText true;
    Doc "SecondLineAddress" 32 FText false;
    Doc "City" 20 FText true;
    Doc "State" 2 FText true;
    Doc "ZipCode" 9 FText true;
    Doc "AddressIndicator" 1 FText false;
    Doc "ResidenceCode" 1 FText false ].

(* Header record, character format, 426 bytes (header_record.go:20-104) *)
Definition header_char_doc : list doc_field :=
  [ Doc "RecordDescriptorWord" 4 FNumber true;
    Doc "RecordIdentifier" 6 FText true;
    Doc "CycleIdentifier" 2 FText false;
    Doc "InnovisProgramIdentifier" 10 FText false;
    Doc "EquifaxProgramIdentifier" 10 FText false;
    Doc "ExperianProgramIdentifier" 5 FText false;
    Doc "TransUnionProgramIdentifier" 10 FText false;
    Doc "ActivityDate" 8 FDate true;
    Doc "DateCreated" 8 FDate true;
    Doc "ProgramDate" 8 FDate false;
    Doc "ProgramRevisionDate" 8 FDate false;
    Doc "ReporterName" 40 FText true;
    Doc "ReporterAddress" 96 FText true;
    Doc "ReporterTelephoneNumber" 10 FNumber false;
    Doc "SoftwareVendorName" 40 FText false;
    Doc "SoftwareVersionNumber" 5 FText false;
    Doc "PRBCProgramIdentifier" 10 FText false;
    Doc "Reserved" 146 FReserved false ].

(* Header record, packed format, 366 bytes *)
Definition header_packed_doc : list doc_field :=
  [ Doc "RecordDescriptorWord" 4 FWord true;
    Doc "RecordIdentifier" 6 FText true;
    Doc "CycleIdentifier" 2 FText false;
    Doc "InnovisProgramIdentifier" 10 FText false;
    Doc "EquifaxProgramIdentifier" 10 FText false;
    Doc "ExperianProgramIdentifier" 5 FText false;
    Doc "TransUnionProgramIdentifier" 10 FText false;
    Doc "ActivityDate" 8 FDate true;
    Doc "DateCreated" 8 FDate true;
    Doc "ProgramDate" 8 FDate false;
    Doc "ProgramRevisionDate" 8 FDate false;
    Doc "ReporterName" 40 FText true;
    Doc "ReporterAddress" 96 FText true;
    Doc "ReporterTelephoneNumber" 10 FNumber false;
    Doc "SoftwareVendorName" 40 FText false;
    Doc "SoftwareVersionNumber" 5 FText false;
    Doc "PRBCProgramIdentifier" 10 FText false;
    Doc "Reserved" 86 FReserved false ].

(* Trailer record, character format, 426 bytes (trailer_record.go:21-165) *)
Definition trailer_char_doc : list doc_field :=
  [ Doc "RecordDescriptorWord" 4 FNumber true;
    Doc "RecordIdentifier" 7 FText true;
    Doc "TotalBaseRecords" 9 FNumber true;
    Doc "Reserved1" 9 FReserved false;
    Doc "TotalStatusCodeDF" 9 FNumber false;
    Doc "TotalConsumerSegmentsJ1" 9 FNumber false;
    Doc "TotalConsumerSegmentsJ2" 9 FNumber false;
    Doc "BlockCount" 9 FNumber true;
    Doc "TotalStatusCodeDA" 9 FNumber false;
    Doc "TotalStatusCode05" 9 FNumber false;
    Doc "TotalStatusCode11" 9 FNumber false;
    Doc "TotalStatusCode13" 9 FNumber false;
    Doc "TotalStatusCode61" 9 FNumber false;
    Doc "TotalStatusCode62" 9 FNumber false;
    Doc "TotalStatusCode63" 9 FNumber false;
    Doc "TotalStatusCode64" 9 FNumber false;
    Doc "TotalStatusCode65" 9 FNumber false;
    Doc "TotalStatusCode71" 9 FNumber false;
    Doc "TotalStatusCode78" 9 FNumber false;
    Doc "TotalStatusCode80" 9 FNumber false;
    Doc "TotalStatusCode82" 9 FNumber false;
    Doc "TotalStatusCode83" 9 FNumber false;
    Doc "TotalStatusCode84" 9 FNumber false;
    Doc "TotalStatusCode88" 9 FNumber false;
    Doc "TotalStatusCode89" 9 FNumber false;
    Doc "TotalStatusCode93" 9 FNumber false;
    Doc "TotalStatusCode94" 9 FNumber false;
    Doc "TotalStatusCode95" 9 FNumber false;
    Doc "TotalStatusCode96" 9 FNumber false;
    Doc "TotalStatusCode97" 9 FNumber false;
    Doc "TotalECOACodeZ" 9 FNumber false;
    Doc "TotalEmploymentSegments" 9 FNumber false;
    Doc "TotalOriginalCreditorSegments" 9 FNumber false;
    Doc "TotalPurchasedToSegments" 9 FNumber false;
    Doc "TotalMortgageInformationSegments" 9 FNumber false;
    Doc "TotalPaymentInformationSegments" 9 FNumber false;
    Doc "TotalChangeSegments" 9 FNumber false;
    Doc "TotalSocialNumbersAllSegments" 9 FNumber false;
    Doc "TotalSocialNumbersBaseSegments" 9 FNumber false;
    Doc "TotalSocialNumbersJ1Segments" 9 FNumber false;
    Doc "TotalSocialNumbersJ2Segments" 9 FNumber false;
    Doc "TotalDatesBirthAllSegments" 9 FNumber false;
    Doc "TotalDatesBirthBaseSegments" 9 FNumber false;
    Doc "TotalDatesBirthJ1Segments" 9 FNumber false;
    Doc "TotalDatesBirthJ2Segments" 9 FNumber false;
    Doc "TotalTelephoneNumbersAllSegments" 9 FNumber false;
    Doc "Reserved2" 19 FReserved false ].

(* Trailer record, packed format, 366 bytes *)
Definition trailer_packed_doc : list doc_field :=
  [ Doc "RecordDescriptorWord" 4 FWord true;
    Doc "RecordIdentifier" 7 FText true;
    Doc "TotalBaseRecords" 5 FBinary true;
    Doc "Reserved1" 5 FReserved false;
    Doc "TotalStatusCodeDF" 5 FBinary false;
    Doc "TotalConsumerSegmentsJ1" 5 FBinary false;
    Doc "TotalConsumerSegmentsJ2" 5 FBinary false;
    Doc "BlockCount" 5 FBinary true;
    Doc "TotalStatusCodeDA" 5 FBinary false;
    Doc "TotalStatusCode05" 5 FBinary false;
    Doc "TotalStatusCode11" 5 FBinary false;
    Doc "TotalStatusCode13" 5 FBinary false;
    Doc "TotalStatusCode61" 5 FBinary false;
    Doc "TotalStatusCode62" 5 FBinary false;
    Doc "TotalStatusCode63" 5 FBinary false;
    Doc "TotalStatusCode64" 5 FBinary false;
    Doc "TotalStatusCode65" 5 FBinary false;
    Doc "TotalStatusCode71" 5 FBinary false;
    Doc "TotalStatusCode78" 5 FBinary false;
    Doc "TotalStatusCode80" 5 FBinary false;
    Doc "TotalStatusCode82" 5 FBinary false;
    Doc "TotalStatusCode83" 5 FBinary false;
    Doc "TotalStatusCode84" 5 FBinary false;
    Doc "TotalStatusCode88" 5 FBinary false;
    Doc "TotalStatusCode89" 5 FBinary false;
    Doc "TotalStatusCode93" 5 FBinary false;
    Doc "TotalStatusCode94" 5 FBinary false;
    Doc "TotalStatusCode95" 5 FBinary false;
    Doc "TotalStatusCode96" 5 FBinary false;
    Doc "TotalStatusCode97" 5 FBinary false;
    Doc "TotalECOACodeZ" 5 FBinary false;
    Doc "TotalEmploymentSegments" 5 FBinary false;
    Doc "TotalOriginalCreditorSegments" 5 FBinary false;
    Doc "TotalPurchasedToSegments" 5 FBinary false;
    Doc "TotalMortgageInformationSegments" 5 FBinary false;
    Doc "TotalPaymentInformationSegments" 5 FBinary false;
    Doc "TotalChangeSegments" 5 FBinary false;
    Doc "TotalSocialNumbersAllSegments" 5 FBinary false;
    Doc "TotalSocialNumbersBaseSegments" 5 FBinary false;
    Doc "TotalSocialNumbersJ1Segments" 5 FBinary false;
    Doc "TotalSocialNumbersJ2Segments" 5 FBinary false;
    Doc "TotalDatesBirthAllSegments" 5 FBinary false;
    Doc "TotalDatesBirthBaseSegments" 5 FBinary false;
    Doc "TotalDatesBirthJ1Segments" 5 FBinary false;
    Doc "TotalDatesBirthJ2Segments" 5 FBinary false;
    Doc "TotalTelephoneNumbersAllSegments" 5 FBinary false;
    Doc "Reserved2" 135 FReserved false ].

(* J1 segment *)
Definition j1_doc : list doc_field :=
  [ Doc "SegmentIdentifier" 2 FText true;
    Doc "Reserved1" 1 FReserved false;
    Doc "Surname" 25 FText true;
    Doc "FirstName" 20 FText true;
    Doc "MiddleName" 20 FText false;
    Doc "GenerationCode" 1 FText false;
    Doc "SocialSecurityNumber" 9 FNumber false;
    Doc "DateBirth" 8 FDate false;
    Doc "TelephoneNumber" 10 FNumber false;
    Doc "ECOACode" 1 FText true;
    Doc "ConsumerInformationIndicator" 2 FText false;
    Doc "Reserved2" 1 FReserved false ].

(* J2 segment *)
Definition j2_doc : list doc_field :=
  [ Doc "SegmentIdentifier" 2 FText true;
    Doc "Reserved1" 1 FReserved false;
    Doc "Surname" 25 FText true;
    Doc "FirstName" 20 FText false;
    Doc "MiddleName" 20 FText false;
    Doc "GenerationCode" 1 FText false;
    Doc "SocialSecurityNumber" 9 FNumber false;
    Doc "DateBirth" 8 FDate false;
    Doc "TelephoneNumber" 10 FNumber false;
    Doc "ECOACode" 1 FText true;
    Doc "ConsumerInformationIndicator" 2 FText false;
    Doc "CountryCode" 2 FText false;
    Doc "FirstLineAddress" 32 FText true;
    Doc "SecondLineAddress" 32 FText false;
    Doc "City" 20 FText true;
    Doc "State" 2 FText true;
    Doc "ZipCode" 9 FText true;
    Doc "AddressIndicator" 1 FText false;
    Doc "ResidenceCode" 1 FText false;
    Doc "Reserved2" 2 FReserved false ].

(* K1 segment *)
Definition k1_doc : list doc_field :=
  [ Doc "SegmentIdentifier" 2 FText true;
    Doc "OriginalCreditorName" 30 FText true;
    Doc "CreditorClassification" 2 FNumber true ].

(* K2 segment *)
Definition k2_doc : list doc_field :=
  [ Doc "SegmentIdentifier" 2 FText true;
    Doc "PurchasedIndicator" 1 FNumber true;
    Doc "PurchasedName" 30 FText true;
    Doc "Reserved" 1 FReserved false ].

(* K3 segment *)
Definition k3_doc : list doc_field :=
  [ Doc "SegmentIdentifier" 2 FText true;
    Doc "AgencyIdentifier" 2 FNumber false;
    Doc "AccountNumber" 18 FText false;
    Doc "MortgageIdentificationNumber" 18 FText false ].

(* K4 segment *)
Definition k4_doc : list doc_field :=
  [ Doc "SegmentIdentifier" 2 FText true;
    Doc "SpecializedPaymentIndicator" 2 FNumber true;
    Doc "DeferredPaymentStartDate" 8 FDate false;
    Doc "BalloonPaymentDueDate" 8 FDate false;
    Doc "BalloonPaymentAmount" 9 FNumber false;
    Doc "Reserved" 1 FReserved false ].

(* L1 segment *)
Definition l1_doc : list doc_field :=
  [ Doc "SegmentIdentifier" 2 FText true;
    Doc "ChangeIndicator" 1 FNumber true;
    Doc "NewConsumerAccountNumber" 30 FText false;
    Doc "NewIdentificationNumber" 20 FText false;
    Doc "Reserved" 1 FReserved false ].

(* N1 segment *)
Definition n1_doc : list doc_field :=
  [ Doc "SegmentIdentifier" 2 FText true;
    Doc "EmployerName" 30 FText true;
    Doc "FirstLineEmployerAddress" 32 FText false;
    Doc "SecondLineEmployerAddress" 32 FText false;
    Doc "EmployerCity" 20 FText false;
    Doc "EmployerState" 2 FText false;
    Doc "ZipCode" 9 FText false;
    Doc "Occupation" 18 FText false;
    Doc "Reserved" 1 FReserved false ].
