(* The json tags of the record and segment structs, transcribed from their
   declarations: field, key and omitempty. *)
From Coq Require Import Bool String List.
Import ListNotations.
Local Open Scope string_scope.

(* a struct tag, e.g. pkg/lib/base_segment.go:24-512 *)
Record tag := mkTag { tgField : string; tgKey : string; tgOmit : bool }.
Local Notation T := mkTag.

(* pkg/lib/header_record.go:21-101 *)
Definition header_tags : list tag :=
  [ T "BlockDescriptorWord" "blockDescriptorWord" true;
    T "RecordDescriptorWord" "recordDescriptorWord" false;
    T "RecordIdentifier" "recordIdentifier" false;
    T "CycleIdentifier" "cycleIdentifier" true;
    T "InnovisProgramIdentifier" "innovisProgramIdentifier" true;
    T "EquifaxProgramIdentifier" "equifaxProgramIdentifier" true;
    T "ExperianProgramIdentifier" "experianProgramIdentifier" true;
    T "TransUnionProgramIdentifier" "transUnionProgramIdentifier" true;
    T "ActivityDate" "activityDate" false;
    T "DateCreated" "dateCreated" false;
    T "ProgramDate" "programDate" false;
    T "ProgramRevisionDate" "programRevisionDate" false;
    T "ReporterName" "reporterName" false;
    T "ReporterAddress" "reporterAddress" false;
    T "ReporterTelephoneNumber" "reporterTelephoneNumber" false;
    T "SoftwareVendorName" "softwareVendorName" true;
    T "SoftwareVersionNumber" "softwareVersionNumber" true;
    T "PRBCProgramIdentifier" "prbcProgramIdentifier" true ].

(* pkg/lib/trailer_record.go:21-165 *)
Definition trailer_tags : list tag :=
  [ T "RecordDescriptorWord" "recordDescriptorWord" false;
    T "RecordIdentifier" "recordIdentifier" false;
    T "TotalBaseRecords" "totalBaseRecords" false;
    T "TotalStatusCodeDF" "totalStatusCodeDF" false;
    T "TotalConsumerSegmentsJ1" "totalConsumerSegmentsJ1" true;
    T "TotalConsumerSegmentsJ2" "totalConsumerSegmentsJ2" true;
    T "BlockCount" "blockCount" false;
    T "TotalStatusCodeDA" "totalStatusCodeDA" false;
    T "TotalStatusCode05" "totalStatusCode05" false;
    T "TotalStatusCode11" "totalStatusCode11" false;
    T "TotalStatusCode13" "totalStatusCode13" false;
    T "TotalStatusCode61" "totalStatusCode61" false;
    T "TotalStatusCode62" "totalStatusCode62" false;
    T "TotalStatusCode63" "totalStatusCode63" false;
    T "TotalStatusCode64" "totalStatusCode64" false;
    T "TotalStatusCode65" "totalStatusCode65" false;
    T "TotalStatusCode71" "totalStatusCode71" false;
    T "TotalStatusCode78" "totalStatusCode78" false;
    T "TotalStatusCode80" "totalStatusCode80" false;
    T "TotalStatusCode82" "totalStatusCode82" false;
    T "TotalStatusCode83" "totalStatusCode83" false;
    T "TotalStatusCode84" "totalStatusCode84" false;
    T "TotalStatusCode88" "totalStatusCode88" false;
    T "TotalStatusCode89" "totalStatusCode89" false;
    T "TotalStatusCode93" "totalStatusCode93" false;
    T "TotalStatusCode94" "totalStatusCode94" false;
    T "TotalStatusCode95" "totalStatusCode95" false;
    T "TotalStatusCode96" "totalStatusCode96" false;
    T "TotalStatusCode97" "totalStatusCode97" false;
    T "TotalECOACodeZ" "totalECOACodeZ" false;
    T "TotalEmploymentSegments" "totalEmploymentSegments" false;
    T "TotalOriginalCreditorSegments" "totalOriginalCreditorSegments" false;
    T "TotalPurchasedToSegments" "totalPurchasedToSegments" false;
    T "TotalMortgageInformationSegments" "totalMortgageInformationSegments" false;
    T "TotalPaymentInformationSegments" "totalPaymentInformationSegments" false;
    T "TotalChangeSegments" "totalChangeSegments" false;
    T "TotalSocialNumbersAllSegments" "totalSocialNumbersAllSegments" false;
    T "TotalSocialNumbersBaseSegments" "totalSocialNumbersBaseSegments" false;
    T "TotalSocialNumbersJ1Segments" "totalSocialNumbersJ1Segments" false;
    T "TotalSocialNumbersJ2Segments" "totalSocialNumbersJ2Segments" false;
    T "TotalDatesBirthAllSegments" "totalDatesBirthAllSegments" false;
    T "TotalDatesBirthBaseSegments" "totalDatesBirthBaseSegments" false;
    T "TotalDatesBirthJ1Segments" "totalDatesBirthJ1Segments" false;
    T "TotalDatesBirthJ2Segments" "totalDatesBirthJ2Segments" false;
    T "TotalTelephoneNumbersAllSegments" "totalTelephoneNumbersAllSegments" false ].

(* pkg/lib/base_segment.go:24-512 *)
Definition base_tags : list tag :=
  [ T "BlockDescriptorWord" "blockDescriptorWord" true;
    T "RecordDescriptorWord" "recordDescriptorWord" false;
    T "ProcessingIndicator" "processingIndicator" false;
    T "TimeStamp" "timeStamp" false;
    T "CorrectionIndicator" "correctionIndicator" true;
    T "IdentificationNumber" "identificationNumber" false;
    T "CycleIdentifier" "cycleIdentifier" true;
    T "ConsumerAccountNumber" "consumerAccountNumber" false;
    T "PortfolioType" "portfolioType" false;
    T "AccountType" "accountType" false;
    T "DateOpened" "dateOpened" false;
    T "CreditLimit" "creditLimit" true;
    T "HighestCredit" "highestCredit" true;
    T "TermsDuration" "termsDuration" false;
    T "TermsFrequency" "termsFrequency" true;
    T "ScheduledMonthlyPaymentAmount" "scheduledMonthlyPaymentAmount" true;
    T "ActualPaymentAmount" "actualPaymentAmount" true;
    T "AccountStatus" "accountStatus" false;
    T "PaymentRating" "paymentRating" true;
    T "PaymentHistoryProfile" "paymentHistoryProfile" false;
    T "SpecialComment" "specialComment" true;
    T "ComplianceConditionCode" "complianceConditionCode" true;
    T "CurrentBalance" "currentBalance" false;
    T "AmountPastDue" "amountPastDue" true;
    T "OriginalChargeOffAmount" "originalChargeOffAmount" true;
    T "DateAccountInformation" "dateAccountInformation" false;
    T "DateFirstDelinquency" "dateFirstDelinquency" true;
    T "DateClosed" "dateClosed" true;
    T "DateLastPayment" "dateLastPayment" true;
    T "InterestTypeIndicator" "interestTypeIndicator" false;
    T "Surname" "surname" false;
    T "FirstName" "firstName" false;
    T "MiddleName" "middleName" true;
    T "GenerationCode" "generationCode" true;
    T "SocialSecurityNumber" "socialSecurityNumber" true;
    T "DateBirth" "dateBirth" true;
    T "TelephoneNumber" "telephoneNumber" false;
    T "ECOACode" "ecoaCode" false;
    T "ConsumerInformationIndicator" "consumerInformationIndicator" true;
    T "CountryCode" "countryCode" false;
    T "FirstLineAddress" "firstLineAddress" false;
    T "SecondLineAddress" "secondLineAddress" true;
    T "City" "city" false;
    T "State" "state" false;
    T "ZipCode" "zipCode" false;
    T "AddressIndicator" "addressIndicator" false;
    T "ResidenceCode" "residenceCode" false ].

(* pkg/lib/j1_segment.go:17-107 *)
Definition j1_tags : list tag :=
  [ T "SegmentIdentifier" "segmentIdentifier" false;
    T "Surname" "surname" false;
    T "FirstName" "firstName" false;
    T "MiddleName" "middleName" true;
    T "GenerationCode" "generationCode" true;
    T "SocialSecurityNumber" "socialSecurityNumber" true;
    T "DateBirth" "dateBirth" true;
    T "TelephoneNumber" "telephoneNumber" false;
    T "ECOACode" "ecoaCode" false;
    T "ConsumerInformationIndicator" "consumerInformationIndicator" true ].

(* pkg/lib/j2_segment.go:17-163 *)
Definition j2_tags : list tag :=
  [ T "SegmentIdentifier" "segmentIdentifier" false;
    T "Surname" "surname" false;
    T "FirstName" "firstName" false;
    T "MiddleName" "middleName" true;
    T "GenerationCode" "generationCode" true;
    T "SocialSecurityNumber" "socialSecurityNumber" true;
    T "DateBirth" "dateBirth" true;
    T "TelephoneNumber" "telephoneNumber" false;
    T "ECOACode" "ecoaCode" false;
    T "ConsumerInformationIndicator" "consumerInformationIndicator" true;
    T "CountryCode" "countryCode" false;
    T "FirstLineAddress" "firstLineAddress" false;
    T "SecondLineAddress" "secondLineAddress" true;
    T "City" "city" false;
    T "State" "state" false;
    T "ZipCode" "zipCode" false;
    T "AddressIndicator" "addressIndicator" false;
    T "ResidenceCode" "residenceCode" false ].

(* pkg/lib/kn_segment.go:20-62 *)
Definition k1_tags : list tag :=
  [ T "SegmentIdentifier" "segmentIdentifier" false;
    T "OriginalCreditorName" "originalCreditorName" false;
    T "CreditorClassification" "creditorClassification" false ].

(* pkg/lib/kn_segment.go:127-143 *)
Definition k2_tags : list tag :=
  [ T "SegmentIdentifier" "segmentIdentifier" false;
    T "PurchasedIndicator" "purchasedIndicator" false;
    T "PurchasedName" "purchasedName" false ].

(* pkg/lib/kn_segment.go:214-236 *)
Definition k3_tags : list tag :=
  [ T "SegmentIdentifier" "segmentIdentifier" false;
    T "AgencyIdentifier" "agencyIdentifier" true;
    T "AccountNumber" "accountNumber" true;
    T "MortgageIdentificationNumber" "mortgageIdentificationNumber" false ].

(* pkg/lib/kn_segment.go:307-330 *)
Definition k4_tags : list tag :=
  [ T "SegmentIdentifier" "segmentIdentifier" false;
    T "SpecializedPaymentIndicator" "specializedPaymentIndicator" false;
    T "DeferredPaymentStartDate" "deferredPaymentStartDate" true;
    T "BalloonPaymentDueDate" "balloonPaymentDueDate" true;
    T "BalloonPaymentAmount" "balloonPaymentAmount" false ].

(* pkg/lib/l1_segment.go:17-40 *)
Definition l1_tags : list tag :=
  [ T "SegmentIdentifier" "segmentIdentifier" false;
    T "ChangeIndicator" "changeIndicator" false;
    T "NewConsumerAccountNumber" "newConsumerAccountNumber" true;
    T "NewIdentificationNumber" "newIdentificationNumber" true ].

(* pkg/lib/n1_segment.go:13-43 *)
Definition n1_tags : list tag :=
  [ T "SegmentIdentifier" "segmentIdentifier" false;
    T "EmployerName" "employerName" false;
    T "FirstLineEmployerAddress" "firstLineEmployerAddress" false;
    T "SecondLineEmployerAddress" "secondLineEmployerAddress" false;
    T "EmployerCity" "employerCity" false;
    T "EmployerState" "employerState" false;
    T "ZipCode" "zipCode" false;
    T "Occupation" "occupation" false ].

