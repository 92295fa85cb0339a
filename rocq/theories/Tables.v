(* Layout tables of pkg/lib/specifications.go and struct field lists of the
   record types, transcribed entry by entry. *)
From Coq Require Import ZArith NArith Bool Ascii String List.
Import ListNotations.
Local Open Scope string_scope.

(* pkg/lib/constants.go:523-533, field types *)
Definition alphanumeric : N := 1.
(* pkg/lib/constants.go:523-533 *)
Definition alpha : N := 2.
(* pkg/lib/constants.go:523-533 *)
Definition numeric : N := 4.
(* pkg/lib/constants.go:523-533 *)
Definition timestamp : N := 8.
(* pkg/lib/constants.go:523-533 *)
Definition date : N := 16.
(* pkg/lib/constants.go:523-533 *)
Definition descriptor : N := 32.
(* pkg/lib/constants.go:523-533 *)
Definition packedTimestamp : N := 64.
(* pkg/lib/constants.go:523-533 *)
Definition packedDate : N := 128.
(* pkg/lib/constants.go:523-533 *)
Definition packedNumber : N := 256.
(* pkg/lib/constants.go:536-539, field type options *)
Definition zeroFill : N := 16384.
(* pkg/lib/constants.go:536-539 *)
Definition omitted : N := 32768.

(* pkg/lib/constants.go:511-513 *)
Inductive requirement := nullable | required | applicable.

(* pkg/lib/specifications.go:7-12 *)
Record field := mkField {
  fStart : nat;
  fLength : nat;
  fType : N;
  fRequired : requirement }.

(* a layout map; the Go map has no order, the list order here is that of the source text;
   pkg/lib/specifications.go:21 *)
Definition layout := list (string * field).

Local Notation "a |: b" := (N.lor a b) (at level 50, left associativity).
Local Notation F := mkField.

(* pkg/lib/specifications.go:21-70 *)
Definition baseSegmentCharacterFormat : layout :=
  [ ("BlockDescriptorWord", F 0 4 (numeric |: omitted) applicable);
    ("RecordDescriptorWord", F 0 4 (numeric) required);
    ("ProcessingIndicator", F 4 1 (numeric) nullable);
    ("TimeStamp", F 5 14 (timestamp) nullable);
    ("CorrectionIndicator", F 19 1 (numeric |: zeroFill) nullable);
    ("IdentificationNumber", F 20 20 (alphanumeric) required);
    ("CycleIdentifier", F 40 2 (alphanumeric) applicable);
    ("ConsumerAccountNumber", F 42 30 (alphanumeric) required);
    ("PortfolioType", F 72 1 (alphanumeric) required);
    ("AccountType", F 73 2 (alphanumeric) required);
    ("DateOpened", F 75 8 (date) required);
    ("CreditLimit", F 83 9 (numeric |: zeroFill) applicable);
    ("HighestCredit", F 92 9 (numeric |: zeroFill) nullable);
    ("TermsDuration", F 101 3 (alphanumeric) required);
    ("TermsFrequency", F 104 1 (alphanumeric) applicable);
    ("ScheduledMonthlyPaymentAmount", F 105 9 (numeric) applicable);
    ("ActualPaymentAmount", F 114 9 (numeric) applicable);
    ("AccountStatus", F 123 2 (alphanumeric) required);
    ("PaymentRating", F 125 1 (alphanumeric) applicable);
    ("PaymentHistoryProfile", F 126 24 (alphanumeric) required);
    ("SpecialComment", F 150 2 (alphanumeric) applicable);
    ("ComplianceConditionCode", F 152 2 (alphanumeric) applicable);
    ("CurrentBalance", F 154 9 (numeric) applicable);
    ("AmountPastDue", F 163 9 (numeric) applicable);
    ("OriginalChargeOffAmount", F 172 9 (numeric) applicable);
    ("DateAccountInformation", F 181 8 (date) required);
    ("DateFirstDelinquency", F 189 8 (date) applicable);
    ("DateClosed", F 197 8 (date |: zeroFill) applicable);
    ("DateLastPayment", F 205 8 (date) applicable);
    ("InterestTypeIndicator", F 213 1 (alphanumeric) nullable);
    ("Reserved2", F 214 17 (alphanumeric) nullable);
    ("Surname", F 231 25 (alphanumeric) required);
    ("FirstName", F 256 20 (alphanumeric) required);
    ("MiddleName", F 276 20 (alphanumeric) applicable);
    ("GenerationCode", F 296 1 (alphanumeric) applicable);
    ("SocialSecurityNumber", F 297 9 (numeric) nullable);
    ("DateBirth", F 306 8 (date) nullable);
    ("TelephoneNumber", F 314 10 (numeric) nullable);
    ("ECOACode", F 324 1 (alphanumeric) required);
    ("ConsumerInformationIndicator", F 325 2 (alphanumeric) applicable);
    ("CountryCode", F 327 2 (alphanumeric) nullable);
    ("FirstLineAddress", F 329 32 (alphanumeric) required);
    ("SecondLineAddress", F 361 32 (alphanumeric) applicable);
    ("City", F 393 20 (alphanumeric) required);
    ("State", F 413 2 (alphanumeric) required);
    ("ZipCode", F 415 9 (alphanumeric) required);
    ("AddressIndicator", F 424 1 (alphanumeric) nullable);
    ("ResidenceCode", F 425 1 (alphanumeric) nullable) ].

(* pkg/lib/specifications.go:71-120 *)
Definition baseSegmentPackedFormat : layout :=
  [ ("BlockDescriptorWord", F 0 4 (descriptor |: omitted) applicable);
    ("RecordDescriptorWord", F 0 4 (descriptor) required);
    ("ProcessingIndicator", F 4 1 (numeric) nullable);
    ("TimeStamp", F 5 8 (packedTimestamp) nullable);
    ("CorrectionIndicator", F 13 1 (numeric |: zeroFill) nullable);
    ("IdentificationNumber", F 14 20 (alphanumeric) required);
    ("CycleIdentifier", F 34 2 (alphanumeric) applicable);
    ("ConsumerAccountNumber", F 36 30 (alphanumeric) required);
    ("PortfolioType", F 66 1 (alphanumeric) required);
    ("AccountType", F 67 2 (alphanumeric) required);
    ("DateOpened", F 69 5 (packedDate) required);
    ("CreditLimit", F 74 5 (packedNumber |: zeroFill) applicable);
    ("HighestCredit", F 79 5 (packedNumber |: zeroFill) nullable);
    ("TermsDuration", F 84 3 (alphanumeric) required);
    ("TermsFrequency", F 87 1 (alphanumeric) applicable);
    ("ScheduledMonthlyPaymentAmount", F 88 5 (packedNumber) applicable);
    ("ActualPaymentAmount", F 93 5 (packedNumber) applicable);
    ("AccountStatus", F 98 2 (alphanumeric) required);
    ("PaymentRating", F 100 1 (alphanumeric) applicable);
    ("PaymentHistoryProfile", F 101 24 (alphanumeric) required);
    ("SpecialComment", F 125 2 (alphanumeric) applicable);
    ("ComplianceConditionCode", F 127 2 (alphanumeric) applicable);
    ("CurrentBalance", F 129 5 (packedNumber) applicable);
    ("AmountPastDue", F 134 5 (packedNumber) applicable);
    ("OriginalChargeOffAmount", F 139 5 (packedNumber) applicable);
    ("DateAccountInformation", F 144 5 (packedDate) required);
    ("DateFirstDelinquency", F 149 5 (packedDate) applicable);
    ("DateClosed", F 154 5 (packedDate |: zeroFill) applicable);
    ("DateLastPayment", F 159 5 (packedDate) applicable);
    ("InterestTypeIndicator", F 164 1 (alphanumeric) nullable);
    ("Reserved2", F 165 17 (alphanumeric) nullable);
    ("Surname", F 182 25 (alphanumeric) required);
    ("FirstName", F 207 20 (alphanumeric) required);
    ("MiddleName", F 227 20 (alphanumeric) applicable);
    ("GenerationCode", F 247 1 (alphanumeric) applicable);
    ("SocialSecurityNumber", F 248 5 (packedNumber) nullable);
    ("DateBirth", F 253 5 (packedDate) nullable);
    ("TelephoneNumber", F 258 6 (packedNumber) nullable);
    ("ECOACode", F 264 1 (alphanumeric) required);
    ("ConsumerInformationIndicator", F 265 2 (alphanumeric) applicable);
    ("CountryCode", F 267 2 (alphanumeric) nullable);
    ("FirstLineAddress", F 269 32 (alphanumeric) required);
    ("SecondLineAddress", F 301 32 (alphanumeric) applicable);
    ("City", F 333 20 (alphanumeric) required);
    ("State", F 353 2 (alphanumeric) required);
    ("ZipCode", F 355 9 (alphanumeric) required);
    ("AddressIndicator", F 364 1 (alphanumeric) nullable);
    ("ResidenceCode", F 365 1 (alphanumeric) nullable) ].

(* pkg/lib/specifications.go:121-141 *)
Definition headerRecordCharacterFormat : layout :=
  [ ("BlockDescriptorWord", F 0 4 (numeric |: omitted) applicable);
    ("RecordDescriptorWord", F 0 4 (numeric) required);
    ("RecordIdentifier", F 4 6 (alphanumeric) required);
    ("CycleIdentifier", F 10 2 (alphanumeric) applicable);
    ("InnovisProgramIdentifier", F 12 10 (alphanumeric) applicable);
    ("EquifaxProgramIdentifier", F 22 10 (alphanumeric) applicable);
    ("ExperianProgramIdentifier", F 32 5 (alphanumeric) applicable);
    ("TransUnionProgramIdentifier", F 37 10 (alphanumeric) applicable);
    ("ActivityDate", F 47 8 (date) required);
    ("DateCreated", F 55 8 (date) required);
    ("ProgramDate", F 63 8 (date) nullable);
    ("ProgramRevisionDate", F 71 8 (date) nullable);
    ("ReporterName", F 79 40 (alphanumeric) required);
    ("ReporterAddress", F 119 96 (alphanumeric) required);
    ("ReporterTelephoneNumber", F 215 10 (numeric) nullable);
    ("SoftwareVendorName", F 225 40 (alphanumeric) applicable);
    ("SoftwareVersionNumber", F 265 5 (alphanumeric) applicable);
    ("PRBCProgramIdentifier", F 270 10 (alphanumeric) applicable);
    ("Reserved", F 280 146 (alphanumeric) nullable) ].

(* pkg/lib/specifications.go:142-162 *)
Definition headerRecordPackedFormat : layout :=
  [ ("BlockDescriptorWord", F 0 4 (descriptor |: omitted) applicable);
    ("RecordDescriptorWord", F 0 4 (descriptor) required);
    ("RecordIdentifier", F 4 6 (alphanumeric) required);
    ("CycleIdentifier", F 10 2 (alphanumeric) applicable);
    ("InnovisProgramIdentifier", F 12 10 (alphanumeric) applicable);
    ("EquifaxProgramIdentifier", F 22 10 (alphanumeric) applicable);
    ("ExperianProgramIdentifier", F 32 5 (alphanumeric) applicable);
    ("TransUnionProgramIdentifier", F 37 10 (alphanumeric) applicable);
    ("ActivityDate", F 47 8 (date) required);
    ("DateCreated", F 55 8 (date) required);
    ("ProgramDate", F 63 8 (date) nullable);
    ("ProgramRevisionDate", F 71 8 (date) nullable);
    ("ReporterName", F 79 40 (alphanumeric) required);
    ("ReporterAddress", F 119 96 (alphanumeric) required);
    ("ReporterTelephoneNumber", F 215 10 (numeric) nullable);
    ("SoftwareVendorName", F 225 40 (alphanumeric) applicable);
    ("SoftwareVersionNumber", F 265 5 (alphanumeric) applicable);
    ("PRBCProgramIdentifier", F 270 10 (alphanumeric) applicable);
    ("Reserved", F 280 86 (alphanumeric) nullable) ].

(* pkg/lib/specifications.go:163-211 *)
Definition trailerRecordCharacterFormat : layout :=
  [ ("RecordDescriptorWord", F 0 4 (numeric) required);
    ("RecordIdentifier", F 4 7 (alphanumeric) required);
    ("TotalBaseRecords", F 11 9 (numeric) required);
    ("Reserved1", F 20 9 (alphanumeric) nullable);
    ("TotalStatusCodeDF", F 29 9 (numeric) nullable);
    ("TotalConsumerSegmentsJ1", F 38 9 (numeric) applicable);
    ("TotalConsumerSegmentsJ2", F 47 9 (numeric) applicable);
    ("BlockCount", F 56 9 (numeric) required);
    ("TotalStatusCodeDA", F 65 9 (numeric) nullable);
    ("TotalStatusCode05", F 74 9 (numeric) nullable);
    ("TotalStatusCode11", F 83 9 (numeric) nullable);
    ("TotalStatusCode13", F 92 9 (numeric) nullable);
    ("TotalStatusCode61", F 101 9 (numeric) nullable);
    ("TotalStatusCode62", F 110 9 (numeric) nullable);
    ("TotalStatusCode63", F 119 9 (numeric) nullable);
    ("TotalStatusCode64", F 128 9 (numeric) nullable);
    ("TotalStatusCode65", F 137 9 (numeric) nullable);
    ("TotalStatusCode71", F 146 9 (numeric) nullable);
    ("TotalStatusCode78", F 155 9 (numeric) nullable);
    ("TotalStatusCode80", F 164 9 (numeric) nullable);
    ("TotalStatusCode82", F 173 9 (numeric) nullable);
    ("TotalStatusCode83", F 182 9 (numeric) nullable);
    ("TotalStatusCode84", F 191 9 (numeric) nullable);
    ("TotalStatusCode88", F 200 9 (numeric) nullable);
    ("TotalStatusCode89", F 209 9 (numeric) nullable);
    ("TotalStatusCode93", F 218 9 (numeric) nullable);
    ("TotalStatusCode94", F 227 9 (numeric) nullable);
    ("TotalStatusCode95", F 236 9 (numeric) nullable);
    ("TotalStatusCode96", F 245 9 (numeric) nullable);
    ("TotalStatusCode97", F 254 9 (numeric) nullable);
    ("TotalECOACodeZ", F 263 9 (numeric) nullable);
    ("TotalEmploymentSegments", F 272 9 (numeric) nullable);
    ("TotalOriginalCreditorSegments", F 281 9 (numeric) nullable);
    ("TotalPurchasedToSegments", F 290 9 (numeric) nullable);
    ("TotalMortgageInformationSegments", F 299 9 (numeric) nullable);
    ("TotalPaymentInformationSegments", F 308 9 (numeric) nullable);
    ("TotalChangeSegments", F 317 9 (numeric) nullable);
    ("TotalSocialNumbersAllSegments", F 326 9 (numeric) nullable);
    ("TotalSocialNumbersBaseSegments", F 335 9 (numeric) nullable);
    ("TotalSocialNumbersJ1Segments", F 344 9 (numeric) nullable);
    ("TotalSocialNumbersJ2Segments", F 353 9 (numeric) nullable);
    ("TotalDatesBirthAllSegments", F 362 9 (numeric) nullable);
    ("TotalDatesBirthBaseSegments", F 371 9 (numeric) nullable);
    ("TotalDatesBirthJ1Segments", F 380 9 (numeric) nullable);
    ("TotalDatesBirthJ2Segments", F 389 9 (numeric) nullable);
    ("TotalTelephoneNumbersAllSegments", F 398 9 (numeric) nullable);
    ("Reserved2", F 407 19 (numeric) nullable) ].

(* pkg/lib/specifications.go:212-260 *)
Definition trailerRecordPackedFormat : layout :=
  [ ("RecordDescriptorWord", F 0 4 (descriptor) required);
    ("RecordIdentifier", F 4 7 (alphanumeric) required);
    ("TotalBaseRecords", F 11 5 (packedNumber) required);
    ("Reserved1", F 16 5 (alphanumeric) nullable);
    ("TotalStatusCodeDF", F 21 5 (packedNumber) nullable);
    ("TotalConsumerSegmentsJ1", F 26 5 (packedNumber) applicable);
    ("TotalConsumerSegmentsJ2", F 31 5 (packedNumber) applicable);
    ("BlockCount", F 36 5 (packedNumber) required);
    ("TotalStatusCodeDA", F 41 5 (packedNumber) nullable);
    ("TotalStatusCode05", F 46 5 (packedNumber) nullable);
    ("TotalStatusCode11", F 51 5 (packedNumber) nullable);
    ("TotalStatusCode13", F 56 5 (packedNumber) nullable);
    ("TotalStatusCode61", F 61 5 (packedNumber) nullable);
    ("TotalStatusCode62", F 66 5 (packedNumber) nullable);
    ("TotalStatusCode63", F 71 5 (packedNumber) nullable);
    ("TotalStatusCode64", F 76 5 (packedNumber) nullable);
    ("TotalStatusCode65", F 81 5 (packedNumber) nullable);
    ("TotalStatusCode71", F 86 5 (packedNumber) nullable);
    ("TotalStatusCode78", F 91 5 (packedNumber) nullable);
    ("TotalStatusCode80", F 96 5 (packedNumber) nullable);
    ("TotalStatusCode82", F 101 5 (packedNumber) nullable);
    ("TotalStatusCode83", F 106 5 (packedNumber) nullable);
    ("TotalStatusCode84", F 111 5 (packedNumber) nullable);
    ("TotalStatusCode88", F 116 5 (packedNumber) nullable);
    ("TotalStatusCode89", F 121 5 (packedNumber) nullable);
    ("TotalStatusCode93", F 126 5 (packedNumber) nullable);
    ("TotalStatusCode94", F 131 5 (packedNumber) nullable);
    ("TotalStatusCode95", F 136 5 (packedNumber) nullable);
    ("TotalStatusCode96", F 141 5 (packedNumber) nullable);
    ("TotalStatusCode97", F 146 5 (packedNumber) nullable);
    ("TotalECOACodeZ", F 151 5 (packedNumber) nullable);
    ("TotalEmploymentSegments", F 156 5 (packedNumber) nullable);
    ("TotalOriginalCreditorSegments", F 161 5 (packedNumber) nullable);
    ("TotalPurchasedToSegments", F 166 5 (packedNumber) nullable);
    ("TotalMortgageInformationSegments", F 171 5 (packedNumber) nullable);
    ("TotalPaymentInformationSegments", F 176 5 (packedNumber) nullable);
    ("TotalChangeSegments", F 181 5 (packedNumber) nullable);
    ("TotalSocialNumbersAllSegments", F 186 5 (packedNumber) nullable);
    ("TotalSocialNumbersBaseSegments", F 191 5 (packedNumber) nullable);
    ("TotalSocialNumbersJ1Segments", F 196 5 (packedNumber) nullable);
    ("TotalSocialNumbersJ2Segments", F 201 5 (packedNumber) nullable);
    ("TotalDatesBirthAllSegments", F 206 5 (packedNumber) nullable);
    ("TotalDatesBirthBaseSegments", F 211 5 (packedNumber) nullable);
    ("TotalDatesBirthJ1Segments", F 216 5 (packedNumber) nullable);
    ("TotalDatesBirthJ2Segments", F 221 5 (packedNumber) nullable);
    ("TotalTelephoneNumbersAllSegments", F 226 5 (packedNumber) nullable);
    ("Reserved2", F 231 135 (alphanumeric) nullable) ].

(* pkg/lib/specifications.go:261-274 *)
Definition j1SegmentFormat : layout :=
  [ ("SegmentIdentifier", F 0 2 (alphanumeric) required);
    ("Reserved1", F 2 1 (alphanumeric) nullable);
    ("Surname", F 3 25 (alphanumeric) required);
    ("FirstName", F 28 20 (alphanumeric) required);
    ("MiddleName", F 48 20 (alphanumeric) applicable);
    ("GenerationCode", F 68 1 (alphanumeric) applicable);
    ("SocialSecurityNumber", F 69 9 (numeric) nullable);
    ("DateBirth", F 78 8 (date) nullable);
    ("TelephoneNumber", F 86 10 (numeric) nullable);
    ("ECOACode", F 96 1 (alphanumeric) required);
    ("ConsumerInformationIndicator", F 97 2 (alphanumeric) applicable);
    ("Reserved2", F 99 1 (alphanumeric) nullable) ].

(* pkg/lib/specifications.go:275-296 *)
Definition j2SegmentFormat : layout :=
  [ ("SegmentIdentifier", F 0 2 (alphanumeric) required);
    ("Reserved1", F 2 1 (alphanumeric) nullable);
    ("Surname", F 3 25 (alphanumeric) required);
    ("FirstName", F 28 20 (alphanumeric) nullable);
    ("MiddleName", F 48 20 (alphanumeric) applicable);
    ("GenerationCode", F 68 1 (alphanumeric) applicable);
    ("SocialSecurityNumber", F 69 9 (numeric) nullable);
    ("DateBirth", F 78 8 (date) nullable);
    ("TelephoneNumber", F 86 10 (numeric) nullable);
    ("ECOACode", F 96 1 (alphanumeric) required);
    ("ConsumerInformationIndicator", F 97 2 (alphanumeric) applicable);
    ("CountryCode", F 99 2 (alphanumeric) nullable);
    ("FirstLineAddress", F 101 32 (alphanumeric) required);
    ("SecondLineAddress", F 133 32 (alphanumeric) applicable);
    ("City", F 165 20 (alphanumeric) required);
    ("State", F 185 2 (alphanumeric) required);
    ("ZipCode", F 187 9 (alphanumeric) required);
    ("AddressIndicator", F 196 1 (alphanumeric) nullable);
    ("ResidenceCode", F 197 1 (alphanumeric) nullable);
    ("Reserved2", F 198 2 (alphanumeric) nullable) ].

(* pkg/lib/specifications.go:297-301 *)
Definition k1SegmentFormat : layout :=
  [ ("SegmentIdentifier", F 0 2 (alphanumeric) required);
    ("OriginalCreditorName", F 2 30 (alphanumeric) required);
    ("CreditorClassification", F 32 2 (numeric) required) ].

(* pkg/lib/specifications.go:302-307 *)
Definition k2SegmentFormat : layout :=
  [ ("SegmentIdentifier", F 0 2 (alphanumeric) required);
    ("PurchasedIndicator", F 2 1 (numeric) required);
    ("PurchasedName", F 3 30 (alphanumeric) required);
    ("Reserved", F 33 1 (alphanumeric) nullable) ].

(* pkg/lib/specifications.go:308-313 *)
Definition k3SegmentFormat : layout :=
  [ ("SegmentIdentifier", F 0 2 (alphanumeric) required);
    ("AgencyIdentifier", F 2 2 (numeric) applicable);
    ("AccountNumber", F 4 18 (alphanumeric) applicable);
    ("MortgageIdentificationNumber", F 22 18 (alphanumeric) nullable) ].

(* pkg/lib/specifications.go:314-321 *)
Definition k4SegmentFormat : layout :=
  [ ("SegmentIdentifier", F 0 2 (alphanumeric) required);
    ("SpecializedPaymentIndicator", F 2 2 (numeric) required);
    ("DeferredPaymentStartDate", F 4 8 (date) applicable);
    ("BalloonPaymentDueDate", F 12 8 (date) applicable);
    ("BalloonPaymentAmount", F 20 9 (numeric) applicable);
    ("Reserved", F 29 1 (alphanumeric) nullable) ].

(* pkg/lib/specifications.go:322-328 *)
Definition l1SegmentFormat : layout :=
  [ ("SegmentIdentifier", F 0 2 (alphanumeric) required);
    ("ChangeIndicator", F 2 1 (numeric) required);
    ("NewConsumerAccountNumber", F 3 30 (alphanumeric) applicable);
    ("NewIdentificationNumber", F 33 20 (alphanumeric) applicable);
    ("Reserved", F 53 1 (alphanumeric) nullable) ].

(* pkg/lib/specifications.go:329-339 *)
Definition n1SegmentFormat : layout :=
  [ ("SegmentIdentifier", F 0 2 (alphanumeric) required);
    ("EmployerName", F 2 30 (alphanumeric) required);
    ("FirstLineEmployerAddress", F 32 32 (alphanumeric) nullable);
    ("SecondLineEmployerAddress", F 64 32 (alphanumeric) nullable);
    ("EmployerCity", F 96 20 (alphanumeric) nullable);
    ("EmployerState", F 116 2 (alphanumeric) nullable);
    ("ZipCode", F 118 9 (alphanumeric) nullable);
    ("Occupation", F 127 18 (alphanumeric) applicable);
    ("Reserved", F 145 1 (alphanumeric) nullable) ].

(* Kinds of struct fields: int / int64, string, utils.Time; as in pkg/lib/base_segment.go:24-512 *)
Inductive kind := KInt | KStr | KTime.

(* exported fields of a struct, in declaration order; as in pkg/lib/base_segment.go:24-512 *)
Definition structure := list (string * kind).

(* pkg/lib/base_segment.go:24-512, exported fields of BaseSegment *)
Definition base_struct : structure :=
  [ ("BlockDescriptorWord", KInt);
    ("RecordDescriptorWord", KInt);
    ("ProcessingIndicator", KInt);
    ("TimeStamp", KTime);
    ("CorrectionIndicator", KInt);
    ("IdentificationNumber", KStr);
    ("CycleIdentifier", KStr);
    ("ConsumerAccountNumber", KStr);
    ("PortfolioType", KStr);
    ("AccountType", KStr);
    ("DateOpened", KTime);
    ("CreditLimit", KInt);
    ("HighestCredit", KInt);
    ("TermsDuration", KStr);
    ("TermsFrequency", KStr);
    ("ScheduledMonthlyPaymentAmount", KInt);
    ("ActualPaymentAmount", KInt);
    ("AccountStatus", KStr);
    ("PaymentRating", KStr);
    ("PaymentHistoryProfile", KStr);
    ("SpecialComment", KStr);
    ("ComplianceConditionCode", KStr);
    ("CurrentBalance", KInt);
    ("AmountPastDue", KInt);
    ("OriginalChargeOffAmount", KInt);
    ("DateAccountInformation", KTime);
    ("DateFirstDelinquency", KTime);
    ("DateClosed", KTime);
    ("DateLastPayment", KTime);
    ("InterestTypeIndicator", KStr);
    ("Surname", KStr);
    ("FirstName", KStr);
    ("MiddleName", KStr);
    ("GenerationCode", KStr);
    ("SocialSecurityNumber", KInt);
    ("DateBirth", KTime);
    ("TelephoneNumber", KInt);
    ("ECOACode", KStr);
    ("ConsumerInformationIndicator", KStr);
    ("CountryCode", KStr);
    ("FirstLineAddress", KStr);
    ("SecondLineAddress", KStr);
    ("City", KStr);
    ("State", KStr);
    ("ZipCode", KStr);
    ("AddressIndicator", KStr);
    ("ResidenceCode", KStr) ].

(* pkg/lib/header_record.go:21-101, exported fields of HeaderRecord *)
Definition header_struct : structure :=
  [ ("BlockDescriptorWord", KInt);
    ("RecordDescriptorWord", KInt);
    ("RecordIdentifier", KStr);
    ("CycleIdentifier", KStr);
    ("InnovisProgramIdentifier", KStr);
    ("EquifaxProgramIdentifier", KStr);
    ("ExperianProgramIdentifier", KStr);
    ("TransUnionProgramIdentifier", KStr);
    ("ActivityDate", KTime);
    ("DateCreated", KTime);
    ("ProgramDate", KTime);
    ("ProgramRevisionDate", KTime);
    ("ReporterName", KStr);
    ("ReporterAddress", KStr);
    ("ReporterTelephoneNumber", KInt);
    ("SoftwareVendorName", KStr);
    ("SoftwareVersionNumber", KStr);
    ("PRBCProgramIdentifier", KStr) ].

(* pkg/lib/trailer_record.go:21-165, exported fields of TrailerRecord *)
Definition trailer_struct : structure :=
  [ ("RecordDescriptorWord", KInt);
    ("RecordIdentifier", KStr);
    ("TotalBaseRecords", KInt);
    ("TotalStatusCodeDF", KInt);
    ("TotalConsumerSegmentsJ1", KInt);
    ("TotalConsumerSegmentsJ2", KInt);
    ("BlockCount", KInt);
    ("TotalStatusCodeDA", KInt);
    ("TotalStatusCode05", KInt);
    ("TotalStatusCode11", KInt);
    ("TotalStatusCode13", KInt);
    ("TotalStatusCode61", KInt);
    ("TotalStatusCode62", KInt);
    ("TotalStatusCode63", KInt);
    ("TotalStatusCode64", KInt);
    ("TotalStatusCode65", KInt);
    ("TotalStatusCode71", KInt);
    ("TotalStatusCode78", KInt);
    ("TotalStatusCode80", KInt);
    ("TotalStatusCode82", KInt);
    ("TotalStatusCode83", KInt);
    ("TotalStatusCode84", KInt);
    ("TotalStatusCode88", KInt);
    ("TotalStatusCode89", KInt);
    ("TotalStatusCode93", KInt);
    ("TotalStatusCode94", KInt);
    ("TotalStatusCode95", KInt);
    ("TotalStatusCode96", KInt);
    ("TotalStatusCode97", KInt);
    ("TotalECOACodeZ", KInt);
    ("TotalEmploymentSegments", KInt);
    ("TotalOriginalCreditorSegments", KInt);
    ("TotalPurchasedToSegments", KInt);
    ("TotalMortgageInformationSegments", KInt);
    ("TotalPaymentInformationSegments", KInt);
    ("TotalChangeSegments", KInt);
    ("TotalSocialNumbersAllSegments", KInt);
    ("TotalSocialNumbersBaseSegments", KInt);
    ("TotalSocialNumbersJ1Segments", KInt);
    ("TotalSocialNumbersJ2Segments", KInt);
    ("TotalDatesBirthAllSegments", KInt);
    ("TotalDatesBirthBaseSegments", KInt);
    ("TotalDatesBirthJ1Segments", KInt);
    ("TotalDatesBirthJ2Segments", KInt);
    ("TotalTelephoneNumbersAllSegments", KInt) ].

(* pkg/lib/j1_segment.go:17-107, exported fields of J1Segment *)
Definition j1_struct : structure :=
  [ ("SegmentIdentifier", KStr);
    ("Surname", KStr);
    ("FirstName", KStr);
    ("MiddleName", KStr);
    ("GenerationCode", KStr);
    ("SocialSecurityNumber", KInt);
    ("DateBirth", KTime);
    ("TelephoneNumber", KInt);
    ("ECOACode", KStr);
    ("ConsumerInformationIndicator", KStr) ].

(* pkg/lib/j2_segment.go:17-163, exported fields of J2Segment *)
Definition j2_struct : structure :=
  [ ("SegmentIdentifier", KStr);
    ("Surname", KStr);
    ("FirstName", KStr);
    ("MiddleName", KStr);
    ("GenerationCode", KStr);
    ("SocialSecurityNumber", KInt);
    ("DateBirth", KTime);
    ("TelephoneNumber", KInt);
    ("ECOACode", KStr);
    ("ConsumerInformationIndicator", KStr);
    ("CountryCode", KStr);
    ("FirstLineAddress", KStr);
    ("SecondLineAddress", KStr);
    ("City", KStr);
    ("State", KStr);
    ("ZipCode", KStr);
    ("AddressIndicator", KStr);
    ("ResidenceCode", KStr) ].

(* pkg/lib/kn_segment.go:20-62, exported fields of K1Segment *)
Definition k1_struct : structure :=
  [ ("SegmentIdentifier", KStr);
    ("OriginalCreditorName", KStr);
    ("CreditorClassification", KInt) ].

(* pkg/lib/kn_segment.go:127-143, exported fields of K2Segment *)
Definition k2_struct : structure :=
  [ ("SegmentIdentifier", KStr);
    ("PurchasedIndicator", KInt);
    ("PurchasedName", KStr) ].

(* pkg/lib/kn_segment.go:214-236, exported fields of K3Segment *)
Definition k3_struct : structure :=
  [ ("SegmentIdentifier", KStr);
    ("AgencyIdentifier", KInt);
    ("AccountNumber", KStr);
    ("MortgageIdentificationNumber", KStr) ].

(* pkg/lib/kn_segment.go:307-330, exported fields of K4Segment *)
Definition k4_struct : structure :=
  [ ("SegmentIdentifier", KStr);
    ("SpecializedPaymentIndicator", KInt);
    ("DeferredPaymentStartDate", KTime);
    ("BalloonPaymentDueDate", KTime);
    ("BalloonPaymentAmount", KInt) ].

(* pkg/lib/l1_segment.go:17-40, exported fields of L1Segment *)
Definition l1_struct : structure :=
  [ ("SegmentIdentifier", KStr);
    ("ChangeIndicator", KInt);
    ("NewConsumerAccountNumber", KStr);
    ("NewIdentificationNumber", KStr) ].

(* pkg/lib/n1_segment.go:13-43, exported fields of N1Segment *)
Definition n1_struct : structure :=
  [ ("SegmentIdentifier", KStr);
    ("EmployerName", KStr);
    ("FirstLineEmployerAddress", KStr);
    ("SecondLineEmployerAddress", KStr);
    ("EmployerCity", KStr);
    ("EmployerState", KStr);
    ("ZipCode", KStr);
    ("Occupation", KStr) ].
