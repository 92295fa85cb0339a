(* The files of /repo/test/testdata, byte for byte.  Generated. *)
From Coq Require Import NArith Ascii String List.
Import ListNotations.
From Verif Require Import GoBase.
Local Open Scope string_scope.
Local Open Scope list_scope.

Definition codes (l : list N) : bytes := map ascii_of_N l.
Local Open Scope N_scope.

(* test/testdata/base_segment.dat, 1285 bytes *)
Definition base_segment_dat : bytes := List.concat
  [ lit "1268"
  ; codes [10]
  ; lit "126410101202001112206666666               553723456                     M4811222"
  ; codes [10]
  ; lit "019000000000000002438LOC 00000000000000010062 BBBBBBBBBBBBBBBBBBBBBBBBASXA000002"
  ; codes [10]
  ; lit "23300000000000000000009202002071920010802200208022002                  SMITH-JON"
  ; codes [10]
  ; lit "ES              JUNIOR                                  S15932875903181972517555"
  ; codes [10]
  ; lit "55551  USRMXH+6W Casper, Wyoming,        United States                   U.S. Po"
  ; codes [10]
  ; lit "stal         MI72654    YO"
  ; codes [10]
  ; lit "J1 BEAUCHAMP                KEVIN                                   S445112877010220204335"
  ; lit "5523332R  "
  ; codes [10]
  ; lit "J2 BEAUCHAMP                KEVIN                                   S445112877010220204335"
  ; lit "5523332R U"
  ; codes [10]
  ; lit "S234 HARRISON PLACE              SUITE #305                      LANSING             MI726"
  ; lit "54    YO  "
  ; codes [10]
  ; lit "J2 BEAUCHAMP                KEVIN                                   S445112877010220204335"
  ; lit "5523332R U"
  ; codes [10]
  ; lit "S234 HARRISON PLACE              SUITE #305                      LANSING             MI726"
  ; lit "54    YO  "
  ; codes [10]
  ; lit "K1WETCOSAT INDUSTRIES LTD.      04"
  ; codes [10]
  ; lit "K21Purchased From Name            "
  ; codes [10]
  ; lit "K300                  Mortgage Number   "
  ; codes [10]
  ; lit "K4010120202001202020000001234 "
  ; codes [10]
  ; lit "L11New Consumer Account Number                        "
  ; codes [10]
  ; lit "N1Employer Name                 First Line of Employer Address  Second Line of Employer Ad"
  ; lit "dress Employer City       MI23456    Occupation         " ].

(* test/testdata/base_segment.json, 3813 bytes *)
Definition base_segment_json : bytes := List.concat
  [ lit "{"
  ; codes [10]
  ; lit "  ""base"": {"
  ; codes [10]
  ; lit "    ""blockDescriptorWord"": 1268,"
  ; codes [10]
  ; lit "    ""recordDescriptorWord"": 1264,"
  ; codes [10]
  ; lit "    ""processingIndicator"": 1,"
  ; codes [10]
  ; lit "    ""timeStamp"": ""2020-01-01T01:11:22Z"","
  ; codes [10]
  ; lit "    ""identificationNumber"": ""6666666"","
  ; codes [10]
  ; lit "    ""consumerAccountNumber"": ""553723456"","
  ; codes [10]
  ; lit "    ""portfolioType"": ""M"","
  ; codes [10]
  ; lit "    ""accountType"": ""48"","
  ; codes [10]
  ; lit "    ""dateOpened"": ""2019-11-22T00:00:00Z"","
  ; codes [10]
  ; lit "    ""highestCredit"": 2438,"
  ; codes [10]
  ; lit "    ""termsDuration"": ""LOC"","
  ; codes [10]
  ; lit "    ""actualPaymentAmount"": 100,"
  ; codes [10]
  ; lit "    ""accountStatus"": ""62"","
  ; codes [10]
  ; lit "    ""paymentHistoryProfile"": ""BBBBBBBBBBBBBBBBBBBBBBBB"","
  ; codes [10]
  ; lit "    ""specialComment"": ""AS"","
  ; codes [10]
  ; lit "    ""complianceConditionCode"": ""XA"","
  ; codes [10]
  ; lit "    ""currentBalance"": 2233,"
  ; codes [10]
  ; lit "    ""dateAccountInformation"": ""2002-09-20T00:00:00Z"","
  ; codes [10]
  ; lit "    ""dateFirstDelinquency"": ""2001-07-19T00:00:00Z"","
  ; codes [10]
  ; lit "    ""dateClosed"": ""2002-08-02T00:00:00Z"","
  ; codes [10]
  ; lit "    ""dateLastPayment"": ""2002-08-02T00:00:00Z"","
  ; codes [10]
  ; lit "    ""interestTypeIndicator"": """","
  ; codes [10]
  ; lit "    ""surname"": ""SMITH-JONES"","
  ; codes [10]
  ; lit "    ""firstName"": ""JUNIOR"","
  ; codes [10]
  ; lit "    ""generationCode"": ""S"","
  ; codes [10]
  ; lit "    ""socialSecurityNumber"": 159328759,"
  ; codes [10]
  ; lit "    ""dateBirth"": ""1972-03-18T00:00:00Z"","
  ; codes [10]
  ; lit "    ""telephoneNumber"": 5175555555,"
  ; codes [10]
  ; lit "    ""ecoaCode"": ""1"","
  ; codes [10]
  ; lit "    ""countryCode"": ""US"","
  ; codes [10]
  ; lit "    ""firstLineAddress"": ""RMXH+6W Casper, Wyoming,"","
  ; codes [10]
  ; lit "    ""secondLineAddress"": ""United States"","
  ; codes [10]
  ; lit "    ""city"": ""U.S. Postal"","
  ; codes [10]
  ; lit "    ""state"": ""MI"","
  ; codes [10]
  ; lit "    ""zipCode"": ""72654"","
  ; codes [10]
  ; lit "    ""addressIndicator"": ""Y"","
  ; codes [10]
  ; lit "    ""residenceCode"": ""O"""
  ; codes [10]
  ; lit "  },"
  ; codes [10]
  ; lit "  ""j1"": ["
  ; codes [10]
  ; lit "    {"
  ; codes [10]
  ; lit "      ""segmentIdentifier"": ""J1"","
  ; codes [10]
  ; lit "      ""surname"": ""BEAUCHAMP"","
  ; codes [10]
  ; lit "      ""firstName"": ""KEVIN"","
  ; codes [10]
  ; lit "      ""generationCode"": ""S"","
  ; codes [10]
  ; lit "      ""socialSecurityNumber"": 445112877,"
  ; codes [10]
  ; lit "      ""dateBirth"": ""2020-01-02T00:00:00Z"","
  ; codes [10]
  ; lit "      ""telephoneNumber"": 4335552333,"
  ; codes [10]
  ; lit "      ""ecoaCode"": ""2"","
  ; codes [10]
  ; lit "      ""consumerInformationIndicator"": ""R"""
  ; codes [10]
  ; lit "    }"
  ; codes [10]
  ; lit "  ],"
  ; codes [10]
  ; lit "  ""j2"": ["
  ; codes [10]
  ; lit "    {"
  ; codes [10]
  ; lit "      ""segmentIdentifier"": ""J2"","
  ; codes [10]
  ; lit "      ""surname"": ""BEAUCHAMP"","
  ; codes [10]
  ; lit "      ""firstName"": ""KEVIN"","
  ; codes [10]
  ; lit "      ""generationCode"": ""S"","
  ; codes [10]
  ; lit "      ""socialSecurityNumber"": 445112877,"
  ; codes [10]
  ; lit "      ""dateBirth"": ""2020-01-02T00:00:00Z"","
  ; codes [10]
  ; lit "      ""telephoneNumber"": 4335552333,"
  ; codes [10]
  ; lit "      ""ecoaCode"": ""2"","
  ; codes [10]
  ; lit "      ""consumerInformationIndicator"": ""R"","
  ; codes [10]
  ; lit "      ""countryCode"": ""US"","
  ; codes [10]
  ; lit "      ""firstLineAddress"": ""234 HARRISON PLACE"","
  ; codes [10]
  ; lit "      ""secondLineAddress"": ""SUITE #305"","
  ; codes [10]
  ; lit "      ""city"": ""LANSING"","
  ; codes [10]
  ; lit "      ""state"": ""MI"","
  ; codes [10]
  ; lit "      ""zipCode"": ""72654"","
  ; codes [10]
  ; lit "      ""addressIndicator"": ""Y"","
  ; codes [10]
  ; lit "      ""residenceCode"": ""O"""
  ; codes [10]
  ; lit "    },"
  ; codes [10]
  ; lit "    {"
  ; codes [10]
  ; lit "      ""segmentIdentifier"": ""J2"","
  ; codes [10]
  ; lit "      ""surname"": ""BEAUCHAMP"","
  ; codes [10]
  ; lit "      ""firstName"": ""KEVIN"","
  ; codes [10]
  ; lit "      ""generationCode"": ""S"","
  ; codes [10]
  ; lit "      ""socialSecurityNumber"": 445112877,"
  ; codes [10]
  ; lit "      ""dateBirth"": ""2020-01-02T00:00:00Z"","
  ; codes [10]
  ; lit "      ""telephoneNumber"": 4335552333,"
  ; codes [10]
  ; lit "      ""ecoaCode"": ""2"","
  ; codes [10]
  ; lit "      ""consumerInformationIndicator"": ""R"","
  ; codes [10]
  ; lit "      ""countryCode"": ""US"","
  ; codes [10]
  ; lit "      ""firstLineAddress"": ""234 HARRISON PLACE"","
  ; codes [10]
  ; lit "      ""secondLineAddress"": ""SUITE #305"","
  ; codes [10]
  ; lit "      ""city"": ""LANSING"","
  ; codes [10]
  ; lit "      ""state"": ""MI"","
  ; codes [10]
  ; lit "      ""zipCode"": ""72654"","
  ; codes [10]
  ; lit "      ""addressIndicator"": ""Y"","
  ; codes [10]
  ; lit "      ""residenceCode"": ""O"""
  ; codes [10]
  ; lit "    }"
  ; codes [10]
  ; lit "  ],"
  ; codes [10]
  ; lit "  ""k1"": {"
  ; codes [10]
  ; lit "    ""segmentIdentifier"": ""K1"","
  ; codes [10]
  ; lit "    ""originalCreditorName"": ""WETCOSAT INDUSTRIES LTD."","
  ; codes [10]
  ; lit "    ""creditorClassification"": 4"
  ; codes [10]
  ; lit "  },"
  ; codes [10]
  ; lit "  ""k2"": {"
  ; codes [10]
  ; lit "    ""segmentIdentifier"": ""K2"","
  ; codes [10]
  ; lit "    ""purchasedIndicator"": 1,"
  ; codes [10]
  ; lit "    ""purchasedName"": ""Purchased From Name"""
  ; codes [10]
  ; lit "  },"
  ; codes [10]
  ; lit "  ""k3"": {"
  ; codes [10]
  ; lit "    ""segmentIdentifier"": ""K3"","
  ; codes [10]
  ; lit "    ""mortgageIdentificationNumber"": ""Mortgage Number"""
  ; codes [10]
  ; lit "  },"
  ; codes [10]
  ; lit "  ""k4"": {"
  ; codes [10]
  ; lit "    ""segmentIdentifier"": ""K4"","
  ; codes [10]
  ; lit "    ""specializedPaymentIndicator"": 1,"
  ; codes [10]
  ; lit "    ""deferredPaymentStartDate"": ""2020-01-20T00:00:00Z"","
  ; codes [10]
  ; lit "    ""balloonPaymentDueDate"": ""2020-01-20T00:00:00Z"","
  ; codes [10]
  ; lit "    ""balloonPaymentAmount"": 1234"
  ; codes [10]
  ; lit "  },"
  ; codes [10]
  ; lit "  ""l1"": {"
  ; codes [10]
  ; lit "    ""segmentIdentifier"": ""L1"","
  ; codes [10]
  ; lit "    ""changeIndicator"": 1,"
  ; codes [10]
  ; lit "    ""newConsumerAccountNumber"": ""New Consumer Account Number"""
  ; codes [10]
  ; lit "  },"
  ; codes [10]
  ; lit "  ""n1"": {"
  ; codes [10]
  ; lit "    ""segmentIdentifier"": ""N1"","
  ; codes [10]
  ; lit "    ""employerName"": ""Employer Name"","
  ; codes [10]
  ; lit "    ""firstLineEmployerAddress"": ""First Line of Employer Address"","
  ; codes [10]
  ; lit "    ""secondLineEmployerAddress"": ""Second Line of Employer Address"","
  ; codes [10]
  ; lit "    ""employerCity"": ""Employer City"","
  ; codes [10]
  ; lit "    ""employerState"": ""MI"","
  ; codes [10]
  ; lit "    ""zipCode"": ""23456"","
  ; codes [10]
  ; lit "    ""occupation"": ""Occupation"""
  ; codes [10]
  ; lit "  }"
  ; codes [10]
  ; lit "}" ].

(* test/testdata/header_record.dat, 436 bytes *)
Definition header_record_dat : bytes := List.concat
  [ lit "0430"
  ; codes [10]
  ; lit "0426HEADER                           555555555508202002051019990510199905101999Y"
  ; codes [10]
  ; lit "OUR BUSINESS NAME HERE                 LINE ONE OF YOUR ADDRESS LINE TWO OF YOUR"
  ; codes [10]
  ; lit " ADDRESS LINE THERE OF YOUR ADDRESS                    1234567890               "
  ; codes [10]
  ; lit "                                                                                "
  ; codes [10]
  ; lit "                                                                                "
  ; codes [10]
  ; lit "                          " ].

(* test/testdata/j1_segment.dat, 100 bytes *)
Definition j1_segment_dat : bytes := List.concat
  [ lit "J1 BEAUCHAMP                KEVIN                                   S445112877010220204335"
  ; lit "5523332R  " ].

(* test/testdata/j2_segment.dat, 201 bytes *)
Definition j2_segment_dat : bytes := List.concat
  [ lit "J2 BEAUCHAMP                KEVIN                                   S445112877010220204335"
  ; lit "5523332R U"
  ; codes [10]
  ; lit "S234 HARRISON PLACE              SUITE #305                      LANSING             MI726"
  ; lit "54    YO  " ].

(* test/testdata/k1_segment.dat, 34 bytes *)
Definition k1_segment_dat : bytes := List.concat
  [ lit "K1WETCOSAT INDUSTRIES LTD.      04" ].

(* test/testdata/k2_segment.dat, 34 bytes *)
Definition k2_segment_dat : bytes := List.concat
  [ lit "K21Purchased From Name            " ].

(* test/testdata/k3_segment.dat, 40 bytes *)
Definition k3_segment_dat : bytes := List.concat
  [ lit "K300                  Mortgage Number   " ].

(* test/testdata/k4_segment.dat, 30 bytes *)
Definition k4_segment_dat : bytes := List.concat
  [ lit "K4010120202001202020000001234 " ].

(* test/testdata/l1_segment.dat, 54 bytes *)
Definition l1_segment_dat : bytes := List.concat
  [ lit "L11New Consumer Account Number                        " ].

(* test/testdata/n1_segment.dat, 146 bytes *)
Definition n1_segment_dat : bytes := List.concat
  [ lit "N1Employer Name                 First Line of Employer Address  Second Line of Employer Ad"
  ; lit "dress Employer City       MI23456    Occupation         " ].

(* test/testdata/packed_base_segment.dat, 1110 bytes *)
Definition packed_base_segment_dat : bytes := List.concat
  [ codes [4]
  ; lit "V"
  ; codes [0; 0; 4]
  ; lit "R"
  ; codes [0; 0]
  ; lit "1"
  ; codes [0; 0; 235; 161; 23; 224; 212]
  ; lit "s06666666               553723456                     M48"
  ; codes [0; 171]
  ; lit "<"
  ; codes [3]
  ; lit "s"
  ; codes [0; 0; 0; 0; 0; 0; 0; 0; 1; 160]
  ; lit "LOC "
  ; codes [0; 0; 0; 0; 0; 0; 0; 0; 0; 160]
  ; lit "62 BBBBBBBBBBBBBBBBBBBBBBBBASXA"
  ; codes [0; 0; 0]
  ; lit "99"
  ; codes [0; 0; 0; 0; 0; 0; 0; 0; 0; 0; 0; 140]
  ; lit "iRs"
  ; codes [0; 140]
  ; lit "iRs"
  ; codes [0; 140]
  ; lit "iRs"
  ; codes [0; 140]
  ; lit "iRs                  SMITH-JONES              JUNIOR                                  S"
  ; codes [0; 0; 16; 16; 160; 0; 140]
  ; lit "iRs"
  ; codes [0; 0]
  ; lit "I"
  ; codes [150; 2; 210]
  ; lit "1  USRMXH+6W Casper, Wyoming,        United States                   U.S. Postal         M"
  ; lit "I72654    YOJ1 BEAUCHAMP                KEVIN                                   S445112877"
  ; lit "0102202043355523332R  J2 BEAUCHAMP                KEVIN                                   "
  ; lit "S4451128770102202043355523332R US234 HARRISON PLACE              SUITE #305               "
  ; lit "       LANSING             MI72654    YO  J2 BEAUCHAMP                KEVIN               "
  ; lit "                    S4451128770102202043355523332R US234 HARRISON PLACE              SUITE"
  ; lit " #305                      LANSING             MI72654    YO  K300                  Mortga"
  ; lit "ge Number   L11New Consumer Account Number                        N1Employer Name         "
  ; lit "        First Line of Employer Address  Second Line of Employer Address Employer City     "
  ; lit "  MI23456    Occupation         " ].

(* test/testdata/packed_file.dat, 1744 bytes *)
Definition packed_file_dat : bytes := List.concat
  [ codes [1]
  ; lit "r"
  ; codes [0; 0; 1]
  ; lit "n"
  ; codes [0; 0]
  ; lit "HEADER                           555555555508202002051019990510199905101999YOUR BUSINESS N"
  ; lit "AME HERE                 LINE ONE OF YOUR ADDRESS LINE TWO OF YOUR ADDRESS LINE THERE OF Y"
  ; lit "OUR ADDRESS                    1234567890                                                 "
  ; lit "                                                                                          "
  ; lit "  "
  ; codes [3; 240; 0; 0; 3; 236; 0; 0]
  ; lit "1"
  ; codes [0; 0; 235; 161; 23; 224]
  ; lit "rs06666666               553723456                     M48"
  ; codes [0; 171]
  ; lit "<"
  ; codes [3]
  ; lit "s"
  ; codes [0; 0; 0; 0; 0; 0; 0; 0; 9; 134]
  ; lit "LOC "
  ; codes [0; 0; 0; 0; 0; 0; 0; 0; 0]
  ; lit "d62 BBBBBBBBBBBBBBBBBBBBBBBBASXA"
  ; codes [0; 0; 0; 8; 185; 0; 0; 0; 0; 0; 0; 0; 0; 0; 0; 0; 140]
  ; lit "iRs"
  ; codes [0]
  ; lit "m"
  ; codes [189; 193]
  ; lit "s"
  ; codes [0]
  ; lit "zg"
  ; codes [242]
  ; lit "s"
  ; codes [0]
  ; lit "zg"
  ; codes [242]
  ; lit "s                  SMITH-JONES              JUNIOR                                  S"
  ; codes [0; 9; 127]
  ; lit ")"
  ; codes [247; 0]
  ; lit "0"
  ; codes [141; 148]
  ; lit "s"
  ; codes [0; 1]
  ; lit "4|"
  ; codes [181; 227]
  ; lit "1  USRMXH+6W Casper, Wyoming,        United States                   U.S. Postal         M"
  ; lit "I72654    YOJ1 BEAUCHAMP                KEVIN                                   S445112877"
  ; lit "0102202043355523332R  J2 BEAUCHAMP                KEVIN                                   "
  ; lit "S4451128770102202043355523332R US234 HARRISON PLACE              SUITE #305               "
  ; lit "       LANSING             MI72654    YO  K1WETCOSAT INDUSTRIES LTD.      04K21Purchased F"
  ; lit "rom Name            K300                  Mortgage Number   K4010120202001202020000001234 "
  ; lit "L11New Consumer Account Number                        N1Employer Name                 Firs"
  ; lit "t Line of Employer Address  Second Line of Employer Address Employer City       MI23456   "
  ; lit " Occupation         "
  ; codes [1]
  ; lit "n"
  ; codes [0; 0]
  ; lit "TRAILER"
  ; codes [0; 0; 0; 0; 1]
  ; lit "     "
  ; codes [0; 0; 0; 0; 0; 0; 0; 0; 0; 1; 0; 0; 0; 0; 1; 0; 0; 0; 0; 3; 0; 0; 0; 0; 0; 0; 0; 0; 0; 0; 0; 0; 0; 0; 0; 0; 0; 0; 0; 0]
  ; codes [0; 0; 0; 0; 0; 0; 0; 0; 0; 1; 0; 0; 0; 0; 0; 0; 0; 0; 0; 0; 0; 0; 0; 0; 0; 0; 0; 0; 0; 0; 0; 0; 0; 0; 0; 0; 0; 0; 0; 0]
  ; codes [0; 0; 0; 0; 0; 0; 0; 0; 0; 0; 0; 0; 0; 0; 0; 0; 0; 0; 0; 0; 0; 0; 0; 0; 0; 0; 0; 0; 0; 0; 0; 0; 0; 0; 0; 0; 0; 0; 0; 0]
  ; codes [0; 0; 0; 0; 0; 0; 0; 0; 0; 0; 0; 0; 0; 0; 0; 0; 0; 0; 0; 1; 0; 0; 0; 0; 1; 0; 0; 0; 0; 1; 0; 0; 0; 0; 1; 0; 0; 0; 0; 1]
  ; codes [0; 0; 0; 0; 1; 0; 0; 0; 0; 3; 0; 0; 0; 0; 1; 0; 0; 0; 0; 1; 0; 0; 0; 0; 1; 0; 0; 0; 0; 3; 0; 0; 0; 0; 1; 0; 0; 0; 0; 1]
  ; codes [0; 0; 0; 0; 1; 0; 0; 0; 0; 3]
  ; lit "                                                                                          "
  ; lit "                                             " ].

(* test/testdata/packed_file.json, 5696 bytes *)
Definition packed_file_json : bytes := List.concat
  [ lit "{"
  ; codes [10]
  ; lit "  ""header"": {"
  ; codes [10]
  ; lit "    ""blockDescriptorWord"": 370,"
  ; codes [10]
  ; lit "    ""recordDescriptorWord"": 366,"
  ; codes [10]
  ; lit "    ""recordIdentifier"": ""HEADER"","
  ; codes [10]
  ; lit "    ""transUnionProgramIdentifier"": ""5555555555"","
  ; codes [10]
  ; lit "    ""activityDate"": ""2002-08-20T00:00:00Z"","
  ; codes [10]
  ; lit "    ""dateCreated"": ""1999-05-10T00:00:00Z"","
  ; codes [10]
  ; lit "    ""programDate"": ""1999-05-10T00:00:00Z"","
  ; codes [10]
  ; lit "    ""programRevisionDate"": ""1999-05-10T00:00:00Z"","
  ; codes [10]
  ; lit "    ""reporterName"": ""YOUR BUSINESS NAME HERE"","
  ; codes [10]
  ; lit "    ""reporterAddress"": ""LINE ONE OF YOUR ADDRESS LINE TWO OF YOUR ADDRESS LINE THERE OF YO"
  ; lit "UR ADDRESS"","
  ; codes [10]
  ; lit "    ""reporterTelephoneNumber"": 1234567890"
  ; codes [10]
  ; lit "  },"
  ; codes [10]
  ; lit "  ""data"": ["
  ; codes [10]
  ; lit "    {"
  ; codes [10]
  ; lit "      ""base"": {"
  ; codes [10]
  ; lit "        ""blockDescriptorWord"": 1008,"
  ; codes [10]
  ; lit "        ""recordDescriptorWord"": 1004,"
  ; codes [10]
  ; lit "        ""processingIndicator"": 1,"
  ; codes [10]
  ; lit "        ""timeStamp"": ""2020-01-01T01:11:22Z"","
  ; codes [10]
  ; lit "        ""identificationNumber"": ""6666666"","
  ; codes [10]
  ; lit "        ""consumerAccountNumber"": ""553723456"","
  ; codes [10]
  ; lit "        ""portfolioType"": ""M"","
  ; codes [10]
  ; lit "        ""accountType"": ""48"","
  ; codes [10]
  ; lit "        ""dateOpened"": ""2019-11-22T00:00:00Z"","
  ; codes [10]
  ; lit "        ""highestCredit"": 2438,"
  ; codes [10]
  ; lit "        ""termsDuration"": ""LOC"","
  ; codes [10]
  ; lit "        ""actualPaymentAmount"": 100,"
  ; codes [10]
  ; lit "        ""accountStatus"": ""62"","
  ; codes [10]
  ; lit "        ""paymentHistoryProfile"": ""BBBBBBBBBBBBBBBBBBBBBBBB"","
  ; codes [10]
  ; lit "        ""specialComment"": ""AS"","
  ; codes [10]
  ; lit "        ""complianceConditionCode"": ""XA"","
  ; codes [10]
  ; lit "        ""currentBalance"": 2233,"
  ; codes [10]
  ; lit "        ""dateAccountInformation"": ""2002-09-20T00:00:00Z"","
  ; codes [10]
  ; lit "        ""dateFirstDelinquency"": ""2001-07-19T00:00:00Z"","
  ; codes [10]
  ; lit "        ""dateClosed"": ""2002-08-02T00:00:00Z"","
  ; codes [10]
  ; lit "        ""dateLastPayment"": ""2002-08-02T00:00:00Z"","
  ; codes [10]
  ; lit "        ""interestTypeIndicator"": """","
  ; codes [10]
  ; lit "        ""surname"": ""SMITH-JONES"","
  ; codes [10]
  ; lit "        ""firstName"": ""JUNIOR"","
  ; codes [10]
  ; lit "        ""generationCode"": ""S"","
  ; codes [10]
  ; lit "        ""socialSecurityNumber"": 159328759,"
  ; codes [10]
  ; lit "        ""dateBirth"": ""1972-03-18T00:00:00Z"","
  ; codes [10]
  ; lit "        ""telephoneNumber"": 5175555555,"
  ; codes [10]
  ; lit "        ""ecoaCode"": ""1"","
  ; codes [10]
  ; lit "        ""countryCode"": ""US"","
  ; codes [10]
  ; lit "        ""firstLineAddress"": ""RMXH+6W Casper, Wyoming,"","
  ; codes [10]
  ; lit "        ""secondLineAddress"": ""United States"","
  ; codes [10]
  ; lit "        ""city"": ""U.S. Postal"","
  ; codes [10]
  ; lit "        ""state"": ""MI"","
  ; codes [10]
  ; lit "        ""zipCode"": ""72654"","
  ; codes [10]
  ; lit "        ""addressIndicator"": ""Y"","
  ; codes [10]
  ; lit "        ""residenceCode"": ""O"""
  ; codes [10]
  ; lit "      },"
  ; codes [10]
  ; lit "      ""j1"": ["
  ; codes [10]
  ; lit "        {"
  ; codes [10]
  ; lit "          ""segmentIdentifier"": ""J1"","
  ; codes [10]
  ; lit "          ""surname"": ""BEAUCHAMP"","
  ; codes [10]
  ; lit "          ""firstName"": ""KEVIN"","
  ; codes [10]
  ; lit "          ""generationCode"": ""S"","
  ; codes [10]
  ; lit "          ""socialSecurityNumber"": 445112877,"
  ; codes [10]
  ; lit "          ""dateBirth"": ""2020-01-02T00:00:00Z"","
  ; codes [10]
  ; lit "          ""telephoneNumber"": 4335552333,"
  ; codes [10]
  ; lit "          ""ecoaCode"": ""2"","
  ; codes [10]
  ; lit "          ""consumerInformationIndicator"": ""R"""
  ; codes [10]
  ; lit "        }"
  ; codes [10]
  ; lit "      ],"
  ; codes [10]
  ; lit "      ""j2"": ["
  ; codes [10]
  ; lit "        {"
  ; codes [10]
  ; lit "          ""segmentIdentifier"": ""J2"","
  ; codes [10]
  ; lit "          ""surname"": ""BEAUCHAMP"","
  ; codes [10]
  ; lit "          ""firstName"": ""KEVIN"","
  ; codes [10]
  ; lit "          ""generationCode"": ""S"","
  ; codes [10]
  ; lit "          ""socialSecurityNumber"": 445112877,"
  ; codes [10]
  ; lit "          ""dateBirth"": ""2020-01-02T00:00:00Z"","
  ; codes [10]
  ; lit "          ""telephoneNumber"": 4335552333,"
  ; codes [10]
  ; lit "          ""ecoaCode"": ""2"","
  ; codes [10]
  ; lit "          ""consumerInformationIndicator"": ""R"","
  ; codes [10]
  ; lit "          ""countryCode"": ""US"","
  ; codes [10]
  ; lit "          ""firstLineAddress"": ""234 HARRISON PLACE"","
  ; codes [10]
  ; lit "          ""secondLineAddress"": ""SUITE #305"","
  ; codes [10]
  ; lit "          ""city"": ""LANSING"","
  ; codes [10]
  ; lit "          ""state"": ""MI"","
  ; codes [10]
  ; lit "          ""zipCode"": ""72654"","
  ; codes [10]
  ; lit "          ""addressIndicator"": ""Y"","
  ; codes [10]
  ; lit "          ""residenceCode"": ""O"""
  ; codes [10]
  ; lit "        }"
  ; codes [10]
  ; lit "      ],"
  ; codes [10]
  ; lit "      ""k1"": {"
  ; codes [10]
  ; lit "        ""segmentIdentifier"": ""K1"","
  ; codes [10]
  ; lit "        ""originalCreditorName"": ""WETCOSAT INDUSTRIES LTD."","
  ; codes [10]
  ; lit "        ""creditorClassification"": 4"
  ; codes [10]
  ; lit "      },"
  ; codes [10]
  ; lit "      ""k2"": {"
  ; codes [10]
  ; lit "        ""segmentIdentifier"": ""K2"","
  ; codes [10]
  ; lit "        ""purchasedIndicator"": 1,"
  ; codes [10]
  ; lit "        ""purchasedName"": ""Purchased From Name"""
  ; codes [10]
  ; lit "      },"
  ; codes [10]
  ; lit "      ""k3"": {"
  ; codes [10]
  ; lit "        ""segmentIdentifier"": ""K3"","
  ; codes [10]
  ; lit "        ""mortgageIdentificationNumber"": ""Mortgage Number"""
  ; codes [10]
  ; lit "      },"
  ; codes [10]
  ; lit "      ""k4"": {"
  ; codes [10]
  ; lit "        ""segmentIdentifier"": ""K4"","
  ; codes [10]
  ; lit "        ""specializedPaymentIndicator"": 1,"
  ; codes [10]
  ; lit "        ""deferredPaymentStartDate"": ""2020-01-20T00:00:00Z"","
  ; codes [10]
  ; lit "        ""balloonPaymentDueDate"": ""2020-01-20T00:00:00Z"","
  ; codes [10]
  ; lit "        ""balloonPaymentAmount"": 1234"
  ; codes [10]
  ; lit "      },"
  ; codes [10]
  ; lit "      ""l1"": {"
  ; codes [10]
  ; lit "        ""segmentIdentifier"": ""L1"","
  ; codes [10]
  ; lit "        ""changeIndicator"": 1,"
  ; codes [10]
  ; lit "        ""newConsumerAccountNumber"": ""New Consumer Account Number"""
  ; codes [10]
  ; lit "      },"
  ; codes [10]
  ; lit "      ""n1"": {"
  ; codes [10]
  ; lit "        ""segmentIdentifier"": ""N1"","
  ; codes [10]
  ; lit "        ""employerName"": ""Employer Name"","
  ; codes [10]
  ; lit "        ""firstLineEmployerAddress"": ""First Line of Employer Address"","
  ; codes [10]
  ; lit "        ""secondLineEmployerAddress"": ""Second Line of Employer Address"","
  ; codes [10]
  ; lit "        ""employerCity"": ""Employer City"","
  ; codes [10]
  ; lit "        ""employerState"": ""MI"","
  ; codes [10]
  ; lit "        ""zipCode"": ""23456"","
  ; codes [10]
  ; lit "        ""occupation"": ""Occupation"""
  ; codes [10]
  ; lit "      }"
  ; codes [10]
  ; lit "    }"
  ; codes [10]
  ; lit "  ],"
  ; codes [10]
  ; lit "  ""trailer"": {"
  ; codes [10]
  ; lit "    ""recordDescriptorWord"": 366,"
  ; codes [10]
  ; lit "    ""recordIdentifier"": ""TRAILER"","
  ; codes [10]
  ; lit "    ""totalBaseRecords"": 1,"
  ; codes [10]
  ; lit "    ""totalStatusCodeDF"": 0,"
  ; codes [10]
  ; lit "    ""totalConsumerSegmentsJ1"": 1,"
  ; codes [10]
  ; lit "    ""totalConsumerSegmentsJ2"": 1,"
  ; codes [10]
  ; lit "    ""blockCount"": 3,"
  ; codes [10]
  ; lit "    ""totalStatusCodeDA"": 0,"
  ; codes [10]
  ; lit "    ""totalStatusCode05"": 0,"
  ; codes [10]
  ; lit "    ""totalStatusCode11"": 0,"
  ; codes [10]
  ; lit "    ""totalStatusCode13"": 0,"
  ; codes [10]
  ; lit "    ""totalStatusCode61"": 0,"
  ; codes [10]
  ; lit "    ""totalStatusCode62"": 1,"
  ; codes [10]
  ; lit "    ""totalStatusCode63"": 0,"
  ; codes [10]
  ; lit "    ""totalStatusCode64"": 0,"
  ; codes [10]
  ; lit "    ""totalStatusCode65"": 0,"
  ; codes [10]
  ; lit "    ""totalStatusCode71"": 0,"
  ; codes [10]
  ; lit "    ""totalStatusCode78"": 0,"
  ; codes [10]
  ; lit "    ""totalStatusCode80"": 0,"
  ; codes [10]
  ; lit "    ""totalStatusCode82"": 0,"
  ; codes [10]
  ; lit "    ""totalStatusCode83"": 0,"
  ; codes [10]
  ; lit "    ""totalStatusCode84"": 0,"
  ; codes [10]
  ; lit "    ""totalStatusCode88"": 0,"
  ; codes [10]
  ; lit "    ""totalStatusCode89"": 0,"
  ; codes [10]
  ; lit "    ""totalStatusCode93"": 0,"
  ; codes [10]
  ; lit "    ""totalStatusCode94"": 0,"
  ; codes [10]
  ; lit "    ""totalStatusCode95"": 0,"
  ; codes [10]
  ; lit "    ""totalStatusCode96"": 0,"
  ; codes [10]
  ; lit "    ""totalStatusCode97"": 0,"
  ; codes [10]
  ; lit "    ""totalECOACodeZ"": 0,"
  ; codes [10]
  ; lit "    ""totalEmploymentSegments"": 1,"
  ; codes [10]
  ; lit "    ""totalOriginalCreditorSegments"": 1,"
  ; codes [10]
  ; lit "    ""totalPurchasedToSegments"": 1,"
  ; codes [10]
  ; lit "    ""totalMortgageInformationSegments"": 1,"
  ; codes [10]
  ; lit "    ""totalPaymentInformationSegments"": 1,"
  ; codes [10]
  ; lit "    ""totalChangeSegments"": 1,"
  ; codes [10]
  ; lit "    ""totalSocialNumbersAllSegments"": 3,"
  ; codes [10]
  ; lit "    ""totalSocialNumbersBaseSegments"": 1,"
  ; codes [10]
  ; lit "    ""totalSocialNumbersJ1Segments"": 1,"
  ; codes [10]
  ; lit "    ""totalSocialNumbersJ2Segments"": 1,"
  ; codes [10]
  ; lit "    ""totalDatesBirthAllSegments"": 3,"
  ; codes [10]
  ; lit "    ""totalDatesBirthBaseSegments"": 1,"
  ; codes [10]
  ; lit "    ""totalDatesBirthJ1Segments"": 1,"
  ; codes [10]
  ; lit "    ""totalDatesBirthJ2Segments"": 1,"
  ; codes [10]
  ; lit "    ""totalTelephoneNumbersAllSegments"": 3"
  ; codes [10]
  ; lit "  }"
  ; codes [10]
  ; lit "}" ].

(* test/testdata/packed_header_record.dat, 370 bytes *)
Definition packed_header_record_dat : bytes := List.concat
  [ codes [1]
  ; lit "r"
  ; codes [0; 0; 1]
  ; lit "n"
  ; codes [0; 0]
  ; lit "HEADER                           555555555508202002051019990510199905101999YOUR BUSINESS N"
  ; lit "AME HERE                 LINE ONE OF YOUR ADDRESS LINE TWO OF YOUR ADDRESS LINE THERE OF Y"
  ; lit "OUR ADDRESS                    1234567890                                                 "
  ; lit "                                                                                          "
  ; lit "  " ].

(* test/testdata/packed_trailer_record.dat, 366 bytes *)
Definition packed_trailer_record_dat : bytes := List.concat
  [ codes [1]
  ; lit "n"
  ; codes [0; 0]
  ; lit "TRAILER"
  ; codes [0; 0; 0; 0; 1]
  ; lit "     "
  ; codes [0; 0; 0; 0; 0; 0; 0; 0; 0; 0; 0; 0; 0; 0; 0; 0; 0; 0; 1; 0; 0; 0; 0; 0; 0; 0; 0; 0; 0; 0; 0; 0; 0; 0; 0; 0; 0; 0; 0; 0]
  ; codes [0; 0; 0; 0; 0; 0; 0; 0; 0; 0; 0; 0; 0; 0; 0; 0; 0; 0; 0; 0; 0; 0; 0; 0; 0; 0; 0; 0; 0; 0; 0; 0; 0; 0; 0; 0; 0; 0; 0; 0]
  ; codes [0; 0; 0; 0; 1; 0; 0; 0; 0; 1; 0; 0; 0; 0; 1; 0; 0; 0; 0; 1; 0; 0; 0; 0; 1; 0; 0; 0; 0; 1; 0; 0; 0; 0; 1; 0; 0; 0; 0; 1]
  ; codes [0; 0; 0; 0; 1; 0; 0; 0; 0; 1; 0; 0; 0; 0; 1; 0; 0; 0; 0; 0; 0; 0; 0; 0; 1; 0; 0; 0; 0; 1; 0; 0; 0; 0; 1; 0; 0; 0; 0; 1]
  ; codes [0; 0; 0; 0; 1; 0; 0; 0; 0; 1; 0; 0; 0; 0; 1; 0; 0; 0; 0; 1; 0; 0; 0; 0; 1; 0; 0; 0; 0; 1; 0; 0; 0; 0; 1; 0; 0; 0; 0; 1]
  ; codes [0; 0; 0; 0; 1; 0; 0; 0; 0; 1]
  ; lit "                                                                                          "
  ; lit "                                             " ].

(* test/testdata/trailer_record.dat, 430 bytes *)
Definition trailer_record_dat : bytes := List.concat
  [ lit "0426TRAILER000000001         0000000000000000000000000000000000010000000000000000000000000"
  ; lit "0000000000"
  ; codes [10]
  ; lit "000000000000000000000000000000000000000000000000000000000000000000000000000000000000000000"
  ; lit "0000000000"
  ; codes [10]
  ; lit "000000001000000001000000001000000000000000001000000000000000001000000001000000001000000001"
  ; lit "0000000010"
  ; codes [10]
  ; lit "000000010000000000000000010000000010000000010000000010000000010000000010000000010000000010"
  ; lit "0000000100"
  ; codes [10]
  ; lit "0000001                   " ].

(* test/testdata/unpacked_fixed_file.dat, 1896 bytes *)
Definition unpacked_fixed_file_dat : bytes := List.concat
  [ lit "0470HEADER                           555555555508202002051019990510199905101999YOUR BUSINE"
  ; lit "SS NAME HERE                 LINE ONE OF YOUR ADDRESS LINE TWO OF YOUR ADDRESS LINE THERE "
  ; lit "OF YOUR ADDRESS                    1234567890                                             "
  ; lit "                                                                                          "
  ; lit "                                                                                          "
  ; lit "                    100010101202001112206666666               553723456                   "
  ; lit "  M4811222019000000000000002438LOC 00000000000000010062 BBBBBBBBBBBBBBBBBBBBBBBBASXA000002"
  ; lit "23300000000000000000009202002071920010802200208022002                  SMITH-JONES        "
  ; lit "      JUNIOR                                  S1593287590318197251755555551  USRMXH+6W Cas"
  ; lit "per, Wyoming,        United States                   U.S. Postal         MI72654    YOJ1 B"
  ; lit "EAUCHAMP                KEVIN                                   S4451128770102202043355523"
  ; lit "332R  J2 BEAUCHAMP                KEVIN                                   S445112877010220"
  ; lit "2043355523332R US234 HARRISON PLACE              SUITE #305                      LANSING  "
  ; lit "           MI72654    YO  K300                  Mortgage Number   L11New Consumer Account "
  ; lit "Number                        N1Employer Name                 First Line of Employer Addre"
  ; lit "ss  Second Line of Employer Address Employer City       MI23456    Occupation             "
  ; lit "                              0426TRAILER000000001         0000000000000000010000000010000"
  ; lit "000030000000000000000000000000000000000000000000000000000010000000000000000000000000000000"
  ; lit "000000000000000000000000000000000000000000000000000000000000000000000000000000000000000000"
  ; lit "000000000000000000000000000000000000000010000000000000000000000000010000000000000000010000"
  ; lit "00003000000001000000001000000001000000003000000001000000001000000001000000003             "
  ; lit "      " ].

(* test/testdata/unpacked_fixed_file.json, 5082 bytes *)
Definition unpacked_fixed_file_json : bytes := List.concat
  [ lit "{"
  ; codes [10]
  ; lit "  ""header"": {"
  ; codes [10]
  ; lit "    ""recordDescriptorWord"": 426,"
  ; codes [10]
  ; lit "    ""recordIdentifier"": ""HEADER"","
  ; codes [10]
  ; lit "    ""transUnionProgramIdentifier"": ""5555555555"","
  ; codes [10]
  ; lit "    ""activityDate"": ""2002-08-20T00:00:00Z"","
  ; codes [10]
  ; lit "    ""dateCreated"": ""1999-05-10T00:00:00Z"","
  ; codes [10]
  ; lit "    ""programDate"": ""1999-05-10T00:00:00Z"","
  ; codes [10]
  ; lit "    ""programRevisionDate"": ""1999-05-10T00:00:00Z"","
  ; codes [10]
  ; lit "    ""reporterName"": ""YOUR BUSINESS NAME HERE"","
  ; codes [10]
  ; lit "    ""reporterAddress"": ""LINE ONE OF YOUR ADDRESS LINE TWO OF YOUR ADDRESS LINE THERE OF YO"
  ; lit "UR ADDRESS"","
  ; codes [10]
  ; lit "    ""reporterTelephoneNumber"": 1234567890"
  ; codes [10]
  ; lit "  },"
  ; codes [10]
  ; lit "  ""data"": ["
  ; codes [10]
  ; lit "    {"
  ; codes [10]
  ; lit "      ""base"": {"
  ; codes [10]
  ; lit "        ""recordDescriptorWord"": 1000,"
  ; codes [10]
  ; lit "        ""processingIndicator"": 1,"
  ; codes [10]
  ; lit "        ""timeStamp"": ""2020-01-01T01:11:22Z"","
  ; codes [10]
  ; lit "        ""identificationNumber"": ""6666666"","
  ; codes [10]
  ; lit "        ""consumerAccountNumber"": ""553723456"","
  ; codes [10]
  ; lit "        ""portfolioType"": ""M"","
  ; codes [10]
  ; lit "        ""accountType"": ""48"","
  ; codes [10]
  ; lit "        ""dateOpened"": ""2019-11-22T00:00:00Z"","
  ; codes [10]
  ; lit "        ""highestCredit"": 2438,"
  ; codes [10]
  ; lit "        ""termsDuration"": ""LOC"","
  ; codes [10]
  ; lit "        ""actualPaymentAmount"": 100,"
  ; codes [10]
  ; lit "        ""accountStatus"": ""62"","
  ; codes [10]
  ; lit "        ""paymentHistoryProfile"": ""BBBBBBBBBBBBBBBBBBBBBBBB"","
  ; codes [10]
  ; lit "        ""specialComment"": ""AS"","
  ; codes [10]
  ; lit "        ""complianceConditionCode"": ""XA"","
  ; codes [10]
  ; lit "        ""currentBalance"": 2233,"
  ; codes [10]
  ; lit "        ""dateAccountInformation"": ""2002-09-20T00:00:00Z"","
  ; codes [10]
  ; lit "        ""dateFirstDelinquency"": ""2001-07-19T00:00:00Z"","
  ; codes [10]
  ; lit "        ""dateClosed"": ""2002-08-02T00:00:00Z"","
  ; codes [10]
  ; lit "        ""dateLastPayment"": ""2002-08-02T00:00:00Z"","
  ; codes [10]
  ; lit "        ""interestTypeIndicator"": """","
  ; codes [10]
  ; lit "        ""surname"": ""SMITH-JONES"","
  ; codes [10]
  ; lit "        ""firstName"": ""JUNIOR"","
  ; codes [10]
  ; lit "        ""generationCode"": ""S"","
  ; codes [10]
  ; lit "        ""socialSecurityNumber"": 159328759,"
  ; codes [10]
  ; lit "        ""dateBirth"": ""1972-03-18T00:00:00Z"","
  ; codes [10]
  ; lit "        ""telephoneNumber"": 5175555555,"
  ; codes [10]
  ; lit "        ""ecoaCode"": ""1"","
  ; codes [10]
  ; lit "        ""countryCode"": ""US"","
  ; codes [10]
  ; lit "        ""firstLineAddress"": ""RMXH+6W Casper, Wyoming,"","
  ; codes [10]
  ; lit "        ""secondLineAddress"": ""United States"","
  ; codes [10]
  ; lit "        ""city"": ""U.S. Postal"","
  ; codes [10]
  ; lit "        ""state"": ""MI"","
  ; codes [10]
  ; lit "        ""zipCode"": ""72654"","
  ; codes [10]
  ; lit "        ""addressIndicator"": ""Y"","
  ; codes [10]
  ; lit "        ""residenceCode"": ""O"""
  ; codes [10]
  ; lit "      },"
  ; codes [10]
  ; lit "      ""j1"": ["
  ; codes [10]
  ; lit "        {"
  ; codes [10]
  ; lit "          ""segmentIdentifier"": ""J1"","
  ; codes [10]
  ; lit "          ""surname"": ""BEAUCHAMP"","
  ; codes [10]
  ; lit "          ""firstName"": ""KEVIN"","
  ; codes [10]
  ; lit "          ""generationCode"": ""S"","
  ; codes [10]
  ; lit "          ""socialSecurityNumber"": 445112877,"
  ; codes [10]
  ; lit "          ""dateBirth"": ""2020-01-02T00:00:00Z"","
  ; codes [10]
  ; lit "          ""telephoneNumber"": 4335552333,"
  ; codes [10]
  ; lit "          ""ecoaCode"": ""2"","
  ; codes [10]
  ; lit "          ""consumerInformationIndicator"": ""R"""
  ; codes [10]
  ; lit "        }"
  ; codes [10]
  ; lit "      ],"
  ; codes [10]
  ; lit "      ""j2"": ["
  ; codes [10]
  ; lit "        {"
  ; codes [10]
  ; lit "          ""segmentIdentifier"": ""J2"","
  ; codes [10]
  ; lit "          ""surname"": ""BEAUCHAMP"","
  ; codes [10]
  ; lit "          ""firstName"": ""KEVIN"","
  ; codes [10]
  ; lit "          ""generationCode"": ""S"","
  ; codes [10]
  ; lit "          ""socialSecurityNumber"": 445112877,"
  ; codes [10]
  ; lit "          ""dateBirth"": ""2020-01-02T00:00:00Z"","
  ; codes [10]
  ; lit "          ""telephoneNumber"": 4335552333,"
  ; codes [10]
  ; lit "          ""ecoaCode"": ""2"","
  ; codes [10]
  ; lit "          ""consumerInformationIndicator"": ""R"","
  ; codes [10]
  ; lit "          ""countryCode"": ""US"","
  ; codes [10]
  ; lit "          ""firstLineAddress"": ""234 HARRISON PLACE"","
  ; codes [10]
  ; lit "          ""secondLineAddress"": ""SUITE #305"","
  ; codes [10]
  ; lit "          ""city"": ""LANSING"","
  ; codes [10]
  ; lit "          ""state"": ""MI"","
  ; codes [10]
  ; lit "          ""zipCode"": ""72654"","
  ; codes [10]
  ; lit "          ""addressIndicator"": ""Y"","
  ; codes [10]
  ; lit "          ""residenceCode"": ""O"""
  ; codes [10]
  ; lit "        }"
  ; codes [10]
  ; lit "      ],"
  ; codes [10]
  ; lit "      ""k3"": {"
  ; codes [10]
  ; lit "        ""segmentIdentifier"": ""K3"","
  ; codes [10]
  ; lit "        ""mortgageIdentificationNumber"": ""Mortgage Number"""
  ; codes [10]
  ; lit "      },"
  ; codes [10]
  ; lit "      ""l1"": {"
  ; codes [10]
  ; lit "        ""segmentIdentifier"": ""L1"","
  ; codes [10]
  ; lit "        ""changeIndicator"": 1,"
  ; codes [10]
  ; lit "        ""newConsumerAccountNumber"": ""New Consumer Account Number"""
  ; codes [10]
  ; lit "      },"
  ; codes [10]
  ; lit "      ""n1"": {"
  ; codes [10]
  ; lit "        ""segmentIdentifier"": ""N1"","
  ; codes [10]
  ; lit "        ""employerName"": ""Employer Name"","
  ; codes [10]
  ; lit "        ""firstLineEmployerAddress"": ""First Line of Employer Address"","
  ; codes [10]
  ; lit "        ""secondLineEmployerAddress"": ""Second Line of Employer Address"","
  ; codes [10]
  ; lit "        ""employerCity"": ""Employer City"","
  ; codes [10]
  ; lit "        ""employerState"": ""MI"","
  ; codes [10]
  ; lit "        ""zipCode"": ""23456"","
  ; codes [10]
  ; lit "        ""occupation"": ""Occupation"""
  ; codes [10]
  ; lit "      }"
  ; codes [10]
  ; lit "    }"
  ; codes [10]
  ; lit "  ],"
  ; codes [10]
  ; lit "  ""trailer"": {"
  ; codes [10]
  ; lit "    ""recordDescriptorWord"": 426,"
  ; codes [10]
  ; lit "    ""recordIdentifier"": ""TRAILER"","
  ; codes [10]
  ; lit "    ""totalBaseRecords"": 1,"
  ; codes [10]
  ; lit "    ""totalStatusCodeDF"": 0,"
  ; codes [10]
  ; lit "    ""totalConsumerSegmentsJ1"": 1,"
  ; codes [10]
  ; lit "    ""totalConsumerSegmentsJ2"": 1,"
  ; codes [10]
  ; lit "    ""blockCount"": 3,"
  ; codes [10]
  ; lit "    ""totalStatusCodeDA"": 0,"
  ; codes [10]
  ; lit "    ""totalStatusCode05"": 0,"
  ; codes [10]
  ; lit "    ""totalStatusCode11"": 0,"
  ; codes [10]
  ; lit "    ""totalStatusCode13"": 0,"
  ; codes [10]
  ; lit "    ""totalStatusCode61"": 0,"
  ; codes [10]
  ; lit "    ""totalStatusCode62"": 1,"
  ; codes [10]
  ; lit "    ""totalStatusCode63"": 0,"
  ; codes [10]
  ; lit "    ""totalStatusCode64"": 0,"
  ; codes [10]
  ; lit "    ""totalStatusCode65"": 0,"
  ; codes [10]
  ; lit "    ""totalStatusCode71"": 0,"
  ; codes [10]
  ; lit "    ""totalStatusCode78"": 0,"
  ; codes [10]
  ; lit "    ""totalStatusCode80"": 0,"
  ; codes [10]
  ; lit "    ""totalStatusCode82"": 0,"
  ; codes [10]
  ; lit "    ""totalStatusCode83"": 0,"
  ; codes [10]
  ; lit "    ""totalStatusCode84"": 0,"
  ; codes [10]
  ; lit "    ""totalStatusCode88"": 0,"
  ; codes [10]
  ; lit "    ""totalStatusCode89"": 0,"
  ; codes [10]
  ; lit "    ""totalStatusCode93"": 0,"
  ; codes [10]
  ; lit "    ""totalStatusCode94"": 0,"
  ; codes [10]
  ; lit "    ""totalStatusCode95"": 0,"
  ; codes [10]
  ; lit "    ""totalStatusCode96"": 0,"
  ; codes [10]
  ; lit "    ""totalStatusCode97"": 0,"
  ; codes [10]
  ; lit "    ""totalECOACodeZ"": 0,"
  ; codes [10]
  ; lit "    ""totalEmploymentSegments"": 1,"
  ; codes [10]
  ; lit "    ""totalOriginalCreditorSegments"": 0,"
  ; codes [10]
  ; lit "    ""totalPurchasedToSegments"": 0,"
  ; codes [10]
  ; lit "    ""totalMortgageInformationSegments"": 1,"
  ; codes [10]
  ; lit "    ""totalPaymentInformationSegments"": 0,"
  ; codes [10]
  ; lit "    ""totalChangeSegments"": 1,"
  ; codes [10]
  ; lit "    ""totalSocialNumbersAllSegments"": 3,"
  ; codes [10]
  ; lit "    ""totalSocialNumbersBaseSegments"": 1,"
  ; codes [10]
  ; lit "    ""totalSocialNumbersJ1Segments"": 1,"
  ; codes [10]
  ; lit "    ""totalSocialNumbersJ2Segments"": 1,"
  ; codes [10]
  ; lit "    ""totalDatesBirthAllSegments"": 3,"
  ; codes [10]
  ; lit "    ""totalDatesBirthBaseSegments"": 1,"
  ; codes [10]
  ; lit "    ""totalDatesBirthJ1Segments"": 1,"
  ; codes [10]
  ; lit "    ""totalDatesBirthJ2Segments"": 1,"
  ; codes [10]
  ; lit "    ""totalTelephoneNumbersAllSegments"": 3"
  ; codes [10]
  ; lit "  }"
  ; codes [10]
  ; lit "}"
  ; codes [10] ].

(* test/testdata/unpacked_fixed_request.dat, 1854 bytes *)
Definition unpacked_fixed_request_dat : bytes := List.concat
  [ lit "0426HEADER                           555555555508202002051019990510199905101999YOUR BUSINE"
  ; lit "SS NAME HERE                 LINE ONE OF YOUR ADDRESS LINE TWO OF YOUR ADDRESS LINE THERE "
  ; lit "OF YOUR ADDRESS                    1234567890                                             "
  ; lit "                                                                                          "
  ; lit "                                                                  "
  ; codes [10]
  ; lit "100010101202001112206666666               553723456                     M48112220190000000"
  ; lit "00000002438LOC 00000000000000010062 BBBBBBBBBBBBBBBBBBBBBBBBASXA00000223300000000000000000"
  ; lit "009202002071920010802200208022002                  SMITH-JONES              JUNIOR        "
  ; lit "                          S1593287590318197251755555551  USRMXH+6W Casper, Wyoming,       "
  ; lit " United States                   U.S. Postal         MI72654    YOJ1 BEAUCHAMP            "
  ; lit "    KEVIN                                   S4451128770102202043355523332R  J2 BEAUCHAMP  "
  ; lit "              KEVIN                                   S4451128770102202043355523332R US234"
  ; lit " HARRISON PLACE              SUITE #305                      LANSING             MI72654  "
  ; lit "  YO  K300                  Mortgage Number   L11New Consumer Account Number              "
  ; lit "          N1Employer Name                 First Line of Employer Address  Second Line of E"
  ; lit "mployer Address Employer City       MI23456    Occupation                                 "
  ; lit "          "
  ; codes [10]
  ; lit "0426TRAILER000000001         0000000000000000010000000010000000030000000000000000000000000"
  ; lit "000000000000000000000000000010000000000000000000000000000000000000000000000000000000000000"
  ; lit "000000000000000000000000000000000000000000000000000000000000000000000000000000000000000000"
  ; lit "000000000010000000000000000000000000010000000000000000010000000030000000010000000010000000"
  ; lit "01000000003000000001000000001000000001000000003                   " ].

(* test/testdata/unpacked_variable_file.dat, 1924 bytes *)
Definition unpacked_variable_file_dat : bytes := List.concat
  [ lit "04960426HEADER                           555555555508202002051019990510199905101999YOUR BU"
  ; lit "SINESS NAME HERE                 LINE ONE OF YOUR ADDRESS LINE TWO OF YOUR ADDRESS LINE TH"
  ; lit "ERE OF YOUR ADDRESS                    1234567890                                         "
  ; lit "                                                                                          "
  ; lit "                                                                                          "
  ; lit "                                              "
  ; codes [10]
  ; lit "0426100010101202001112206666666               553723456                     M4811222019000"
  ; lit "000000000002438LOC 00000000000000010062 BBBBBBBBBBBBBBBBBBBBBBBBASXA0000022330000000000000"
  ; lit "0000009202002071920010802200208022002                  SMITH-JONES              JUNIOR    "
  ; lit "                              S1593287590318197251755555551  USRMXH+6W Casper, Wyoming,   "
  ; lit "     United States                   U.S. Postal         MI72654    YOJ1 BEAUCHAMP        "
  ; lit "        KEVIN                                   S4451128770102202043355523332R  J2 BEAUCHA"
  ; lit "MP                KEVIN                                   S4451128770102202043355523332R U"
  ; lit "S234 HARRISON PLACE              SUITE #305                      LANSING             MI726"
  ; lit "54    YO  K300                  Mortgage Number   L11New Consumer Account Number          "
  ; lit "              N1Employer Name                 First Line of Employer Address  Second Line "
  ; lit "of Employer Address Employer City       MI23456    Occupation                             "
  ; lit "          "
  ; codes [10]
  ; lit "0426TRAILER000000001         0000000000000000010000000010000000030000000000000000000000000"
  ; lit "000000000000000000000000000010000000000000000000000000000000000000000000000000000000000000"
  ; lit "000000000000000000000000000000000000000000000000000000000000000000000000000000000000000000"
  ; lit "000000000010000000000000000000000000010000000000000000010000000030000000010000000010000000"
  ; lit "01000000003000000001000000001000000001000000003                   " ].

(* test/testdata/unpacked_variable_file.json, 5149 bytes *)
Definition unpacked_variable_file_json : bytes := List.concat
  [ lit "{"
  ; codes [10]
  ; lit "  ""header"": {"
  ; codes [10]
  ; lit "    ""blockDescriptorWord"": 496,"
  ; codes [10]
  ; lit "    ""recordDescriptorWord"": 426,"
  ; codes [10]
  ; lit "    ""recordIdentifier"": ""HEADER"","
  ; codes [10]
  ; lit "    ""transUnionProgramIdentifier"": ""5555555555"","
  ; codes [10]
  ; lit "    ""activityDate"": ""2002-08-20T00:00:00Z"","
  ; codes [10]
  ; lit "    ""dateCreated"": ""1999-05-10T00:00:00Z"","
  ; codes [10]
  ; lit "    ""programDate"": ""1999-05-10T00:00:00Z"","
  ; codes [10]
  ; lit "    ""programRevisionDate"": ""1999-05-10T00:00:00Z"","
  ; codes [10]
  ; lit "    ""reporterName"": ""YOUR BUSINESS NAME HERE"","
  ; codes [10]
  ; lit "    ""reporterAddress"": ""LINE ONE OF YOUR ADDRESS LINE TWO OF YOUR ADDRESS LINE THERE OF YO"
  ; lit "UR ADDRESS"","
  ; codes [10]
  ; lit "    ""reporterTelephoneNumber"": 1234567890"
  ; codes [10]
  ; lit "  },"
  ; codes [10]
  ; lit "  ""data"": ["
  ; codes [10]
  ; lit "    {"
  ; codes [10]
  ; lit "      ""base"": {"
  ; codes [10]
  ; lit "        ""blockDescriptorWord"": 426,"
  ; codes [10]
  ; lit "        ""recordDescriptorWord"": 1000,"
  ; codes [10]
  ; lit "        ""processingIndicator"": 1,"
  ; codes [10]
  ; lit "        ""timeStamp"": ""2020-01-01T01:11:22Z"","
  ; codes [10]
  ; lit "        ""identificationNumber"": ""6666666"","
  ; codes [10]
  ; lit "        ""consumerAccountNumber"": ""553723456"","
  ; codes [10]
  ; lit "        ""portfolioType"": ""M"","
  ; codes [10]
  ; lit "        ""accountType"": ""48"","
  ; codes [10]
  ; lit "        ""dateOpened"": ""2019-11-22T00:00:00Z"","
  ; codes [10]
  ; lit "        ""highestCredit"": 2438,"
  ; codes [10]
  ; lit "        ""termsDuration"": ""LOC"","
  ; codes [10]
  ; lit "        ""actualPaymentAmount"": 100,"
  ; codes [10]
  ; lit "        ""accountStatus"": ""62"","
  ; codes [10]
  ; lit "        ""paymentHistoryProfile"": ""BBBBBBBBBBBBBBBBBBBBBBBB"","
  ; codes [10]
  ; lit "        ""specialComment"": ""AS"","
  ; codes [10]
  ; lit "        ""complianceConditionCode"": ""XA"","
  ; codes [10]
  ; lit "        ""currentBalance"": 2233,"
  ; codes [10]
  ; lit "        ""dateAccountInformation"": ""2002-09-20T00:00:00Z"","
  ; codes [10]
  ; lit "        ""dateFirstDelinquency"": ""2001-07-19T00:00:00Z"","
  ; codes [10]
  ; lit "        ""dateClosed"": ""2002-08-02T00:00:00Z"","
  ; codes [10]
  ; lit "        ""dateLastPayment"": ""2002-08-02T00:00:00Z"","
  ; codes [10]
  ; lit "        ""interestTypeIndicator"": """","
  ; codes [10]
  ; lit "        ""surname"": ""SMITH-JONES"","
  ; codes [10]
  ; lit "        ""firstName"": ""JUNIOR"","
  ; codes [10]
  ; lit "        ""generationCode"": ""S"","
  ; codes [10]
  ; lit "        ""socialSecurityNumber"": 159328759,"
  ; codes [10]
  ; lit "        ""dateBirth"": ""1972-03-18T00:00:00Z"","
  ; codes [10]
  ; lit "        ""telephoneNumber"": 5175555555,"
  ; codes [10]
  ; lit "        ""ecoaCode"": ""1"","
  ; codes [10]
  ; lit "        ""countryCode"": ""US"","
  ; codes [10]
  ; lit "        ""firstLineAddress"": ""RMXH+6W Casper, Wyoming,"","
  ; codes [10]
  ; lit "        ""secondLineAddress"": ""United States"","
  ; codes [10]
  ; lit "        ""city"": ""U.S. Postal"","
  ; codes [10]
  ; lit "        ""state"": ""MI"","
  ; codes [10]
  ; lit "        ""zipCode"": ""72654"","
  ; codes [10]
  ; lit "        ""addressIndicator"": ""Y"","
  ; codes [10]
  ; lit "        ""residenceCode"": ""O"""
  ; codes [10]
  ; lit "      },"
  ; codes [10]
  ; lit "      ""j1"": ["
  ; codes [10]
  ; lit "        {"
  ; codes [10]
  ; lit "          ""segmentIdentifier"": ""J1"","
  ; codes [10]
  ; lit "          ""surname"": ""BEAUCHAMP"","
  ; codes [10]
  ; lit "          ""firstName"": ""KEVIN"","
  ; codes [10]
  ; lit "          ""generationCode"": ""S"","
  ; codes [10]
  ; lit "          ""socialSecurityNumber"": 445112877,"
  ; codes [10]
  ; lit "          ""dateBirth"": ""2020-01-02T00:00:00Z"","
  ; codes [10]
  ; lit "          ""telephoneNumber"": 4335552333,"
  ; codes [10]
  ; lit "          ""ecoaCode"": ""2"","
  ; codes [10]
  ; lit "          ""consumerInformationIndicator"": ""R"""
  ; codes [10]
  ; lit "        }"
  ; codes [10]
  ; lit "      ],"
  ; codes [10]
  ; lit "      ""j2"": ["
  ; codes [10]
  ; lit "        {"
  ; codes [10]
  ; lit "          ""segmentIdentifier"": ""J2"","
  ; codes [10]
  ; lit "          ""surname"": ""BEAUCHAMP"","
  ; codes [10]
  ; lit "          ""firstName"": ""KEVIN"","
  ; codes [10]
  ; lit "          ""generationCode"": ""S"","
  ; codes [10]
  ; lit "          ""socialSecurityNumber"": 445112877,"
  ; codes [10]
  ; lit "          ""dateBirth"": ""2020-01-02T00:00:00Z"","
  ; codes [10]
  ; lit "          ""telephoneNumber"": 4335552333,"
  ; codes [10]
  ; lit "          ""ecoaCode"": ""2"","
  ; codes [10]
  ; lit "          ""consumerInformationIndicator"": ""R"","
  ; codes [10]
  ; lit "          ""countryCode"": ""US"","
  ; codes [10]
  ; lit "          ""firstLineAddress"": ""234 HARRISON PLACE"","
  ; codes [10]
  ; lit "          ""secondLineAddress"": ""SUITE #305"","
  ; codes [10]
  ; lit "          ""city"": ""LANSING"","
  ; codes [10]
  ; lit "          ""state"": ""MI"","
  ; codes [10]
  ; lit "          ""zipCode"": ""72654"","
  ; codes [10]
  ; lit "          ""addressIndicator"": ""Y"","
  ; codes [10]
  ; lit "          ""residenceCode"": ""O"""
  ; codes [10]
  ; lit "        }"
  ; codes [10]
  ; lit "      ],"
  ; codes [10]
  ; lit "      ""k3"": {"
  ; codes [10]
  ; lit "        ""segmentIdentifier"": ""K3"","
  ; codes [10]
  ; lit "        ""mortgageIdentificationNumber"": ""Mortgage Number"""
  ; codes [10]
  ; lit "      },"
  ; codes [10]
  ; lit "      ""l1"": {"
  ; codes [10]
  ; lit "        ""segmentIdentifier"": ""L1"","
  ; codes [10]
  ; lit "        ""changeIndicator"": 1,"
  ; codes [10]
  ; lit "        ""newConsumerAccountNumber"": ""New Consumer Account Number"""
  ; codes [10]
  ; lit "      },"
  ; codes [10]
  ; lit "      ""n1"": {"
  ; codes [10]
  ; lit "        ""segmentIdentifier"": ""N1"","
  ; codes [10]
  ; lit "        ""employerName"": ""Employer Name"","
  ; codes [10]
  ; lit "        ""firstLineEmployerAddress"": ""First Line of Employer Address"","
  ; codes [10]
  ; lit "        ""secondLineEmployerAddress"": ""Second Line of Employer Address"","
  ; codes [10]
  ; lit "        ""employerCity"": ""Employer City"","
  ; codes [10]
  ; lit "        ""employerState"": ""MI"","
  ; codes [10]
  ; lit "        ""zipCode"": ""23456"","
  ; codes [10]
  ; lit "        ""occupation"": ""Occupation"""
  ; codes [10]
  ; lit "      }"
  ; codes [10]
  ; lit "    }"
  ; codes [10]
  ; lit "  ],"
  ; codes [10]
  ; lit "  ""trailer"": {"
  ; codes [10]
  ; lit "    ""recordDescriptorWord"": 426,"
  ; codes [10]
  ; lit "    ""recordIdentifier"": ""TRAILER"","
  ; codes [10]
  ; lit "    ""totalBaseRecords"": 1,"
  ; codes [10]
  ; lit "    ""totalStatusCodeDF"": 0,"
  ; codes [10]
  ; lit "    ""totalConsumerSegmentsJ1"": 1,"
  ; codes [10]
  ; lit "    ""totalConsumerSegmentsJ2"": 1,"
  ; codes [10]
  ; lit "    ""blockCount"": 3,"
  ; codes [10]
  ; lit "    ""totalStatusCodeDA"": 0,"
  ; codes [10]
  ; lit "    ""totalStatusCode05"": 0,"
  ; codes [10]
  ; lit "    ""totalStatusCode11"": 0,"
  ; codes [10]
  ; lit "    ""totalStatusCode13"": 0,"
  ; codes [10]
  ; lit "    ""totalStatusCode61"": 0,"
  ; codes [10]
  ; lit "    ""totalStatusCode62"": 1,"
  ; codes [10]
  ; lit "    ""totalStatusCode63"": 0,"
  ; codes [10]
  ; lit "    ""totalStatusCode64"": 0,"
  ; codes [10]
  ; lit "    ""totalStatusCode65"": 0,"
  ; codes [10]
  ; lit "    ""totalStatusCode71"": 0,"
  ; codes [10]
  ; lit "    ""totalStatusCode78"": 0,"
  ; codes [10]
  ; lit "    ""totalStatusCode80"": 0,"
  ; codes [10]
  ; lit "    ""totalStatusCode82"": 0,"
  ; codes [10]
  ; lit "    ""totalStatusCode83"": 0,"
  ; codes [10]
  ; lit "    ""totalStatusCode84"": 0,"
  ; codes [10]
  ; lit "    ""totalStatusCode88"": 0,"
  ; codes [10]
  ; lit "    ""totalStatusCode89"": 0,"
  ; codes [10]
  ; lit "    ""totalStatusCode93"": 0,"
  ; codes [10]
  ; lit "    ""totalStatusCode94"": 0,"
  ; codes [10]
  ; lit "    ""totalStatusCode95"": 0,"
  ; codes [10]
  ; lit "    ""totalStatusCode96"": 0,"
  ; codes [10]
  ; lit "    ""totalStatusCode97"": 0,"
  ; codes [10]
  ; lit "    ""totalECOACodeZ"": 0,"
  ; codes [10]
  ; lit "    ""totalEmploymentSegments"": 1,"
  ; codes [10]
  ; lit "    ""totalOriginalCreditorSegments"": 0,"
  ; codes [10]
  ; lit "    ""totalPurchasedToSegments"": 0,"
  ; codes [10]
  ; lit "    ""totalMortgageInformationSegments"": 1,"
  ; codes [10]
  ; lit "    ""totalPaymentInformationSegments"": 0,"
  ; codes [10]
  ; lit "    ""totalChangeSegments"": 1,"
  ; codes [10]
  ; lit "    ""totalSocialNumbersAllSegments"": 3,"
  ; codes [10]
  ; lit "    ""totalSocialNumbersBaseSegments"": 1,"
  ; codes [10]
  ; lit "    ""totalSocialNumbersJ1Segments"": 1,"
  ; codes [10]
  ; lit "    ""totalSocialNumbersJ2Segments"": 1,"
  ; codes [10]
  ; lit "    ""totalDatesBirthAllSegments"": 3,"
  ; codes [10]
  ; lit "    ""totalDatesBirthBaseSegments"": 1,"
  ; codes [10]
  ; lit "    ""totalDatesBirthJ1Segments"": 1,"
  ; codes [10]
  ; lit "    ""totalDatesBirthJ2Segments"": 1,"
  ; codes [10]
  ; lit "    ""totalTelephoneNumbersAllSegments"": 3"
  ; codes [10]
  ; lit "  }"
  ; codes [10]
  ; lit "}" ].

(* test/testdata/crashers/095fc33da8989029f8de95581227c9408d15eed6, 1481 bytes *)
Definition crasher_095fc33d : bytes := List.concat
  [ codes [1]
  ; lit "r"
  ; codes [0; 0; 1]
  ; lit "n"
  ; codes [0; 0]
  ; lit "HEADER                           555555555508202002051019990510199905101999YOUR BUSINESS N"
  ; lit "AME HERE                 LINE ONE OF YOUR ADDRESS LINE TWO OF YOUR ADDRESS LINE THERE OF Y"
  ; lit "OUR ADDRESS                    1234567890                                                 "
  ; lit "                                                                                          "
  ; lit "  "
  ; codes [4]
  ; lit "V"
  ; codes [0; 0; 4]
  ; lit "R"
  ; codes [0; 0]
  ; lit "1"
  ; codes [0; 0; 235; 161; 23; 224; 212]
  ; lit "s06666666               553723456                     M48"
  ; codes [0; 171]
  ; lit "<"
  ; codes [3]
  ; lit "s"
  ; codes [0; 0; 0; 0; 0; 0; 0; 0; 1; 160]
  ; lit "LOC "
  ; codes [0; 0; 0; 0; 0; 0; 0; 0; 0; 160]
  ; lit "62 BBBBBBBBBBBBBBBBBBBBBBBBASXA"
  ; codes [0; 0; 0]
  ; lit "99"
  ; codes [0; 0; 0; 0; 0; 0; 0; 0; 0; 0; 0; 140]
  ; lit "iRs"
  ; codes [0; 140]
  ; lit "iRs"
  ; codes [0; 140]
  ; lit "iRs"
  ; codes [0; 140]
  ; lit "iRs                  SMITH-JONES              JUNIOR                                  S"
  ; codes [0; 0; 16; 16; 160; 0; 140]
  ; lit "iRs"
  ; codes [0; 0]
  ; lit "I"
  ; codes [150; 2; 210]
  ; lit "1  USRMXH+6W Casper, Wyoming,        United States                   U.S. Postal         M"
  ; lit "I72654    YOJ1 BEAUCHAMP                KEVIN                                   S445112877"
  ; lit "0102202043355523332R  J2 BEAUCHAMP                KEVIN                                   "
  ; lit "S4451128770102202043355523332R US234 HARRISON PLACE              SUITE #305               "
  ; lit "       LANSING             MI72654    YO  J2 BEAUCHAMP                KEVIN               "
  ; lit "                    S4451128770102202043355523332R US234 HARRISON PLACE              SUITE"
  ; lit " #305                      LANSING             MI72654    YO  K300                  Mortga"
  ; lit "ge Number   L11New Consumer Account Number                        N1Employer Name         "
  ; lit "        First Line of Employer Address  Second Line of Employer Address Employer City     "
  ; lit "  MI23456    Occupation         "
  ; codes [1] ].

(* test/testdata/crashers/0a80c2ffa71f7b3655f5f50f3e72ff28e4ef092f, 426 bytes *)
Definition crasher_0a80c2ff : bytes := List.concat
  [ lit "-4101999HEADER    I 2                    55555508202002051019990510199905101999YOUR BUSINE"
  ; lit "SS NAME HERE                 LINE ONE OF YOUR ADDRESS LINE TWO OF YOUR ADDRESS LINE THERE "
  ; lit "OF YOUR ADDRESS                    1234567890                                             "
  ; lit "                                                                                          "
  ; lit "      "
  ; codes [4]
  ; lit "V"
  ; codes [0; 0; 4]
  ; lit "R"
  ; codes [0; 0]
  ; lit "1"
  ; codes [0; 0; 235; 161; 23; 224; 212]
  ; lit "s06666666          553723456                " ].

(* test/testdata/crashers/10c935414cdc13f9358b71f97c819e455cc01ace, 739 bytes *)
Definition crasher_10c93541 : bytes := List.concat
  [ codes [1]
  ; lit "r"
  ; codes [0; 0; 1]
  ; lit "n"
  ; codes [0; 0]
  ; lit "HEADER                           555555555508202002051019990510199905101999YOUR BUSINESS N"
  ; lit "AME HERE                 LINE ONE OF YOUR ADDRESS LINE TWO OF YOUR ADDRESS LINE THERE OF Y"
  ; lit "OUR ADDRESS                    1234567890                                                 "
  ; lit "                                                                                          "
  ; lit "  "
  ; codes [4]
  ; lit "V"
  ; codes [0; 0; 4]
  ; lit "R"
  ; codes [0; 0]
  ; lit "1"
  ; codes [0; 0; 235; 161; 23; 224; 212]
  ; lit "s06666666               553723456                     M48"
  ; codes [0; 171]
  ; lit "<"
  ; codes [3]
  ; lit "s"
  ; codes [0; 0; 0; 0; 0; 0; 0; 0; 1; 160]
  ; lit "LOC "
  ; codes [0; 0; 0; 0; 0; 0; 0; 0; 0; 160]
  ; lit "62 BBBBBBBBBBBBBBBBBBBBBBBBASXA"
  ; codes [0; 0; 0]
  ; lit "99"
  ; codes [0; 0; 0; 0; 0; 0; 0; 0; 0; 0; 0; 140]
  ; lit "iRs"
  ; codes [0; 140]
  ; lit "iRs"
  ; codes [0; 140]
  ; lit "iRs"
  ; codes [0; 140]
  ; lit "iRs                  SMITH-JONES              JUNIOR                                  S"
  ; codes [0; 0; 16; 16; 160; 0; 140]
  ; lit "iRs"
  ; codes [0; 0]
  ; lit "I"
  ; codes [150; 2; 210]
  ; lit "1  USRMXH+6W Casper, Wyoming,        United States                   U.S. Postal         M"
  ; lit "I72654    Y" ].

(* test/testdata/crashers/616e90a06df85c12530b6d9f48b83562b3ff9fe8, 839 bytes *)
Definition crasher_616e90a0 : bytes := List.concat
  [ codes [1]
  ; lit "r"
  ; codes [0; 0; 1]
  ; lit "n"
  ; codes [0; 0]
  ; lit "HEADER                           555555555508202002051019990510199905101999YOUR BUSINESS N"
  ; lit "AME HERE                 LINE ONE OF YOUR ADDRESS LINE TWO OF YOUR ADDRESS LINE THERE OF Y"
  ; lit "OUR ADDRESS                    1234567890                                                 "
  ; lit "                                                                                          "
  ; lit "  "
  ; codes [4]
  ; lit "V"
  ; codes [0; 0; 4]
  ; lit "R"
  ; codes [0; 0]
  ; lit "1"
  ; codes [0; 0; 235; 161; 23; 224; 212]
  ; lit "s06666666               553723456                     M48"
  ; codes [0; 171]
  ; lit "<"
  ; codes [3]
  ; lit "s"
  ; codes [0; 0; 0; 0; 0; 0; 0; 0; 1; 160]
  ; lit "LOC "
  ; codes [0; 0; 0; 0; 0; 0; 0; 0; 0; 160]
  ; lit "62 BBBBBBBBBBBBBBBBBBBBBBBBASXA"
  ; codes [0; 0; 0]
  ; lit "99"
  ; codes [0; 0; 0; 0; 0; 0; 0; 0; 0; 0; 0; 140]
  ; lit "iRs"
  ; codes [0; 140]
  ; lit "iRs"
  ; codes [0; 140]
  ; lit "iRs"
  ; codes [0; 140]
  ; lit "iRs                  SMITH-JONES              JUNIOR                                  S"
  ; codes [0; 0; 16; 16; 160; 0; 140]
  ; lit "iRs"
  ; codes [0; 0]
  ; lit "I"
  ; codes [150; 2; 210]
  ; lit "1  USRMXH+6W Casper, Wyoming,        United States                   U.S. Postal         M"
  ; lit "I72654    YOJ BEAUCHAMP                KEVIN                                   S44511287rs"
  ; lit "Deinquncy"":""00-079T00" ].
