(* Specification of the validation rules, written from the field comments and the
   named codes (pkg/lib/constants.go) and without using the validators of the
   model *)
From Coq Require Import ZArith NArith Bool Ascii String List.
Import ListNotations.
From Verif Require Import GoBase GoTime Tables Codec Records SpecCodec SpecLayouts SpecRecords.
Local Open Scope string_scope.
Local Open Scope Z_scope.
Local Open Scope list_scope.
Local Notation length := List.length.

(* ---- values ---- *)

Definition present (v : value) : Prop :=
  match v with VInt z => z <> 0 | VStr s => s <> [] | VTime t => t <> no_date end.

(* every field that must be present is *)
Definition complete (doc : list doc_field) (st : fields) : Prop :=
  forall d v, In d doc -> dMust d = true -> holds st (dName d) v -> present v.

(* the instant 0001-01-01 00:00:00 UTC as shown by the clock of some zone *)
Definition shows_zero (t : time) : Prop :=
  tNsec t = 0 /\
  match tOff t with
  | None => t = no_date
  | Some o =>
      let clock := tHour t * 3600 + tMin t * 60 + tSec t in
      (tYear t = 1 /\ tMonth t = 1 /\ tDay t = 1 /\ clock = o)
      \/ (tYear t = 0 /\ tMonth t = 12 /\ tDay t = 31 /\ clock = 86400 + o)
  end.

(* times of 4-digit years, with less than a day between their zone and UTC *)
Definition good_times (st : fields) : Prop :=
  forall n t, holds st n (VTime t) ->
    calendar_time t /\ match tOff t with None => True | Some o => -86400 < o < 86400 end.

(* the field holds one of these codes *)
Definition coded (st : fields) (n : string) (codes : list string) : Prop :=
  exists c, In c codes /\ holds st n (VStr (list_ascii_of_string c)).
Definition coded_number (st : fields) (n : string) (codes : list Z) : Prop :=
  exists z, In z codes /\ holds st n (VInt z).

(* zero-, nine- or blank-filled *)
Definition filled (s : bytes) : Prop :=
  exists n, s = repeat "0"%char n \/ s = repeat "9"%char n \/ s = repeat " "%char n.

(* a whole number of 64 bits, in decimal with an optional sign *)
Definition whole_number (s : bytes) : Prop :=
  exists sign ds, s = sign ++ ds /\ ds <> [] /\ Forall (fun c => In c digits) ds
    /\ ((sign = [] \/ sign = ["+"%char]) /\ decimal ds < 2 ^ 63
        \/ sign = ["-"%char] /\ decimal ds <= 2 ^ 63).

(* a social security number or a date of birth is given *)
Definition identified (st : fields) : Prop :=
  (exists z, holds st "SocialSecurityNumber" (VInt z) /\ z <> 0)
  \/ (exists t, holds st "DateBirth" (VTime t) /\ ~ shows_zero t).

(* ---- appended segments ---- *)

Definition generation_codes : list string := [""; "J"; "S"; "2"; "3"; "4"; "5"; "6"; "7"; "8"; "9"].

Definition seg_rules (k : segkind) (st : fields) : Prop :=
  match k with
  | J1 => coded st "GenerationCode" generation_codes /\ identified st
  | J2 => coded st "GenerationCode" generation_codes
          /\ coded st "AddressIndicator" [""; " "; "C"; "Y"; "N"; "M"; "S"; "B"; "U"; "D"; "P"]
          /\ coded st "ResidenceCode" [""; " "; "O"; "R"]
          /\ (identified st \/ coded st "ECOACode" ["W"; "w"])
  | K1 => exists z, holds st "CreditorClassification" (VInt z) /\ 1 <= z <= 15
  | K2 => coded_number st "PurchasedIndicator" [1; 2; 9]
          /\ (forall s, holds st "PurchasedIndicator" (VInt 9) -> holds st "PurchasedName" (VStr s) -> filled s)
  | K3 => coded_number st "AgencyIdentifier" [0; 1; 2]
          /\ (forall s, holds st "AgencyIdentifier" (VInt 0) -> holds st "AccountNumber" (VStr s) -> filled s)
  | K4 => coded_number st "SpecializedPaymentIndicator" [1; 2]
  | L1 => coded_number st "ChangeIndicator" [1; 2; 3]
          /\ (forall s, holds st "ChangeIndicator" (VInt 2) -> holds st "NewConsumerAccountNumber" (VStr s) -> filled s)
          /\ (forall s, holds st "ChangeIndicator" (VInt 1) -> holds st "NewIdentificationNumber" (VStr s) -> filled s)
  | N1 => True
  end.

(* ---- base segment ---- *)

(* statuses that ask for a payment rating, and the others *)
Definition rated_statuses : list string := ["05"; "13"; "65"; "88"; "89"; "94"; "95"].
Definition plain_statuses : list string :=
  ["11"; "61"; "62"; "63"; "64"; "71"; "78"; "80"; "82"; "83"; "84"; "93"; "96"; "97"; "DA"; "DF"].

Definition account_types : list string :=
  ["00"; "01"; "02"; "03"; "04"; "05"; "06"; "07"; "08"; "0A"; "0C"; "0F"; "0G";
   "10"; "11"; "12"; "13"; "15"; "17"; "18"; "19"; "20"; "25"; "26"; "29"; "2A"; "2C";
   "37"; "3A"; "43"; "47"; "48"; "4D"; "50"; "5A"; "5B"; "65"; "66"; "67"; "68"; "69"; "6A"; "6B"; "6D";
   "70"; "71"; "72"; "73"; "74"; "75"; "77"; "7A"; "7B"; "89"; "8A"; "8B";
   "90"; "91"; "92"; "93"; "95"; "9A"; "9B"].

Definition special_comments : list string :=
  [""; "B"; "C"; "H"; "I"; "M"; "O"; "S"; "V";
   "AB"; "AC"; "AH"; "AI"; "AM"; "AN"; "AO"; "AP"; "AS"; "AT"; "AU"; "AV"; "AW"; "AX"; "AZ";
   "BA"; "BB"; "BC"; "BD"; "BE"; "BF"; "BG"; "BH"; "BI"; "BJ"; "BK"; "BL"; "BN"; "BO"; "BP"; "BS"; "BT";
   "CH"; "CI"; "CJ"; "CK"; "CL"; "CM"; "CN"; "CO"; "CP"; "CS"; "DE"].

(* months of the payment history; Z (too new) in the character format only *)
Definition history_codes (packed : bool) : bytes :=
  list_ascii_of_string (if packed then "0123456BDEGHJKL " else "0123456BDEGHJKL Z").

Definition base_rules (packed : bool) (st : fields) : Prop :=
  coded_number st "CorrectionIndicator" [0; 1]
  /\ (forall s, holds st "IdentificationNumber" (VStr s) -> ~ filled s)
  /\ coded st "PortfolioType" ["C"; "I"; "L"; "M"; "O"; "R"]
  /\ coded st "AccountType" account_types
  /\ (forall s, holds st "TermsDuration" (VStr s) ->
        s = list_ascii_of_string "LOC" \/ s = list_ascii_of_string "REV" \/ whole_number s)
  /\ coded st "TermsFrequency" [""; "D"; "P"; "W"; "B"; "E"; "M"; "L"; "Q"; "T"; "S"; "Y"]
  /\ (coded st "AccountStatus" rated_statuses
        /\ coded st "PaymentRating" ["0"; "1"; "2"; "3"; "4"; "5"; "6"; "G"; "L"]
      \/ coded st "AccountStatus" plain_statuses /\ holds st "PaymentRating" (VStr []))
  /\ (forall s, holds st "PaymentHistoryProfile" (VStr s) ->
        length s = 24%nat /\ Forall (fun c => In c (history_codes packed)) s)
  /\ coded st "SpecialComment" special_comments
  /\ coded st "InterestTypeIndicator" [""; "F"; "V"]
  /\ (identified st \/ coded st "ECOACode" ["2"; "5"]).
