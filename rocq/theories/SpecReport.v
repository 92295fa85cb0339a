(* Specification: what an error of Validate says about a record.  The rules of
   SpecValidate are stated here field by field, because an error speaks of one
   field. *)
From Coq Require Import ZArith NArith Bool Ascii String List.
Import ListNotations.
From Verif Require Import GoBase GoTime Tables Codec Records File
  SpecCodec SpecLayouts SpecRecords SpecFile SpecValidate SpecCounters.
Local Open Scope string_scope.
Local Open Scope Z_scope.
Local Open Scope list_scope.
Local Notation length := List.length.

(* ---- names of fields ---- *)

(* "PaymentRating", "payment rating" and "payment_rating" name the same field: the
   case of letters, blanks and underscores do not matter *)
Definition separator (c : ascii) : bool := (Ascii.eqb c " " || Ascii.eqb c "_")%char.
Definition small_letter (c : ascii) : ascii :=
  let n := nat_of_ascii c in
  if (Nat.leb 65 n && Nat.leb n 90)%bool then ascii_of_nat (n + 32) else c.
Definition plain (s : list ascii) : list ascii :=
  map small_letter (filter (fun c => negb (separator c)) s).
Definition letters (s : string) : list ascii := plain (list_ascii_of_string s).
Definition names (label n : string) : Prop := letters label = letters n.

(* ---- rules for single fields ---- *)

Definition base_field_rules (packed : bool) (st : fields) : list (string * Prop) :=
  [ ("CorrectionIndicator", coded_number st "CorrectionIndicator" [0; 1]);
    ("IdentificationNumber", forall s, holds st "IdentificationNumber" (VStr s) -> ~ filled s);
    ("PortfolioType", coded st "PortfolioType" ["C"; "I"; "L"; "M"; "O"; "R"]);
    ("TermsDuration", forall s, holds st "TermsDuration" (VStr s) ->
        s = list_ascii_of_string "LOC" \/ s = list_ascii_of_string "REV" \/ whole_number s);
    ("TermsFrequency", coded st "TermsFrequency" [""; "D"; "P"; "W"; "B"; "E"; "M"; "L"; "Q"; "T"; "S"; "Y"]);
    ("PaymentRating",
       coded st "AccountStatus" rated_statuses
         /\ coded st "PaymentRating" ["0"; "1"; "2"; "3"; "4"; "5"; "6"; "G"; "L"]
       \/ ~ coded st "AccountStatus" rated_statuses /\ holds st "PaymentRating" (VStr []));
    ("PaymentHistoryProfile", forall s, holds st "PaymentHistoryProfile" (VStr s) ->
        length s = 24%nat /\ Forall (fun c => In c (history_codes packed)) s);
    ("InterestTypeIndicator", coded st "InterestTypeIndicator" [""; "F"; "V"]);
    ("TelephoneNumber", True);   (* no number breaks a rule, see C56 *)
    ("SocialSecurityNumber", identified st \/ coded st "ECOACode" ["2"; "5"]);
    ("DateBirth", identified st \/ coded st "ECOACode" ["2"; "5"]);
    ("AccountStatus", coded st "AccountStatus" (rated_statuses ++ plain_statuses));
    ("AccountType", coded st "AccountType" account_types);
    ("SpecialComment", coded st "SpecialComment" special_comments) ].

Definition seg_field_rules (k : segkind) (st : fields) : list (string * Prop) :=
  match k with
  | J1 => [ ("GenerationCode", coded st "GenerationCode" generation_codes);
            ("TelephoneNumber", True);
            ("SocialSecurityNumber", identified st);
            ("DateBirth", identified st) ]
  | J2 => [ ("GenerationCode", coded st "GenerationCode" generation_codes);
            ("TelephoneNumber", True);
            ("AddressIndicator", coded st "AddressIndicator" [""; " "; "C"; "Y"; "N"; "M"; "S"; "B"; "U"; "D"; "P"]);
            ("ResidenceCode", coded st "ResidenceCode" [""; " "; "O"; "R"]);
            ("SocialSecurityNumber", identified st \/ coded st "ECOACode" ["W"; "w"]);
            ("DateBirth", identified st \/ coded st "ECOACode" ["W"; "w"]) ]
  | K1 => [ ("CreditorClassification", exists z, holds st "CreditorClassification" (VInt z) /\ 1 <= z <= 15) ]
  | K2 => [ ("PurchasedIndicator", coded_number st "PurchasedIndicator" [1; 2; 9]);
            ("PurchasedName", forall s, holds st "PurchasedIndicator" (VInt 9) ->
                holds st "PurchasedName" (VStr s) -> filled s) ]
  | K3 => [ ("AgencyIdentifier", coded_number st "AgencyIdentifier" [0; 1; 2]);
            ("AccountNumber", forall s, holds st "AgencyIdentifier" (VInt 0) ->
                holds st "AccountNumber" (VStr s) -> filled s) ]
  | K4 => [ ("SpecializedPaymentIndicator", coded_number st "SpecializedPaymentIndicator" [1; 2]) ]
  | L1 => [ ("ChangeIndicator", coded_number st "ChangeIndicator" [1; 2; 3]);
            ("NewConsumerAccountNumber", forall s, holds st "ChangeIndicator" (VInt 2) ->
                holds st "NewConsumerAccountNumber" (VStr s) -> filled s);
            ("NewIdentificationNumber", forall s, holds st "ChangeIndicator" (VInt 1) ->
                holds st "NewIdentificationNumber" (VStr s) -> filled s) ]
  | N1 => []
  end.

(* ---- faults ---- *)

(* a field that must be present is not *)
Definition absent (doc : list doc_field) (st : fields) (n : string) : Prop :=
  exists d v, In d doc /\ dMust d = true /\ dName d = n /\ holds st n v /\ ~ present v.

(* a field breaks its rule *)
Definition broken (rules : list (string * Prop)) (n : string) : Prop :=
  exists R, In (n, R) rules /\ ~ R.

(* the error says what is wrong with the field, and calls the record by its title; a
   field that breaks its rule may be reported under another name of the record *)
Inductive tells (doc : list doc_field) (rules : list (string * Prop)) (st : fields)
    (title : string) (called : string -> string) (n : string) : error -> Prop :=
| tells_absent : absent doc st n -> tells doc rules st title called n (ErrFieldRequired n title)
| tells_broken label : ~ absent doc st n -> broken rules n -> names label n ->
    tells doc rules st title called n (ErrInvalidValueOfField label (called n)).

(* the error is about the first field, in the order of the record, with a fault *)
Definition reports (doc : list doc_field) (rules : list (string * Prop)) (st : fields)
    (title : string) (called : string -> string) (e : error) : Prop :=
  exists before n v after, st = before ++ (n, v) :: after
    /\ tells doc rules st title called n e
    /\ (forall m, In m (map fst before) -> ~ absent doc st m /\ ~ broken rules m).

(* ---- the names of records ---- *)

Definition base_title (packed : bool) : string := if packed then "packed base segment" else "base segment".
Definition header_title (packed : bool) : string := if packed then "packed header record" else "header record".
Definition trailer_title (packed : bool) : string := if packed then "packed trailer record" else "trailer record".
Definition seg_title (k : segkind) : string :=
  match k with
  | J1 => "j1 segment" | J2 => "j2 segment" | K1 => "k1 segment" | K2 => "k2 segment"
  | K3 => "k3 segment" | K4 => "k4 segment" | L1 => "l1 segment" | N1 => "n1 segment"
  end.

(* reports that always give the title of the record *)
Definition reports_titled (doc : list doc_field) (rules : list (string * Prop)) (st : fields)
    (title : string) (e : error) : Prop :=
  reports doc rules st title (fun _ => title) e.

(* reports in which a number or date of birth is said to be of the base segment,
   wherever it is *)
Definition about_identity (n : string) : bool :=
  String.eqb n "SocialSecurityNumber" || String.eqb n "DateBirth".
Definition reports_identity (doc : list doc_field) (rules : list (string * Prop)) (st : fields)
    (title : string) (e : error) : Prop :=
  reports doc rules st title (fun n => if about_identity n then "base segment" else title) e.

(* the error is a true report about the segment, the record *)
Definition reported_seg (s : segment) (e : error) : Prop :=
  reports_identity (seg_doc (sKind s)) (seg_field_rules (sKind s) (sFields s)) (sFields s) (seg_title (sKind s)) e.
Definition reported_record (r : record) (e : error) : Prop :=
  match r with
  | RHeader p h => reports_titled (header_doc p) [] h (header_title p) e
  | RBase p b => reports_identity (base_doc p) (base_field_rules p (bFields b)) (bFields b) (base_title p) e
  | RTrailer p t => reports_titled (trailer_doc p) [] t (trailer_title p) e
  end.

(* a counter of the trailer is not what the data records say *)
Definition miscounted (l : list record) (t : fields) (n : string) : Prop :=
  (exists P, In (n, P) counters /\ ~ exists c, counted P (parts l) c /\ holds t n (VInt c))
  \/ n = "BlockCount" /\ ~ holds t "BlockCount" (VInt (Z.of_nat (length l) + 2)).

(* ---- texts ---- *)

(* names made of words: a capital letter, then small letters *)
Definition capital (c : ascii) : Prop := (65 <= nat_of_ascii c <= 90)%nat.
Definition small (c : ascii) : Prop := (97 <= nat_of_ascii c <= 122)%nat.
Definition word (w : list ascii) : Prop :=
  exists c x r, w = c :: x :: r /\ capital c /\ Forall small (x :: r).

(* the words in small letters, joined by underscores *)
Fixpoint underscored (ws : list (list ascii)) : list ascii :=
  match ws with
  | [] => []
  | [w] => map small_letter w
  | w :: ws' => map small_letter w ++ "_"%char :: underscored ws'
  end.

(* the names of records in errors *)
Definition titles : list string :=
  flat_map (fun p => [base_title p; header_title p; trailer_title p]) [false; true]
  ++ map seg_title [J1; J2; K1; K2; K3; K4; L1; N1] ++ ["base record"].

(* errors that speak of records by these names *)
Definition well_titled (e : error) : Prop :=
  match e with
  | ErrFieldRequired _ r | ErrInvalidValueOfField _ r | ErrNonAlphanumeric _ r | ErrUpperAlpha _ r
  | ErrNumeric _ r | ErrPhoneNumber r | ErrSegmentLength r | ErrApplicableSegment r _ => In r titles
  | _ => True
  end.

(* the same complaint about the same field of the same record; fields may be spelled
   in different ways *)
Definition same_complaint (e e' : error) : Prop :=
  match e, e' with
  | ErrFieldRequired f r, ErrFieldRequired f' r'
  | ErrInvalidValueOfField f r, ErrInvalidValueOfField f' r'
  | ErrNonAlphanumeric f r, ErrNonAlphanumeric f' r'
  | ErrUpperAlpha f r, ErrUpperAlpha f' r'
  | ErrNumeric f r, ErrNumeric f' r' => names f f' /\ r = r'
  | _, _ => e = e'
  end.
