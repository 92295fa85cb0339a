(* Specification: what the counters of the trailer record count, written from the
   comments of the trailer record (pkg/lib/trailer_record.go:20-167) and without
   using the counting code of the model *)
From Coq Require Import ZArith NArith Bool Ascii String List.
Import ListNotations.
From Verif Require Import GoBase GoTime Tables Codec Records File
  SpecCodec SpecLayouts SpecRecords SpecFile SpecValidate.
Local Open Scope string_scope.
Local Open Scope Z_scope.
Local Open Scope list_scope.
Local Notation length := List.length.

(* ---- counting ---- *)

(* exactly n members of the list have the property *)
Inductive counted {A} (P : A -> Prop) : list A -> Z -> Prop :=
| counted_nil : counted P [] 0
| counted_yes x l n : P x -> counted P l n -> counted P (x :: l) (n + 1)
| counted_no x l n : ~ P x -> counted P l n -> counted P (x :: l) n.

(* ---- what is counted: base segments and appended segments ---- *)

Inductive part := PBase (st : fields) | PSeg (k : segkind) (st : fields).

Definition base_parts (b : base) : list part :=
  PBase (bFields b) :: map (fun s => PSeg (sKind s) (sFields s)) (segments_of b).

(* the parts of all data records *)
Definition parts (l : list record) : list part :=
  flat_map (fun r => match r with RBase _ b => base_parts b | _ => [] end) l.

(* ---- conditions ---- *)

Definition in_base (c : fields -> Prop) (p : part) : Prop := exists st, p = PBase st /\ c st.
Definition in_seg (k : segkind) (c : fields -> Prop) (p : part) : Prop := exists st, p = PSeg k st /\ c st.

(* a consumer segment is reported when it is complete and keeps the rules; blank-
   or 9-filled segments do not *)
Definition reported (k : segkind) (st : fields) : Prop := complete (seg_doc k) st /\ seg_rules k st.
Definition in_consumer (k : segkind) (c : fields -> Prop) : part -> Prop :=
  in_seg k (fun st => reported k st /\ c st).
Definition in_any (c : fields -> Prop) (p : part) : Prop :=
  in_base c p \/ in_consumer J1 c p \/ in_consumer J2 c p.

Definition says (n code : string) (st : fields) : Prop := holds st n (VStr (list_ascii_of_string code)).
Definition named (n : string) (st : fields) : Prop := exists s, holds st n (VStr s) /\ s <> [].

(* neither zero-filled nor 9-filled *)
Definition has_ssn (st : fields) : Prop :=
  exists z, holds st "SocialSecurityNumber" (VInt z) /\ 0 < z < 999999999.
Definition has_birth (st : fields) : Prop :=
  exists t, holds st "DateBirth" (VTime t) /\ ~ shows_zero t.
Definition has_phone (st : fields) : Prop :=
  exists z, holds st "TelephoneNumber" (VInt z) /\ 0 < z.

Definition status_codes : list string :=
  ["DF"; "DA"; "05"; "11"; "13"; "61"; "62"; "63"; "64"; "65"; "71"; "78"; "80"; "82"; "83"; "84";
   "88"; "89"; "93"; "94"; "95"; "96"; "97"].
Definition status_total (code : string) : string := "TotalStatusCode" ++ code.

(* The counters.  The K3 line is what the code counts (segments whose agency
   identifier is 0, not applicable); the comment speaks of all records with mortgage
   information, see C31_refuted. *)
Definition counters : list (string * (part -> Prop)) :=
  [ ("TotalBaseRecords", in_base (fun _ => True)) ]
  ++ map (fun c => (status_total c, in_base (says "AccountStatus" c))) status_codes ++
  [ ("TotalConsumerSegmentsJ1", in_consumer J1 (fun _ => True));
    ("TotalConsumerSegmentsJ2", in_consumer J2 (fun _ => True));
    ("TotalECOACodeZ", fun p => in_base (says "ECOACode" "Z") p \/ in_seg J1 (says "ECOACode" "Z") p
                                \/ in_seg J2 (says "ECOACode" "Z") p);
    ("TotalEmploymentSegments", in_seg N1 (named "EmployerName"));
    ("TotalOriginalCreditorSegments", in_seg K1 (named "OriginalCreditorName"));
    ("TotalPurchasedToSegments", in_seg K2 (fun st => coded_number st "PurchasedIndicator" [1; 2]));
    ("TotalMortgageInformationSegments", in_seg K3 (fun st => holds st "AgencyIdentifier" (VInt 0)));
    ("TotalPaymentInformationSegments", in_seg K4 (fun st => coded_number st "SpecializedPaymentIndicator" [1; 2]));
    ("TotalChangeSegments", in_seg L1 (fun st => coded_number st "ChangeIndicator" [1; 2; 3]));
    ("TotalSocialNumbersAllSegments", in_any has_ssn);
    ("TotalSocialNumbersBaseSegments", in_base has_ssn);
    ("TotalSocialNumbersJ1Segments", in_consumer J1 has_ssn);
    ("TotalSocialNumbersJ2Segments", in_consumer J2 has_ssn);
    ("TotalDatesBirthAllSegments", in_any has_birth);
    ("TotalDatesBirthBaseSegments", in_base has_birth);
    ("TotalDatesBirthJ1Segments", in_consumer J1 has_birth);
    ("TotalDatesBirthJ2Segments", in_consumer J2 has_birth);
    ("TotalTelephoneNumbersAllSegments", in_any has_phone) ].

(* every counter of the trailer is right for these data records; each data record
   is a block, and so are the header and the trailer *)
Definition counters_right (l : list record) (t : fields) : Prop :=
  (forall n P, In (n, P) counters -> exists c, counted P (parts l) c /\ holds t n (VInt c))
  /\ holds t "BlockCount" (VInt (Z.of_nat (length l) + 2)).

(* ---- files ---- *)

(* times of 4-digit years everywhere *)
Definition record_times (r : record) : Prop :=
  match r with
  | RHeader _ h => good_times h
  | RBase _ b => good_times (bFields b) /\ Forall (fun s => good_times (sFields s)) (segments_of b)
  | RTrailer _ _ => True
  end.

(* the documented rules for the records of a file *)
Definition record_valid (r : record) : Prop :=
  match r with
  | RHeader p h => complete (header_doc p) h
  | RBase p b => complete (base_doc p) (bFields b) /\ base_rules p (bFields b)
  | RTrailer p t => complete (trailer_doc p) t
  end.

Definition file_times (f : file) : Prop :=
  record_times (flHeader f) /\ Forall record_times (flBases f) /\ record_times (flTrailer f).

(* the data records are of one format *)
Definition data_ok (packed : bool) (l : list record) : Prop :=
  Forall (fun r => is_base packed r /\ record_ok r /\ record_times r) l.

(* the fields of the names add up to the number *)
Inductive adds_up (t : fields) : list string -> Z -> Prop :=
| adds_nil : adds_up t [] 0
| adds_cons n l c z : holds t n (VInt c) -> adds_up t l z -> adds_up t (n :: l) (c + z).
