(* C111: strict reading of data records and files of the client *)
From Coq Require Import ZArith NArith Bool Ascii String List.
Import ListNotations.
From Verif Require Import GoBase GoTime Tables JsonTables Codec Records Json JsonFile ClientTypes ClientHelpers ClientStrict
  SpecCodec SpecJson SpecSchema SpecClientTypes SpecHelpers SpecStrict ClientTypesFacts ClientTypesCases StrictFacts.
Local Open Scope string_scope.
Local Open Scope Z_scope.
Local Open Scope list_scope.
Local Notation length := List.length.

(* strict reading is reading where every member names a property, at every depth *)
Theorem C111_strict_record : forall zone j r r', plain_record j ->
  (strict_record zone j r = Some r' <-> c_decode_record zone j r = Some r' /\ known_record j).
Proof. exact record_strict. Qed.
Print Assumptions C111_strict_record.
Theorem C111_strict_file : forall zone j f, plain_file j ->
  (strict_file zone j = Some f <-> c_decode_file zone j = Some f /\ known_file j).
Proof. exact file_strict. Qed.
Print Assumptions C111_strict_file.

Example C111_strict_file_case : forall zone,
  strict_file zone (JObj [(lit "HEADER", JObj [(lit "recordIdentifier", JStr (lit "HEADER"))]); (lit "data", JArr [JObj [(lit "k3", JNull); (lit "j1", JArr [JObj []])]])]) <> None
  /\ strict_file zone (JObj [(lit "format", JStr (lit "x"))]) = None
  /\ strict_file zone (JObj [(lit "data", JArr [JObj [(lit "j1", JArr [JObj [(lit "other", JNull)]])]])]) = None
  /\ strict_record zone (JObj [(lit "k2", JObj [(lit "other", JNull)])]) crecord0 = None.
Proof. exact strict_file_case. Qed.
Example C111_strict_plain_case : plain_file known_text /\ known_file known_text.
Proof. exact known_text_case. Qed.

(* what the client writes is read strictly *)
Theorem C111_strict_record_own : forall zone r, good_record r -> exists j, c_record r = Some j /\ strict_record zone j crecord0 = Some r.
Proof. exact record_own. Qed.
Print Assumptions C111_strict_record_own.
Theorem C111_strict_file_own : forall zone f, good_file f -> exists j, c_file f = Some j /\ strict_file zone j = Some f.
Proof. exact file_own. Qed.
Print Assumptions C111_strict_file_own.
Example C111_strict_file_own_case : good_file (few_file None).
Proof. exact (few_good None (or_introl eq_refl)). Qed.
