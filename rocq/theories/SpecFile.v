(* Specification: files *)
From Coq Require Import ZArith NArith Bool Ascii String List.
Import ListNotations.
From Verif Require Import GoBase GoTime Tables Codec Records File SpecCodec SpecLayouts SpecRecords.
Local Open Scope string_scope.
Local Open Scope Z_scope.
Local Open Scope list_scope.
Local Notation length := List.length.

(* values of the Go record types; segments sit in the slice or pointer of their type *)
Definition base_ok (b : base) : Prop := base_typed b /\ Forall seg_typed (segments_of b).

Definition record_ok (r : record) : Prop :=
  match r with
  | RHeader _ h => has_type header_struct h
  | RBase _ b => base_ok b
  | RTrailer _ t => has_type trailer_struct t
  end.

(* header, data records and trailer are of the format of the file *)
Definition is_header (packed : bool) (r : record) : Prop := exists h, r = RHeader packed h.
Definition is_base (packed : bool) (r : record) : Prop := exists b, r = RBase packed b.
Definition is_trailer (packed : bool) (r : record) : Prop := exists t, r = RTrailer packed t.

Definition file_ok (f : file) : Prop :=
  is_header (flPacked f) (flHeader f) /\ record_ok (flHeader f)
  /\ Forall (fun r => is_base (flPacked f) r /\ record_ok r) (flBases f)
  /\ is_trailer (flPacked f) (flTrailer f) /\ record_ok (flTrailer f).
