(* Specification: JSON read into records and files that hold something already *)
From Coq Require Import ZArith NArith Bool Ascii String List.
Import ListNotations.
From Verif Require Import GoBase GoTime Tables Codec Records File SpecCodec SpecLayouts SpecRecords Json JsonFile SpecJson SpecSparse.
Local Open Scope string_scope.
Local Open Scope Z_scope.
Local Open Scope list_scope.

(* every field of st has the value its key states; a field no key names keeps
   the value it has in old, and so do numbers and texts given as null *)
Definition amends (s : structure) (l : list (bytes * json)) (old st : fields) : Prop :=
  clear_keys l /\ has_type s old /\ has_type s st /\
  forall n v, holds st n v ->
    (exists k j, In (k, j) l /\ key_is n k /\ (stated j v \/ (j = JNull /\ kind_of v <> KTime /\ holds old n v)))
    \/ ((forall k j, In (k, j) l -> ~ key_is n k) /\ holds old n v).

Definition not_given (l : list (bytes * json)) (key : string) : Prop := absent key l \/ In (lit key, JNull) l.

(* the object of a header or a trailer *)
Definition amends_object (l : list (bytes * json)) (key : string) (s : structure) (old st : fields) : Prop :=
  (exists o, In (lit key, JObj o) l /\ amends s o old st) \/ (not_given l key /\ st = old).

(* a file: header and trailer amended, the data records of the JSON behind those
   that were there *)
Definition amends_file (j : json) (f g : file) : Prop :=
  exists l p q r h h' t t' bases, j = JObj l /\ flHeader f = RHeader q h /\ flTrailer f = RTrailer r t /\ flPacked f = p
  /\ g = mkFile p (RHeader q h') (flBases f ++ map (RBase p) bases) (RTrailer r t')
  /\ amends_object l "header" header_struct h h'
  /\ ((exists a, In (lit "data", JArr a) l /\ Forall2 describes_base a bases) \/ (not_given l "data" /\ bases = []))
  /\ amends_object l "trailer" trailer_struct t t'.

(* the base of a data record: all of its fields as in a fresh record, if there
   is a base at all *)
Definition amends_fields (l : list (bytes * json)) (old st : fields) : Prop :=
  (exists o, In (lit "base", JObj o) l /\ describes base_struct no_id o st)
  \/ (In (lit "base", JNull) l /\ describes base_struct no_id [] st)
  \/ (absent "base" l /\ st = old).
(* a segment that is there at most once: the one given, else the old one *)
Definition amends_one (l : list (bytes * json)) (key : string) (k : segkind) (old o : option segment) : Prop :=
  (exists j s, In (lit key, j) l /\ o = Some s /\ describes_segment k j s) \/ (absent key l /\ o = old).

(* a data record; of the J1 and J2 segments only those given *)
Definition amends_base (j : json) (b c : base) : Prop :=
  exists l, j = JObj l /\ amends_fields l (bFields b) (bFields c)
  /\ describes_many l "j1" J1 (bJ1 c) /\ describes_many l "j2" J2 (bJ2 c)
  /\ amends_one l "k1" K1 (bK1 b) (bK1 c) /\ amends_one l "k2" K2 (bK2 b) (bK2 c) /\ amends_one l "k3" K3 (bK3 b) (bK3 c)
  /\ amends_one l "k4" K4 (bK4 b) (bK4 c) /\ amends_one l "l1" L1 (bL1 b) (bL1 c) /\ amends_one l "n1" N1 (bN1 b) (bN1 c).

(* the JSON gives every field of a header or a trailer *)
Definition gives_all (l : list (bytes * json)) (key : string) (s : structure) : Prop :=
  exists o, In (lit key, JObj o) l /\ forall n, In n (map fst s) -> exists k v, In (k, v) o /\ key_is n k /\ v <> JNull.
Definition whole (j : json) : Prop :=
  exists l, j = JObj l /\ gives_all l "header" header_struct /\ gives_all l "trailer" trailer_struct.

(* a file without data records *)
Definition bare (p : bool) (f : file) : Prop :=
  exists h t, f = mkFile p (RHeader p h) [] (RTrailer p t) /\ has_type header_struct h /\ has_type trailer_struct t.
