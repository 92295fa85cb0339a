(* Specification: JSON of data records and files of which every member names a property *)
From Coq Require Import ZArith NArith Bool Ascii String List.
Import ListNotations.
From Verif Require Import GoBase GoTime Tables JsonTables Codec Records Json SpecCodec SpecJson SpecSchema SpecHelpers.
Local Open Scope string_scope.
Local Open Scope Z_scope.
Local Open Scope list_scope.
Local Notation length := List.length.

(* in upper or lower case *)
Definition same_name (k : bytes) (key : string) : Prop := to_upper k = to_upper (lit key).
Definition plain_key (k : bytes) : Prop := Forall (fun c => code c < 128) k.

(* an object: its keys are ASCII, its members name properties *)
Definition plain_object (j : json) : Prop := forall l, j = JObj l -> plain_keys l.
Definition known_object (o : object) (j : json) : Prop :=
  forall l, j = JObj l -> forall k x, In (k, x) l -> exists p, In p (obj_schema o) /\ names k p.

(* the parts of a data record, api/openapi.yaml: which are lists, and of what *)
Definition record_parts : list (string * bool * object) :=
  [("base", false, OBase); ("j1", true, OSegment J1); ("j2", true, OSegment J2); ("k1", false, OSegment K1); ("k2", false, OSegment K2);
   ("k3", false, OSegment K3); ("k4", false, OSegment K4); ("l1", false, OSegment L1); ("n1", false, OSegment N1)].
Definition all_in (P : json -> Prop) (j : json) : Prop := forall l, j = JArr l -> Forall P l.

Definition plain_record (j : json) : Prop :=
  forall l, j = JObj l -> forall k x, In (k, x) l -> plain_key k /\ plain_object x /\ all_in plain_object x.
Definition known_record (j : json) : Prop :=
  forall l, j = JObj l -> forall k x, In (k, x) l ->
  exists key many o, In (key, many, o) record_parts /\ same_name k key /\ if many : bool then all_in (known_object o) x else known_object o x.

Definition plain_file (j : json) : Prop :=
  forall l, j = JObj l -> forall k x, In (k, x) l -> plain_key k /\ plain_object x /\ all_in plain_record x.
Definition known_file (j : json) : Prop :=
  forall l, j = JObj l -> forall k x, In (k, x) l ->
  same_name k "header" /\ known_object OHeader x \/ same_name k "data" /\ all_in known_record x \/ same_name k "trailer" /\ known_object OTrailer x.
