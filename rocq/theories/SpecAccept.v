(* Specification: the JSON that is accepted, and what files and records become *)
From Coq Require Import ZArith NArith Bool Ascii String List.
Import ListNotations.
From Verif Require Import GoBase GoTime GoLayout Tables Codec Records File SpecCodec SpecLayouts SpecRecords Json JsonFile SpecJson SpecSparse SpecDates.
Local Open Scope string_scope.
Local Open Scope Z_scope.
Local Open Scope list_scope.

(* keys are ASCII and tell apart without their case, in all objects *)
Inductive tidy : json -> Prop :=
| TidyNull : tidy JNull
| TidyBool b : tidy (JBool b)
| TidyNum s : tidy (JNum s)
| TidyStr s : tidy (JStr s)
| TidyArr l : Forall tidy l -> tidy (JArr l)
| TidyObj l : clear_keys l -> Forall (fun m => tidy (snd m)) l -> tidy (JObj l).

(* a date is a text or a number; what it says is the subject of C49, C77 and C93 *)
Definition dated (zone : bytes -> time -> time) (j : json) (t : time) : Prop :=
  (exists s, j = JStr s /\ reads_as zone s t) \/ (exists s, j = JNum s /\ time_unmarshal zone s = Some t).

(* the words of a header that tell the format *)
Definition words : structure := [("BlockDescriptorWord", KInt); ("RecordDescriptorWord", KInt); ("RecordIdentifier", KStr)].

Section Accept.
Variable zone : bytes -> time -> time.

(* a value for a field *)
Inductive says : json -> value -> Prop :=
| SaysInt z : Z.abs z <= 2 ^ 53 -> says (JNum (itoa z)) (VInt z)
| SaysStr s : says (JStr s) (VStr s)
| SaysTime j t : dated zone j t -> says j (VTime t).

(* the members of an object: every field has the value its key says, or else the
   old one *)
Definition takes (s : structure) (l : list (bytes * json)) (old st : fields) : Prop :=
  has_type s st /\
  forall n v, holds st n v ->
    (exists k j, In (k, j) l /\ key_is n k /\ (says j v \/ (j = JNull /\ kind_of v <> KTime /\ holds old n v)))
    \/ ((forall k j, In (k, j) l -> ~ key_is n k) /\ holds old n v).

(* an object, or null *)
Definition takes_struct (s : structure) (j : json) (old st : fields) : Prop :=
  (exists l, j = JObj l /\ takes s l old st) \/ (j = JNull /\ st = old).

(* a new struct: nothing but the identifier *)
Definition fresh (s : structure) (id : string * bytes) (st : fields) : Prop :=
  has_type s st /\ forall n v, holds st n v -> left_out id n v.

(* a segment is valid *)
Definition takes_segment (k : segkind) (j : json) (s : segment) : Prop :=
  sKind s = k /\ seg_validate s = None
  /\ exists old, fresh (seg_struct k) (segment_id k) old /\ takes_struct (seg_struct k) j old (sFields s).

(* an array, or null *)
Definition takes_list {A} (each : json -> A -> Prop) (j : json) (l : list A) : Prop :=
  (exists a, j = JArr a /\ Forall2 each a l) \/ (j = JNull /\ l = []).

(* a member, or none *)
Definition member (l : list (bytes * json)) (key : string) (some : json -> Prop) (none : Prop) : Prop :=
  (exists j, In (lit key, j) l /\ some j) \/ (absent key l /\ none).

(* the members of a value: those of an object, none for null *)
Definition members (j : json) (l : list (bytes * json)) : Prop := j = JObj l \/ (j = JNull /\ l = []).

Definition takes_one (l : list (bytes * json)) (key : string) (k : segkind) (old o : option segment) : Prop :=
  member l key (fun j => exists s, o = Some s /\ takes_segment k j s) (o = old).
Definition takes_many (l : list (bytes * json)) (key : string) (k : segkind) (segs : list segment) : Prop :=
  member l key (fun j => takes_list (takes_segment k) j segs) (segs = []).

(* a data record *)
Definition takes_base (j : json) (b c : base) : Prop :=
  exists l, members j l
  /\ member l "base" (fun v => exists old, fresh base_struct no_id old /\ takes_struct base_struct v old (bFields c)) (bFields c = bFields b)
  /\ takes_many l "j1" J1 (bJ1 c) /\ takes_many l "j2" J2 (bJ2 c)
  /\ takes_one l "k1" K1 (bK1 b) (bK1 c) /\ takes_one l "k2" K2 (bK2 b) (bK2 c) /\ takes_one l "k3" K3 (bK3 b) (bK3 c)
  /\ takes_one l "k4" K4 (bK4 b) (bK4 c) /\ takes_one l "l1" L1 (bL1 b) (bL1 c) /\ takes_one l "n1" N1 (bN1 b) (bN1 c).

(* a new data record *)
Definition blank (b : base) : Prop :=
  fresh base_struct no_id (bFields b) /\ bJ1 b = [] /\ bJ2 b = [] /\ bK1 b = None /\ bK2 b = None /\ bK3 b = None /\ bK4 b = None
  /\ bL1 b = None /\ bN1 b = None.

(* a file *)
Definition takes_file (j : json) (f g : file) : Prop :=
  exists l q r h h' t t' bases, members j l /\ flHeader f = RHeader q h /\ flTrailer f = RTrailer r t
  /\ g = mkFile (flPacked f) (RHeader q h') (flBases f ++ map (RBase (flPacked f)) bases) (RTrailer r t')
  /\ member l "header" (fun v => takes_struct header_struct v h h') (h' = h)
  /\ member l "data" (fun v => takes_list (fun x b => exists b0, blank b0 /\ takes_base x b0 b) v bases) (bases = [])
  /\ member l "trailer" (fun v => takes_struct trailer_struct v t t') (t' = t).

(* the format: packed when the header gives another record descriptor word than
   426 and a block descriptor word; keys in any case count here *)
Definition takes_format (j : json) (packed : bool) : Prop :=
  exists l, members j l /\
  (((forall k v, In (k, v) l -> to_upper k = lit "HEADER" -> v = JNull) /\ packed = false)
   \/ exists k v old st bdw rdw, In (k, v) l /\ to_upper k = lit "HEADER" /\ v <> JNull
      /\ fresh words no_id old /\ takes_struct words v old st
      /\ holds st "BlockDescriptorWord" (VInt bdw) /\ holds st "RecordDescriptorWord" (VInt rdw)
      /\ (packed = true <-> rdw <> 426 /\ 0 < bdw)).

(* the file of a JSON value *)
Definition takes_new (j : json) (f : file) : Prop :=
  exists p h t, takes_format j p /\ fresh header_struct ("RecordIdentifier", lit "HEADER") h /\ fresh trailer_struct ("RecordIdentifier", lit "TRAILER") t
  /\ takes_file j (mkFile p (RHeader p h) [] (RTrailer p t)) f.
End Accept.

(* a file with a header and a trailer *)
Definition framed (f : file) : Prop :=
  exists q r h t, flHeader f = RHeader q h /\ flTrailer f = RTrailer r t /\ has_type header_struct h /\ has_type trailer_struct t.

(* neither an object nor null *)
Definition shapeless (j : json) : Prop := (forall l, j <> JObj l) /\ j <> JNull.
