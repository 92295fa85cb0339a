(* Specification: what JSON that is refused leaves behind *)
From Coq Require Import ZArith NArith Bool Ascii String List.
Import ListNotations.
From Verif Require Import GoBase GoTime GoLayout Tables Codec Records File SpecCodec SpecLayouts SpecRecords Json JsonFile SpecJson SpecSparse SpecDates SpecAccept.
Local Open Scope string_scope.
Local Open Scope Z_scope.
Local Open Scope list_scope.

(* the order of bytes, in which the members of an object are read *)
Inductive earlier : bytes -> bytes -> Prop :=
| EarlierEnd c s : earlier [] (c :: s)
| EarlierByte a b s t : code a < code b -> earlier (a :: s) (b :: t)
| EarlierNext a s t : earlier s t -> earlier (a :: s) (a :: t).

Section Left.
Variable zone : bytes -> time -> time.

(* a date that cannot be read *)
Definition undated (s : structure) (k : bytes) (j : json) : Prop :=
  exists n, In (n, KTime) s /\ key_is n k /\ forall t, ~ dated zone j t.

(* the fields of a header or trailer: the first date that cannot be read is set to
   none and ends the reading; before it all values of the right kind are taken *)
Definition leaves (s : structure) (l : list (bytes * json)) (old st : fields) : Prop :=
  has_type s st /\
  forall n v, holds st n v ->
    (exists k j, In (k, j) l /\ key_is n k /\
      (((forall k' j', In (k', j') l -> undated s k' j' -> earlier k k') /\ (says zone j v \/ (holds old n v /\ forall w, kind_of w = kind_of v -> ~ says zone j w)))
       \/ (undated s k j /\ (forall k' j', In (k', j') l -> undated s k' j' -> k' = k \/ earlier k k') /\ v = VTime no_date)
       \/ ((exists k' j', In (k', j') l /\ undated s k' j' /\ earlier k' k) /\ holds old n v)))
    \/ ((forall k j, In (k, j) l -> ~ key_is n k) /\ holds old n v).

Definition leaves_struct (s : structure) (j : json) (old st : fields) : Prop :=
  (exists l, j = JObj l /\ leaves s l old st) \/ ((forall l, j <> JObj l) /\ st = old).

(* a member that was reached, or was not since there is none or another one is refused *)
Definition may (l : list (bytes * json)) (key : string) (refused : Prop) (some : json -> Prop) (none : Prop) : Prop :=
  (exists j, In (lit key, j) l /\ some j) \/ (none /\ (absent key l \/ refused)).

(* the elements of a list before the first that is refused *)
Definition some_of {A} (each : json -> A -> Prop) (j : json) (l : list A) : Prop :=
  (exists a b, j = JArr (a ++ b) /\ Forall2 each a l /\ match b with x :: _ => forall y, ~ each x y | [] => True end)
  \/ (j = JNull /\ l = []).

(* a data record in a file *)
Definition takes_data (j : json) (b : base) : Prop := exists b0, blank b0 /\ takes_base zone j b0 b.

(* a file *)
Definition refuses (l : list (bytes * json)) (key : string) {A} (some : json -> A -> Prop) : Prop :=
  exists j, In (lit key, j) l /\ forall x, ~ some j x.
Definition leaves_file (j : json) (f g : file) : Prop :=
  ((forall l, ~ members j l) /\ g = f)
  \/ exists l q r h h' t t' bases, members j l /\ flHeader f = RHeader q h /\ flTrailer f = RTrailer r t
     /\ g = mkFile (flPacked f) (RHeader q h') (flBases f ++ map (RBase (flPacked f)) bases) (RTrailer r t')
     /\ let no_header := refuses l "header" (fun v => takes_struct zone header_struct v h) in
        let no_data := refuses l "data" (takes_list takes_data) in
        let no_trailer := refuses l "trailer" (fun v => takes_struct zone trailer_struct v t) in
        may l "header" (no_data \/ no_trailer) (fun v => leaves_struct header_struct v h h') (h' = h)
        /\ may l "data" (no_header \/ no_data \/ no_trailer) (fun v => some_of takes_data v bases) (bases = [])
        /\ may l "trailer" (no_header \/ no_data) (fun v => leaves_struct trailer_struct v t t') (t' = t).

(* a data record: its own fields and its segments are taken whole or not at all *)
Inductive balks : list (bytes * json) -> Prop :=
| BalkBase l : refuses l "base" (fun j st => exists old, fresh base_struct no_id old /\ takes_struct zone base_struct j old st) -> balks l
| BalkMany l k : k = J1 \/ k = J2 -> refuses l (seg_name k) (takes_list (takes_segment zone k)) -> balks l
| BalkOne l k : k <> J1 -> k <> J2 -> refuses l (seg_name k) (takes_segment zone k) -> balks l.
Definition leaves_one (l : list (bytes * json)) (key : string) (k : segkind) (old o : option segment) : Prop :=
  may l key (balks l) (fun j => exists s, o = Some s /\ takes_segment zone k j s) (o = old).
Definition leaves_many (l : list (bytes * json)) (key : string) (k : segkind) (segs : list segment) : Prop :=
  may l key (balks l) (fun j => some_of (takes_segment zone k) j segs) (segs = []).
Definition leaves_base (j : json) (b c : base) : Prop :=
  ((forall l, ~ members j l) /\ c = b)
  \/ exists l, members j l
     /\ may l "base" (balks l) (fun v => exists old, fresh base_struct no_id old /\ takes_struct zone base_struct v old (bFields c)) (bFields c = bFields b)
     /\ leaves_many l "j1" J1 (bJ1 c) /\ leaves_many l "j2" J2 (bJ2 c)
     /\ leaves_one l "k1" K1 (bK1 b) (bK1 c) /\ leaves_one l "k2" K2 (bK2 b) (bK2 c) /\ leaves_one l "k3" K3 (bK3 b) (bK3 c)
     /\ leaves_one l "k4" K4 (bK4 b) (bK4 c) /\ leaves_one l "l1" L1 (bL1 b) (bL1 c) /\ leaves_one l "n1" N1 (bN1 b) (bN1 c).
End Left.
