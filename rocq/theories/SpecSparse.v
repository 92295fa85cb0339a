(* Specification: files described by JSON objects that leave fields out *)
From Coq Require Import ZArith NArith Bool Ascii String List.
Import ListNotations.
From Verif Require Import GoBase GoTime Tables Codec Records File SpecCodec SpecLayouts SpecRecords Json JsonFile SpecJson.
Local Open Scope string_scope.
Local Open Scope Z_scope.
Local Open Scope list_scope.
Local Notation length := List.length.

(* ---- keys ---- *)

Definition capital (c : byte) : bool := (65 <=? code c) && (code c <=? 90).
Definition small (c : byte) : byte := if capital c then ascii_of_N (Z.to_N (code c + 32)) else c.

(* ABCDef: the capitals of an abbreviation, not the one that begins a word *)
Fixpoint small_run (s : bytes) : bytes :=
  match s with
  | c :: ((d :: _) as r) => if capital c && capital d then small c :: small_run r else s
  | _ => s
  end.

(* the key of a field: its name with a small initial, abbreviations in small letters *)
Definition json_key (n : string) : bytes :=
  match list_ascii_of_string n with
  | c :: r => small c :: small_run r
  | [] => []
  end.

(* ---- values ---- *)

(* Z, +hh:mm or -hh:mm *)
Inductive zone_text : option Z -> bytes -> Prop :=
| ZoneUtc : zone_text None (lit "Z")
| ZoneEast m h mi : 0 <= m < 1440 -> decimal_text 2 (m / 60) h -> decimal_text 2 (m mod 60) mi ->
    zone_text (Some (60 * m)) (lit "+" ++ h ++ lit ":" ++ mi)
| ZoneWest m h mi : 0 <= m < 1440 -> decimal_text 2 (m / 60) h -> decimal_text 2 (m mod 60) mi ->
    zone_text (Some (- (60 * m))) (lit "-" ++ h ++ lit ":" ++ mi).

(* the start of a day *)
Definition midnight (t : time) : Prop :=
  calendar_date (tYear t) (tMonth t) (tDay t) /\ tHour t = 0 /\ tMin t = 0 /\ tSec t = 0 /\ tNsec t = 0 /\ tOff t = None.

(* parts of a second, in up to nine digits *)
Inductive fraction_text : Z -> bytes -> Prop :=
| FractionNone : fraction_text 0 []
| FractionSome k z ds : (1 <= k <= 9)%nat -> decimal_text k z ds -> fraction_text (z * 10 ^ (9 - Z.of_nat k)) (lit "." ++ ds).

(* a date and a time with its zone, or without one in UTC; or a date alone *)
Inductive date_text_of (t : time) : bytes -> Prop :=
| DateStamp y m d h mi sec f z : calendar_time t -> decimal_text 4 (tYear t) y -> decimal_text 2 (tMonth t) m -> decimal_text 2 (tDay t) d ->
    decimal_text 2 (tHour t) h -> decimal_text 2 (tMin t) mi -> decimal_text 2 (tSec t) sec -> fraction_text (tNsec t) f ->
    zone_text (tOff t) z \/ (tOff t = None /\ z = []) ->
    date_text_of t (y ++ lit "-" ++ m ++ lit "-" ++ d ++ lit "T" ++ h ++ lit ":" ++ mi ++ lit ":" ++ sec ++ f ++ z)
| DateDay y m d : midnight t -> decimal_text 4 (tYear t) y -> decimal_text 2 (tMonth t) m -> decimal_text 2 (tDay t) d ->
    date_text_of t (y ++ lit "-" ++ m ++ lit "-" ++ d)
| DateSlash y m d : midnight t -> decimal_text 4 (tYear t) y -> decimal_text 2 (tMonth t) m -> decimal_text 2 (tDay t) d ->
    date_text_of t (m ++ lit "/" ++ d ++ lit "/" ++ y)
| DateDash y m d : midnight t -> decimal_text 4 (tYear t) y -> decimal_text 2 (tMonth t) m -> decimal_text 2 (tDay t) d ->
    date_text_of t (m ++ lit "-" ++ d ++ lit "-" ++ y).

(* a value written out *)
Inductive stated : json -> value -> Prop :=
| StatedInt z : Z.abs z <= 2 ^ 53 -> stated (JNum (itoa z)) (VInt z)
| StatedStr s : utf8_text s -> stated (JStr s) (VStr s)
| StatedNoDate : stated (JStr []) (VTime no_date)
| StatedDate t s : date_text_of t s -> stated (JStr s) (VTime t).

(* a value left out: the identifier of the record, else nothing *)
Inductive left_out (id : string * bytes) (n : string) : value -> Prop :=
| LeftId : n = fst id -> left_out id n (VStr (snd id))
| LeftInt : n <> fst id -> left_out id n (VInt 0)
| LeftStr : n <> fst id -> left_out id n (VStr [])
| LeftDate : n <> fst id -> left_out id n (VTime no_date).

(* ---- structs ---- *)

Definition key_is (n : string) (k : bytes) : Prop := to_upper k = to_upper (json_key n).

(* every field has the value its key states, or is left out; numbers and texts
   are also left out by null. Other keys do not matter. *)
Definition describes (s : structure) (id : string * bytes) (l : list (bytes * json)) (st : fields) : Prop :=
  clear_keys l /\ has_type s st /\
  forall n v, holds st n v ->
    (exists k j, In (k, j) l /\ key_is n k /\ (stated j v \/ (j = JNull /\ kind_of v <> KTime /\ left_out id n v)))
    \/ ((forall k j, In (k, j) l -> ~ key_is n k) /\ left_out id n v).

Definition no_id : string * bytes := ("", []).
Definition segment_id (k : segkind) : string * bytes :=
  ("SegmentIdentifier", list_ascii_of_string match k with
   | J1 => "J1" | J2 => "J2" | K1 => "K1" | K2 => "K2" | K3 => "K3" | K4 => "K4" | L1 => "L1" | N1 => "N1" end).

Definition describes_segment (k : segkind) (j : json) (s : segment) : Prop :=
  sKind s = k /\ seg_validate s = None /\ exists l, j = JObj l /\ describes (seg_struct k) (segment_id k) l (sFields s).

(* ---- data records ---- *)

Definition absent (key : string) (l : list (bytes * json)) : Prop := ~ In (lit key) (map fst l).

(* an array of segments, or nothing *)
Definition describes_many (l : list (bytes * json)) (key : string) (k : segkind) (segs : list segment) : Prop :=
  (exists a, In (lit key, JArr a) l /\ Forall2 (describes_segment k) a segs)
  \/ ((absent key l \/ In (lit key, JNull) l) /\ segs = []).
(* a segment, or nothing *)
Definition describes_one (l : list (bytes * json)) (key : string) (k : segkind) (o : option segment) : Prop :=
  (exists j s, In (lit key, j) l /\ o = Some s /\ describes_segment k j s)
  \/ (absent key l /\ o = None).
(* an object, or nothing *)
Definition describes_object (l : list (bytes * json)) (key : string) (s : structure) (id : string * bytes) (st : fields) : Prop :=
  (exists o, In (lit key, JObj o) l /\ describes s id o st)
  \/ ((absent key l \/ In (lit key, JNull) l) /\ describes s id [] st).

Definition describes_base (j : json) (b : base) : Prop :=
  exists l, j = JObj l /\ describes_object l "base" base_struct no_id (bFields b)
  /\ describes_many l "j1" J1 (bJ1 b) /\ describes_many l "j2" J2 (bJ2 b)
  /\ describes_one l "k1" K1 (bK1 b) /\ describes_one l "k2" K2 (bK2 b) /\ describes_one l "k3" K3 (bK3 b)
  /\ describes_one l "k4" K4 (bK4 b) /\ describes_one l "l1" L1 (bL1 b) /\ describes_one l "n1" N1 (bN1 b).

(* ---- files ---- *)

Definition describes_file (j : json) (f : file) : Prop :=
  exists l h bases t, j = JObj l /\ f = mkFile (flPacked f) (RHeader (flPacked f) h) (map (RBase (flPacked f)) bases) (RTrailer (flPacked f) t)
  /\ describes_object l "header" header_struct ("RecordIdentifier", lit "HEADER") h
  /\ ((exists a, In (lit "data", JArr a) l /\ Forall2 describes_base a bases)
      \/ ((absent "data" l \/ In (lit "data", JNull) l) /\ bases = []))
  /\ describes_object l "trailer" trailer_struct ("RecordIdentifier", lit "TRAILER") t.

(* the keys of the file itself are spelt in small letters *)
Definition plain_keys (j : json) : Prop := exists l, j = JObj l /\ clear_keys l /\
  forall k v, In (k, v) l -> to_upper k = lit "HEADER" -> k = lit "header".

(* ---- several members with one key ---- *)

(* v is the value of the last member of l with the key k *)
Definition last_of {A} (l : list (bytes * A)) (k : bytes) (v : A) : Prop :=
  exists l1 l2, l = l1 ++ (k, v) :: l2 /\ ~ In k (map fst l2).

(* of the members of an object with one key only the last one counts *)
Inductive settled : json -> json -> Prop :=
| SettledNull : settled JNull JNull
| SettledBool b : settled (JBool b) (JBool b)
| SettledNum t : settled (JNum t) (JNum t)
| SettledStr s : settled (JStr s) (JStr s)
| SettledArr l l' : Forall2 settled l l' -> settled (JArr l) (JArr l')
| SettledObj l m l' : NoDup (map fst m) -> (forall k v, In (k, v) m <-> last_of l k v) ->
    Forall2 (fun x y => fst x = fst y /\ settled (snd x) (snd y)) m l' -> settled (JObj l) (JObj l').

(* plain, except that keys may occur several times *)
Inductive loose_json : json -> Prop :=
| LooseNull : loose_json JNull
| LooseBool b : loose_json (JBool b)
| LooseNum z : Z.abs z <= 2 ^ 53 -> loose_json (JNum (itoa z))
| LooseStr s : utf8_text s -> loose_json (JStr s)
| LooseArr l : Forall loose_json l -> loose_json (JArr l)
| LooseObj l : Forall (fun m => utf8_text (fst m) /\ loose_json (snd m)) l -> loose_json (JObj l).
