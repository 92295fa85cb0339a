(* Specification: JSON texts, the dates and values JSON can express, files that
   survive JSON, JSON values that differ in the order of keys only *)
From Coq Require Import ZArith NArith Bool Ascii String List Permutation.
Import ListNotations.
From Verif Require Import GoBase GoTime Tables Codec Records File SpecCodec SpecLayouts SpecRecords Json JsonFile.
Local Open Scope string_scope.
Local Open Scope Z_scope.
Local Open Scope list_scope.
Local Notation length := List.length.

(* ---- dates ---- *)

(* a calendar time to the second, in any zone *)
Definition clock (t : time) : Prop :=
  calendar_date (tYear t) (tMonth t) (tDay t)
  /\ 0 <= tHour t < 24 /\ 0 <= tMin t < 60 /\ 0 <= tSec t < 60 /\ tNsec t = 0.

(* the zone of a date in JSON: hours and minutes *)
Definition zone_minutes (o : Z) : Prop := exists m, o = 60 * m /\ 0 < Z.abs m < 1440.

Definition json_date (t : time) : Prop :=
  clock t /\ (tOff t = None \/ exists z, tOff t = Some z /\ zone_minutes z).

(* the one date that is written as the empty string is the zero date *)
Definition dated (t : time) : Prop := json_date t /\ (is_zero t = true -> t = no_date).

(* 2006-01-02T15:04:05Z *)
Definition rfc3339_utc (t : time) (s : bytes) : Prop :=
  exists y m d h mi sec, s = y ++ lit "-" ++ m ++ lit "-" ++ d ++ lit "T" ++ h ++ lit ":" ++ mi ++ lit ":" ++ sec ++ lit "Z"
  /\ decimal_text 4 (tYear t) y /\ decimal_text 2 (tMonth t) m /\ decimal_text 2 (tDay t) d
  /\ decimal_text 2 (tHour t) h /\ decimal_text 2 (tMin t) mi /\ decimal_text 2 (tSec t) sec.

(* ---- UTF-8 ---- *)

Definition chr (z : Z) : byte := ascii_of_N (Z.to_N z).

(* the encoding of the character with a number *)
Inductive encodes : Z -> bytes -> Prop :=
| Utf1 z : 0 <= z < 128 -> encodes z [chr z]
| Utf2 z : 128 <= z < 2048 -> encodes z [chr (192 + z / 64); chr (128 + z mod 64)]
| Utf3 z : 2048 <= z < 65536 -> ~ (55296 <= z < 57344) ->
    encodes z [chr (224 + z / 4096); chr (128 + z / 64 mod 64); chr (128 + z mod 64)]
| Utf4 z : 65536 <= z < 1114112 ->
    encodes z [chr (240 + z / 262144); chr (128 + z / 4096 mod 64); chr (128 + z / 64 mod 64); chr (128 + z mod 64)].

Definition utf8_char (r : bytes) : Prop := exists z, encodes z r.

Definition utf8_text (s : bytes) : Prop := exists l, Forall utf8_char l /\ s = List.concat l.

(* ---- JSON values that pass through any JSON program unchanged ---- *)

(* whole numbers up to 2^53, proper text, no key twice *)
Inductive plain_json : json -> Prop :=
| PNull : plain_json JNull
| PBool b : plain_json (JBool b)
| PNum z : Z.abs z <= 2 ^ 53 -> plain_json (JNum (itoa z))
| PStr s : utf8_text s -> plain_json (JStr s)
| PArr l : Forall plain_json l -> plain_json (JArr l)
| PObj l : NoDup (map fst l) -> Forall (fun m => utf8_text (fst m) /\ plain_json (snd m)) l -> plain_json (JObj l).

(* ---- the texts of a JSON value (RFC 8259) ---- *)

Definition white (c : byte) : Prop := c = " "%char \/ code c = 9 \/ code c = 10 \/ code c = 13.

(* hexadecimal digits, in both cases *)
Definition hex_digit (v : Z) (c : byte) : Prop :=
  0 <= v <= 9 /\ code c = 48 + v \/ 10 <= v <= 15 /\ (code c = 55 + v \/ code c = 87 + v).
Definition four_digits (z : Z) (t : bytes) : Prop :=
  exists a b c d x y u v, hex_digit a x /\ hex_digit b y /\ hex_digit c u /\ hex_digit d v
  /\ z = ((a * 16 + b) * 16 + c) * 16 + d /\ t = [x; y; u; v].

(* quote, backslash, slash and the control characters that have a letter *)
Definition short_escapes : list (Z * byte) :=
  [(34, chr 34); (92, chr 92); (47, "/"%char); (8, "b"%char); (12, "f"%char); (10, "n"%char);
   (13, "r"%char); (9, "t"%char)].

(* the ways to write the character with a number *)
Inductive spelled_char : Z -> bytes -> Prop :=
| Plain z r : encodes z r -> 32 <= z -> z <> 34 -> z <> 92 -> spelled_char z r
| Short z e : In (z, e) short_escapes -> spelled_char z [chr 92; e]
| Unicode z t : four_digits z t -> ~ (55296 <= z < 57344) -> spelled_char z (chr 92 :: "u"%char :: t)
| Surrogates h l t t' : four_digits h t -> four_digits l t' -> 55296 <= h < 56320 -> 56320 <= l < 57344 ->
    spelled_char (65536 + (h - 55296) * 1024 + (l - 56320))
      (chr 92 :: "u"%char :: t ++ chr 92 :: "u"%char :: t').

Inductive spelled_text : bytes -> bytes -> Prop :=
| TextEnd : spelled_text [] []
| TextChar z r q s t : encodes z r -> spelled_char z q -> spelled_text s t -> spelled_text (r ++ s) (q ++ t).

Definition string_text (s t : bytes) : Prop := exists q, spelled_text s q /\ t = chr 34 :: q ++ [chr 34].

(* numbers *)
Definition numerals (t : bytes) : Prop := t <> [] /\ Forall (fun c => 48 <= code c <= 57) t.
Definition number_text (t : bytes) : Prop :=
  exists sign whole fraction exponent, t = sign ++ whole ++ fraction ++ exponent
  /\ (sign = [] \/ sign = lit "-")
  /\ (whole = lit "0" \/ numerals whole /\ forall r, whole <> "0"%char :: r)
  /\ (fraction = [] \/ exists ds, fraction = "."%char :: ds /\ numerals ds)
  /\ (exponent = [] \/ exists e g ds, exponent = e :: g ++ ds /\ (e = "e"%char \/ e = "E"%char)
      /\ (g = [] \/ g = lit "+" \/ g = lit "-") /\ numerals ds).

(* white space may stand between the tokens *)
Inductive spells : json -> bytes -> Prop :=
| SNull : spells JNull (lit "null")
| STrue : spells (JBool true) (lit "true")
| SFalse : spells (JBool false) (lit "false")
| SNum t : number_text t -> spells (JNum t) t
| SStr s q : string_text s q -> spells (JStr s) q
| SNone w : Forall white w -> spells (JArr []) ("["%char :: w ++ ["]"%char])
| SArr l t : spells_list l t -> spells (JArr l) ("["%char :: t)
| SEmpty w : Forall white w -> spells (JObj []) ("{"%char :: w ++ ["}"%char])
| SObj l t : spells_members l t -> spells (JObj l) ("{"%char :: t)
with spells_list : list json -> bytes -> Prop :=
| SLast w w' j s : Forall white w -> Forall white w' -> spells j s ->
    spells_list [j] (w ++ s ++ w' ++ ["]"%char])
| SNext w w' j s l t : Forall white w -> Forall white w' -> spells j s -> spells_list l t ->
    spells_list (j :: l) (w ++ s ++ w' ++ ","%char :: t)
with spells_members : list (bytes * json) -> bytes -> Prop :=
| SLastMember w1 w2 w3 w4 k q j s : Forall white w1 -> Forall white w2 -> Forall white w3 -> Forall white w4 ->
    string_text k q -> spells j s ->
    spells_members [(k, j)] (w1 ++ q ++ w2 ++ ":"%char :: w3 ++ s ++ w4 ++ ["}"%char])
| SNextMember w1 w2 w3 w4 k q j s l t : Forall white w1 -> Forall white w2 -> Forall white w3 -> Forall white w4 ->
    string_text k q -> spells j s -> spells_members l t ->
    spells_members ((k, j) :: l) (w1 ++ q ++ w2 ++ ":"%char :: w3 ++ s ++ w4 ++ ","%char :: t).

(* ---- what the grammar allows, whatever it stands for: bytes that are not
   UTF-8 and halves of surrogate pairs included ---- *)

Inductive any_char : bytes -> Prop :=
| AnyPlain c : 32 <= code c -> code c <> 34 -> code c <> 92 -> any_char [c]
| AnyShort z e : In (z, e) short_escapes -> any_char [chr 92; e]
| AnyUnicode z t : four_digits z t -> any_char (chr 92 :: "u"%char :: t).
Definition any_string (t : bytes) : Prop :=
  exists l, Forall any_char l /\ t = chr 34 :: List.concat l ++ [chr 34].

Inductive json_text : bytes -> Prop :=
| AnyNull : json_text (lit "null")
| AnyTrue : json_text (lit "true")
| AnyFalse : json_text (lit "false")
| AnyNumber t : number_text t -> json_text t
| AnyString t : any_string t -> json_text t
| AnyNone w : Forall white w -> json_text ("["%char :: w ++ ["]"%char])
| AnyArray t : elements_text t -> json_text ("["%char :: t)
| AnyEmpty w : Forall white w -> json_text ("{"%char :: w ++ ["}"%char])
| AnyObject t : members_text t -> json_text ("{"%char :: t)
with elements_text : bytes -> Prop :=
| AnyLast w w' s : Forall white w -> Forall white w' -> json_text s -> elements_text (w ++ s ++ w' ++ ["]"%char])
| AnyNext w w' s t : Forall white w -> Forall white w' -> json_text s -> elements_text t ->
    elements_text (w ++ s ++ w' ++ ","%char :: t)
with members_text : bytes -> Prop :=
| AnyLastMember w1 w2 w3 w4 q s : Forall white w1 -> Forall white w2 -> Forall white w3 -> Forall white w4 ->
    any_string q -> json_text s -> members_text (w1 ++ q ++ w2 ++ ":"%char :: w3 ++ s ++ w4 ++ ["}"%char])
| AnyNextMember w1 w2 w3 w4 q s t : Forall white w1 -> Forall white w2 -> Forall white w3 -> Forall white w4 ->
    any_string q -> json_text s -> members_text t ->
    members_text (w1 ++ q ++ w2 ++ ":"%char :: w3 ++ s ++ w4 ++ ","%char :: t).

(* ---- the order of keys ---- *)

(* the same value but for the order of the keys of objects; keys are proper
   text and no key occurs twice *)
Inductive same_json : json -> json -> Prop :=
| SameNull : same_json JNull JNull
| SameBool b : same_json (JBool b) (JBool b)
| SameNum t : same_json (JNum t) (JNum t)
| SameStr s : same_json (JStr s) (JStr s)
| SameArr l l' : Forall2 same_json l l' -> same_json (JArr l) (JArr l')
| SameObj l m l' : NoDup (map fst l) -> Forall (fun x => utf8_text (fst x)) l ->
    Forall2 (fun x y => fst x = fst y /\ same_json (snd x) (snd y)) l m -> Permutation m l' ->
    same_json (JObj l) (JObj l').

(* ---- values, records and files that JSON can express ---- *)

Definition json_value (v : value) : Prop :=
  match v with
  | VInt z => Z.abs z <= 2 ^ 53
  | VStr s => utf8_text s
  | VTime t => dated t
  end.
Definition json_fields (st : fields) : Prop := forall n v, holds st n v -> json_value v.

Definition json_segment (s : segment) : Prop :=
  seg_typed s /\ json_fields (sFields s) /\ seg_validate s = None.

Definition json_base (b : base) : Prop :=
  base_typed b /\ json_fields (bFields b) /\ Forall json_segment (segments_of b).

Definition json_file (f : file) : Prop :=
  (exists h, flHeader f = RHeader (flPacked f) h /\ has_type header_struct h /\ json_fields h) /\
  Forall (fun r => exists b, r = RBase (flPacked f) b /\ json_base b) (flBases f) /\
  (exists t, flTrailer f = RTrailer (flPacked f) t /\ has_type trailer_struct t /\ json_fields t).

(* ---- keys that cannot be mixed up ---- *)

(* keys are ASCII and no two of them differ in case only *)
Definition clear_keys (l : list (bytes * json)) : Prop :=
  Forall (fun m => Forall (fun c => code c < 128) (fst m)) l /\ NoDup (map (fun m => to_upper (fst m)) l).

(* in the object and in the objects that are its members *)
Definition clear_json (j : json) : Prop :=
  match j with
  | JObj l => clear_keys l /\ (forall k h, In (k, JObj h) l -> clear_keys h)
  | _ => True
  end.

(* ---- the format of a file in JSON ---- *)

(* the number stored under a key, 0 if there is none *)
Definition number_at (h : list (bytes * json)) (key : string) (z : Z) : Prop :=
  In (lit key, JNum (itoa z)) h /\ Z.abs z <= 2 ^ 53
  \/ z = 0 /\ Forall (fun m => to_upper (fst m) <> to_upper (lit key)) h.

(* the text stored under a key, if any *)
Definition text_at (h : list (bytes * json)) (key : string) : Prop :=
  (exists s, In (lit key, JStr s) h) \/ Forall (fun m => to_upper (fst m) <> to_upper (lit key)) h.

(* the header of a file in JSON with its descriptor words *)
Definition header_words (h : list (bytes * json)) (bdw rdw : Z) : Prop :=
  clear_keys h /\ number_at h "blockDescriptorWord" bdw /\ number_at h "recordDescriptorWord" rdw
  /\ text_at h "recordIdentifier".

(* the format of the file is the one its header words stand for *)
Definition format_kept (f : file) : Prop :=
  exists h bdw rdw, flHeader f = RHeader (flPacked f) h /\ holds h "BlockDescriptorWord" (VInt bdw)
  /\ holds h "RecordDescriptorWord" (VInt rdw) /\ (flPacked f = true <-> rdw <> 426 /\ 0 < bdw).

(* ---- the host ---- *)

(* range visits every member of a map once, in some order *)
Definition orders (rt : runtime) : Prop := forall n l, Permutation l (rtOrder rt n l).

(* the same host but for the order in which range visits maps *)
Definition same_runtime (rt rt' : runtime) : Prop := rtFloat rt = rtFloat rt' /\ rtZone rt = rtZone rt'.
