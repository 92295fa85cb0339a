(* Specification of the field encodings, written from the description of the
   Metro 2 format (struct field comments in /repo/pkg/lib) and without using the
   codec functions of the model.  Only the types of Codec.v (value, fields), the
   record [time] and list functions are used. *)
From Coq Require Import ZArith NArith Bool Ascii String List.
Import ListNotations.
From Verif Require Import GoBase GoTime Tables Codec.
Local Open Scope Z_scope.
Local Notation length := List.length.

(* ---- characters ---- *)

Definition digits : bytes := list_ascii_of_string "0123456789".

(* the characters allowed in text fields *)
Definition text_chars : bytes := list_ascii_of_string
  " 0123456789ABCDEFGHIJKLMNOPQRSTUVWXYZabcdefghijklmnopqrstuvwxyz_!""#$%&'()*+,-./:;<>=?@[\]^{}|~".

Definition code (c : ascii) : Z := Z.of_N (N_of_ascii c).

(* value of a decimal text *)
Fixpoint decimal (s : bytes) : Z :=
  match s with
  | [] => 0
  | c :: r => (code c - 48) * 10 ^ Z.of_nat (length r) + decimal r
  end.

(* value of a big-endian binary text *)
Fixpoint binary (s : bytes) : Z :=
  match s with
  | [] => 0
  | c :: r => code c * 256 ^ Z.of_nat (length r) + binary r
  end.

(* s is z in exactly w decimal digits *)
Definition decimal_text (w : nat) (z : Z) (s : bytes) : Prop :=
  length s = w /\ Forall (fun c => In c digits) s /\ decimal s = z.

(* ---- calendar ---- *)

Definition leap (y : Z) : Prop := (y mod 4 = 0 /\ y mod 100 <> 0) \/ y mod 400 = 0.

Definition month_days (y m : Z) (d : Z) : Prop :=
  (In m [1; 3; 5; 7; 8; 10; 12] /\ d = 31) \/
  (In m [4; 6; 9; 11] /\ d = 30) \/
  (m = 2 /\ leap y /\ d = 29) \/
  (m = 2 /\ ~ leap y /\ d = 28).

Definition calendar_date (y m d : Z) : Prop :=
  0 <= y <= 9999 /\ exists n, month_days y m n /\ 1 <= d <= n.

(* a UTC date at midnight / to the second, as the record formats can express *)
Definition plain_date (t : time) : Prop :=
  calendar_date (tYear t) (tMonth t) (tDay t)
  /\ tHour t = 0 /\ tMin t = 0 /\ tSec t = 0 /\ tNsec t = 0 /\ tOff t = None.

Definition plain_stamp (t : time) : Prop :=
  calendar_date (tYear t) (tMonth t) (tDay t)
  /\ 0 <= tHour t < 24 /\ 0 <= tMin t < 60 /\ 0 <= tSec t < 60
  /\ tNsec t = 0 /\ tOff t = None.

(* the zero value of the date type, used for "not available" *)
Definition no_date : time := mkTime 1 1 1 0 0 0 0 None.

(* ---- field kinds ---- *)

Inductive fkind :=
| FNumber      (* decimal digits, zero-filled *)
| FText        (* left-justified, blank-filled *)
| FDate        (* MMDDYYYY, zero-filled when not available *)
| FStamp       (* MMDDYYYYHHMMSS *)
| FWord        (* descriptor word: 16 bit big-endian and two zero bytes *)
| FBinary      (* binary number, big-endian *)
| FBinDate     (* 0x00, MMDDYYYY as 3 byte binary number, 0x73 *)
| FBinStamp    (* 0x00, MMDDYYYYHHMMSS as 6 byte binary number, 0x73 *)
| FReserved.   (* blank-filled, not part of the record's data *)

(* a documented field: name, width in bytes, kind, must be present *)
Record doc_field := Doc { dName : string; dWidth : nat; dKind : fkind; dMust : bool }.

(* the value can be represented in a field of that kind and width *)
Definition fits (d : doc_field) (v : value) : Prop :=
  match dKind d, v with
  | FNumber, VInt z => 0 <= z < 10 ^ Z.of_nat (dWidth d) /\ (dMust d = true -> z <> 0)
  | FText, VStr s =>
      (length s <= dWidth d)%nat /\ Forall (fun c => In c text_chars) s
      /\ (forall r, s <> r ++ [" "%char])
  | FDate, VTime t => plain_date t /\ (dMust d = true -> t <> no_date)
  | FStamp, VTime t => plain_stamp t /\ (dMust d = true -> t <> no_date)
  | FWord, VInt z => 0 <= z < 65536
  | FBinary, VInt z => 0 <= z < 256 ^ Z.of_nat (dWidth d)
  | FBinDate, VTime t => plain_date t
  | FBinStamp, VTime t => plain_stamp t
  | _, _ => False
  end.

(* the text of a fitting value in the record *)
Definition written (d : doc_field) (v : value) (s : bytes) : Prop :=
  match dKind d, v with
  | FNumber, VInt z => decimal_text (dWidth d) z s
  | FText, VStr t => s = t ++ repeat " "%char (dWidth d - length t)
  | FDate, VTime t =>
      (t = no_date /\ s = repeat "0"%char (dWidth d)) \/
      (t <> no_date /\ exists m d y, s = m ++ d ++ y
         /\ decimal_text 2 (tMonth t) m /\ decimal_text 2 (tDay t) d /\ decimal_text 4 (tYear t) y)
  | FStamp, VTime t =>
      (t = no_date /\ s = repeat "0"%char (dWidth d)) \/
      (t <> no_date /\ exists m d y h mi sec, s = m ++ d ++ y ++ h ++ mi ++ sec
         /\ decimal_text 2 (tMonth t) m /\ decimal_text 2 (tDay t) d /\ decimal_text 4 (tYear t) y
         /\ decimal_text 2 (tHour t) h /\ decimal_text 2 (tMin t) mi /\ decimal_text 2 (tSec t) sec)
  | FWord, VInt z =>
      exists b, s = b ++ [ascii_of_N 0; ascii_of_N 0] /\ length b = 2%nat /\ binary b = z
  | FBinary, VInt z => length s = dWidth d /\ binary s = z
  | FBinDate, VTime t =>
      exists b, s = ascii_of_N 0 :: b ++ [ascii_of_N 115] /\ length b = 3%nat
        /\ binary b = tMonth t * 10^6 + tDay t * 10^4 + tYear t
  | FBinStamp, VTime t =>
      exists b, s = ascii_of_N 0 :: b ++ [ascii_of_N 115] /\ length b = 6%nat
        /\ binary b = tMonth t * 10^12 + tDay t * 10^10 + tYear t * 10^6
                      + tHour t * 10^4 + tMin t * 100 + tSec t
  | _, _ => False
  end.

(* value of a field of a record *)
Definition holds (st : fields) (n : string) (v : value) : Prop := In (n, v) st.

(* every documented field of the record holds a fitting value *)
Definition record_fits (doc : list doc_field) (st : fields) : Prop :=
  forall d, In d doc -> dKind d <> FReserved ->
  exists v, holds st (dName d) v /\ fits d v.

(* text of a whole record body: the fields one after the other *)
Definition body_written (doc : list doc_field) (st : fields) (s : bytes) : Prop :=
  exists parts, s = List.concat parts /\
    Forall2 (fun d p => length p = dWidth d /\
      (dKind d = FReserved -> p = repeat " "%char (dWidth d)) /\
      (dKind d <> FReserved -> exists v, holds st (dName d) v /\ written d v p)) doc parts.

(* the struct type of the record: field names and Go types in order *)
Definition has_type (s : structure) (st : fields) : Prop :=
  map (fun p => (fst p, kind_of (snd p))) st = s.

(* ---- values of the right size, not necessarily fitting ---- *)

(* an instant with a 4-digit year, in any zone and to the nanosecond *)
Definition calendar_time (t : time) : Prop :=
  calendar_date (tYear t) (tMonth t) (tDay t)
  /\ 0 <= tHour t < 24 /\ 0 <= tMin t < 60 /\ 0 <= tSec t < 60.

(* any integer, any ASCII text of any length, any instant with a 4-digit year *)
Definition sized (v : value) : Prop :=
  match v with
  | VInt _ => True
  | VStr s => Forall (fun c => code c < 128) s
  | VTime t => calendar_time t
  end.

Definition record_sized (st : fields) : Prop := forall n v, holds st n v -> sized v.

(* one field of the text: its width is right, it is blank if reserved, text is
   cut or blank-filled, and any other value that fits is written as documented *)
Definition field_laid_out (st : fields) (d : doc_field) (p : bytes) : Prop :=
  length p = dWidth d
  /\ (dKind d = FReserved -> p = repeat " "%char (dWidth d))
  /\ (forall t, holds st (dName d) (VStr t) -> p = firstn (dWidth d) (t ++ repeat " "%char (dWidth d)))
  /\ (forall v, holds st (dName d) v -> fits d v -> written d v p).

(* the fields one after the other; not all of them need to fit *)
Definition body_laid_out (doc : list doc_field) (st : fields) (s : bytes) : Prop :=
  exists parts, s = List.concat parts /\ Forall2 (field_laid_out st) doc parts.

(* ---- what reading may produce ---- *)

(* a value that fits (a date that must be present may still be missing), or a
   negative number, whose sign takes one position *)
Definition read_fits (d : doc_field) (v : value) : Prop :=
  match v with
  | VInt z => fits d v \/ (dKind d = FNumber /\ - 10 ^ (Z.of_nat (dWidth d) - 1) < z < 0)
  | _ => fits (Doc (dName d) (dWidth d) (dKind d) false) v
  end.

(* the text is the one that would be written: numbers in digits only, blanks in
   reserved areas, unused bytes of binary fields as written, and not the first
   of January of year 1, which stands for "not available" *)
Definition canonical (d : doc_field) (s : bytes) : Prop :=
  match dKind d with
  | FNumber => Forall (fun c => In c digits) s
  | FText | FBinary => True
  | FDate => s <> list_ascii_of_string "01010001"
  | FStamp => s <> list_ascii_of_string "01010001000000"
  | FWord => exists b, s = b ++ [ascii_of_N 0; ascii_of_N 0]
  | FBinDate | FBinStamp => exists b, s = ascii_of_N 0 :: b ++ [ascii_of_N 115] /\ binary b <> 0
  | FReserved => s = repeat " "%char (dWidth d)
  end.

(* every documented field holds something reading may produce *)
Definition record_reads (doc : list doc_field) (st : fields) : Prop :=
  forall d, In d doc -> dKind d <> FReserved ->
  exists v, holds st (dName d) v /\ read_fits d v.

(* the text of a record body, field by field, is the one that would be written *)
Definition canonical_body (doc : list doc_field) (s : bytes) : Prop :=
  exists parts, s = List.concat parts /\
    Forall2 (fun d p => length p = dWidth d /\ canonical d p) doc parts.
