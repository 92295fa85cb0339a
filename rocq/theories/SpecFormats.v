(* Specification: the notations of dates that utils/time.go:52-223 lists, and what
   a date looks like in each of them *)
From Coq Require Import ZArith NArith Bool Ascii String List.
Import ListNotations.
From Verif Require Import GoBase GoTime GoLayout SpecCodec SpecSparse.
Local Open Scope string_scope.
Local Open Scope Z_scope.
Local Open Scope list_scope.
Local Notation length := List.length.

(* ---- the parts of a date ---- *)

Inductive offset_style := Plain (* -0700 *) | Colon (* -07:00 *) | Short (* -07 *)
  | ColonSeconds (* -07:00:00 *) | Bare (* -700 *).
Inductive half_style := Upper (* PM *) | Lower (* pm *) | Dots (* p.m. *).

Inductive part :=
| Text (s : string)
| Weekday (full : bool)           (* Monday, Mon *)
| MonthName (full : bool)         (* January, Jan *)
| Month (two : bool)              (* 01, 1 *)
| Day (two : bool)                (* 02, 2 *)
| DayBlank                        (* 02 with a blank for a leading zero *)
| Year                            (* 2006 *)
| ShortYear                       (* 06 *)
| Hour                            (* 15 *)
| HalfHour (two : bool)           (* 03, 3 *)
| Minute (two : bool)             (* 04, 4 *)
| Second (two : bool)             (* 05, 5 *)
| Fraction                        (* parts of a second, which may be missing *)
| Tenths                          (* .0 *)
| Half (style : half_style)       (* PM *)
| Zone                            (* MST *)
| Offset (style : offset_style)   (* -0700 *)
| OffsetOrZ.                      (* -07:00, or Z for none *)

Definition weekdays : list string :=
  ["Sunday"; "Monday"; "Tuesday"; "Wednesday"; "Thursday"; "Friday"; "Saturday"].
Definition months : list string :=
  ["January"; "February"; "March"; "April"; "May"; "June";
   "July"; "August"; "September"; "October"; "November"; "December"].
(* a name, or its first three letters *)
Definition named (full : bool) (name : string) : bytes := if full then lit name else firstn 3 (lit name).

(* in two digits, or without leading zeros *)
Inductive count_text : bool -> Z -> bytes -> Prop :=
| CountTwo z s : decimal_text 2 z s -> count_text true z s
| CountOne z s : z < 10 -> decimal_text 1 z s -> count_text false z s
| CountLong z s : 10 <= z -> decimal_text 2 z s -> count_text false z s.

(* hours on a clock of twelve *)
Definition half_hour (h : Z) : Z := if h mod 12 =? 0 then 12 else h mod 12.
Definition half_text (style : half_style) (pm : bool) : bytes :=
  lit (match style, pm with
       | Upper, true => "PM" | Upper, false => "AM"
       | Lower, true => "pm" | Lower, false => "am"
       | Dots, true => "p.m." | Dots, false => "a.m."
       end).

(* a distance from UTC in seconds *)
Definition offset_text (style : offset_style) (off : Z) (s : bytes) : Prop :=
  exists neg h m sec th tm ts, off = (if neg : bool then -1 else 1) * (h * 3600 + m * 60 + sec)
  /\ 0 <= h < 24 /\ 0 <= m < 60 /\ 0 <= sec < 60
  /\ decimal_text (match style with Bare => 1 | _ => 2 end) h th /\ decimal_text 2 m tm /\ decimal_text 2 sec ts
  /\ s = (if neg then lit "-" else lit "+") ++
         match style with
         | Plain | Bare => th ++ tm
         | Colon => th ++ lit ":" ++ tm
         | Short => th
         | ColonSeconds => th ++ lit ":" ++ tm ++ lit ":" ++ ts
         end
  /\ match style with ColonSeconds => True | Short => m = 0 /\ sec = 0 | _ => sec = 0 end.

(* the abbreviations of RFC 822 that name a zone, and UTC *)
Definition zones : list string := ["UTC"; "GMT"; "EST"; "EDT"; "CST"; "CDT"; "MST"; "MDT"; "PST"; "PDT"].

(* [s] is this part of the time [t], the zone being called [abbr]; the day of the
   week may be any *)
Definition part_text (abbr : string) (t : time) (p : part) (s : bytes) : Prop :=
  match p with
  | Text x => s = lit x
  | Weekday full => exists x, In x weekdays /\ s = named full x
  | MonthName full => exists x, nth_error months (Z.to_nat (tMonth t - 1)) = Some x /\ s = named full x
  | Month two => count_text two (tMonth t) s
  | Day two => count_text two (tDay t) s
  | DayBlank => (10 <= tDay t /\ decimal_text 2 (tDay t) s)
                \/ (tDay t < 10 /\ exists d, decimal_text 1 (tDay t) d /\ s = lit " " ++ d)
  | Year => decimal_text 4 (tYear t) s
  | ShortYear => 1969 <= tYear t <= 2068 /\ decimal_text 2 (tYear t mod 100) s
  | Hour => decimal_text 2 (tHour t) s
  | HalfHour two => count_text two (half_hour (tHour t)) s
  | Minute two => count_text two (tMin t) s
  | Second two => count_text two (tSec t) s
  | Fraction => fraction_text (tNsec t) s
  | Tenths => exists d, decimal_text 1 (tNsec t / 100000000) d /\ tNsec t mod 100000000 = 0 /\ s = lit "." ++ d
  | Half style => s = half_text style (12 <=? tHour t)
  | Zone => In abbr zones /\ s = lit abbr
  | Offset style => exists off, tOff t = Some off /\ offset_text style off s
  | OffsetOrZ => (tOff t = None /\ s = lit "Z") \/ exists off, tOff t = Some off /\ offset_text Colon off s
  end.

Inductive written (abbr : string) (t : time) : list part -> bytes -> Prop :=
| WrittenNil : written abbr t [] []
| WrittenCons p l s r : part_text abbr t p s -> written abbr t l r -> written abbr t (p :: l) (s ++ r).

(* what the notation does not tell is zero, or UTC *)
Definition tells (l : list part) (what : part -> bool) : bool := existsb what l.
Definition is_hour (p : part) : bool := match p with Hour | HalfHour _ => true | _ => false end.
Definition is_minute (p : part) : bool := match p with Minute _ => true | _ => false end.
Definition is_second (p : part) : bool := match p with Second _ => true | _ => false end.
Definition is_parts (p : part) : bool := match p with Fraction | Tenths => true | _ => false end.
Definition is_offset (p : part) : bool := match p with Offset _ | OffsetOrZ => true | _ => false end.
Definition is_zone (p : part) : bool := match p with Zone => true | _ => false end.
Definition no_more (l : list part) (t : time) : Prop :=
  (tells l is_hour = false -> tHour t = 0) /\ (tells l is_minute = false -> tMin t = 0)
  /\ (tells l is_second = false -> tSec t = 0) /\ (tells l is_parts = false -> tNsec t = 0)
  /\ (tells l is_offset = false -> tOff t = None).

(* the text of a time in a notation *)
Definition text_of (abbr : string) (t : time) (l : list part) (s : bytes) : Prop :=
  calendar_time t /\ no_more l t /\ written abbr t l s.

(* the time meant: [zone] is what the host makes of an abbreviation.  An offset
   beside the abbreviation counts. *)
Definition meant (zone : bytes -> time -> time) (l : list part) (abbr : string) (t : time) : time :=
  if tells l is_zone && negb (tells l is_offset) && negb (String.eqb abbr "UTC") then zone (lit abbr) t else t.

(* utils/time.go:52-223, each with its parts *)
Definition notations : list (string * list part) :=
  [
    ("01-02-2006", [Month true; Text "-"; Day true; Text "-"; Year]);
    ("01/02/2006", [Month true; Text "/"; Day true; Text "/"; Year]);
    ("01/02/2006 - 15:04", [Month true; Text "/"; Day true; Text "/"; Year; Text " - "; Hour; Text ":"; Minute true]);
    ("01/02/2006 15:04:05 MST", [Month true; Text "/"; Day true; Text "/"; Year; Text " "; Hour; Text ":"; Minute true; Text ":"; Second true; Fraction; Text " "; Zone]);
    ("01/02/2006 3:04 PM", [Month true; Text "/"; Day true; Text "/"; Year; Text " "; HalfHour false; Text ":"; Minute true; Text " "; Half Upper]);
    ("02-01-2006", [Day true; Text "-"; Month true; Text "-"; Year]);
    ("02/01/2006", [Day true; Text "/"; Month true; Text "/"; Year]);
    ("02.01.2006 -0700", [Day true; Text "."; Month true; Text "."; Year; Text " "; Offset Plain]);
    ("02/01/2006 - 15:04", [Day true; Text "/"; Month true; Text "/"; Year; Text " - "; Hour; Text ":"; Minute true]);
    ("02.01.2006 15:04", [Day true; Text "."; Month true; Text "."; Year; Text " "; Hour; Text ":"; Minute true]);
    ("02/01/2006 15:04:05", [Day true; Text "/"; Month true; Text "/"; Year; Text " "; Hour; Text ":"; Minute true; Text ":"; Second true; Fraction]);
    ("02.01.2006 15:04:05", [Day true; Text "."; Month true; Text "."; Year; Text " "; Hour; Text ":"; Minute true; Text ":"; Second true; Fraction]);
    ("02-01-2006 15:04:05 MST", [Day true; Text "-"; Month true; Text "-"; Year; Text " "; Hour; Text ":"; Minute true; Text ":"; Second true; Fraction; Text " "; Zone]);
    ("02/01/2006 15:04 MST", [Day true; Text "/"; Month true; Text "/"; Year; Text " "; Hour; Text ":"; Minute true; Text " "; Zone]);
    ("02 Jan 2006", [Day true; Text " "; MonthName false; Text " "; Year]);
    ("02 Jan 2006 15:04:05", [Day true; Text " "; MonthName false; Text " "; Year; Text " "; Hour; Text ":"; Minute true; Text ":"; Second true; Fraction]);
    ("02 Jan 2006 15:04:05 -0700", [Day true; Text " "; MonthName false; Text " "; Year; Text " "; Hour; Text ":"; Minute true; Text ":"; Second true; Fraction; Text " "; Offset Plain]);
    ("02 Jan 2006 15:04:05 MST", [Day true; Text " "; MonthName false; Text " "; Year; Text " "; Hour; Text ":"; Minute true; Text ":"; Second true; Fraction; Text " "; Zone]);
    ("02 Jan 2006 15:04:05 UT", [Day true; Text " "; MonthName false; Text " "; Year; Text " "; Hour; Text ":"; Minute true; Text ":"; Second true; Fraction; Text " UT"]);
    ("02 Jan 2006 15:04 MST", [Day true; Text " "; MonthName false; Text " "; Year; Text " "; Hour; Text ":"; Minute true; Text " "; Zone]);
    ("02 Monday, Jan 2006 15:04", [Day true; Text " "; Weekday true; Text ", "; MonthName false; Text " "; Year; Text " "; Hour; Text ":"; Minute true]);
    ("06-1-2 15:04", [ShortYear; Text "-"; Month false; Text "-"; Day false; Text " "; Hour; Text ":"; Minute true]);
    ("06/1/2 15:04", [ShortYear; Text "/"; Month false; Text "/"; Day false; Text " "; Hour; Text ":"; Minute true]);
    ("1/2/2006", [Month false; Text "/"; Day false; Text "/"; Year]);
    ("1/2/2006 15:04:05 MST", [Month false; Text "/"; Day false; Text "/"; Year; Text " "; Hour; Text ":"; Minute true; Text ":"; Second true; Fraction; Text " "; Zone]);
    ("1/2/2006 3:04:05 PM", [Month false; Text "/"; Day false; Text "/"; Year; Text " "; HalfHour false; Text ":"; Minute true; Text ":"; Second true; Fraction; Text " "; Half Upper]);
    ("1/2/2006 3:04:05 PM MST", [Month false; Text "/"; Day false; Text "/"; Year; Text " "; HalfHour false; Text ":"; Minute true; Text ":"; Second true; Fraction; Text " "; Half Upper; Text " "; Zone]);
    ("15:04 02.01.2006 -0700", [Hour; Text ":"; Minute true; Text " "; Day true; Text "."; Month true; Text "."; Year; Text " "; Offset Plain]);
    ("2006-01-02", [Year; Text "-"; Month true; Text "-"; Day true]);
    ("2006/01/02", [Year; Text "/"; Month true; Text "/"; Day true]);
    ("2006-01-02 00:00:00.0 15:04:05.0 -0700", [Year; Text "-"; Month true; Text "-"; Day true; Text " 00:00:00.0 "; Hour; Text ":"; Minute true; Text ":"; Second true; Tenths; Text " "; Offset Plain]);
    ("2006-01-02 15:04", [Year; Text "-"; Month true; Text "-"; Day true; Text " "; Hour; Text ":"; Minute true]);
    ("2006-01-02 15:04:05 -0700", [Year; Text "-"; Month true; Text "-"; Day true; Text " "; Hour; Text ":"; Minute true; Text ":"; Second true; Fraction; Text " "; Offset Plain]);
    ("2006-01-02 15:04:05-07:00", [Year; Text "-"; Month true; Text "-"; Day true; Text " "; Hour; Text ":"; Minute true; Text ":"; Second true; Fraction; Offset Colon]);
    ("2006-01-02 15:04:05-0700", [Year; Text "-"; Month true; Text "-"; Day true; Text " "; Hour; Text ":"; Minute true; Text ":"; Second true; Fraction; Offset Plain]);
    ("2006-01-02 15:04:05 MST", [Year; Text "-"; Month true; Text "-"; Day true; Text " "; Hour; Text ":"; Minute true; Text ":"; Second true; Fraction; Text " "; Zone]);
    ("2006-01-02 15:04:05Z", [Year; Text "-"; Month true; Text "-"; Day true; Text " "; Hour; Text ":"; Minute true; Text ":"; Second true; Fraction; Text "Z"]);
    ("2006-01-02 at 15:04:05", [Year; Text "-"; Month true; Text "-"; Day true; Text " at "; Hour; Text ":"; Minute true; Text ":"; Second true; Fraction]);
    ("2006-01-02T15:04:05", [Year; Text "-"; Month true; Text "-"; Day true; Text "T"; Hour; Text ":"; Minute true; Text ":"; Second true; Fraction]);
    ("2006-01-02T15:04:05:00", [Year; Text "-"; Month true; Text "-"; Day true; Text "T"; Hour; Text ":"; Minute true; Text ":"; Second true; Fraction; Text ":00"]);
    ("2006-01-02T15:04:05 -0700", [Year; Text "-"; Month true; Text "-"; Day true; Text "T"; Hour; Text ":"; Minute true; Text ":"; Second true; Fraction; Text " "; Offset Plain]);
    ("2006-01-02T15:04:05-07:00", [Year; Text "-"; Month true; Text "-"; Day true; Text "T"; Hour; Text ":"; Minute true; Text ":"; Second true; Fraction; Offset Colon]);
    ("2006-01-02T15:04:05-0700", [Year; Text "-"; Month true; Text "-"; Day true; Text "T"; Hour; Text ":"; Minute true; Text ":"; Second true; Fraction; Offset Plain]);
    ("2006-01-02T15:04:05:-0700", [Year; Text "-"; Month true; Text "-"; Day true; Text "T"; Hour; Text ":"; Minute true; Text ":"; Second true; Fraction; Text ":"; Offset Plain]);
    ("2006-01-02T15:04:05-07:00:00", [Year; Text "-"; Month true; Text "-"; Day true; Text "T"; Hour; Text ":"; Minute true; Text ":"; Second true; Fraction; Offset ColonSeconds]);
    ("2006-01-02T15:04:05Z", [Year; Text "-"; Month true; Text "-"; Day true; Text "T"; Hour; Text ":"; Minute true; Text ":"; Second true; Fraction; Text "Z"]);
    ("2006-01-02T15:04-07:00", [Year; Text "-"; Month true; Text "-"; Day true; Text "T"; Hour; Text ":"; Minute true; Offset Colon]);
    ("2006-01-02T15:04Z", [Year; Text "-"; Month true; Text "-"; Day true; Text "T"; Hour; Text ":"; Minute true; Text "Z"]);
    ("2006-1-02T15:04:05Z", [Year; Text "-"; Month false; Text "-"; Day true; Text "T"; Hour; Text ":"; Minute true; Text ":"; Second true; Fraction; Text "Z"]);
    ("2006-1-2", [Year; Text "-"; Month false; Text "-"; Day false]);
    ("2006-1-2 15:04:05", [Year; Text "-"; Month false; Text "-"; Day false; Text " "; Hour; Text ":"; Minute true; Text ":"; Second true; Fraction]);
    ("2006-1-2T15:04:05Z", [Year; Text "-"; Month false; Text "-"; Day false; Text "T"; Hour; Text ":"; Minute true; Text ":"; Second true; Fraction; Text "Z"]);
    ("2006 January 02", [Year; Text " "; MonthName true; Text " "; Day true]);
    ("2-1-2006", [Day false; Text "-"; Month false; Text "-"; Year]);
    ("2/1/2006", [Day false; Text "/"; Month false; Text "/"; Year]);
    ("2.1.2006 15:04:05", [Day false; Text "."; Month false; Text "."; Year; Text " "; Hour; Text ":"; Minute true; Text ":"; Second true; Fraction]);
    ("2 Jan 2006", [Day false; Text " "; MonthName false; Text " "; Year]);
    ("2 Jan 2006 15:04:05 -0700", [Day false; Text " "; MonthName false; Text " "; Year; Text " "; Hour; Text ":"; Minute true; Text ":"; Second true; Fraction; Text " "; Offset Plain]);
    ("2 Jan 2006 15:04:05 MST", [Day false; Text " "; MonthName false; Text " "; Year; Text " "; Hour; Text ":"; Minute true; Text ":"; Second true; Fraction; Text " "; Zone]);
    ("2 Jan 2006 15:04:05 Z", [Day false; Text " "; MonthName false; Text " "; Year; Text " "; Hour; Text ":"; Minute true; Text ":"; Second true; Fraction; Text " Z"]);
    ("2 January 2006", [Day false; Text " "; MonthName true; Text " "; Year]);
    ("2 January 2006 15:04:05 -0700", [Day false; Text " "; MonthName true; Text " "; Year; Text " "; Hour; Text ":"; Minute true; Text ":"; Second true; Fraction; Text " "; Offset Plain]);
    ("2 January 2006 15:04:05 MST", [Day false; Text " "; MonthName true; Text " "; Year; Text " "; Hour; Text ":"; Minute true; Text ":"; Second true; Fraction; Text " "; Zone]);
    ("6-1-2 15:04", [ShortYear; Text "-"; Month false; Text "-"; Day false; Text " "; Hour; Text ":"; Minute true]);
    ("6/1/2 15:04", [ShortYear; Text "/"; Month false; Text "/"; Day false; Text " "; Hour; Text ":"; Minute true]);
    ("Jan 02, 2006", [MonthName false; Text " "; Day true; Text ", "; Year]);
    ("Jan 02 2006 03:04:05PM", [MonthName false; Text " "; Day true; Text " "; Year; Text " "; HalfHour true; Text ":"; Minute true; Text ":"; Second true; Fraction; Half Upper]);
    ("Jan 2, 2006", [MonthName false; Text " "; Day false; Text ", "; Year]);
    ("Jan 2, 2006 15:04:05 MST", [MonthName false; Text " "; Day false; Text ", "; Year; Text " "; Hour; Text ":"; Minute true; Text ":"; Second true; Fraction; Text " "; Zone]);
    ("Jan 2, 2006 3:04:05 PM", [MonthName false; Text " "; Day false; Text ", "; Year; Text " "; HalfHour false; Text ":"; Minute true; Text ":"; Second true; Fraction; Text " "; Half Upper]);
    ("Jan 2, 2006 3:04:05 PM MST", [MonthName false; Text " "; Day false; Text ", "; Year; Text " "; HalfHour false; Text ":"; Minute true; Text ":"; Second true; Fraction; Text " "; Half Upper; Text " "; Zone]);
    ("January 02, 2006", [MonthName true; Text " "; Day true; Text ", "; Year]);
    ("January 02, 2006 03:04 PM", [MonthName true; Text " "; Day true; Text ", "; Year; Text " "; HalfHour true; Text ":"; Minute true; Text " "; Half Upper]);
    ("January 02, 2006 15:04", [MonthName true; Text " "; Day true; Text ", "; Year; Text " "; Hour; Text ":"; Minute true]);
    ("January 02, 2006 15:04:05 MST", [MonthName true; Text " "; Day true; Text ", "; Year; Text " "; Hour; Text ":"; Minute true; Text ":"; Second true; Fraction; Text " "; Zone]);
    ("January 2, 2006", [MonthName true; Text " "; Day false; Text ", "; Year]);
    ("January 2, 2006 03:04 PM", [MonthName true; Text " "; Day false; Text ", "; Year; Text " "; HalfHour true; Text ":"; Minute true; Text " "; Half Upper]);
    ("January 2, 2006 15:04:05", [MonthName true; Text " "; Day false; Text ", "; Year; Text " "; Hour; Text ":"; Minute true; Text ":"; Second true; Fraction]);
    ("January 2, 2006 15:04:05 MST", [MonthName true; Text " "; Day false; Text ", "; Year; Text " "; Hour; Text ":"; Minute true; Text ":"; Second true; Fraction; Text " "; Zone]);
    ("January 2, 2006, 3:04 p.m.", [MonthName true; Text " "; Day false; Text ", "; Year; Text ", "; HalfHour false; Text ":"; Minute true; Text " "; Half Dots]);
    ("January 2, 2006 3:04 PM", [MonthName true; Text " "; Day false; Text ", "; Year; Text " "; HalfHour false; Text ":"; Minute true; Text " "; Half Upper]);
    ("Mon, 02 Jan 06 15:04:05 MST", [Weekday false; Text ", "; Day true; Text " "; MonthName false; Text " "; ShortYear; Text " "; Hour; Text ":"; Minute true; Text ":"; Second true; Fraction; Text " "; Zone]);
    ("Mon, 02 Jan 2006", [Weekday false; Text ", "; Day true; Text " "; MonthName false; Text " "; Year]);
    ("Mon, 02 Jan 2006 15:04:05", [Weekday false; Text ", "; Day true; Text " "; MonthName false; Text " "; Year; Text " "; Hour; Text ":"; Minute true; Text ":"; Second true; Fraction]);
    ("Mon, 02 Jan 2006 15:04:05 00", [Weekday false; Text ", "; Day true; Text " "; MonthName false; Text " "; Year; Text " "; Hour; Text ":"; Minute true; Text ":"; Second true; Fraction; Text " 00"]);
    ("Mon, 02 Jan 2006 15:04:05 -07", [Weekday false; Text ", "; Day true; Text " "; MonthName false; Text " "; Year; Text " "; Hour; Text ":"; Minute true; Text ":"; Second true; Fraction; Text " "; Offset Short]);
    ("Mon 02 Jan 2006 15:04:05 -0700", [Weekday false; Text " "; Day true; Text " "; MonthName false; Text " "; Year; Text " "; Hour; Text ":"; Minute true; Text ":"; Second true; Fraction; Text " "; Offset Plain]);
    ("Mon, 02 Jan 2006 15:04:05 --0700", [Weekday false; Text ", "; Day true; Text " "; MonthName false; Text " "; Year; Text " "; Hour; Text ":"; Minute true; Text ":"; Second true; Fraction; Text " -"; Offset Plain]);
    ("Mon, 02 Jan 2006 15:04:05 -07:00", [Weekday false; Text ", "; Day true; Text " "; MonthName false; Text " "; Year; Text " "; Hour; Text ":"; Minute true; Text ":"; Second true; Fraction; Text " "; Offset Colon]);
    ("Mon, 02 Jan 2006 15:04:05 -0700", [Weekday false; Text ", "; Day true; Text " "; MonthName false; Text " "; Year; Text " "; Hour; Text ":"; Minute true; Text ":"; Second true; Fraction; Text " "; Offset Plain]);
    ("Mon,02 Jan 2006 15:04:05 -0700", [Weekday false; Text ","; Day true; Text " "; MonthName false; Text " "; Year; Text " "; Hour; Text ":"; Minute true; Text ":"; Second true; Fraction; Text " "; Offset Plain]);
    ("Mon, 02 Jan 2006 15:04:05 GMT-0700", [Weekday false; Text ", "; Day true; Text " "; MonthName false; Text " "; Year; Text " "; Hour; Text ":"; Minute true; Text ":"; Second true; Fraction; Text " GMT"; Offset Plain]);
    ("Mon , 02 Jan 2006 15:04:05 MST", [Weekday false; Text " , "; Day true; Text " "; MonthName false; Text " "; Year; Text " "; Hour; Text ":"; Minute true; Text ":"; Second true; Fraction; Text " "; Zone]);
    ("Mon, 02 Jan 2006 15:04:05 MST", [Weekday false; Text ", "; Day true; Text " "; MonthName false; Text " "; Year; Text " "; Hour; Text ":"; Minute true; Text ":"; Second true; Fraction; Text " "; Zone]);
    ("Mon, 02 Jan 2006 15:04:05MST", [Weekday false; Text ", "; Day true; Text " "; MonthName false; Text " "; Year; Text " "; Hour; Text ":"; Minute true; Text ":"; Second true; Fraction; Zone]);
    ("Mon, 02 Jan 2006, 15:04:05 MST", [Weekday false; Text ", "; Day true; Text " "; MonthName false; Text " "; Year; Text ", "; Hour; Text ":"; Minute true; Text ":"; Second true; Fraction; Text " "; Zone]);
    ("Mon, 02 Jan 2006 15:04:05 MST -0700", [Weekday false; Text ", "; Day true; Text " "; MonthName false; Text " "; Year; Text " "; Hour; Text ":"; Minute true; Text ":"; Second true; Fraction; Text " "; Zone; Text " "; Offset Plain]);
    ("Mon, 02 Jan 2006 15:04:05 MST-07:00", [Weekday false; Text ", "; Day true; Text " "; MonthName false; Text " "; Year; Text " "; Hour; Text ":"; Minute true; Text ":"; Second true; Fraction; Text " "; Zone; Offset Colon]);
    ("Mon, 02 Jan 2006 15:04:05 UT", [Weekday false; Text ", "; Day true; Text " "; MonthName false; Text " "; Year; Text " "; Hour; Text ":"; Minute true; Text ":"; Second true; Fraction; Text " UT"]);
    ("Mon, 02 Jan 2006 15:04:05 Z", [Weekday false; Text ", "; Day true; Text " "; MonthName false; Text " "; Year; Text " "; Hour; Text ":"; Minute true; Text ":"; Second true; Fraction; Text " Z"]);
    ("Mon, 02 Jan 2006 15:04 -0700", [Weekday false; Text ", "; Day true; Text " "; MonthName false; Text " "; Year; Text " "; Hour; Text ":"; Minute true; Text " "; Offset Plain]);
    ("Mon, 02 Jan 2006 15:04 MST", [Weekday false; Text ", "; Day true; Text " "; MonthName false; Text " "; Year; Text " "; Hour; Text ":"; Minute true; Text " "; Zone]);
    ("Mon,02 Jan 2006 15:04 MST", [Weekday false; Text ","; Day true; Text " "; MonthName false; Text " "; Year; Text " "; Hour; Text ":"; Minute true; Text " "; Zone]);
    ("Mon, 02 Jan 2006 15 -0700", [Weekday false; Text ", "; Day true; Text " "; MonthName false; Text " "; Year; Text " "; Hour; Text " "; Offset Plain]);
    ("Mon, 02 Jan 2006 3:04:05 PM MST", [Weekday false; Text ", "; Day true; Text " "; MonthName false; Text " "; Year; Text " "; HalfHour false; Text ":"; Minute true; Text ":"; Second true; Fraction; Text " "; Half Upper; Text " "; Zone]);
    ("Mon, 02 January 2006", [Weekday false; Text ", "; Day true; Text " "; MonthName true; Text " "; Year]);
    ("Mon,02 January 2006 14:04:05 MST", [Weekday false; Text ","; Day true; Text " "; MonthName true; Text " "; Year; Text " "; Hour; Text ":"; Minute true; Text ":"; Second true; Fraction; Text " "; Zone]);
    ("Mon, 2006-01-02 15:04", [Weekday false; Text ", "; Year; Text "-"; Month true; Text "-"; Day true; Text " "; Hour; Text ":"; Minute true]);
    ("Mon, 2 Jan 06 15:04:05 -0700", [Weekday false; Text ", "; Day false; Text " "; MonthName false; Text " "; ShortYear; Text " "; Hour; Text ":"; Minute true; Text ":"; Second true; Fraction; Text " "; Offset Plain]);
    ("Mon, 2 Jan 06 15:04:05 MST", [Weekday false; Text ", "; Day false; Text " "; MonthName false; Text " "; ShortYear; Text " "; Hour; Text ":"; Minute true; Text ":"; Second true; Fraction; Text " "; Zone]);
    ("Mon, 2 Jan 15:04:05 MST", [Weekday false; Text ", "; Day false; Text " "; MonthName false; Text " "; Hour; Text ":"; Minute true; Text ":"; Second true; Fraction; Text " "; Zone]);
    ("Mon, 2 Jan 2006", [Weekday false; Text ", "; Day false; Text " "; MonthName false; Text " "; Year]);
    ("Mon,2 Jan 2006", [Weekday false; Text ","; Day false; Text " "; MonthName false; Text " "; Year]);
    ("Mon, 2 Jan 2006 15:04", [Weekday false; Text ", "; Day false; Text " "; MonthName false; Text " "; Year; Text " "; Hour; Text ":"; Minute true]);
    ("Mon, 2 Jan 2006 15:04:05", [Weekday false; Text ", "; Day false; Text " "; MonthName false; Text " "; Year; Text " "; Hour; Text ":"; Minute true; Text ":"; Second true; Fraction]);
    ("Mon, 2 Jan 2006 15:04:05 -0700", [Weekday false; Text ", "; Day false; Text " "; MonthName false; Text " "; Year; Text " "; Hour; Text ":"; Minute true; Text ":"; Second true; Fraction; Text " "; Offset Plain]);
    ("Mon, 2 Jan 2006 15:04:05-0700", [Weekday false; Text ", "; Day false; Text " "; MonthName false; Text " "; Year; Text " "; Hour; Text ":"; Minute true; Text ":"; Second true; Fraction; Offset Plain]);
    ("Mon, 2 Jan 2006 15:04:05 -0700 MST", [Weekday false; Text ", "; Day false; Text " "; MonthName false; Text " "; Year; Text " "; Hour; Text ":"; Minute true; Text ":"; Second true; Fraction; Text " "; Offset Plain; Text " "; Zone]);
    ("mon,2 Jan 2006 15:04:05 MST", [Weekday false; Text ","; Day false; Text " "; MonthName false; Text " "; Year; Text " "; Hour; Text ":"; Minute true; Text ":"; Second true; Fraction; Text " "; Zone]);
    ("Mon 2 Jan 2006 15:04:05 MST", [Weekday false; Text " "; Day false; Text " "; MonthName false; Text " "; Year; Text " "; Hour; Text ":"; Minute true; Text ":"; Second true; Fraction; Text " "; Zone]);
    ("Mon, 2 Jan 2006 15:04:05 MST", [Weekday false; Text ", "; Day false; Text " "; MonthName false; Text " "; Year; Text " "; Hour; Text ":"; Minute true; Text ":"; Second true; Fraction; Text " "; Zone]);
    ("Mon, 2 Jan 2006 15:04:05MST", [Weekday false; Text ", "; Day false; Text " "; MonthName false; Text " "; Year; Text " "; Hour; Text ":"; Minute true; Text ":"; Second true; Fraction; Zone]);
    ("Mon, 2 Jan 2006 15:04:05 UT", [Weekday false; Text ", "; Day false; Text " "; MonthName false; Text " "; Year; Text " "; Hour; Text ":"; Minute true; Text ":"; Second true; Fraction; Text " UT"]);
    ("Mon, 2 Jan 2006 15:04 -0700", [Weekday false; Text ", "; Day false; Text " "; MonthName false; Text " "; Year; Text " "; Hour; Text ":"; Minute true; Text " "; Offset Plain]);
    ("Mon, 2 Jan 2006, 15:04 -0700", [Weekday false; Text ", "; Day false; Text " "; MonthName false; Text " "; Year; Text ", "; Hour; Text ":"; Minute true; Text " "; Offset Plain]);
    ("Mon, 2 Jan 2006 15:04 MST", [Weekday false; Text ", "; Day false; Text " "; MonthName false; Text " "; Year; Text " "; Hour; Text ":"; Minute true; Text " "; Zone]);
    ("Mon, 2, Jan 2006 15:4", [Weekday false; Text ", "; Day false; Text ", "; MonthName false; Text " "; Year; Text " "; Hour; Text ":"; Minute false]);
    ("Mon, 2 Jan 2006 15:4:5 -0700 GMT", [Weekday false; Text ", "; Day false; Text " "; MonthName false; Text " "; Year; Text " "; Hour; Text ":"; Minute false; Text ":"; Second false; Fraction; Text " "; Offset Plain; Text " GMT"]);
    ("Mon, 2 Jan 2006 15:4:5 MST", [Weekday false; Text ", "; Day false; Text " "; MonthName false; Text " "; Year; Text " "; Hour; Text ":"; Minute false; Text ":"; Second false; Fraction; Text " "; Zone]);
    ("Mon, 2 Jan 2006 3:04:05 PM -0700", [Weekday false; Text ", "; Day false; Text " "; MonthName false; Text " "; Year; Text " "; HalfHour false; Text ":"; Minute true; Text ":"; Second true; Fraction; Text " "; Half Upper; Text " "; Offset Plain]);
    ("Mon, 2 January 2006", [Weekday false; Text ", "; Day false; Text " "; MonthName true; Text " "; Year]);
    ("Mon, 2 January 2006 15:04:05 -0700", [Weekday false; Text ", "; Day false; Text " "; MonthName true; Text " "; Year; Text " "; Hour; Text ":"; Minute true; Text ":"; Second true; Fraction; Text " "; Offset Plain]);
    ("Mon, 2 January 2006 15:04:05 MST", [Weekday false; Text ", "; Day false; Text " "; MonthName true; Text " "; Year; Text " "; Hour; Text ":"; Minute true; Text ":"; Second true; Fraction; Text " "; Zone]);
    ("Mon, 2 January 2006, 15:04:05 MST", [Weekday false; Text ", "; Day false; Text " "; MonthName true; Text " "; Year; Text ", "; Hour; Text ":"; Minute true; Text ":"; Second true; Fraction; Text " "; Zone]);
    ("Mon, 2 January 2006, 15:04 -0700", [Weekday false; Text ", "; Day false; Text " "; MonthName true; Text " "; Year; Text ", "; Hour; Text ":"; Minute true; Text " "; Offset Plain]);
    ("Mon, 2 January 2006 15:04 MST", [Weekday false; Text ", "; Day false; Text " "; MonthName true; Text " "; Year; Text " "; Hour; Text ":"; Minute true; Text " "; Zone]);
    ("Monday, 02 January 2006 15:04:05", [Weekday true; Text ", "; Day true; Text " "; MonthName true; Text " "; Year; Text " "; Hour; Text ":"; Minute true; Text ":"; Second true; Fraction]);
    ("Monday, 02 January 2006 15:04:05 -0700", [Weekday true; Text ", "; Day true; Text " "; MonthName true; Text " "; Year; Text " "; Hour; Text ":"; Minute true; Text ":"; Second true; Fraction; Text " "; Offset Plain]);
    ("Monday, 02 January 2006 15:04:05 MST", [Weekday true; Text ", "; Day true; Text " "; MonthName true; Text " "; Year; Text " "; Hour; Text ":"; Minute true; Text ":"; Second true; Fraction; Text " "; Zone]);
    ("Monday, 2 Jan 2006 15:04:05 -0700", [Weekday true; Text ", "; Day false; Text " "; MonthName false; Text " "; Year; Text " "; Hour; Text ":"; Minute true; Text ":"; Second true; Fraction; Text " "; Offset Plain]);
    ("Monday, 2 Jan 2006 15:04:05 MST", [Weekday true; Text ", "; Day false; Text " "; MonthName false; Text " "; Year; Text " "; Hour; Text ":"; Minute true; Text ":"; Second true; Fraction; Text " "; Zone]);
    ("Monday, 2 January 2006 15:04:05 -0700", [Weekday true; Text ", "; Day false; Text " "; MonthName true; Text " "; Year; Text " "; Hour; Text ":"; Minute true; Text ":"; Second true; Fraction; Text " "; Offset Plain]);
    ("Monday, 2 January 2006 15:04:05 MST", [Weekday true; Text ", "; Day false; Text " "; MonthName true; Text " "; Year; Text " "; Hour; Text ":"; Minute true; Text ":"; Second true; Fraction; Text " "; Zone]);
    ("Monday, January 02, 2006", [Weekday true; Text ", "; MonthName true; Text " "; Day true; Text ", "; Year]);
    ("Monday, January 2, 2006", [Weekday true; Text ", "; MonthName true; Text " "; Day false; Text ", "; Year]);
    ("Monday, January 2, 2006 03:04 PM", [Weekday true; Text ", "; MonthName true; Text " "; Day false; Text ", "; Year; Text " "; HalfHour true; Text ":"; Minute true; Text " "; Half Upper]);
    ("Monday, January 2, 2006 15:04:05 MST", [Weekday true; Text ", "; MonthName true; Text " "; Day false; Text ", "; Year; Text " "; Hour; Text ":"; Minute true; Text ":"; Second true; Fraction; Text " "; Zone]);
    ("Mon Jan 02 2006 15:04:05 -0700", [Weekday false; Text " "; MonthName false; Text " "; Day true; Text " "; Year; Text " "; Hour; Text ":"; Minute true; Text ":"; Second true; Fraction; Text " "; Offset Plain]);
    ("Mon, Jan 02,2006 15:04:05 MST", [Weekday false; Text ", "; MonthName false; Text " "; Day true; Text ","; Year; Text " "; Hour; Text ":"; Minute true; Text ":"; Second true; Fraction; Text " "; Zone]);
    ("Mon Jan 02, 2006 3:04 pm", [Weekday false; Text " "; MonthName false; Text " "; Day true; Text ", "; Year; Text " "; HalfHour false; Text ":"; Minute true; Text " "; Half Lower]);
    ("Mon Jan 2 15:04:05 2006 MST", [Weekday false; Text " "; MonthName false; Text " "; Day false; Text " "; Hour; Text ":"; Minute true; Text ":"; Second true; Fraction; Text " "; Year; Text " "; Zone]);
    ("Mon Jan 2 15:04 2006", [Weekday false; Text " "; MonthName false; Text " "; Day false; Text " "; Hour; Text ":"; Minute true; Text " "; Year]);
    ("Mon, Jan 2 2006 15:04:05 -0700", [Weekday false; Text ", "; MonthName false; Text " "; Day false; Text " "; Year; Text " "; Hour; Text ":"; Minute true; Text ":"; Second true; Fraction; Text " "; Offset Plain]);
    ("Mon, Jan 2 2006 15:04:05 -700", [Weekday false; Text ", "; MonthName false; Text " "; Day false; Text " "; Year; Text " "; Hour; Text ":"; Minute true; Text ":"; Second true; Fraction; Text " "; Offset Bare]);
    ("Mon, Jan 2, 2006 15:04:05 MST", [Weekday false; Text ", "; MonthName false; Text " "; Day false; Text ", "; Year; Text " "; Hour; Text ":"; Minute true; Text ":"; Second true; Fraction; Text " "; Zone]);
    ("Mon, Jan 2 2006 15:04 MST", [Weekday false; Text ", "; MonthName false; Text " "; Day false; Text " "; Year; Text " "; Hour; Text ":"; Minute true; Text " "; Zone]);
    ("Mon, Jan 2, 2006 15:04 MST", [Weekday false; Text ", "; MonthName false; Text " "; Day false; Text ", "; Year; Text " "; Hour; Text ":"; Minute true; Text " "; Zone]);
    ("Mon, January 02, 2006 15:04:05 MST", [Weekday false; Text ", "; MonthName true; Text " "; Day true; Text ", "; Year; Text " "; Hour; Text ":"; Minute true; Text ":"; Second true; Fraction; Text " "; Zone]);
    ("Mon, January 02, 2006, 15:04:05 MST", [Weekday false; Text ", "; MonthName true; Text " "; Day true; Text ", "; Year; Text ", "; Hour; Text ":"; Minute true; Text ":"; Second true; Fraction; Text " "; Zone]);
    ("Mon, January 2 2006 15:04:05 -0700", [Weekday false; Text ", "; MonthName true; Text " "; Day false; Text " "; Year; Text " "; Hour; Text ":"; Minute true; Text ":"; Second true; Fraction; Text " "; Offset Plain]);
    ("Updated January 2, 2006", [Text "Updated "; MonthName true; Text " "; Day false; Text ", "; Year]);
    ("Mon Jan _2 15:04:05 2006", [Weekday false; Text " "; MonthName false; Text " "; DayBlank; Text " "; Hour; Text ":"; Minute true; Text ":"; Second true; Fraction; Text " "; Year]);
    ("Mon, 02 Jan 2006 15:04:05 MST", [Weekday false; Text ", "; Day true; Text " "; MonthName false; Text " "; Year; Text " "; Hour; Text ":"; Minute true; Text ":"; Second true; Fraction; Text " "; Zone]);
    ("Mon, 02 Jan 2006 15:04:05 -0700", [Weekday false; Text ", "; Day true; Text " "; MonthName false; Text " "; Year; Text " "; Hour; Text ":"; Minute true; Text ":"; Second true; Fraction; Text " "; Offset Plain]);
    ("2006-01-02T15:04:05Z07:00", [Year; Text "-"; Month true; Text "-"; Day true; Text "T"; Hour; Text ":"; Minute true; Text ":"; Second true; Fraction; OffsetOrZ]);
    ("02 Jan 06 15:04 MST", [Day true; Text " "; MonthName false; Text " "; ShortYear; Text " "; Hour; Text ":"; Minute true; Text " "; Zone]);
    ("02 Jan 06 15:04 -0700", [Day true; Text " "; MonthName false; Text " "; ShortYear; Text " "; Hour; Text ":"; Minute true; Text " "; Offset Plain]);
    ("Monday, 02-Jan-06 15:04:05 MST", [Weekday true; Text ", "; Day true; Text "-"; MonthName false; Text "-"; ShortYear; Text " "; Hour; Text ":"; Minute true; Text ":"; Second true; Fraction; Text " "; Zone]);
    ("Mon Jan 02 15:04:05 -0700 2006", [Weekday false; Text " "; MonthName false; Text " "; Day true; Text " "; Hour; Text ":"; Minute true; Text ":"; Second true; Fraction; Text " "; Offset Plain; Text " "; Year]);
    ("Mon Jan _2 15:04:05 MST 2006", [Weekday false; Text " "; MonthName false; Text " "; DayBlank; Text " "; Hour; Text ":"; Minute true; Text ":"; Second true; Fraction; Text " "; Zone; Text " "; Year]) ].

(* ---- the formats that are not always read ---- *)

(* a day up to the 12th is taken for the month *)
Definition ambiguous : list string :=
  ["02-01-2006"; "02/01/2006"; "02/01/2006 - 15:04"; "2-1-2006"; "2/1/2006"].
(* an offset below 24 minutes is taken for the name of a zone *)
Definition near : list string :=
  ["Mon, 2 Jan 06 15:04:05 -0700"; "Mon, 2 Jan 2006 15:04:05-0700"; "Mon, 2 Jan 2006 3:04:05 PM -0700"; "02 Jan 06 15:04 -0700"].
(* never read as meant *)
Definition unreadable : list string :=
  ["January 2, 2006, 3:04 p.m."; "Mon,02 January 2006 14:04:05 MST"; "Mon, 2 Jan 15:04:05 MST"; "mon,2 Jan 2006 15:04:05 MST";
   "Mon, Jan 2 2006 15:04:05 -700"].

(* what a format and a time have to meet *)
Definition readable (name : string) (l : list part) (abbr : string) (t : time) : Prop :=
  ~ In name unreadable
  /\ (In name ambiguous -> 12 < tDay t \/ (name = "2-1-2006" /\ (tDay t < 10 \/ tMonth t < 10)))
  /\ (In name near -> forall off, tOff t = Some off -> 1440 <= Z.abs off)
  /\ (tells l is_zone = true -> tells l is_offset = true -> abbr <> "UTC" /\ abbr <> "GMT")
  /\ tOff t <> Some (-1).

(* white space *)
Definition white (s : bytes) : Prop := Forall (fun c => In (N_of_ascii c) [9; 10; 11; 12; 13; 32]%N) s.

(* day and month exchanged *)
Definition exchanged (t : time) : time := mkTime (tYear t) (tDay t) (tMonth t) (tHour t) (tMin t) (tSec t) (tNsec t) (tOff t).

(* a text of [t] in the format [name] that is not read as meant *)
Definition misread (zone : bytes -> time -> time) (name : string) : Prop :=
  exists l abbr t s, In (name, l) notations /\ text_of abbr t l s /\ parse_date_string zone s <> Some (meant zone l abbr t).
