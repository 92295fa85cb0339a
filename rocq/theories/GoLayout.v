(* time.Parse of Go's standard library for the layouts of pkg/utils/time.go,
   and parseDate, UnmarshalJSON and MarshalJSON of utils.Time.
   Trusted transcription of time/format.go: nextStdChunk, skip, lookup, getnum,
   parseNanoseconds, parseTimeZone and parse.  Not transcribed: day-of-year
   elements (no layout has one) and the resolution of zone abbreviations, which
   depends on the time zone database of the host and is left open. *)
From Coq Require Import ZArith NArith Bool Ascii String List.
Import ListNotations.
From Verif Require Import GoBase GoTime.
Local Open Scope string_scope.
Local Open Scope Z_scope.
Local Open Scope list_scope.
Local Notation length := List.length.

(* elements of a layout, time/format.go *)
Inductive zone_form := ZShort | ZPlain | ZColon | ZSeconds | ZColonSeconds.
(* time/format.go std constants, for the Parse call of pkg/utils/time.go:233 *)
Inductive std :=
| StdLongMonth | StdMonth | StdNumMonth | StdZeroMonth
| StdLongWeekDay | StdWeekDay | StdDay | StdUnderDay | StdZeroDay
| StdHour | StdHour12 | StdZeroHour12 | StdMinute | StdZeroMinute
| StdSecond | StdZeroSecond | StdLongYear | StdYear
| StdPM | StdLowerPM | StdTZ
| StdISOTZ (z : zone_form) | StdNumTZ (z : zone_form)
| StdFrac0 (digits : nat) | StdFrac9 (digits : nat).

(* strings.HasPrefix in time/format.go, for the Parse call of pkg/utils/time.go:233 *)
Definition has_prefix (p : string) (s : bytes) : bool :=
  bytes_eqb (firstn (length (lit p)) s) (lit p).

(* time/format.go startsWithLowerCase, for the Parse call of pkg/utils/time.go:233 *)
Definition starts_lower (s : bytes) : bool :=
  match s with c :: _ => in_range 97 122 c | [] => false end.

(* time/format.go the digits of a fraction in nextStdChunk, for the Parse call of pkg/utils/time.go:233 *)
Fixpoint run_of (c : byte) (s : bytes) : nat :=
  match s with x :: r => if byte_eqb x c then S (run_of c r) else 0%nat | [] => 0%nat end.

(* time/format.go isDigit, for the Parse call of pkg/utils/time.go:233 *)
Definition starts_digit (s : bytes) : bool :=
  match s with c :: _ => is_digit c | [] => false end.

(* the zone elements after the leading '-' or 'Z';
   time/format.go nextStdChunk, for the Parse call of pkg/utils/time.go:233 *)
Definition zone_at (lead : string) (s : bytes) : option (zone_form * nat) :=
  if has_prefix (String.append lead "070000") s then Some (ZSeconds, 7%nat)
  else if has_prefix (String.append lead "07:00:00") s then Some (ZColonSeconds, 9%nat)
  else if has_prefix (String.append lead "0700") s then Some (ZPlain, 5%nat)
  else if has_prefix (String.append lead "07:00") s then Some (ZColon, 6%nat)
  else if has_prefix (String.append lead "07") s then Some (ZShort, 3%nat)
  else None.

(* the element at the head of the layout and its length;
   time/format.go nextStdChunk, for the Parse call of pkg/utils/time.go:233 *)
Definition std_at (s : bytes) : option (std * nat) :=
  match s with
  | [] => None
  | c :: r =>
      if byte_eqb c "J" then
        if has_prefix "January" s then Some (StdLongMonth, 7%nat)
        else if has_prefix "Jan" s && negb (starts_lower (skipn 3 s)) then Some (StdMonth, 3%nat)
        else None
      else if byte_eqb c "M" then
        if has_prefix "Monday" s then Some (StdLongWeekDay, 6%nat)
        else if has_prefix "Mon" s && negb (starts_lower (skipn 3 s)) then Some (StdWeekDay, 3%nat)
        else if has_prefix "MST" s then Some (StdTZ, 3%nat)
        else None
      else if byte_eqb c "0" then
        if has_prefix "01" s then Some (StdZeroMonth, 2%nat)
        else if has_prefix "02" s then Some (StdZeroDay, 2%nat)
        else if has_prefix "03" s then Some (StdZeroHour12, 2%nat)
        else if has_prefix "04" s then Some (StdZeroMinute, 2%nat)
        else if has_prefix "05" s then Some (StdZeroSecond, 2%nat)
        else if has_prefix "06" s then Some (StdYear, 2%nat)
        else None
      else if byte_eqb c "1" then
        if has_prefix "15" s then Some (StdHour, 2%nat) else Some (StdNumMonth, 1%nat)
      else if byte_eqb c "2" then
        if has_prefix "2006" s then Some (StdLongYear, 4%nat) else Some (StdDay, 1%nat)
      else if byte_eqb c "_" then
        if has_prefix "_2006" s then None
        else if has_prefix "_2" s then Some (StdUnderDay, 2%nat)
        else None
      else if byte_eqb c "3" then Some (StdHour12, 1%nat)
      else if byte_eqb c "4" then Some (StdMinute, 1%nat)
      else if byte_eqb c "5" then Some (StdSecond, 1%nat)
      else if byte_eqb c "P" then if has_prefix "PM" s then Some (StdPM, 2%nat) else None
      else if byte_eqb c "p" then if has_prefix "pm" s then Some (StdLowerPM, 2%nat) else None
      else if byte_eqb c "-" then
        match zone_at "-" s with Some (z, n) => Some (StdNumTZ z, n) | None => None end
      else if byte_eqb c "Z" then
        match zone_at "Z" s with Some (z, n) => Some (StdISOTZ z, n) | None => None end
      else if byte_eqb c "." || byte_eqb c "," then
        match r with
        | d :: _ =>
            if byte_eqb d "0" || byte_eqb d "9" then
              let n := run_of d r in
              if starts_digit (skipn n r) then None
              else Some (if byte_eqb d "0" then StdFrac0 n else StdFrac9 n, S n)
            else None
        | [] => None
        end
      else None
  end.

(* a layout as literal text before each element, and the text after the last;
   what nextStdChunk cuts a layout into, for the Parse call of pkg/utils/time.go:233 *)
Record chunked := mkChunked { chList : list (bytes * std); chRest : bytes }.

(* repeated nextStdChunk; [pre] is the literal text collected so far;
   for the Parse call of pkg/utils/time.go:233 *)
Fixpoint chunks_of (fuel : nat) (pre : bytes) (s : bytes) : chunked :=
  match fuel with
  | O => mkChunked [] pre
  | S fuel =>
      match s with
      | [] => mkChunked [] pre
      | c :: r =>
          match std_at s with
          | Some (d, n) =>
              let rest := chunks_of fuel [] (skipn n s) in
              mkChunked ((pre, d) :: chList rest) (chRest rest)
          | None => chunks_of fuel (pre ++ [c]) r
          end
      end
  end.
(* a layout of pkg/utils/time.go:52-223, cut *)
Definition chunks (layout : string) : chunked :=
  chunks_of (S (length (lit layout))) [] (lit layout).

(* time/format.go cutspace *)
Fixpoint cut_space (s : bytes) : bytes :=
  match s with c :: r => if byte_eqb c " " then cut_space r else s | [] => [] end.

(* time/format.go skip; a run of blanks in the layout matches any number of blanks *)
Fixpoint skip_prefix (prefix value : bytes) (blanks : bool) : option bytes :=
  match prefix with
  | [] => Some value
  | p :: prefix' =>
      if byte_eqb p " " then
        if blanks then skip_prefix prefix' value true
        else match value with
             | v :: _ => if byte_eqb v " " then skip_prefix prefix' (cut_space value) true else None
             | [] => skip_prefix prefix' [] true
             end
      else match value with
           | v :: value' => if byte_eqb v p then skip_prefix prefix' value' false else None
           | [] => None
           end
  end.

(* time/format.go lookup with match: ASCII case is ignored *)
Definition lower_char (c : byte) : byte := if in_range 65 90 c then zbyte (bval c + 32) else c.
(* time/format.go lookup, for the Parse call of pkg/utils/time.go:233 *)
Fixpoint lookup_name (tab : list string) (n : Z) (value : bytes) : option (Z * bytes) :=
  match tab with
  | [] => None
  | v :: tab' =>
      let k := length (lit v) in
      if bytes_eqb (map lower_char (firstn k value)) (map lower_char (lit v))
      then Some (n, skipn k value)
      else lookup_name tab' (n + 1) value
  end.
(* time/format.go for the Parse call of pkg/utils/time.go:233 *)
Definition shortMonthNames : list string :=
  ["Jan"; "Feb"; "Mar"; "Apr"; "May"; "Jun"; "Jul"; "Aug"; "Sep"; "Oct"; "Nov"; "Dec"].
(* time/format.go for the Parse call of pkg/utils/time.go:233 *)
Definition longMonthNames : list string :=
  ["January"; "February"; "March"; "April"; "May"; "June"; "July"; "August";
   "September"; "October"; "November"; "December"].
(* time/format.go for the Parse call of pkg/utils/time.go:233 *)
Definition shortDayNames : list string := ["Sun"; "Mon"; "Tue"; "Wed"; "Thu"; "Fri"; "Sat"].
(* time/format.go for the Parse call of pkg/utils/time.go:233 *)
Definition longDayNames : list string :=
  ["Sunday"; "Monday"; "Tuesday"; "Wednesday"; "Thursday"; "Friday"; "Saturday"].

(* time/format.go atoi *)
Definition time_atoi (s : bytes) : option Z :=
  match s with
  | c :: r =>
      if byte_eqb c "-" then if forallb is_digit r then Some (- dval r) else None
      else if byte_eqb c "+" then if forallb is_digit r then Some (dval r) else None
      else if forallb is_digit s then Some (dval s) else None
  | [] => Some 0
  end.

(* time/format.go parseNanoseconds *)
Definition nanoseconds (s : bytes) : option Z :=
  match s with
  | c :: r =>
      if byte_eqb c "." || byte_eqb c "," then
        let ds := firstn 9 r in
        match time_atoi ds with
        | Some ns => if ns <? 0 then None else Some (ns * 10 ^ (9 - Z.of_nat (length ds)))
        | None => None
        end
      else None
  | [] => None
  end.

(* time/format.go parseSignedOffset, parseGMT, parseTimeZone *)
Definition signed_offset (s : bytes) : nat :=
  match s with
  | c :: r =>
      if byte_eqb c "-" || byte_eqb c "+" then
        let '(ds, _) := take_digits r in
        match ds with
        | [] => 0%nat
        | _ => if 23 <? dval ds then 0%nat else S (length ds)
        end
      else 0%nat
  | [] => 0%nat
  end.

(* time/format.go the loop of parseTimeZone, for the Parse call of pkg/utils/time.go:233 *)
Fixpoint count_upper (s : bytes) : nat :=
  match s with c :: r => if in_range 65 90 c then S (count_upper r) else 0%nat | [] => 0%nat end.

(* time/format.go parseTimeZone, for the Parse call of pkg/utils/time.go:233 *)
Definition time_zone_length (s : bytes) : option nat :=
  if (length s <? 3)%nat then None
  else if has_prefix "ChST" s || has_prefix "MeST" s then Some 4%nat
  else if has_prefix "GMT" s then Some (3 + signed_offset (skipn 3 s))%nat
  else match s with
       | c :: _ =>
           if byte_eqb c "+" || byte_eqb c "-" then
             match signed_offset s with O => None | n => Some n end
           else
             match count_upper s with
             | 5%nat => if bytes_eqb (firstn 1 (skipn 4 s)) (lit "T") then Some 5%nat else None
             | 4%nat => if bytes_eqb (firstn 1 (skipn 3 s)) (lit "T") || has_prefix "WITA" s
                        then Some 4%nat else None
             | 3%nat => Some 3%nat
             | _ => None
             end
       | [] => None
       end.

(* the variables of parse; time/format.go parse, for the Parse call of pkg/utils/time.go:233 *)
Record parsed := mkParsed {
  pYear : Z; pMonth : Z; pDay : Z; pHour : Z; pMin : Z; pSec : Z; pNsec : Z;
  pAm : bool; pPm : bool; pUTC : bool; pOffset : Z; pZone : bytes }.
(* time/format.go their values at the start of parse *)
Definition parsed0 : parsed := mkParsed 0 (-1) (-1) 0 0 0 0 false false false (-1) [].
(* time/format.go an assignment of parse *)
Definition set_year v p := mkParsed v (pMonth p) (pDay p) (pHour p) (pMin p) (pSec p) (pNsec p) (pAm p) (pPm p) (pUTC p) (pOffset p) (pZone p).
(* time/format.go an assignment of parse *)
Definition set_month v p := mkParsed (pYear p) v (pDay p) (pHour p) (pMin p) (pSec p) (pNsec p) (pAm p) (pPm p) (pUTC p) (pOffset p) (pZone p).
(* time/format.go an assignment of parse *)
Definition set_day v p := mkParsed (pYear p) (pMonth p) v (pHour p) (pMin p) (pSec p) (pNsec p) (pAm p) (pPm p) (pUTC p) (pOffset p) (pZone p).
(* time/format.go an assignment of parse *)
Definition set_hour v p := mkParsed (pYear p) (pMonth p) (pDay p) v (pMin p) (pSec p) (pNsec p) (pAm p) (pPm p) (pUTC p) (pOffset p) (pZone p).
(* time/format.go an assignment of parse *)
Definition set_min v p := mkParsed (pYear p) (pMonth p) (pDay p) (pHour p) v (pSec p) (pNsec p) (pAm p) (pPm p) (pUTC p) (pOffset p) (pZone p).
(* time/format.go an assignment of parse *)
Definition set_sec v p := mkParsed (pYear p) (pMonth p) (pDay p) (pHour p) (pMin p) v (pNsec p) (pAm p) (pPm p) (pUTC p) (pOffset p) (pZone p).
(* time/format.go an assignment of parse *)
Definition set_nsec v p := mkParsed (pYear p) (pMonth p) (pDay p) (pHour p) (pMin p) (pSec p) v (pAm p) (pPm p) (pUTC p) (pOffset p) (pZone p).
(* time/format.go an assignment of parse *)
Definition set_am p := mkParsed (pYear p) (pMonth p) (pDay p) (pHour p) (pMin p) (pSec p) (pNsec p) true (pPm p) (pUTC p) (pOffset p) (pZone p).
(* time/format.go an assignment of parse *)
Definition set_pm p := mkParsed (pYear p) (pMonth p) (pDay p) (pHour p) (pMin p) (pSec p) (pNsec p) (pAm p) true (pUTC p) (pOffset p) (pZone p).
(* time/format.go an assignment of parse *)
Definition set_utc p := mkParsed (pYear p) (pMonth p) (pDay p) (pHour p) (pMin p) (pSec p) (pNsec p) (pAm p) (pPm p) true (pOffset p) (pZone p).
(* time/format.go an assignment of parse *)
Definition set_offset v p := mkParsed (pYear p) (pMonth p) (pDay p) (pHour p) (pMin p) (pSec p) (pNsec p) (pAm p) (pPm p) (pUTC p) v (pZone p).
(* time/format.go an assignment of parse *)
Definition set_zone v p := mkParsed (pYear p) (pMonth p) (pDay p) (pHour p) (pMin p) (pSec p) (pNsec p) (pAm p) (pPm p) (pUTC p) (pOffset p) v.

(* a number of one or two digits within bounds;
   time/format.go getnum and the range checks of parse, for the Parse call of pkg/utils/time.go:233 *)
Definition num_in (lo hi : Z) (fixed : bool) (value : bytes) : option (Z * bytes) :=
  match getnum value fixed with
  | Some (n, r) => if (lo <=? n) && (n <=? hi) then Some (n, r) else None
  | None => None
  end.

(* sign, hours, minutes and seconds of a numeric zone and what follows;
   time/format.go the case of the zone elements in parse, for the Parse call of pkg/utils/time.go:233 *)
Definition zone_parts (z : zone_form) (v : bytes) : option (byte * bytes * bytes * bytes * bytes) :=
  match z, v with
  | ZColon, s :: h1 :: h2 :: c :: m1 :: m2 :: r =>
      if byte_eqb c ":" then Some (s, [h1; h2], [m1; m2], lit "00", r) else None
  | ZShort, s :: h1 :: h2 :: r => Some (s, [h1; h2], lit "00", lit "00", r)
  | ZColonSeconds, s :: h1 :: h2 :: c :: m1 :: m2 :: d :: s1 :: s2 :: r =>
      if byte_eqb c ":" && byte_eqb d ":" then Some (s, [h1; h2], [m1; m2], [s1; s2], r) else None
  | ZSeconds, s :: h1 :: h2 :: m1 :: m2 :: s1 :: s2 :: r => Some (s, [h1; h2], [m1; m2], [s1; s2], r)
  | ZPlain, s :: h1 :: h2 :: m1 :: m2 :: r => Some (s, [h1; h2], [m1; m2], lit "00", r)
  | _, _ => None
  end.

(* time/format.go the case of the zone elements in parse, for the Parse call of pkg/utils/time.go:233 *)
Definition num_zone (z : zone_form) (p : parsed) (v : bytes) : option (parsed * bytes) :=
  match zone_parts z v with
  | Some (s, h, m, sec, r) =>
      match num_in 0 24 true h, num_in 0 60 true m, num_in 0 60 true sec with
      | Some (hr, _), Some (mm, _), Some (ss, _) =>
          let off := (hr * 60 + mm) * 60 + ss in
          if byte_eqb s "+" then Some (set_offset off p, r)
          else if byte_eqb s "-" then Some (set_offset (- off) p, r)
          else None
      | _, _, _ => None
      end
  | None => None
  end.

(* one element; [frac]: the next element of the layout is a fractional second;
   time/format.go the switch of parse, for the Parse call of pkg/utils/time.go:233 *)
Definition parse_std (frac : bool) (d : std) (p : parsed) (v : bytes) : option (parsed * bytes) :=
  match d with
  | StdYear =>
      match v with
      | a :: b :: r =>
          match time_atoi [a; b] with
          | Some y => Some (set_year (if 69 <=? y then y + 1900 else y + 2000) p, r)
          | None => None
          end
      | _ => None
      end
  | StdLongYear =>
      match getyear v with Some (y, r) => Some (set_year y p, r) | None => None end
  | StdMonth =>
      match lookup_name shortMonthNames 1 v with Some (m, r) => Some (set_month m p, r) | None => None end
  | StdLongMonth =>
      match lookup_name longMonthNames 1 v with Some (m, r) => Some (set_month m p, r) | None => None end
  | StdNumMonth =>
      match num_in 1 12 false v with Some (m, r) => Some (set_month m p, r) | None => None end
  | StdZeroMonth =>
      match num_in 1 12 true v with Some (m, r) => Some (set_month m p, r) | None => None end
  | StdWeekDay =>
      match lookup_name shortDayNames 0 v with Some (_, r) => Some (p, r) | None => None end
  | StdLongWeekDay =>
      match lookup_name longDayNames 0 v with Some (_, r) => Some (p, r) | None => None end
  | StdDay =>
      match getnum v false with Some (n, r) => Some (set_day n p, r) | None => None end
  | StdUnderDay =>
      let v' := match v with c :: r => if byte_eqb c " " then r else v | [] => v end in
      match getnum v' false with Some (n, r) => Some (set_day n p, r) | None => None end
  | StdZeroDay =>
      match getnum v true with Some (n, r) => Some (set_day n p, r) | None => None end
  | StdHour =>
      match num_in 0 23 false v with Some (n, r) => Some (set_hour n p, r) | None => None end
  | StdHour12 =>
      match num_in 0 12 false v with Some (n, r) => Some (set_hour n p, r) | None => None end
  | StdZeroHour12 =>
      match num_in 0 12 true v with Some (n, r) => Some (set_hour n p, r) | None => None end
  | StdMinute =>
      match num_in 0 59 false v with Some (n, r) => Some (set_min n p, r) | None => None end
  | StdZeroMinute =>
      match num_in 0 59 true v with Some (n, r) => Some (set_min n p, r) | None => None end
  | StdSecond | StdZeroSecond =>
      match num_in 0 59 (match d with StdZeroSecond => true | _ => false end) v with
      | Some (n, r) =>
          if frac then Some (set_sec n p, r)
          else match opt_fraction r with
               | Some (ns, r') =>
                   if (length r' =? length r)%nat then Some (set_sec n p, r)
                   else Some (set_nsec ns (set_sec n p), r')
               | None => None
               end
      | None => None
      end
  | StdPM =>
      if has_prefix "PM" v then Some (set_pm p, skipn 2 v)
      else if has_prefix "AM" v then Some (set_am p, skipn 2 v) else None
  | StdLowerPM =>
      if has_prefix "pm" v then Some (set_pm p, skipn 2 v)
      else if has_prefix "am" v then Some (set_am p, skipn 2 v) else None
  | StdISOTZ z =>
      if has_prefix "Z" v then Some (set_utc p, skipn 1 v) else num_zone z p v
  | StdNumTZ z => num_zone z p v
  | StdTZ =>
      if has_prefix "UTC" v then Some (set_utc p, skipn 3 v)
      else match time_zone_length v with
           | Some n => Some (set_zone (firstn n v) p, skipn n v)
           | None => None
           end
  | StdFrac0 n =>
      if (length v <? S n)%nat then None
      else match nanoseconds (firstn (S n) v) with
           | Some ns => Some (set_nsec ns p, skipn (S n) v)
           | None => None
           end
  | StdFrac9 _ =>
      match opt_fraction v with
      | Some (ns, r) => if (length r =? length v)%nat then Some (p, v) else Some (set_nsec ns p, r)
      | None => None
      end
  end.

(* time/format.go the look ahead of stdSecond in parse *)
Definition is_frac (l : list (bytes * std)) : bool :=
  match l with (_, StdFrac0 _) :: _ | (_, StdFrac9 _) :: _ => true | _ => false end.

(* the loop of parse over the elements of the layout; for the Parse call of pkg/utils/time.go:233 *)
Fixpoint parse_chunks (l : list (bytes * std)) (rest : bytes) (p : parsed) (v : bytes) : option parsed :=
  match l with
  | [] => match skip_prefix rest v false with Some [] => Some p | _ => None end
  | (pre, d) :: l' =>
      match skip_prefix pre v false with
      | Some v1 =>
          match parse_std (is_frac l') d p v1 with
          | Some (p', v2) => parse_chunks l' rest p' v2
          | None => None
          end
      | None => None
      end
  end.

(* the end of parse: AM/PM, day of the month and location.  [zone] stands for
   what the host's time zone database makes of an abbreviation *)
Definition parsed_time (zone : bytes -> time -> time) (p : parsed) : option time :=
  let hour := if pPm p && (pHour p <? 12) then pHour p + 12
              else if negb (pPm p && (pHour p <? 12)) && pAm p && (pHour p =? 12) then 0
              else pHour p in
  let month := if pMonth p <? 0 then 1 else pMonth p in
  let day := if pDay p <? 0 then 1 else pDay p in
  if valid_day (pYear p) month day then
    let at_ := mkTime (pYear p) month day hour (pMin p) (pSec p) (pNsec p) in
    if pUTC p then Some (at_ None)
    else if negb (pOffset p =? -1) then Some (at_ (Some (pOffset p)))
    else match pZone p with
         | [] => Some (at_ None)
         | z => Some (zone z (at_ None))
         end
  else None.

(* time.Parse(layout, value) *)
Definition parse_layout (zone : bytes -> time -> time) (layout : string) (value : bytes) : option time :=
  let c := chunks layout in
  match parse_chunks (chList c) (chRest c) parsed0 value with
  | Some p => parsed_time zone p
  | None => None
  end.

(* utils/time.go:52-223; the last nine are the named layouts of package time *)
Definition dateFormats : list string :=
  [ "01-02-2006";
    "01/02/2006";
    "01/02/2006 - 15:04";
    "01/02/2006 15:04:05 MST";
    "01/02/2006 3:04 PM";
    "02-01-2006";
    "02/01/2006";
    "02.01.2006 -0700";
    "02/01/2006 - 15:04";
    "02.01.2006 15:04";
    "02/01/2006 15:04:05";
    "02.01.2006 15:04:05";
    "02-01-2006 15:04:05 MST";
    "02/01/2006 15:04 MST";
    "02 Jan 2006";
    "02 Jan 2006 15:04:05";
    "02 Jan 2006 15:04:05 -0700";
    "02 Jan 2006 15:04:05 MST";
    "02 Jan 2006 15:04:05 UT";
    "02 Jan 2006 15:04 MST";
    "02 Monday, Jan 2006 15:04";
    "06-1-2 15:04";
    "06/1/2 15:04";
    "1/2/2006";
    "1/2/2006 15:04:05 MST";
    "1/2/2006 3:04:05 PM";
    "1/2/2006 3:04:05 PM MST";
    "15:04 02.01.2006 -0700";
    "2006-01-02";
    "2006/01/02";
    "2006-01-02 00:00:00.0 15:04:05.0 -0700";
    "2006-01-02 15:04";
    "2006-01-02 15:04:05 -0700";
    "2006-01-02 15:04:05-07:00";
    "2006-01-02 15:04:05-0700";
    "2006-01-02 15:04:05 MST";
    "2006-01-02 15:04:05Z";
    "2006-01-02 at 15:04:05";
    "2006-01-02T15:04:05";
    "2006-01-02T15:04:05:00";
    "2006-01-02T15:04:05 -0700";
    "2006-01-02T15:04:05-07:00";
    "2006-01-02T15:04:05-0700";
    "2006-01-02T15:04:05:-0700";
    "2006-01-02T15:04:05-07:00:00";
    "2006-01-02T15:04:05Z";
    "2006-01-02T15:04-07:00";
    "2006-01-02T15:04Z";
    "2006-1-02T15:04:05Z";
    "2006-1-2";
    "2006-1-2 15:04:05";
    "2006-1-2T15:04:05Z";
    "2006 January 02";
    "2-1-2006";
    "2/1/2006";
    "2.1.2006 15:04:05";
    "2 Jan 2006";
    "2 Jan 2006 15:04:05 -0700";
    "2 Jan 2006 15:04:05 MST";
    "2 Jan 2006 15:04:05 Z";
    "2 January 2006";
    "2 January 2006 15:04:05 -0700";
    "2 January 2006 15:04:05 MST";
    "6-1-2 15:04";
    "6/1/2 15:04";
    "Jan 02, 2006";
    "Jan 02 2006 03:04:05PM";
    "Jan 2, 2006";
    "Jan 2, 2006 15:04:05 MST";
    "Jan 2, 2006 3:04:05 PM";
    "Jan 2, 2006 3:04:05 PM MST";
    "January 02, 2006";
    "January 02, 2006 03:04 PM";
    "January 02, 2006 15:04";
    "January 02, 2006 15:04:05 MST";
    "January 2, 2006";
    "January 2, 2006 03:04 PM";
    "January 2, 2006 15:04:05";
    "January 2, 2006 15:04:05 MST";
    "January 2, 2006, 3:04 p.m.";
    "January 2, 2006 3:04 PM";
    "Mon, 02 Jan 06 15:04:05 MST";
    "Mon, 02 Jan 2006";
    "Mon, 02 Jan 2006 15:04:05";
    "Mon, 02 Jan 2006 15:04:05 00";
    "Mon, 02 Jan 2006 15:04:05 -07";
    "Mon 02 Jan 2006 15:04:05 -0700";
    "Mon, 02 Jan 2006 15:04:05 --0700";
    "Mon, 02 Jan 2006 15:04:05 -07:00";
    "Mon, 02 Jan 2006 15:04:05 -0700";
    "Mon,02 Jan 2006 15:04:05 -0700";
    "Mon, 02 Jan 2006 15:04:05 GMT-0700";
    "Mon , 02 Jan 2006 15:04:05 MST";
    "Mon, 02 Jan 2006 15:04:05 MST";
    "Mon, 02 Jan 2006 15:04:05MST";
    "Mon, 02 Jan 2006, 15:04:05 MST";
    "Mon, 02 Jan 2006 15:04:05 MST -0700";
    "Mon, 02 Jan 2006 15:04:05 MST-07:00";
    "Mon, 02 Jan 2006 15:04:05 UT";
    "Mon, 02 Jan 2006 15:04:05 Z";
    "Mon, 02 Jan 2006 15:04 -0700";
    "Mon, 02 Jan 2006 15:04 MST";
    "Mon,02 Jan 2006 15:04 MST";
    "Mon, 02 Jan 2006 15 -0700";
    "Mon, 02 Jan 2006 3:04:05 PM MST";
    "Mon, 02 January 2006";
    "Mon,02 January 2006 14:04:05 MST";
    "Mon, 2006-01-02 15:04";
    "Mon, 2 Jan 06 15:04:05 -0700";
    "Mon, 2 Jan 06 15:04:05 MST";
    "Mon, 2 Jan 15:04:05 MST";
    "Mon, 2 Jan 2006";
    "Mon,2 Jan 2006";
    "Mon, 2 Jan 2006 15:04";
    "Mon, 2 Jan 2006 15:04:05";
    "Mon, 2 Jan 2006 15:04:05 -0700";
    "Mon, 2 Jan 2006 15:04:05-0700";
    "Mon, 2 Jan 2006 15:04:05 -0700 MST";
    "mon,2 Jan 2006 15:04:05 MST";
    "Mon 2 Jan 2006 15:04:05 MST";
    "Mon, 2 Jan 2006 15:04:05 MST";
    "Mon, 2 Jan 2006 15:04:05MST";
    "Mon, 2 Jan 2006 15:04:05 UT";
    "Mon, 2 Jan 2006 15:04 -0700";
    "Mon, 2 Jan 2006, 15:04 -0700";
    "Mon, 2 Jan 2006 15:04 MST";
    "Mon, 2, Jan 2006 15:4";
    "Mon, 2 Jan 2006 15:4:5 -0700 GMT";
    "Mon, 2 Jan 2006 15:4:5 MST";
    "Mon, 2 Jan 2006 3:04:05 PM -0700";
    "Mon, 2 January 2006";
    "Mon, 2 January 2006 15:04:05 -0700";
    "Mon, 2 January 2006 15:04:05 MST";
    "Mon, 2 January 2006, 15:04:05 MST";
    "Mon, 2 January 2006, 15:04 -0700";
    "Mon, 2 January 2006 15:04 MST";
    "Monday, 02 January 2006 15:04:05";
    "Monday, 02 January 2006 15:04:05 -0700";
    "Monday, 02 January 2006 15:04:05 MST";
    "Monday, 2 Jan 2006 15:04:05 -0700";
    "Monday, 2 Jan 2006 15:04:05 MST";
    "Monday, 2 January 2006 15:04:05 -0700";
    "Monday, 2 January 2006 15:04:05 MST";
    "Monday, January 02, 2006";
    "Monday, January 2, 2006";
    "Monday, January 2, 2006 03:04 PM";
    "Monday, January 2, 2006 15:04:05 MST";
    "Mon Jan 02 2006 15:04:05 -0700";
    "Mon, Jan 02,2006 15:04:05 MST";
    "Mon Jan 02, 2006 3:04 pm";
    "Mon Jan 2 15:04:05 2006 MST";
    "Mon Jan 2 15:04 2006";
    "Mon, Jan 2 2006 15:04:05 -0700";
    "Mon, Jan 2 2006 15:04:05 -700";
    "Mon, Jan 2, 2006 15:04:05 MST";
    "Mon, Jan 2 2006 15:04 MST";
    "Mon, Jan 2, 2006 15:04 MST";
    "Mon, January 02, 2006 15:04:05 MST";
    "Mon, January 02, 2006, 15:04:05 MST";
    "Mon, January 2 2006 15:04:05 -0700";
    "Updated January 2, 2006";
    "Mon Jan _2 15:04:05 2006";
    "Mon, 02 Jan 2006 15:04:05 MST";
    "Mon, 02 Jan 2006 15:04:05 -0700";
    "2006-01-02T15:04:05Z07:00";
    "02 Jan 06 15:04 MST";
    "02 Jan 06 15:04 -0700";
    "Monday, 02-Jan-06 15:04:05 MST";
    "Mon Jan 02 15:04:05 -0700 2006";
    "Mon Jan _2 15:04:05 MST 2006" ].

(* none of them has a day of the year, "002" or "__2";
   strings.Contains, for tests on the layouts of pkg/utils/time.go:52-223 *)
Fixpoint contains (p : string) (s : bytes) : bool :=
  has_prefix p s || match s with _ :: r => contains p r | [] => false end.
Example no_year_days : forallb (fun l => negb (contains "002" (lit l) || contains "__2" (lit l))) dateFormats = true.
Proof. reflexivity. Qed.

(* strings.TrimSpace on ASCII; the blanks beyond ASCII that Go also trims
   (U+0085, U+00A0 and others) are not *)
Definition is_space_char (c : byte) : bool :=
  let z := bval c in (z =? 32) || ((9 <=? z) && (z <=? 13)).
(* one end of strings.TrimSpace and strings.Trim, pkg/utils/time.go:16 and 227 *)
Fixpoint drop_while (f : byte -> bool) (s : bytes) : bytes :=
  match s with c :: r => if f c then drop_while f r else s | [] => [] end.
(* strings.TrimFunc, for pkg/utils/time.go:16 and 227 *)
Definition trim_both (f : byte -> bool) (s : bytes) : bytes :=
  rev (drop_while f (rev (drop_while f s))).

(* pkg/utils/time.go:232-236 *)
Fixpoint first_layout (zone : bytes -> time -> time) (l : list string) (value : bytes) : option time :=
  match l with
  | [] => None
  | f :: l' =>
      match parse_layout zone f value with
      | Some t => Some t
      | None => first_layout zone l' value
      end
  end.

(* utils/time.go:225-240 *)
Definition parse_date_string (zone : bytes -> time -> time) (s : bytes) : option time :=
  match trim_both is_space_char s with
  | [] => None
  | v => first_layout zone dateFormats v
  end.

(* the cut set of pkg/utils/time.go:16 *)
Definition quote_char : byte := ascii_of_N 34.

(* utils/time.go:15-24 on the raw text of a JSON value *)
Definition time_unmarshal (zone : bytes -> time -> time) (raw : bytes) : option time :=
  match trim_both (byte_eqb quote_char) raw with
  | [] => Some zero_time
  | s => parse_date_string zone s
  end.

(* time.RFC3339 *)
Definition format_zone (o : option Z) : bytes :=
  let off := match o with Some z => z | None => 0 end in
  if off =? 0 then lit "Z"
  else let m := Z.quot off 60 in
       (if m <? 0 then "-"%char else "+"%char) ::
       append_int 2 (Z.abs m / 60) ++ lit ":" ++ append_int 2 (Z.abs m mod 60).
(* t.Format(time.RFC3339), pkg/utils/time.go:42 *)
Definition format_rfc3339 (t : time) : bytes :=
  append_int 4 (tYear t) ++ lit "-" ++ append_int 2 (tMonth t) ++ lit "-" ++ append_int 2 (tDay t)
  ++ lit "T" ++ append_int 2 (tHour t) ++ lit ":" ++ append_int 2 (tMin t) ++ lit ":" ++ append_int 2 (tSec t)
  ++ format_zone (tOff t).

(* utils/time.go:31-43: the text between the quotes *)
Definition time_json_text (t : time) : bytes :=
  if is_zero t then [] else format_rfc3339 t.
