(* time.Time, restricted to what the library observes: civil fields, zone, the
   zero test, Format and Parse with the two record layouts. *)
From Coq Require Import ZArith Bool Ascii String List.
Import ListNotations.
From Verif Require Import GoBase.
Local Open Scope Z_scope.

(* A time.Time without monotonic reading.  [tOff = None] is the nil location
   (UTC); [Some o] is a non-nil location whose offset at that instant is o
   seconds east of UTC.  The fields are the civil date and time shown in that
   location. *)
Record time := mkTime {
  tYear : Z; tMonth : Z; tDay : Z;
  tHour : Z; tMin : Z; tSec : Z; tNsec : Z;
  tOff : option Z }.

(* utils.Time{}; the zero value of pkg/utils/time.go:10 *)
Definition zero_time : time := mkTime 1 1 1 0 0 0 0 None.

(* package time, isLeap, for the Parse calls of pkg/lib/converters.go:169 and 177 *)
Definition is_leap (y : Z) : bool :=
  (y mod 4 =? 0) && (negb (y mod 100 =? 0) || (y mod 400 =? 0)).

(* package time, daysIn, for the Parse calls of pkg/lib/converters.go:169 and 177 *)
Definition days_in (m y : Z) : Z :=
  if m =? 2 then (if is_leap y then 29 else 28)
  else if (m =? 4) || (m =? 6) || (m =? 9) || (m =? 11) then 30
  else 31.

(* days of whole months; package time, daysBefore, for abs_sec *)
Fixpoint sum_days (y : Z) (ms : list Z) : Z :=
  match ms with
  | [] => 0
  | m :: r => days_in m y + sum_days y r
  end.

(* days before month m of year y; package time, daysBefore, for abs_sec *)
Definition days_before (m y : Z) : Z :=
  sum_days y (filter (fun k => k <? m) [1;2;3;4;5;6;7;8;9;10;11;12]).

(* days from 1 January of year 1 to the given civil date; package time, for abs_sec *)
Definition day_number (y m d : Z) : Z :=
  let p := y - 1 in
  365 * p + p / 4 - p / 100 + p / 400 + days_before m y + (d - 1).

(* seconds from 1 January of year 1, 00:00:00 UTC;
   the instant IsZero looks at, pkg/lib/converters.go:77 and 84 *)
Definition abs_sec (t : time) : Z :=
  day_number (tYear t) (tMonth t) (tDay t) * 86400
  + tHour t * 3600 + tMin t * 60 + tSec t
  - match tOff t with None => 0 | Some o => o end.

(* time.Time.IsZero (used through pkg/utils/time.go:46-50) *)
Definition is_zero (t : time) : bool := (abs_sec t =? 0) && (tNsec t =? 0).

(* reflect.Value.IsZero on utils.Time: every struct word is zero *)
Definition struct_is_zero (t : time) : bool :=
  is_zero t && match tOff t with None => true | Some _ => false end.

(* ---- Format ---- *)

(* time/format.go appendInt: zero-padded to width, sign in front *)
Definition append_int (w : nat) (z : Z) : bytes :=
  if z <? 0
  then let d := utoa (- z) in "-"%char :: repeat zero_char (w - List.length d) ++ d
  else let d := utoa z in repeat zero_char (w - List.length d) ++ d.

(* t.Format("01022006"), pkg/lib/constants.go:510 dateFormat *)
Definition format_date (t : time) : bytes :=
  append_int 2 (tMonth t) ++ append_int 2 (tDay t) ++ append_int 4 (tYear t).

(* t.Format("01022006150405"), pkg/lib/constants.go:509 timestampFormat *)
Definition format_timestamp (t : time) : bytes :=
  format_date t
  ++ append_int 2 (tHour t) ++ append_int 2 (tMin t) ++ append_int 2 (tSec t).

(* ---- Parse ---- *)

(* time/format.go getnum: one or two leading digits *)
Definition getnum (s : bytes) (fixed : bool) : option (Z * bytes) :=
  match s with
  | c0 :: r =>
      if is_digit c0 then
        match r with
        | c1 :: r' =>
            if is_digit c1 then Some (10 * digit_val c0 + digit_val c1, r')
            else if fixed then None else Some (digit_val c0, r)
        | [] => if fixed then None else Some (digit_val c0, r)
        end
      else None
  | [] => None
  end.

(* stdLongYear: four digits;
   time/format.go, for the Parse calls of pkg/lib/converters.go:169 and 177 *)
Definition getyear (s : bytes) : option (Z * bytes) :=
  match s with
  | a :: b :: c :: d :: r =>
      if forallb is_digit [a;b;c;d] then Some (dval [a;b;c;d], r) else None
  | _ => None
  end.

(* the final day-of-month check of time.Parse *)
Definition valid_day (y m d : Z) : bool := (1 <=? d) && (d <=? days_in m y).

(* month, day, year tokens of the layouts "01022006...";
   time/format.go, for the Parse calls of pkg/lib/converters.go:169 and 177 *)
Definition parse_mdy (s : bytes) : option (Z * Z * Z * bytes) :=
  match getnum s true with
  | Some (m, s1) =>
      if (m <=? 0) || (12 <? m) then None else
      match getnum s1 true with
      | Some (d, s2) =>
          match getyear s2 with
          | Some (y, s3) => Some (m, d, y, s3)
          | None => None
          end
      | None => None
      end
  | None => None
  end.

(* time.Parse("01022006", s) *)
Definition parse_date (s : bytes) : option time :=
  match parse_mdy s with
  | Some (m, d, y, []) =>
      if valid_day y m d then Some (mkTime y m d 0 0 0 0 None) else None
  | _ => None
  end.

(* after "05" time.Parse accepts a fractional second that the layout does not
   mention: ('.' or ',') followed by digits; at most nine are significant *)
Fixpoint take_digits (s : bytes) : bytes * bytes :=
  match s with
  | c :: r => if is_digit c then let '(a, b) := take_digits r in (c :: a, b) else ([], s)
  | [] => ([], [])
  end.

(* time/format.go, stdZeroSecond, for pkg/lib/converters.go:169 *)
Definition opt_fraction (s : bytes) : option (Z * bytes) :=
  match s with
  | p :: c :: r =>
      if (byte_eqb p "."%char || byte_eqb p ","%char) && is_digit c then
        let '(ds, rest) := take_digits (c :: r) in
        let ds9 := firstn 9 ds in
        Some (dval ds9 * 10 ^ (9 - Z.of_nat (List.length ds9)), rest)
      else Some (0, s)
  | _ => Some (0, s)
  end.

(* time.Parse("01022006150405", s) *)
Definition parse_timestamp (s : bytes) : option time :=
  match parse_mdy s with
  | Some (m, d, y, s3) =>
      match getnum s3 false with
      | Some (h, s4) =>
          if 24 <=? h then None else
          match getnum s4 true with
          | Some (mi, s5) =>
              if 60 <=? mi then None else
              match getnum s5 true with
              | Some (sec, s6) =>
                  if 60 <=? sec then None else
                  match opt_fraction s6 with
                  | Some (ns, []) =>
                      if valid_day y m d then Some (mkTime y m d h mi sec ns None) else None
                  | _ => None
                  end
              | None => None
              end
          | None => None
          end
      | None => None
      end
  | None => None
  end.
