(* Running the layouts of utils/time.go on texts of which only the form is known *)
From Coq Require Import ZArith NArith Bool Ascii String List.
Import ListNotations.
From Verif Require Import GoBase GoTime GoLayout SpecFormats.
Local Open Scope string_scope.
Local Open Scope Z_scope.
Local Open Scope list_scope.
Local Notation length := List.length.

(* ---- texts known by their form ---- *)

(* numbers within a text *)
Inductive var := VMonth | VDay | VYear | VShort | VHour | VHalf | VMin | VSec | VOffH | VOffM | VOffS.
(* words within a text; the names of May are the same *)
Inductive word := ShortMonth | LongMonth | ShortDay | LongDay
  | MonthRest | DayRest     (* what follows the first three letters *)
  | Tenth                   (* a point and a digit *)
  | Parts | PartsRest.      (* a point and more digits; what follows the first of them *)
(* D v k n: digit k of the number v in n digits; K c: this character *)
Inductive sym := D (v : var) (k n : nat) | K (c : byte) | W (w : word).

Definition var_eqb (a b : var) : bool :=
  match a, b with
  | VMonth, VMonth | VDay, VDay | VYear, VYear | VShort, VShort | VHour, VHour | VHalf, VHalf | VMin, VMin | VSec, VSec
  | VOffH, VOffH | VOffM, VOffM | VOffS, VOffS => true
  | _, _ => false
  end.

(* ---- what was read so far ---- *)

Inductive hour_read := NoHour | FullHour | HalfRead.
Inductive offset_read := NoOffset | OffsetRead (neg : bool) (style : offset_style).
Record got := mkGot { gYear : bool; gMonth : bool; gDay : bool; gHour : hour_read; gMin : bool; gSec : bool; gNsec : bool;
  gHalf : option bool; gUTC : bool; gOff : offset_read; gZone : bytes }.
Definition got0 : got := mkGot false false false NoHour false false false None false NoOffset [].
Definition got_year g := mkGot true (gMonth g) (gDay g) (gHour g) (gMin g) (gSec g) (gNsec g) (gHalf g) (gUTC g) (gOff g) (gZone g).
Definition got_month g := mkGot (gYear g) true (gDay g) (gHour g) (gMin g) (gSec g) (gNsec g) (gHalf g) (gUTC g) (gOff g) (gZone g).
Definition got_day g := mkGot (gYear g) (gMonth g) true (gHour g) (gMin g) (gSec g) (gNsec g) (gHalf g) (gUTC g) (gOff g) (gZone g).
Definition got_hour h g := mkGot (gYear g) (gMonth g) (gDay g) h (gMin g) (gSec g) (gNsec g) (gHalf g) (gUTC g) (gOff g) (gZone g).
Definition got_min g := mkGot (gYear g) (gMonth g) (gDay g) (gHour g) true (gSec g) (gNsec g) (gHalf g) (gUTC g) (gOff g) (gZone g).
Definition got_sec g := mkGot (gYear g) (gMonth g) (gDay g) (gHour g) (gMin g) true (gNsec g) (gHalf g) (gUTC g) (gOff g) (gZone g).
Definition got_nsec b g := mkGot (gYear g) (gMonth g) (gDay g) (gHour g) (gMin g) (gSec g) b (gHalf g) (gUTC g) (gOff g) (gZone g).
Definition got_half b g := mkGot (gYear g) (gMonth g) (gDay g) (gHour g) (gMin g) (gSec g) (gNsec g) b (gUTC g) (gOff g) (gZone g).
Definition got_utc g := mkGot (gYear g) (gMonth g) (gDay g) (gHour g) (gMin g) (gSec g) (gNsec g) (gHalf g) true (gOff g) (gZone g).
Definition got_off o g := mkGot (gYear g) (gMonth g) (gDay g) (gHour g) (gMin g) (gSec g) (gNsec g) (gHalf g) (gUTC g) o (gZone g).
Definition got_zone z g := mkGot (gYear g) (gMonth g) (gDay g) (gHour g) (gMin g) (gSec g) (gNsec g) (gHalf g) (gUTC g) (gOff g) z.

(* what reading does on every text of a form: it fails; it gives this; it fails or
   leaves this; not known *)
Inductive outcome (A : Type) := No | Yes (a : A) (rest : list sym) | May (rest : list sym) | Unknown.
Arguments No {A}. Arguments Yes {A}. Arguments May {A}. Arguments Unknown {A}.

(* the first character is a digit *)
Definition digital (a : sym) : bool := match a with D _ _ _ => true | K c => is_digit c | W PartsRest => true | W _ => false end.
Definition one_char (a : sym) : bool := match a with W _ => false | _ => true end.

(* getnum *)
Definition sym_num (fixed : bool) (l : list sym) : outcome var :=
  match l with
  | [] => No
  | a :: r =>
      if digital a then
        if negb (one_char a) then Unknown else
        match r with
        | b :: r' =>
            if digital b then
              if negb (one_char b) then Unknown else
              match a, b with
              | D v 0 2, D w 1 2 => if var_eqb v w then Yes v r' else May r'
              | _, _ => May r'
              end
            else if fixed then No else match a with D v 0 1 => Yes v r | _ => May r end
        | [] => if fixed then No else match a with D v 0 1 => Yes v r | _ => May r end
        end
      else No
  end.
Definition want (v : var) {A} (a : A) (o : outcome var) : outcome A :=
  match o with
  | No => No | Yes w r => if var_eqb v w then Yes a r else May r | May r => May r | Unknown => Unknown
  end.

(* what is known about a text: the offset is 24 minutes or more; the day is past the
   12th; not both day and month have two digits *)
Record known := mkKnown { kFar : bool; kLate : bool; kShort : bool }.
(* the number of a month *)
Definition want_month {A} (k : known) (a : A) (o : outcome var) : outcome A :=
  match o with
  | Yes VDay r => if kLate k then No else May r
  | _ => want VMonth a o
  end.

Definition letter (c : byte) : bool := in_range 65 90 c || in_range 97 122 c.
(* the next character is not a letter *)
Definition no_letter (l : list sym) : bool :=
  match l with [] => true | D _ _ _ :: _ => true | K c :: _ => negb (letter c) | W Parts :: _ | W Tenth :: _ => true | _ => false end.
(* no name begins so *)
Definition no_name (names : list string) (c : byte) : bool :=
  forallb (fun n => match lit n with x :: _ => negb (byte_eqb (lower_char x) (lower_char c)) | [] => false end) names.

Definition sym_short_month (g : got) (l : list sym) : outcome got :=
  match l with
  | W ShortMonth :: r => Yes (got_month g) r
  | W LongMonth :: r => Yes (got_month g) (W MonthRest :: r)
  | K c :: _ => if no_name shortMonthNames c then No else Unknown
  | W ShortDay :: _ | W LongDay :: _ | D _ _ _ :: _ | [] | W Parts :: _ | W Tenth :: _ => No
  | _ => Unknown
  end.
Definition sym_long_month (may : bool) (g : got) (l : list sym) : outcome got :=
  match l with
  | W LongMonth :: r => Yes (got_month g) r
  | W ShortMonth :: r => if may then Yes (got_month g) r else if no_letter r then No else Unknown
  | K c :: _ => if no_name longMonthNames c then No else Unknown
  | W ShortDay :: _ | W LongDay :: _ | D _ _ _ :: _ | [] | W Parts :: _ | W Tenth :: _ => No
  | _ => Unknown
  end.
Definition sym_short_day (g : got) (l : list sym) : outcome got :=
  match l with
  | W ShortDay :: r => Yes g r
  | W LongDay :: r => Yes g (W DayRest :: r)
  | K c :: _ => if no_name shortDayNames c then No else Unknown
  | W ShortMonth :: _ | W LongMonth :: _ | D _ _ _ :: _ | [] | W Parts :: _ | W Tenth :: _ => No
  | _ => Unknown
  end.
Definition sym_long_day (g : got) (l : list sym) : outcome got :=
  match l with
  | W LongDay :: r => Yes g r
  | W ShortDay :: r => if no_letter r then No else Unknown
  | K c :: _ => if no_name longDayNames c then No else Unknown
  | W ShortMonth :: _ | W LongMonth :: _ | D _ _ _ :: _ | [] | W Parts :: _ | W Tenth :: _ => No
  | _ => Unknown
  end.

(* the fraction that may follow the seconds *)
Definition sym_parts (g : got) (l : list sym) : outcome got :=
  match l with
  | W Parts :: r | W Tenth :: r =>
      match r with [] => Yes (got_nsec true g) r | a :: _ => if digital a then Unknown else Yes (got_nsec true g) r end
  | W _ :: _ | D _ _ _ :: _ | [] => Yes g l
  | K c :: r => if byte_eqb c "." || byte_eqb c "," then Unknown else Yes g l
  end.
Definition bind {A B} (o : outcome A) (f : A -> list sym -> outcome B) (h : list sym -> outcome B) : outcome B :=
  match o with No => No | Yes a r => f a r | May r => h r | Unknown => Unknown end.
Definition weaken {A} (o : outcome A) : outcome A := match o with Yes _ r => May r | x => x end.
Definition sym_second (frac fixed : bool) (g : got) (l : list sym) : outcome got :=
  let o := want VSec (got_sec g) (sym_num fixed l) in
  if frac then o else bind o sym_parts (fun r => weaken (sym_parts g r)).

(* pairs of digits *)
Definition pair_of (v : var) (l : list sym) : option (list sym) :=
  match l with
  | D a 0 2 :: D b 1 2 :: r => if var_eqb v a && var_eqb v b then Some r else None
  | _ => None
  end.
Definition colon (l : list sym) : option (list sym) :=
  match l with K c :: r => if byte_eqb c ":" then Some r else None | _ => None end.
Definition opt_bind {A B} (o : option A) (f : A -> option B) : option B := match o with Some a => f a | None => None end.
(* numeric zones *)
Definition sym_zone (z : zone_form) (g : got) (l : list sym) : outcome got :=
  match l with
  | [] => No
  | D _ _ _ :: _ | W _ :: _ => No
  | K c :: r =>
      if byte_eqb c "+" || byte_eqb c "-" then
        let neg := byte_eqb c "-" in
        if match r with a :: _ => negb (digital a) | [] => true end then No else
        match z, pair_of VOffH r with
        | _, None => Unknown
        | ZPlain, Some r1 =>
            match pair_of VOffM r1 with
            | Some r2 => Yes (got_off (OffsetRead neg Plain) g) r2
            | None => if match r1 with a :: _ => digital a | [] => false end then Unknown else No
            end
        | ZColon, Some r1 =>
            match colon r1 with
            | Some r2 => match pair_of VOffM r2 with
                         | Some r3 => Yes (got_off (OffsetRead neg Colon) g) r3
                         | None => Unknown
                         end
            | None => No
            end
        | ZShort, Some r1 => Yes (got_off (OffsetRead neg Short) g) r1
        | ZColonSeconds, Some r1 =>
            match colon r1 with
            | Some r2 => match pair_of VOffM r2 with
                         | Some r3 => match colon r3 with
                                      | Some r4 => match pair_of VOffS r4 with
                                                   | Some r5 => Yes (got_off (OffsetRead neg ColonSeconds) g) r5
                                                   | None => Unknown
                                                   end
                                      | None => No
                                      end
                         | None => Unknown
                         end
            | None => No
            end
        | ZSeconds, _ => Unknown
        end
      else No
  end.

Definition upper (c : byte) : bool := in_range 65 90 c.
(* a zone abbreviation of three letters *)
Definition sym_abbr (k : known) (g : got) (l : list sym) : outcome got :=
  match l with
  | [] => No
  | D _ _ _ :: _ => No
  | K a :: r =>
      if byte_eqb a "+" || byte_eqb a "-" then
        match opt_bind (pair_of VOffH r) (pair_of VOffM) with
        | Some r' => if match r' with b :: _ => negb (digital b) | [] => true end then if kFar k then No else May r' else Unknown
        | None => Unknown
        end
      else if negb (upper a) then No
      else match r with
           | [] => No
           | [K b] => if upper b then No else Unknown
           | K b :: K c :: r' =>
               if bytes_eqb [a; b; c] (lit "UTC") then Yes (got_utc g) r'
               else if upper b && upper c then
                 if bytes_eqb [a; b; c] (lit "GMT") && match r' with K x :: _ => byte_eqb x "+" || byte_eqb x "-" | _ => false end then Unknown
                 else match r' with
                      | [] => Yes (got_zone [a; b; c] g) r'
                      | K x :: _ => if letter x then Unknown else Yes (got_zone [a; b; c] g) r'
                      | D _ _ _ :: _ => Yes (got_zone [a; b; c] g) r'
                      | W _ :: _ => Unknown
                      end
               else if upper b && negb (letter c) then No else Unknown
           | _ => Unknown
           end
  | W _ :: _ => Unknown
  end.

(* a fraction of one digit *)
Definition sym_tenth (g : got) (l : list sym) : outcome got :=
  match l with
  | W Tenth :: r => Yes (got_nsec true g) r
  | K c :: r =>
      if byte_eqb c "." then match r with K x :: r' => if byte_eqb x "0" then Yes (got_nsec false g) r' else Unknown | _ => Unknown end
      else if byte_eqb c "," then Unknown else No
  | [] | D _ _ _ :: _ => No
  | W Parts :: r => May (W PartsRest :: r)
  | W _ :: _ => No
  end.

(* before or after noon *)
Definition sym_half (pm am : string) (g : got) (l : list sym) : outcome got :=
  match l with
  | [] | D _ _ _ :: _ => No
  | K a :: r =>
      if match gHalf g with Some _ => true | None => false end then Unknown else
      if existsb (byte_eqb a) (firstn 1 (lit pm) ++ firstn 1 (lit am)) then
        match r with
        | K b :: r' =>
            if bytes_eqb [a; b] (lit pm) then Yes (got_half (Some true) g) r'
            else if bytes_eqb [a; b] (lit am) then Yes (got_half (Some false) g) r' else No
        | _ => Unknown
        end
      else No
  | W _ :: _ => Unknown
  end.

(* a year of four digits *)
Definition year_of (l : list sym) : option (list sym) :=
  match l with
  | D VYear 0 4 :: D VYear 1 4 :: D VYear 2 4 :: D VYear 3 4 :: r => Some r
  | _ => None
  end.

Definition sym_std (may : bool) (k : known) (frac : bool) (d : std) (g : got) (l : list sym) : outcome got :=
  match d with
  | StdYear =>
      match pair_of VShort l with
      | Some r => Yes (got_year g) r
      | None =>
          match l with
          | [] => No
          | a :: r =>
              if digital a then
                if negb (one_char a) then Unknown
                else match r with b :: r' => if negb (digital b) then No else if one_char b then May r' else Unknown | [] => No end
              else match a with K c => if byte_eqb c "+" || byte_eqb c "-" then Unknown else No | _ => No end
          end
      end
  | StdLongYear =>
      match year_of l with
      | Some r => Yes (got_year g) r
      | None =>
          match l with
          | a :: b :: c :: d :: r =>
              if forallb digital [a; b; c; d] then if forallb one_char [a; b; c; d] then May r else Unknown
              else if existsb (fun x => digital x && negb (one_char x)) [a; b; c; d] then Unknown else No
          | _ => if forallb one_char l then No else Unknown
          end
      end
  | StdMonth => sym_short_month g l
  | StdLongMonth => sym_long_month may g l
  | StdWeekDay => sym_short_day g l
  | StdLongWeekDay => sym_long_day g l
  | StdNumMonth => want_month k (got_month g) (sym_num false l)
  | StdZeroMonth => want_month k (got_month g) (sym_num true l)
  | StdDay => want VDay (got_day g) (sym_num false l)
  | StdZeroDay => want VDay (got_day g) (sym_num true l)
  | StdUnderDay => want VDay (got_day g) (sym_num false (match l with K c :: r => if byte_eqb c " " then r else l | _ => l end))
  | StdHour => want VHour (got_hour FullHour g) (sym_num false l)
  | StdHour12 => want VHalf (got_hour HalfRead g) (sym_num false l)
  | StdZeroHour12 => want VHalf (got_hour HalfRead g) (sym_num true l)
  | StdMinute => want VMin (got_min g) (sym_num false l)
  | StdZeroMinute => want VMin (got_min g) (sym_num true l)
  | StdSecond => sym_second frac false g l
  | StdZeroSecond => sym_second frac true g l
  | StdPM => sym_half "PM" "AM" g l
  | StdLowerPM => sym_half "pm" "am" g l
  | StdISOTZ z =>
      match l with
      | K c :: r => if byte_eqb c "Z" then Yes (got_utc g) r else sym_zone z g l
      | _ => sym_zone z g l
      end
  | StdNumTZ z => sym_zone z g l
  | StdTZ => sym_abbr k g l
  | StdFrac0 1 => sym_tenth g l
  | StdFrac0 _ | StdFrac9 _ => Unknown
  end.

Fixpoint sym_blanks (l : list sym) : list sym :=
  match l with K c :: r => if byte_eqb c " " then sym_blanks r else l | _ => l end.
(* the first characters of a word *)
Definition begins (names : list string) (c : byte) : bool :=
  existsb (fun n => match lit n with x :: _ => byte_eqb x c | [] => true end) names.
Definition starts (w : word) (c : byte) : bool :=
  match w with
  | ShortMonth | LongMonth => begins longMonthNames c
  | ShortDay | LongDay => begins longDayNames c
  | MonthRest | DayRest => in_range 97 122 c
  | Parts | Tenth => byte_eqb c "."
  | PartsRest => is_digit c
  end.
(* skip; [sure]: so far nothing could fail *)
Fixpoint sym_skip (prefix : bytes) (l : list sym) (blanks sure : bool) : outcome unit :=
  match prefix with
  | [] => if sure then Yes tt l else May l
  | p :: prefix' =>
      if byte_eqb p " " then
        if blanks then sym_skip prefix' l true sure
        else match l with
             | K c :: _ => if byte_eqb c " " then sym_skip prefix' (sym_blanks l) true sure else No
             | [] => sym_skip prefix' [] true sure
             | _ => No
             end
      else match l with
           | K c :: r => if byte_eqb c p then sym_skip prefix' r false sure else No
           | D _ _ _ :: r => if is_digit p then sym_skip prefix' r false false else No
           | W w :: r => if starts w p then Unknown else No
           | [] => No
           end
  end.

(* a whole layout: refuses the text; reads it so; not known *)
Inductive verdict := Refuses | Reads (g : got) | Unsure.
Fixpoint sym_chunks (may : bool) (k : known) (l : list (bytes * std)) (rest : bytes) (sure : bool) (g : got) (v : list sym) : verdict :=
  match l with
  | [] => match sym_skip rest v false sure with
          | No | Yes _ (_ :: _) | May (_ :: _) => Refuses
          | Yes _ [] => Reads g
          | May [] | Unknown => Unsure
          end
  | (pre, d) :: l' =>
      match sym_skip pre v false sure with
      | No => Refuses
      | Unknown => Unsure
      | Yes _ v1 =>
          match sym_std may k (is_frac l') d g v1 with
          | No => Refuses
          | Unknown => Unsure
          | Yes g' v2 => sym_chunks may k l' rest sure g' v2
          | May v2 => sym_chunks may k l' rest false g v2
          end
      | May v1 =>
          match sym_std may k (is_frac l') d g v1 with
          | No => Refuses
          | Unknown => Unsure
          | Yes _ v2 | May v2 => sym_chunks may k l' rest false g v2
          end
      end
  end.
Fixpoint sym_first (may : bool) (k : known) (ls : list chunked) (v : list sym) : verdict :=
  match ls with
  | [] => Refuses
  | c :: ls' =>
      match sym_chunks may k (chList c) (chRest c) true got0 v with
      | Refuses => sym_first may k ls' v
      | x => x
      end
  end.

(* ---- the forms of a notation ---- *)

(* what distinguishes the forms: May; numbers of one digit; afternoon; west of
   Greenwich; no offset; a fraction *)
Record bits := mkBits { bMay : bool; bMonth : bool; bDay : bool; bHalf : bool; bMin : bool; bSec : bool;
  bPM : bool; bWest : bool; bNone : bool; bParts : bool; bTenth : bool; bAbbr : string }.

Definition syms (s : bytes) : list sym := map K s.
Definition num2 (v : var) : list sym := [D v 0 2; D v 1 2].
Definition count (two one : bool) (v : var) : list sym := if two then num2 v else if one then [D v 0 1] else num2 v.
Definition offset_syms (style : offset_style) (west : bool) : list sym :=
  K (if west then "-" else "+")%char ::
  match style with
  | Plain => num2 VOffH ++ num2 VOffM
  | Bare => D VOffH 0 1 :: num2 VOffM
  | Colon => num2 VOffH ++ K ":" :: num2 VOffM
  | Short => num2 VOffH
  | ColonSeconds => num2 VOffH ++ K ":" :: num2 VOffM ++ K ":" :: num2 VOffS
  end.
Definition part_syms (b : bits) (p : part) : list sym :=
  match p with
  | Text s => syms (lit s)
  | Weekday full => [W (if full then LongDay else ShortDay)]
  | MonthName full => [W (if full && negb (bMay b) then LongMonth else ShortMonth)]
  | Month two => count two (bMonth b) VMonth
  | Day two => count two (bDay b) VDay
  | DayBlank => if bDay b then [K " "; D VDay 0 1] else num2 VDay
  | Year => [D VYear 0 4; D VYear 1 4; D VYear 2 4; D VYear 3 4]
  | ShortYear => num2 VShort
  | Hour => num2 VHour
  | HalfHour two => count two (bHalf b) VHalf
  | Minute two => count two (bMin b) VMin
  | Second two => count two (bSec b) VSec
  | Fraction => if bParts b then [W (if bTenth b then Tenth else Parts)] else []
  | Tenths => [W Tenth]
  | Half style => syms (half_text style (bPM b))
  | Zone => syms (lit (bAbbr b))
  | Offset style => offset_syms style (bWest b)
  | OffsetOrZ => if bNone b then [K "Z"%char] else offset_syms Colon (bWest b)
  end.
Definition form (b : bits) (l : list part) : list sym := flat_map (part_syms b) l.

Definition both (b : bool) : list bool := if b then [false; true] else [false].
Definition all_bits (l : list part) : list bits :=
  let has := tells l in
  flat_map (fun may => flat_map (fun m => flat_map (fun d => flat_map (fun h => flat_map (fun mi => flat_map (fun s =>
  flat_map (fun pm => flat_map (fun w => flat_map (fun n => flat_map (fun f => flat_map (fun f1 => map (fun z => mkBits may m d h mi s pm w n f f1 z)
    (if has is_zone then if has is_offset then skipn 2 zones else zones else ["UTC"]))
    (both (has is_parts)))
    (both (has is_parts)))
    (both (has (fun p => match p with OffsetOrZ => true | _ => false end))))
    (both (has is_offset)))
    (both (has (fun p => match p with Half _ => true | _ => false end))))
    (both (has (fun p => match p with Second false => true | _ => false end))))
    (both (has (fun p => match p with Minute false => true | _ => false end))))
    (both (has (fun p => match p with HalfHour false => true | _ => false end))))
    (both (has (fun p => match p with Day false | DayBlank => true | _ => false end))))
    (both (has (fun p => match p with Month false => true | _ => false end))))
    (both (has (fun p => match p with MonthName _ => true | _ => false end))).

(* what is to be read *)
Definition is_year p := match p with Year | ShortYear => true | _ => false end.
Definition is_month p := match p with Month _ | MonthName _ => true | _ => false end.
Definition is_day p := match p with Day _ | DayBlank => true | _ => false end.
Definition style_of (b : bits) (p : part) : option offset_style :=
  match p with Offset s => Some s | OffsetOrZ => if bNone b then None else Some Colon | _ => None end.
Definition style_eqb (a b : offset_style) : bool :=
  match a, b with Plain, Plain | Colon, Colon | Short, Short | ColonSeconds, ColonSeconds | Bare, Bare => true | _, _ => false end.
Definition got_all (b : bits) (l : list part) (g : got) : bool :=
  let has := tells l in
  gYear g && has is_year && gMonth g && has is_month && gDay g && has is_day
  && match gHour g with
     | NoHour => negb (has is_hour) && match gHalf g with None => true | _ => false end
     | FullHour => has (fun p => match p with Hour => true | _ => false end) && match gHalf g with None => true | _ => false end
     | HalfRead => has (fun p => match p with HalfHour _ => true | _ => false end)
                   && match gHalf g with Some pm => Bool.eqb pm (bPM b) && has (fun p => match p with Half _ => true | _ => false end) | None => false end
     end
  && Bool.eqb (gMin g) (has is_minute) && Bool.eqb (gSec g) (has is_second)
  && (gNsec g || negb (has is_parts) || (has (fun p => match p with Fraction => true | _ => false end) && negb (bParts b)))
  && match filter (fun p => is_offset p) l with
     | [] => match gOff g with NoOffset => true | _ => false end
             && (if has is_zone then if String.eqb (bAbbr b) "UTC" then gUTC g else negb (gUTC g) && bytes_eqb (gZone g) (lit (bAbbr b))
                 else bytes_eqb (gZone g) [])
     | p :: _ => match style_of b p with
                 | None => match gOff g with NoOffset => true | _ => false end && (gUTC g || bytes_eqb (gZone g) [])
                 | Some s => negb (gUTC g) && match gOff g with OffsetRead neg s' => Bool.eqb neg (bWest b) && style_eqb s s' | NoOffset => false end
                 end
     end.
Definition chunked_formats : list chunked := map chunks dateFormats.
Definition form_ok (k : known) (cs : list chunked) (l : list part) (b : bits) : bool :=
  if kLate k && bDay b || kShort k && negb (bDay b || bMonth b) then true else
  match sym_first (bMay b) k cs (form b l) with Reads g => got_all b l g | _ => false end.
Definition notation_ok (k : known) (cs : list chunked) (l : list part) : bool := forallb (form_ok k cs l) (all_bits l).
