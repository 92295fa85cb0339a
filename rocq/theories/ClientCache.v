(* Model of CacheExpires, pkg/client/client.go:565-613: until when an answer may
   be kept *)
From Coq Require Import ZArith NArith Bool Ascii String List.
Import ListNotations.
From Verif Require Import GoBase GoTime GoLayout Client.
Local Open Scope string_scope.
Local Open Scope Z_scope.
Local Open Scope list_scope.
Local Notation length := List.length.

(* ---- time.ParseDuration, for client.go:597 ---- *)

(* 1<<63; time/format.go leadingInt and ParseDuration, for client.go:597 *)
Definition top : Z := 2 ^ 63.

(* time/format.go leadingInt: the digits in front, unless they are too large; for client.go:597 *)
Fixpoint leading_int (x : Z) (s : bytes) : option (Z * bytes) :=
  match s with
  | c :: r =>
      if is_digit c then
        if top / 10 <? x then None
        else let y := x * 10 + digit_val c in
             if top <? y then None else leading_int y r
      else Some (x, s)
  | [] => Some (x, s)
  end.

(* time/format.go leadingFraction: value and number of the digits in front that
   still fit, for client.go:597 *)
Fixpoint leading_fraction (over : bool) (x k : Z) (s : bytes) : Z * Z * bytes :=
  match s with
  | c :: r =>
      if is_digit c then
        let y := x * 10 + digit_val c in
        if over || ((top - 1) / 10 <? x) || (top <? y) then leading_fraction true x k r
        else leading_fraction false y (k + 1) r
      else (x, k, s)
  | [] => (x, k, s)
  end.

(* time/format.go ParseDuration, the loop that finds the end of a unit, for client.go:597 *)
Fixpoint split_unit (s : bytes) : bytes * bytes :=
  match s with
  | c :: r => if byte_eqb c "." || is_digit c then ([], s) else let (u, t) := split_unit r in (c :: u, t)
  | [] => ([], [])
  end.

(* time/format.go unitMap: nanoseconds; both spellings of the micro sign; for client.go:597 *)
Definition units : list (bytes * Z) :=
  [(lit "ns", 1); (lit "us", 1000); (map zbyte [194; 181; 115], 1000); (map zbyte [206; 188; 115], 1000);
   (lit "ms", 1000000); (lit "s", 1000000000); (lit "m", 60000000000); (lit "h", 3600000000000)].
(* time/format.go ParseDuration, unitMap[u], for client.go:597 *)
Definition unit_of (u : bytes) : option Z :=
  match find (fun p => bytes_eqb (fst p) u) units with Some p => Some (snd p) | None => None end.

Section Duration.
(* uint64(float64(f) * (float64(unit) / scale)) for the digits f behind the point and
   the scale 10^k; time/format.go ParseDuration *)
Variable parts : Z -> Z -> Z -> Z.

(* time/format.go ParseDuration, the loop; [d]: nanoseconds so far; for client.go:597 *)
Fixpoint durations (fuel : nat) (d : Z) (s : bytes) : option Z :=
  match fuel, s with
  | _, [] => Some d
  | O, _ => None
  | S fuel, c :: _ =>
      if negb (byte_eqb c "." || is_digit c) then None
      else match leading_int 0 s with
           | None => None
           | Some (v, s1) =>
               let pre := negb (Nat.eqb (length s1) (length s)) in
               let '(f, k, s2, post) :=
                 match s1 with
                 | p :: r =>
                     if byte_eqb p "." then
                       let '(f, k, s2) := leading_fraction false 0 0 r in
                       (f, k, s2, negb (Nat.eqb (length s2) (length r)))
                     else (0, 0, s1, false)
                 | [] => (0, 0, s1, false)
                 end in
               if negb pre && negb post then None
               else let (u, s3) := split_unit s2 in
                    match u, unit_of u with
                    | [], _ | _, None => None
                    | _, Some unit =>
                        if top / unit <? v then None
                        else let w := v * unit + (if 0 <? f then parts f k unit else 0) in
                             if top <? w then None
                             else let d' := (d + w) mod 2 ^ 64 in
                                  if top <? d' then None else durations fuel d' s3
                    end
           end
  end.

(* time.ParseDuration: nanoseconds; client.go:597 *)
Definition parse_duration (s : bytes) : option Z :=
  let '(neg, r) :=
    match s with
    | c :: r => if byte_eqb c "-" then (true, r) else if byte_eqb c "+" then (false, r) else (false, s)
    | [] => (false, s)
    end in
  if bytes_eqb r (lit "0") then Some 0
  else match r with
       | [] => None
       | _ => match durations (length r) 0 r with
              | None => None
              | Some d => if neg then Some (- d) else if top - 1 <? d then None else Some d
              end
       end.

(* ---- client.go:565-613 ---- *)

(* strings.Trim with one character as cutset; client.go:572, 578 *)
Definition trim_char (c : byte) (s : bytes) : bytes := trim_both (byte_eqb c) s.

(* one part of the header and what it adds to the map; client.go:572-581 *)
Definition cache_part (part : bytes) : list (bytes * bytes) :=
  match trim_char " " part with
  | [] => []
  | p =>
      if existsb (fun c => byte_eqb c "=") p then
        match split_at "=" p with
        | k :: v :: _ => [(trim_char " " k, trim_char "," v)]
        | _ => []
        end
      else [(p, [])]
  end.

(* parseCacheControl, client.go:568-584: the assignments to the map in their order *)
Definition parse_cache_control (header : bytes) : list (bytes * bytes) := flat_map cache_part (split_at "," header).

(* the value of a key after these assignments; client.go:596 *)
Fixpoint last_value (k : bytes) (m : list (bytes * bytes)) : option bytes :=
  match m with
  | [] => None
  | (k', v) :: r => match last_value k r with Some x => Some x | None => if bytes_eqb k' k then Some v else None end
  end.

(* nanoseconds since 1 January of year 1, 00:00:00 UTC; client.go:589-612 *)
Definition instant (t : time) : Z := abs_sec t * 1000000000 + tNsec t.

(* time.Now, or an instant; client.go:592, 612 *)
Inductive expiry := ExpiresNow | ExpiresAt (i : Z).

(* time.RFC1123; client.go:590, 606 *)
Definition rfc1123 : string := "Mon, 02 Jan 2006 15:04:05 MST".

(* CacheExpires, client.go:587-613; [header] is r.Header.Get under the canonical
   form of the name, [zone] what the host makes of the abbreviation of a zone *)
Definition cache_expires (zone : bytes -> time -> time) (header : string -> bytes) : expiry :=
  match parse_layout zone rfc1123 (header "Date") with
  | None => ExpiresNow
  | Some now =>
      match last_value (lit "max-age") (parse_cache_control (header "Cache-Control")) with
      | Some maxAge =>
          match parse_duration (maxAge ++ lit "s") with
          | None => ExpiresAt (instant now)
          | Some lifetime => ExpiresAt (instant now + lifetime)
          end
      | None =>
          match header "Expires" with
          | [] => ExpiresAt (instant zero_time)
          | e => match parse_layout zone rfc1123 e with
                 | None => ExpiresAt (instant now)
                 | Some t => ExpiresAt (instant t)
                 end
          end
      end
  end.
End Duration.
