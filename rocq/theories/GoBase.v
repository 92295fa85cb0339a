(* Byte strings and the Go standard library functions on strings and integers
   that the modelled code calls.  Definitions only; facts are in GoBaseFacts.v. *)
From Coq Require Import ZArith NArith Bool Ascii String List.
Import ListNotations.
Local Open Scope Z_scope.

(* Go [byte] and [string]/[]byte: Go strings are arbitrary byte sequences. *)
Notation byte := ascii (only parsing).
(* Go string and []byte, as in pkg/lib/converters.go:25 *)
Notation bytes := (list ascii) (only parsing).

(* Literal Go strings. *)
Definition lit (s : string) : bytes := list_ascii_of_string s.

(* Numeric value of a byte and the byte of a number (Go conversion [byte(x)],
   which keeps the low 8 bits). *)
Definition bval (c : byte) : Z := Z.of_N (N_of_ascii c).
(* byte(x) in pkg/lib/converters.go:258-263 *)
Definition zbyte (z : Z) : byte := ascii_of_N (Z.to_N (z mod 256)).

(* == on bytes, e.g. pkg/utils/file.go:40 *)
Definition byte_eqb (a b : byte) : bool := Ascii.eqb a b.

(* Go string equality [==]. *)
Fixpoint bytes_eqb (a b : bytes) : bool :=
  match a, b with
  | [], [] => true
  | x :: a', y :: b' => byte_eqb x y && bytes_eqb a' b'
  | _, _ => false
  end.

(* A Go [switch] on a string with constant cases. *)
Definition one_of (s : bytes) (l : list string) : bool :=
  existsb (fun c => bytes_eqb s (lit c)) l.

(* pkg/lib/constants.go:506-508, zeroString, blankString, nineString *)
Definition zero_char : byte := "0"%char.
(* pkg/lib/constants.go:508 *)
Definition blank_char : byte := " "%char.
(* pkg/lib/constants.go:509 *)
Definition nine_char : byte := "9"%char.
(* the byte \r of pkg/file/file_instance.go:206 *)
Definition cr_char : byte := ascii_of_N 13.
(* the byte \n of pkg/file/file_instance.go:206 and 276 *)
Definition lf_char : byte := ascii_of_N 10.

(* Results of operations that may return an error or panic.
   the errors of pkg/utils/errors.go:30-93 and those of the standard library *)
Inductive error : Type :=
| ErrFieldRequired (field record : string)      (* pkg/utils/errors.go:30-93 *)
| ErrInvalidValueOfField (field record : string)
| ErrNonAlphanumeric (field record : string)
| ErrUpperAlpha (field record : string)
| ErrNumeric (field record : string)
| ErrPhoneNumber (record : string)
| ErrSegmentLength (record : string)
| ErrFailedParsing
| ErrBlockDescriptorWord
| ErrInvalidSegment (name : bytes)
| ErrInvalidRecord (name : bytes)
| ErrApplicableSegment (record segment : string)
| ErrInvalidMetroFile
| ErrInvalidFile (name : bytes)
| ErrInvalidFileFormat
| ErrSyntax                                      (* strconv.ErrSyntax *)
| ErrRange                                       (* strconv.ErrRange *)
| ErrTimeParse                                   (* *time.ParseError *)
| ErrSafecast                                    (* safecast out of range *)
| ErrOther (what : string)
| ErrFuel.                                       (* never returned: see the *_no_fuel lemmas *)

(* what a Go function with an error result does, e.g. pkg/lib/converters.go:25-55 *)
Inductive res (A : Type) : Type :=
| Ok (a : A)
| Err (e : error)
| Panic.
Arguments Ok {A} a.
Arguments Err {A} e.
Arguments Panic {A}.

(* Go slice expression s[a:b] on a byte slice; None stands for the run-time panic. *)
Definition slice (s : bytes) (a b : nat) : option bytes :=
  if (Nat.leb a b && Nat.leb b (List.length s))%bool
  then Some (firstn (b - a) (skipn a s))
  else None.

(* ---- decimal text ---- *)

(* a digit of fmt and strconv, pkg/lib/converters.go:72-74 *)
Definition digit_char (d : Z) : byte := zbyte (48 + d).
(* a digit as strconv.ParseInt knows it, pkg/lib/converters.go:27 *)
Definition is_digit (c : byte) : bool := (48 <=? bval c) && (bval c <=? 57).
(* the value strconv.ParseInt gives a digit, pkg/lib/converters.go:27 *)
Definition digit_val (c : byte) : Z := bval c - 48.

(* the loop of strconv's formatBits, for pkg/lib/converters.go:74 *)
Fixpoint udigits (fuel : nat) (z : Z) (acc : bytes) : bytes :=
  match fuel with
  | O => acc
  | S f =>
      let acc' := digit_char (z mod 10) :: acc in
      if z <? 10 then acc' else udigits f (z / 10) acc'
  end.

(* decimal digits of a natural number, without leading zeros; the fuel is the
   number of binary digits, which is never exhausted;
   strconv's formatBits, for pkg/lib/converters.go:74 *)
Definition utoa (z : Z) : bytes := udigits (S (Z.to_nat (Z.log2 z))) z [].

(* fmt.Sprintf("%v", x) / strconv.Itoa for an integer *)
Definition itoa (z : Z) : bytes :=
  if z <? 0 then "-"%char :: utoa (- z) else utoa z.

(* fmt.Sprintf("%0wd", x): zero padding up to width w, the sign included *)
Definition fmt_0d (w : nat) (z : Z) : bytes :=
  if z <? 0
  then let d := utoa (- z) in "-"%char :: repeat zero_char (w - 1 - List.length d) ++ d
  else let d := utoa z in repeat zero_char (w - List.length d) ++ d.

(* value of a digit string; the loop of strconv.ParseUint, for pkg/lib/converters.go:27 *)
Fixpoint dval_acc (acc : Z) (s : bytes) : Z :=
  match s with
  | [] => acc
  | c :: s' => dval_acc (10 * acc + digit_val c) s'
  end.
(* strconv.ParseUint on digits, for pkg/lib/converters.go:27 *)
Definition dval (s : bytes) : Z := dval_acc 0 s.

(* strconv.ParseInt(s, 10, bits): optional sign, then one or more decimal
   digits; the error component is [None] on success.  On a range error Go
   returns the nearest representable value, on a syntax error 0. *)
Definition parse_int (bits : Z) (s : bytes) : Z * option error :=
  let '(neg, ds) :=
    match s with
    | [] => (false, [])
    | c :: r =>
        if byte_eqb c "+"%char then (false, r)
        else if byte_eqb c "-"%char then (true, r)
        else (false, s)
    end in
  match ds with
  | [] => (0, Some ErrSyntax)
  | _ =>
      if forallb is_digit ds then
        let v := dval ds in
        let cutoff := 2 ^ (bits - 1) in
        if negb neg && (cutoff <=? v) then (cutoff - 1, Some ErrRange)
        else if neg && (cutoff <? v) then (- cutoff, Some ErrRange)
        else ((if neg then - v else v), None)
      else (0, Some ErrSyntax)
  end.

(* strconv.Atoi: like ParseInt(s, 10, 0) *)
Definition atoi (s : bytes) : Z * option error := parse_int 64 s.

(* ---- UTF-8 and fmt padding ---- *)

Definition in_range (lo hi : Z) (c : byte) : bool := (lo <=? bval c) && (bval c <=? hi).

(* width in bytes of the first rune, as decoded by a Go range loop over a
   string or by utf8.DecodeRuneInString; an invalid sequence has width 1 *)
Definition rune_width (s : bytes) : nat :=
  match s with
  | [] => 0%nat
  | c0 :: r =>
      if in_range 0 127 c0 then 1%nat
      else if in_range 194 223 c0 then
        match r with
        | c1 :: _ => if in_range 128 191 c1 then 2%nat else 1%nat
        | _ => 1%nat
        end
      else if in_range 224 239 c0 then
        match r with
        | c1 :: c2 :: _ =>
            let lo := if bval c0 =? 224 then 160 else 128 in
            let hi := if bval c0 =? 237 then 159 else 191 in
            if in_range lo hi c1 && in_range 128 191 c2 then 3%nat else 1%nat
        | _ => 1%nat
        end
      else if in_range 240 244 c0 then
        match r with
        | c1 :: c2 :: c3 :: _ =>
            let lo := if bval c0 =? 240 then 144 else 128 in
            let hi := if bval c0 =? 244 then 143 else 191 in
            if in_range lo hi c1 && in_range 128 191 c2 && in_range 128 191 c3
            then 4%nat else 1%nat
        | _ => 1%nat
        end
      else 1%nat
  end.

(* a range loop over a string, in fmt for pkg/lib/converters.go:74 and 90 *)
Fixpoint runes_fuel (fuel : nat) (s : bytes) : list bytes :=
  match fuel with
  | O => []
  | S f =>
      match s with
      | [] => []
      | _ => let w := rune_width s in firstn w s :: runes_fuel f (skipn w s)
      end
  end.

(* the byte sequences of the runes of a string, in order;
   a range loop over a string, in fmt for pkg/lib/converters.go:74 and 90 *)
Definition runes (s : bytes) : list bytes := runes_fuel (List.length s) s.

(* fmt precision for strings: keep the first n runes (fmt/format.go truncateString) *)
Definition fmt_trunc (n : nat) (s : bytes) : bytes := concat (firstn n (runes s)).

(* fmt width for strings, counted in runes (fmt/format.go padString) *)
Definition pad_width (n : nat) (s : bytes) : nat := (n - List.length (runes s))%nat.

(* fmt.Sprintf("%0N.Nv", s) for a string s: truncate to N runes, pad on the left with '0' *)
Definition fmt_zero_pad (n : nat) (s : bytes) : bytes :=
  let t := fmt_trunc n s in repeat zero_char (pad_width n t) ++ t.

(* fmt.Sprintf("%-N.Ns", s): truncate to N runes, pad on the right with ' ' *)
Definition fmt_left (n : nat) (s : bytes) : bytes :=
  let t := fmt_trunc n s in t ++ repeat blank_char (pad_width n t).

(* ---- strings package ---- *)

(* strings.TrimRight(s, " ") *)
Fixpoint trim_right (s : bytes) : bytes :=
  match s with
  | [] => []
  | c :: r =>
      match trim_right r with
      | [] => if byte_eqb c blank_char then [] else [c]
      | t => c :: t
      end
  end.

(* strings.Count(s, c) == len(s) for a one-byte c *)
Definition all_char (c : byte) (s : bytes) : bool := forallb (byte_eqb c) s.

(* strings.ToUpper on ASCII bytes; other bytes are left alone (see DESIGN.md) *)
Definition upper_char (c : byte) : byte :=
  if in_range 97 122 c then zbyte (bval c - 32) else c.
(* strings.ToUpper, pkg/lib/converters.go:39, pkg/lib/j2_segment.go:256, pkg/utils/file.go:29 *)
Definition to_upper (s : bytes) : bytes := map upper_char s.

(* ---- encoding/binary ---- *)

(* big-endian unsigned value of a byte string; the loop behind be_val,
   for pkg/lib/converters.go:195, 217, 237 *)
Fixpoint be_val_acc (acc : Z) (s : bytes) : Z :=
  match s with
  | [] => acc
  | c :: s' => be_val_acc (256 * acc + bval c) s'
  end.
(* binary.BigEndian.Uint64, pkg/lib/converters.go:195, 217, 237 *)
Definition be_val (s : bytes) : Z := be_val_acc 0 s.

(* the [n] low-order bytes of [z], most significant first *)
Fixpoint be_bytes (n : nat) (z : Z) : bytes :=
  match n with
  | O => []
  | S m => be_bytes m (z / 256) ++ [zbyte z]
  end.

(* safecast.Convert[uint16](x) with the error ignored; pkg/lib/converters.go:299 *)
Definition safecast_u16 (z : Z) : Z :=
  if (0 <=? z) && (z <=? 65535) then z else 0.

(* safecast.Convert[int64](x) of an unsigned 64-bit value; pkg/lib/converters.go:195, 217, 237 *)
Definition safecast_i64 (z : Z) : res Z :=
  if z <? 2 ^ 63 then Ok z else Err ErrSafecast.
