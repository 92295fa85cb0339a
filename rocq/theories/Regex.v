(* Regular expressions of pkg/lib/constants.go:500-503.  Go's MatchString is
   language membership (all patterns are either anchored at both ends or ask for
   the presence of one character). *)
From Coq Require Import ZArith Bool Ascii String List.
Import ListNotations.
From Verif Require Import GoBase.
Local Open Scope Z_scope.

(* regular expressions of package regexp, pkg/lib/constants.go:500-503 *)
Inductive re : Type :=
| RNone
| REps
| RChar (p : byte -> bool)
| RCat (a b : re)
| RAlt (a b : re)
| RStar (a : re).

(* for the MatchString calls of pkg/lib/validators.go:19, 26, 33, 41 *)
Fixpoint re_nullable (r : re) : bool :=
  match r with
  | RNone => false
  | REps => true
  | RChar _ => false
  | RCat a b => re_nullable a && re_nullable b
  | RAlt a b => re_nullable a || re_nullable b
  | RStar _ => true
  end.

(* for the MatchString calls of pkg/lib/validators.go:19, 26, 33, 41 *)
Fixpoint deriv (c : byte) (r : re) : re :=
  match r with
  | RNone => RNone
  | REps => RNone
  | RChar p => if p c then REps else RNone
  | RCat a b =>
      if re_nullable a then RAlt (RCat (deriv c a) b) (deriv c b)
      else RCat (deriv c a) b
  | RAlt a b => RAlt (deriv c a) (deriv c b)
  | RStar a => RCat (deriv c a) (RStar a)
  end.

(* whole-string match, ^...$; pkg/lib/validators.go:41 *)
Fixpoint matches (r : re) (s : bytes) : bool :=
  match s with
  | [] => re_nullable r
  | c :: s' => matches (deriv c r) s'
  end.

(* a question mark in pkg/lib/constants.go:502 *)
Definition ropt (r : re) : re := RAlt REps r.
(* a plus or {1,} in pkg/lib/constants.go:502 *)
Definition rplus (r : re) : re := RCat r (RStar r).
(* a character in pkg/lib/constants.go:502 *)
Definition rc (c : byte) : re := RChar (byte_eqb c).
(* some characters in pkg/lib/constants.go:502 *)
Fixpoint rlit (s : bytes) : re :=
  match s with
  | [] => REps
  | c :: s' => RCat (rc c) (rlit s')
  end.
(* \d in pkg/lib/constants.go:502 *)
Definition rdigit : re := RChar is_digit.
(* [\-\.\ \\\/]; pkg/lib/constants.go:502 *)
Definition rsep : re :=
  RChar (fun c => existsb (byte_eqb c) ["-"; "."; " "; "\"; "/"]%char).

(* pkg/lib/constants.go:502, phoneRegex *)
Definition phone_regex : re :=
  RCat
    (* (?:(?:\(?(?:00|\+)([1-4]\d\d|[1-9]\d?)\)?)?[\-\.\ \\\/]?)? *)
    (ropt
       (RCat
          (ropt (RCat (ropt (rc "("%char))
                (RCat (RAlt (rlit (lit "00")) (rc "+"%char))
                (RCat (RAlt (RCat (RChar (in_range 49 52)) (RCat rdigit rdigit))
                            (RCat (RChar (in_range 49 57)) (ropt rdigit)))
                      (ropt (rc ")"%char))))))
          (ropt rsep)))
  (RCat
    (* ((?:\(?\d{1,}\)?[\-\.\ \\\/]?){0,}) *)
    (RStar (RCat (ropt (rc "("%char))
           (RCat (rplus rdigit)
           (RCat (ropt (rc ")"%char)) (ropt rsep)))))
    (* (?:[\-\.\ \\\/]?(?:#|ext\.?|extension|x)[\-\.\ \\\/]?(\d+))? *)
    (ropt (RCat (ropt rsep)
          (RCat (RAlt (rc "#"%char)
                (RAlt (RCat (rlit (lit "ext")) (ropt (rc "."%char)))
                (RAlt (rlit (lit "extension")) (rc "x"%char))))
          (RCat (ropt rsep) (rplus rdigit)))))).

(* pkg/lib/constants.go:501, alphanumericRegex finds a character outside blank,
   \w, and the punctuation listed in the pattern (where comma-minus-dot is a
   range); every non-ASCII rune and every invalid byte is outside, so the test
   is made per byte.  The backquote is not in the set. *)
Definition alnum_char (c : byte) : bool :=
  in_range 48 57 c || in_range 65 90 c || in_range 97 122 c || byte_eqb c "_"%char ||
  in_range 44 46 c ||
  existsb (byte_eqb c)
    [" "; "!"; ascii_of_N 34; "#"; "$"; "%"; "&"; "'"; "("; ")"; "*"; "+"; "\"; "/"; ":"; ";";
     "<"; ">"; "="; "?"; "@"; "["; "]"; "^"; "{"; "}"; "|"; "~"]%char.

(* alphanumericRegex.MatchString; pkg/lib/validators.go:26 *)
Definition alphanumeric_regex (s : bytes) : bool := existsb (fun c => negb (alnum_char c)) s.

(* pkg/lib/constants.go:500, upperAlphanumericRegex *)
Definition upper_alnum_char (c : byte) : bool :=
  in_range 48 57 c || in_range 65 90 c || byte_eqb c "_"%char ||
  in_range 44 46 c ||
  existsb (byte_eqb c)
    [" "; "!"; ascii_of_N 34; "#"; "$"; "%"; "&"; "'"; "("; ")"; "*"; "+"; "\"; "/"; ":"; ";";
     "<"; ">"; "="; "?"; "@"; "["; "]"; "^"; "{"; "}"; "|"; "~"]%char.
(* pkg/lib/validators.go:19 *)
Definition upper_alphanumeric_regex (s : bytes) : bool :=
  existsb (fun c => negb (upper_alnum_char c)) s.

(* pkg/lib/constants.go:503, numericRegex: some character in [0-9a-fA-F] *)
Definition numeric_regex (s : bytes) : bool :=
  existsb (fun c => in_range 48 57 c || in_range 97 102 c || in_range 65 70 c) s.
