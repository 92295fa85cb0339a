(* The texts of errors: pkg/utils/errors.go *)
From Coq Require Import ZArith NArith Bool Ascii String List.
Import ListNotations.
From Verif Require Import GoBase.
Local Open Scope string_scope.
Local Open Scope list_scope.

(* [A-Z], [a-z] and [0-9] of the regular expressions; errors.go:14-15 *)
Definition cap (c : byte) : bool := (Nat.leb 65 (nat_of_ascii c) && Nat.leb (nat_of_ascii c) 90)%bool.
(* errors.go:14-15 *)
Definition low (c : byte) : bool := (Nat.leb 97 (nat_of_ascii c) && Nat.leb (nat_of_ascii c) 122)%bool.
(* errors.go:14-15 *)
Definition dig (c : byte) : bool := (Nat.leb 48 (nat_of_ascii c) && Nat.leb (nat_of_ascii c) 57)%bool.

(* errors.go:14 and 18, matchFirstCap "(.)([A-Z][a-z]+)" replaced by "${1}_${2}":
   matches are found from the left and do not overlap; [inside] says that the small
   letters that follow still belong to the last match.  The dot matches anything
   but a line break. *)
Fixpoint first_caps (inside : bool) (s : bytes) : bytes :=
  match s with
  | [] => []
  | c :: t =>
      if inside && low c then c :: first_caps true t
      else
        match t with
        | u :: t' =>
            if negb (byte_eqb c lf_char) && cap u && match t' with l :: _ => low l | [] => false end
            then c :: "_"%char :: u :: first_caps true t'
            else c :: first_caps false t
        | [] => [c]
        end
  end.

(* errors.go:15 and 19, matchAllCap "([a-z0-9])([A-Z])" replaced by "${1}_${2}" *)
Fixpoint all_caps (s : bytes) : bytes :=
  match s with
  | [] => []
  | c :: t =>
      match t with
      | u :: t' =>
          if (low c || dig c) && cap u then c :: "_"%char :: u :: all_caps t'
          else c :: all_caps t
      | [] => [c]
      end
  end.

(* strings.ToLower on ASCII text, errors.go:20; all names given to it are ASCII *)
Definition lower_char (c : byte) : byte := if cap c then ascii_of_nat (nat_of_ascii c + 32) else c.
(* strings.ToLower, errors.go:20 *)
Definition to_lower (s : bytes) : bytes := map lower_char s.

(* toSnakeCase, errors.go:17-21 *)
Definition to_snake_case (s : string) : bytes := to_lower (all_caps (first_caps false (lit s))).

(* "%s in %s ...", errors.go:57-83 *)
Definition field_text (field record what : string) : bytes :=
  to_snake_case field ++ lit " in " ++ lit record ++ lit what.

(* errors.go:23-93; the texts of other errors come from elsewhere *)
Definition error_text (e : error) : option bytes :=
  match e with
  | ErrInvalidMetroFile => Some (lit "the file isn't metro file")               (* 25 *)
  | ErrApplicableSegment r s => Some (lit r ++ lit " has not applicable segment (" ++ lit s ++ lit ")")  (* 31-33 *)
  | ErrInvalidSegment n => Some (lit "has an invalid segment (" ++ n ++ lit ")")  (* 36-38 *)
  | ErrFailedParsing => Some (lit "is failed parsing raw data")                  (* 41-43 *)
  | ErrBlockDescriptorWord => Some (lit "should be block descriptor word")       (* 46-48 *)
  | ErrInvalidRecord n => Some (lit "is an invalid record (" ++ n ++ lit ")")    (* 51-53 *)
  | ErrInvalidValueOfField f r => Some (field_text f r " has an invalid value")  (* 56-58 *)
  | ErrNonAlphanumeric f r => Some (field_text f r " has not alphanumeric characters")  (* 61-63 *)
  | ErrUpperAlpha f r => Some (field_text f r " has not uppercase A-Z or 0-9")   (* 66-68 *)
  | ErrNumeric f r => Some (field_text f r " has not numeric characters")        (* 71-73 *)
  | ErrFieldRequired f r => Some (field_text f r " is a required field")         (* 81-83 *)
  | ErrPhoneNumber r => Some (lit "telephone number in " ++ lit r ++ lit " has an invalid phone number")  (* 86-88 *)
  | ErrSegmentLength r => Some (lit r ++ lit " has an invalid length")           (* 91-93 *)
  | _ => None
  end.
