(* Specification: until when an answer may be kept *)
From Coq Require Import ZArith NArith Bool Ascii String List.
Import ListNotations.
From Verif Require Import GoBase GoTime SpecCodec SpecSparse SpecFormats.
Local Open Scope string_scope.
Local Open Scope Z_scope.
Local Open Scope list_scope.
Local Notation length := List.length.

(* ---- the header Cache-Control ---- *)

(* a name, and a value behind an equals sign if there is one *)
Definition directive : Type := bytes * option bytes.

(* neither blanks nor the characters that divide the header *)
Definition token (s : bytes) : Prop := ~ In " "%char s /\ ~ In ","%char s /\ ~ In "="%char s.

Definition blank (s : bytes) : Prop := Forall (eq " "%char) s.

Inductive directive_text : directive -> bytes -> Prop :=
| DirectiveName n a b : token n -> n <> [] -> blank a -> blank b -> directive_text (n, None) (a ++ n ++ b)
| DirectiveValue n v a b : token n -> token v -> blank a -> blank b ->
    directive_text (n, Some v) (a ++ n ++ list_ascii_of_string "=" ++ v ++ b).

(* directives with commas between them; none at all is an empty header *)
Inductive control_text : list directive -> bytes -> Prop :=
| ControlNone s : blank s -> control_text [] s
| ControlLast d s : directive_text d s -> control_text [d] s
| ControlMore d l s r : directive_text d s -> control_text l r -> control_text (d :: l) (s ++ list_ascii_of_string "," ++ r).

Definition max_age_name : bytes := list_ascii_of_string "max-age".

(* the last of several counts *)
Definition says_max_age (l : list directive) (v : option bytes) : Prop :=
  exists a b, l = a ++ (max_age_name, v) :: b /\ ~ In max_age_name (map fst b).

(* ---- spans of time ---- *)

(* units and their nanoseconds; the micro sign and the Greek letter *)
Definition unit_names : list (bytes * Z) :=
  [(list_ascii_of_string "ns", 1); (list_ascii_of_string "us", 1000); (map ascii_of_N [194; 181; 115]%N, 1000);
   (map ascii_of_N [206; 188; 115]%N, 1000); (list_ascii_of_string "ms", 1000000); (list_ascii_of_string "s", 1000000000);
   (list_ascii_of_string "m", 60000000000); (list_ascii_of_string "h", 3600000000000)].

Section Spans.
(* nanoseconds in f / 10^w of a unit of k, as the float arithmetic of the host gives them *)
Variable parts : Z -> Z -> Z -> Z.

(* a number of units of k nanoseconds; more than 18 digits behind the point are left out here *)
Inductive amount (k : Z) : Z -> bytes -> Prop :=
| AmountWhole n w s : (0 < w)%nat -> decimal_text w n s -> amount k (n * k) s
| AmountPoint n w s f d t : decimal_text w n s -> decimal_text d f t -> (0 < w + d)%nat -> (d <= 18)%nat ->
    amount k (n * k + (if f =? 0 then 0 else parts f (Z.of_nat d) k)) (s ++ list_ascii_of_string "." ++ t).

(* numbers with units *)
Inductive spans : Z -> bytes -> Prop :=
| SpansOne z s u k : In (u, k) unit_names -> amount k z s -> spans z (s ++ u)
| SpansMore z s u k total r : In (u, k) unit_names -> amount k z s -> spans total r -> spans (z + total) (s ++ u ++ r).

Inductive signed_spans : Z -> bytes -> Prop :=
| SpansBare z s : spans z s -> signed_spans z s
| SpansPlus z s : spans z s -> signed_spans z (list_ascii_of_string "+" ++ s)
| SpansMinus z s : spans z s -> signed_spans (- z) (list_ascii_of_string "-" ++ s).
End Spans.

(* all spans *)
Definition all_digits (s : bytes) : Prop := Forall (fun c => In c digits) s.
Inductive number_form : bytes -> Prop :=
| NumberWhole a : all_digits a -> a <> [] -> number_form a
| NumberPoint a b : all_digits a -> all_digits b -> a ++ b <> [] -> number_form (a ++ list_ascii_of_string "." ++ b).
Inductive span_form : bytes -> Prop :=
| FormOne x u : number_form x -> In u (map fst unit_names) -> span_form (x ++ u)
| FormMore x u r : number_form x -> In u (map fst unit_names) -> span_form r -> span_form (x ++ u ++ r).
Definition signed_form (s : bytes) : Prop :=
  span_form s \/ exists r, span_form r /\ (s = list_ascii_of_string "+" ++ r \/ s = list_ascii_of_string "-" ++ r).

(* ---- dates of HTTP ---- *)

(* Tue, 17 Nov 2026 16:00:00 GMT *)
Definition http_notation : list part :=
  [Weekday false; Text ", "; Day true; Text " "; MonthName false; Text " "; Year; Text " "; Hour; Text ":"; Minute true;
   Text ":"; Second true; Fraction; Text " "; Zone].
Definition http_date (abbr : string) (t : time) (s : bytes) : Prop := text_of abbr t http_notation s.

(* the second it stands for, [zone] being what the host makes of the abbreviation *)
Definition http_time (zone : bytes -> time -> time) (abbr : string) (t : time) : time := meant zone http_notation abbr t.
