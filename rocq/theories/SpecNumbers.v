(* What a number of JSON says (RFC 8259, section 6), for the numbers of files:
   file_instance.go:343-403, base_segment.go:748-804, file.go:104-134. *)
From Coq Require Import ZArith NArith Bool Ascii String List.
Import ListNotations.
From Verif Require Import GoBase Json SpecCodec SpecJson.
Local Open Scope string_scope.
Local Open Scope Z_scope.
Local Open Scope list_scope.
Local Notation length := List.length.

(* an exponent; of magnitude under 100000 *)
Definition exponent_of (t : bytes) (e : Z) : Prop :=
  t = [] /\ e = 0
  \/ exists c g ds, t = c :: g ++ ds /\ (c = "e"%char \/ c = "E"%char) /\ numerals ds /\ decimal ds < 100000
     /\ ((g = [] \/ g = lit "+") /\ e = decimal ds \/ g = lit "-" /\ e = - decimal ds).

(* t amounts to n / d, with a minus in front if neg *)
Definition amounts (t : bytes) (neg : bool) (n d : Z) : Prop :=
  exists whole fraction part exponent e,
    t = (if neg then lit "-" else []) ++ whole ++ fraction ++ exponent
    /\ (whole = lit "0" \/ numerals whole /\ forall r, whole <> "0"%char :: r)
    /\ (fraction = [] /\ part = [] \/ fraction = "."%char :: part /\ numerals part)
    /\ exponent_of exponent e
    /\ 0 < d
    /\ n * 10 ^ Z.max 0 (Z.of_nat (length part) - e)
       = decimal (whole ++ part) * 10 ^ Z.max 0 (e - Z.of_nat (length part)) * d.

(* t is a spelling of the whole number z; no minus in front of zero *)
Definition whole_number (t : bytes) (z : Z) : Prop := amounts t (z <? 0) (Z.abs z) 1.

(* the same JSON but for the spelling of whole numbers up to 2^53 *)
Inductive respelled : json -> json -> Prop :=
| RNum z t t' : Z.abs z <= 2 ^ 53 -> whole_number t z -> whole_number t' z -> respelled (JNum t) (JNum t')
| RSame j : respelled j j
| RArr l l' : Forall2 respelled l l' -> respelled (JArr l) (JArr l')
| RObj l l' : Forall2 (fun m m' => fst m = fst m' /\ respelled (snd m) (snd m')) l l' -> respelled (JObj l) (JObj l').

(* the same JSON but for the spelling of whole numbers outside of the header *)
Inductive respelled_file : json -> json -> Prop :=
| RFile l l' : Forall2 (fun m m' => fst m = fst m' /\ respelled (snd m) (snd m')
      /\ (to_upper (fst m) = lit "HEADER" -> snd m = snd m')) l l' -> respelled_file (JObj l) (JObj l').

(* the numbers m * 2^e of the format binary64 of IEEE 754, without the sign *)
Definition binary64 (m e : Z) : Prop := 2 ^ 52 <= m < 2 ^ 53 /\ -1074 <= e <= 971 \/ 0 <= m < 2 ^ 52 /\ e = -1074.

(* m * 2^e is the one nearest to n / d, or the even one of two that are as near;
   distances are multiplied by d * 2^1074 *)
Definition nearest (n d m e : Z) : Prop :=
  binary64 m e /\ forall m' e', binary64 m' e' ->
    Z.abs (m * 2 ^ (e + 1074) * d - n * 2 ^ 1074) <= Z.abs (m' * 2 ^ (e' + 1074) * d - n * 2 ^ 1074)
    /\ (Z.abs (m * 2 ^ (e + 1074) * d - n * 2 ^ 1074) = Z.abs (m' * 2 ^ (e' + 1074) * d - n * 2 ^ 1074) ->
        (m', e') = (m, e) \/ Z.even m = true).

(* n / d is nearest to z *)
Definition nearest_whole (n d z : Z) : Prop := exists m e, m * 2 ^ (e + 1074) = z * 2 ^ 1074 /\ nearest n d m e.
