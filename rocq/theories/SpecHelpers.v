(* Specification: texts of properties, and strict reading *)
From Coq Require Import ZArith NArith Bool Ascii String List.
Import ListNotations.
From Verif Require Import GoBase GoTime Codec Json SpecCodec SpecJson SpecRecords SpecSchema.
Local Open Scope string_scope.
Local Open Scope Z_scope.
Local Open Scope list_scope.
Local Notation length := List.length.

(* the text of a value: numbers in decimals without leading zeros, texts as they are, times as
   [stamp] writes them *)
Definition own_text (stamp : time -> bytes) (v : value) (t : bytes) : Prop :=
  match v with
  | VInt z => exists (neg : bool) ds, t = (if neg then lit "-" else []) ++ ds /\ numerals ds /\ z = (if neg then - decimal ds else decimal ds)
      /\ (neg = true -> z <> 0) /\ (hd_error ds = Some "0"%char -> ds = ["0"%char])
  | VStr s => t = s
  | VTime x => t = stamp x
  end.

(* digits of base 16 with small letters *)
Definition nibble (c : byte) (z : Z) : Prop := 0 <= z <= 9 /\ code c = 48 + z \/ 10 <= z <= 15 /\ code c = 87 + z.
Inductive base16 : bytes -> Z -> Prop :=
| base16_end : base16 [] 0
| base16_digit s z c d : base16 s z -> nibble c d -> base16 (s ++ [c]) (16 * z + d).

(* the member names the property, in upper or lower case *)
Definition names (k : bytes) (p : property) : Prop := to_upper k = to_upper (lit (pKey p)).
Definition plain_keys (l : list (bytes * json)) : Prop := Forall (fun m => Forall (fun c => code c < 128) (fst m)) l.
