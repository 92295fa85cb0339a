(* The arithmetic of float64 in time.ParseDuration, for pkg/client/client.go:597 *)
From Coq Require Import ZArith NArith Bool List.
Import ListNotations.
From Verif Require Import GoFloat.
Local Open Scope Z_scope.

(* the float64 m * 2^e as a quotient; client.go:597 *)
Definition over (x : Z * Z) : Z := fst x * 2 ^ Z.max (snd x) 0.
(* client.go:597 *)
Definition under (x : Z * Z) : Z := 2 ^ Z.max (- snd x) 0.
(* the product and the quotient of two float64, rounded; None: infinite; client.go:597 *)
Definition float_mul (x y : Z * Z) : option (Z * Z) := to_double (over x * over y) (under x * under y).
(* client.go:597 *)
Definition float_div (x y : Z * Z) : option (Z * Z) := to_double (over x * under y) (under x * over y).
(* uint64 of a float64, client.go:597 *)
Definition truncate (x : Z * Z) : Z := over x / under x.

(* time/format.go leadingFraction: the scale after k digits; for client.go:597 *)
Fixpoint scale (k : nat) : option (Z * Z) :=
  match k with
  | O => to_double 1 1
  | S k => match scale k, to_double 10 1 with Some x, Some ten => float_mul x ten | _, _ => None end
  end.

(* time/format.go ParseDuration: uint64(float64(f) * (float64(unit) / scale)); an infinite
   scale gives 0; for client.go:597 *)
Definition go_parts (f k unit : Z) : Z :=
  match to_double f 1, to_double unit 1, scale (Z.to_nat k) with
  | Some x, Some u, Some s =>
      match float_div u s with
      | Some q => match float_mul x q with Some p => truncate p | None => 0 end
      | None => 0
      end
  | _, _, _ => 0
  end.
