(* What calls of the client are to do, whatever the network does: C113 *)
From Coq Require Import ZArith NArith Bool Ascii String List.
Import ListNotations.
From Verif Require Import GoBase Server Client SpecClient ClientCalls.
Local Open Scope Z_scope.
Local Open Scope list_scope.

(* answers come with bodies of which nothing has been read *)
Definition fresh {request : Type} (doRequest : request -> exchange) : Prop :=
  forall rq a, doRequest rq = Done a -> exists t e, anBody a = OnWire t e.

(* the error of the network is the error of the call; a body that breaks off is an
   error; otherwise status and body decide *)
Inductive settles (models : list Z) (decode : bytes -> outcome) : exchange -> ended -> Prop :=
| settles_undone e a : settles models decode (Undone e a) (Failed e)
| settles_broken st t e : settles models decode (Done (mkAnswer st (OnWire t (Some e)))) (Failed e)
| settles_refused st t o : 300 <= st -> refused_with st (In st models) t o ->
    settles models decode (Done (mkAnswer st (OnWire t None))) (Got o)
| settles_taken st t : st < 300 -> settles models decode (Done (mkAnswer st (OnWire t None))) (Got (decode t)).

(* the answer handed to the caller is that of the network, its body being what arrived *)
Inductive hands_on : exchange -> option answer -> Prop :=
| hands_undone e a : hands_on (Undone e a) a
| hands_done st t e : hands_on (Done (mkAnswer st (OnWire t e))) (Some (mkAnswer st (InMemory t))).

(* an answer of which the body breaks off *)
Definition breaks_off (x : exchange) : Prop := exists st t e, x = Done (mkAnswer st (OnWire t (Some e))).

(* a text on lines of its own *)
Definition own_lines (d : bytes) : bytes := ascii_of_nat 10 :: d ++ [ascii_of_nat 10].

(* lines logged: the request, then the answer once all of it is there *)
Inductive logs {request : Type} (dr : request -> bytes + bytes) (da : answer -> bytes + bytes) (rq : request) : exchange -> list bytes -> Prop :=
| logs_done st t d d' : dr rq = inl d -> da (mkAnswer st (InMemory t)) = inl d' ->
    logs dr da rq (Done (mkAnswer st (OnWire t None))) [own_lines d; own_lines d']
| logs_broken x d : breaks_off x -> dr rq = inl d -> logs dr da rq x [own_lines d]
| logs_undone e a d : dr rq = inl d -> logs dr da rq (Undone e a) [own_lines d].

(* dumps that work *)
Definition dumps {request : Type} (dr : request -> bytes + bytes) (da : answer -> bytes + bytes) : Prop :=
  (forall rq, exists d, dr rq = inl d) /\ (forall a, exists d, da a = inl d).

(* so many of these calls get an answer of which the body breaks off *)
Inductive broken_calls {request : Type} (doRequest : request -> exchange) :
  list (list Z * (bytes -> outcome) * (request + bytes)) -> nat -> Prop :=
| bc_nil : broken_calls doRequest [] 0
| bc_unprepared m d e r n : broken_calls doRequest r n -> broken_calls doRequest ((m, d, inr e) :: r) n
| bc_whole m d rq r n : ~ breaks_off (doRequest rq) -> broken_calls doRequest r n -> broken_calls doRequest ((m, d, inl rq) :: r) n
| bc_broken m d rq r n : breaks_off (doRequest rq) -> broken_calls doRequest r n -> broken_calls doRequest ((m, d, inl rq) :: r) (S n).

(* how such a call ends in the terms of C73-C75 *)
Definition as_outcome (x : ended) : outcome := match x with Got o => o | Failed _ => Broken end.
