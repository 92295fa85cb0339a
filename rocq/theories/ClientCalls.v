(* Calls of the client with any HTTPClient and with Debug: callAPI
   (pkg/client/client.go:239-261) and what ConvertExecute, PrintExecute,
   ValidatorExecute and HealthExecute do around it
   (pkg/client/api_metro2_files.go:161-216, 282-316, 425-469, 558-613).
   prepareRequest, Client.Do, DumpRequestOut and DumpResponse are arbitrary
   functions; DumpRequestOut leaves the request as it was, and DumpResponse reads
   the body first (net/http/httputil). *)
From Coq Require Import ZArith NArith Bool Ascii String List.
Import ListNotations.
From Verif Require Import GoBase GoTime GoLayout Tables Codec Records File Reader Json JsonFile Server Client.
Local Open Scope string_scope.
Local Open Scope Z_scope.
Local Open Scope list_scope.
Local Notation length := List.length.

(* Response.Body, as client.go:254-260 and api_metro2_files.go:171-173 treat it *)
Inductive held :=
| OnWire (t : bytes) (e : option bytes)   (* nothing read yet: what will arrive and the error after it, if any *)
| Spent (e : bytes)                       (* read until this error *)
| Shut                                    (* closed by net/http *)
| InMemory (t : bytes).                   (* a reader over these bytes *)

(* http.Response; api_metro2_files.go:166-186 *)
Record answer := mkAnswer { anStatus : Z; anBody : held }.

(* what Client.Do returns, client.go:248: an error, perhaps with an answer (a
   redirect that was refused), or an answer; it never returns neither *)
Inductive exchange :=
| Undone (e : bytes) (a : option answer)
| Done (a : answer).

(* assignments to Response.Body, api_metro2_files.go:173 *)
Definition with_body (a : answer) (h : held) : answer := mkAnswer (anStatus a) h.

(* io.ReadAll of the body, api_metro2_files.go:171 *)
Definition read_all (h : held) : bytes * option bytes :=
  match h with
  | OnWire t e => (t, e)
  | Spent e => ([], Some e)
  | Shut => ([], Some (lit "http: read on closed response body"))
  | InMemory t => (t, None)
  end.

(* what callAPI leaves, client.go:239-261; [cdOpen]: a body of an answer came and has not been
   closed *)
Record called := mkCalled {
  cdLog : list bytes;
  cdSent : bool;
  cdAnswer : option answer;
  cdError : option bytes;
  cdOpen : bool }.

(* how an operation ends, api_metro2_files.go:161-216 *)
Inductive ended :=
| Got (o : outcome)
| Failed (e : bytes).

(* what an operation leaves, api_metro2_files.go:161-216 *)
Record result := mkResult {
  rsEnd : ended;
  rsAnswer : option answer;
  rsLog : list bytes;
  rsSent : bool;
  rsOpen : bool }.

Section Calls.
Variable request : Type.
(* DumpRequestOut (client.go:241), Do (client.go:248), and what DumpResponse
   (client.go:254) does once it has the body *)
Variables (dumpRequest : request -> bytes + bytes) (doRequest : request -> exchange) (dumpAnswer : answer -> bytes + bytes).

(* log.Printf with a line break on either side, client.go:245 and 258 *)
Definition logged (d : bytes) : bytes := [lf_char] ++ d ++ [lf_char].

(* client.go:253-259: DumpResponse reads the body; if that fails the body stays as it
   is, otherwise it is closed and replaced *)
Definition dump_answer (log : list bytes) (a : answer) : called :=
  match read_all (anBody a) with
  | (_, Some e) => mkCalled log true (Some (with_body a (Spent e))) (Some e) true
  | (t, None) =>
      let a' := with_body a (InMemory t) in
      match dumpAnswer a' with
      | inl d => mkCalled (log ++ [logged d]) true (Some a') None false
      | inr e => mkCalled log true (Some a') (Some e) false
      end
  end.

(* client.go:248-261 *)
Definition send (debug : bool) (log : list bytes) (rq : request) : called :=
  match doRequest rq with
  | Undone e a => mkCalled log true a (Some e) false
  | Done a => if debug then dump_answer log a else mkCalled log true (Some a) None true
  end.

(* client.go:239-261 *)
Definition call_api (debug : bool) (rq : request) : called :=
  if debug then
    match dumpRequest rq with
    | inl d => send true [logged d] rq
    | inr e => mkCalled [] false None (Some e) false
    end
  else send false [] rq.

(* api_metro2_files.go:178-216 *)
Definition judge (models : list Z) (decode : bytes -> outcome) (status : Z) (t : bytes) : outcome :=
  if 300 <=? status
  then ApiError status t (if existsb (Z.eqb status) models then Some t else None)
  else decode t.

(* api_metro2_files.go:161-216; [prepared]: what prepareRequest returned *)
Definition execute (debug : bool) (models : list Z) (decode : bytes -> outcome) (prepared : request + bytes) : result :=
  match prepared with
  | inr e => mkResult (Failed e) None [] false false
  | inl rq =>
      let c := call_api debug rq in
      match cdError c, cdAnswer c with
      | Some e, a => mkResult (Failed e) a (cdLog c) (cdSent c) (cdOpen c)
      | None, None => mkResult (Got NoFile) None (cdLog c) (cdSent c) (cdOpen c)
      | None, Some a =>
          let (t, e) := read_all (anBody a) in
          let a' := with_body a (InMemory t) in
          mkResult (match e with Some e => Failed e | None => Got (judge models decode (anStatus a) t) end)
            (Some a') (cdLog c) (cdSent c) false
      end
  end.

(* operations one after the other, api_metro2_files.go:161-216: how many bodies stay open *)
Fixpoint left_open (debug : bool) (calls : list (list Z * (bytes -> outcome) * (request + bytes))) : nat :=
  match calls with
  | [] => 0%nat
  | (models, decode, p) :: r => ((if rsOpen (execute debug models decode p) then 1 else 0) + left_open debug r)%nat
  end.
End Calls.

(* what Do returns when the server gives this reply (client.go:248): a server that panics closes the connection *)
Definition over_network (errText : error -> bytes) (rp : reply) : exchange :=
  match rp with
  | Crash => Undone (lit "EOF") None
  | Reply status _ b => Done (mkAnswer status (OnWire (body_bytes errText b) None))
  end.
