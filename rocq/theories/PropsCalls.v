(* Calls of the client over any network, and Debug: C113 *)
From Coq Require Import ZArith NArith Bool Ascii String List.
Import ListNotations.
From Verif Require Import GoBase GoTime GoLayout Tables Codec Records File Reader Json JsonFile Server Client SpecClient
  ClientCalls SpecCalls CallsFacts.
Local Open Scope Z_scope.
Local Open Scope list_scope.

(* C113: a call ends with the error of the network, with an error if the body of the
   answer breaks off, and otherwise as status and body say; with Debug it ends the
   same and the request and the answer are logged besides.  Missing: closing the body,
   and handing on what arrived of it, if it breaks off with Debug, and dumps that fail *)
Theorem C113_partial : forall request (dr : request -> bytes + bytes) go da models decode rq, fresh go -> dumps dr da ->
  let r := execute request dr go da true models decode (inl rq) in
  settles models decode (go rq) (rsEnd r) /\ logs dr da rq (go rq) (rsLog r) /\ rsSent r = true
  /\ (rsOpen r = true <-> breaks_off (go rq)) /\ (~ breaks_off (go rq) -> hands_on (go rq) (rsAnswer r)).
Proof. exact debug_call. Qed.
Print Assumptions C113_partial.

(* a network with an answer, one that breaks off and an error *)
Definition some_network (rq : nat) : exchange :=
  match rq with
  | O => Done (mkAnswer 200 (OnWire (lit "valid file") None))
  | S O => Done (mkAnswer 200 (OnWire (lit "val") (Some (lit "unexpected EOF"))))
  | _ => Undone (lit "connection refused") None
  end.

Example C113_network_case : fresh some_network /\ dumps (fun _ : nat => inl (lit "POST")) (fun _ => inl (lit "200"))
  /\ breaks_off (some_network 1) /\ ~ breaks_off (some_network 0).
Proof.
  split; [intros [|[|rq]] a E; try discriminate E; injection E as <-; eexists; eexists; reflexivity|].
  split; [split; intros; eexists; reflexivity|].
  split; [exists 200, (lit "val"), (lit "unexpected EOF"); reflexivity|intros [st [t [e E]]]; discriminate E].
Qed.

Example C113_partial_case :
  rsEnd (execute nat (fun _ => inl (lit "POST")) some_network (fun _ => inl (lit "200")) true [400] decode_string (inl 0%nat))
  = Got (Returned (lit "valid file"))
  /\ rsEnd (execute nat (fun _ => inl (lit "POST")) some_network (fun _ => inl (lit "200")) true [400] decode_string (inl 1%nat))
  = Failed (lit "unexpected EOF")
  /\ rsEnd (execute nat (fun _ => inl (lit "POST")) some_network (fun _ => inl (lit "200")) true [400] decode_string (inl 2%nat))
  = Failed (lit "connection refused").
Proof. repeat split. Qed.

(* without Debug the body of every answer is closed as well, the caller gets what arrived of
   it, and nothing is logged *)
Theorem C113_plain : forall request (dr : request -> bytes + bytes) go da models decode rq, fresh go ->
  let r := execute request dr go da false models decode (inl rq) in
  settles models decode (go rq) (rsEnd r) /\ hands_on (go rq) (rsAnswer r) /\ rsLog r = [] /\ rsSent r = true /\ rsOpen r = false.
Proof. exact plain_call. Qed.
Print Assumptions C113_plain.

Example C113_plain_case :
  execute nat (fun _ => inr []) some_network (fun _ => inr []) false [400] decode_string (inl 1%nat)
  = mkResult (Failed (lit "unexpected EOF")) (Some (mkAnswer 200 (InMemory (lit "val")))) [] true false.
Proof. reflexivity. Qed.

(* how a call is to end is settled by what the network does *)
Theorem C113_settled : forall models decode x a b, settles models decode x a -> settles models decode x b -> a = b.
Proof. exact settles_unique. Qed.
Print Assumptions C113_settled.

Example C113_settled_case : settles [400] decode_string (some_network 2) (Failed (lit "connection refused")).
Proof. constructor. Qed.

Theorem C113_same : forall request (dr : request -> bytes + bytes) go da models decode rq, fresh go -> dumps dr da ->
  rsEnd (execute request dr go da true models decode (inl rq)) = rsEnd (execute request dr go da false models decode (inl rq)).
Proof. exact same_end. Qed.
Print Assumptions C113_same.

Example C113_same_case : forall models decode rq,
  rsEnd (execute nat (fun _ => inl (lit "POST")) some_network (fun _ => inl (lit "200")) true models decode (inl rq))
  = rsEnd (execute nat (fun _ => inl (lit "POST")) some_network (fun _ => inl (lit "200")) false models decode (inl rq)).
Proof. intros models decode rq. apply same_end; apply C113_network_case. Qed.

(* if dumps fail, Debug turns the end into the error of the dump and changes it in no other
   way; a request that cannot be dumped is not sent *)
Theorem C113_dumps : forall request (dr : request -> bytes + bytes) go da models decode rq, fresh go ->
  rsEnd (execute request dr go da true models decode (inl rq)) = rsEnd (execute request dr go da false models decode (inl rq))
  \/ (exists e, rsEnd (execute request dr go da true models decode (inl rq)) = Failed e
       /\ ((dr rq = inr e /\ rsSent (execute request dr go da true models decode (inl rq)) = false)
           \/ exists st t, go rq = Done (mkAnswer st (OnWire t None)) /\ da (mkAnswer st (InMemory t)) = inr e)).
Proof. exact debug_ends. Qed.
Print Assumptions C113_dumps.

Example C113_dumps_case :
  execute nat (fun _ => inl (lit "POST")) some_network (fun _ => inr (lit "dump")) true [400] decode_string (inl 0%nat)
  = mkResult (Failed (lit "dump")) (Some (mkAnswer 200 (InMemory (lit "valid file")))) [own_lines (lit "POST")] true false.
Proof. reflexivity. Qed.

(* with Debug a body that arrived is closed and can be read again from memory, be the answer
   dumped or not *)
Theorem C113_whole : forall request (dr : request -> bytes + bytes) go da models decode rq st t d,
  go rq = Done (mkAnswer st (OnWire t None)) -> dr rq = inl d ->
  let c := call_api request dr go da true rq in let r := execute request dr go da true models decode (inl rq) in
  cdAnswer c = Some (mkAnswer st (InMemory t)) /\ cdOpen c = false
  /\ rsAnswer r = Some (mkAnswer st (InMemory t)) /\ rsOpen r = false.
Proof. exact debug_whole. Qed.
Print Assumptions C113_whole.

Example C113_whole_case : some_network 0 = Done (mkAnswer 200 (OnWire (lit "valid file") None))
  /\ cdAnswer (call_api nat (fun _ => inl []) some_network (fun _ => inr []) true 0%nat)
     = Some (mkAnswer 200 (InMemory (lit "valid file"))).
Proof. split; reflexivity. Qed.

(* with Debug the body of an answer stays open, and what arrived of it is lost *)
Theorem C113_refuted : exists (dr : bytes -> bytes + bytes) go da models decode rq, fresh go /\ dumps dr da
  /\ rsOpen (execute bytes dr go da true models decode (inl rq)) = true
  /\ ~ hands_on (go rq) (rsAnswer (execute bytes dr go da true models decode (inl rq))).
Proof. exact debug_leaks. Qed.
Print Assumptions C113_refuted.

(* and a call that works fails with Debug *)
Theorem C113_dump_refuted : exists (dr : bytes -> bytes + bytes) go da models decode rq o e, fresh go
  /\ rsEnd (execute bytes dr go da false models decode (inl rq)) = Got o
  /\ rsEnd (execute bytes dr go da true models decode (inl rq)) = Failed e
  /\ rsSent (execute bytes dr go da true models decode (inl rq)) = false.
Proof. exact debug_fails. Qed.
Print Assumptions C113_dump_refuted.

(* a request that cannot be prepared is not sent *)
Theorem C113_unprepared : forall request (dr : request -> bytes + bytes) go da debug models decode e,
  execute request dr go da debug models decode (inr e) = mkResult (Failed e) None [] false false.
Proof. exact unprepared. Qed.
Print Assumptions C113_unprepared.

(* after any number of calls no body is open, *)
Theorem C113_runs : forall request (dr : request -> bytes + bytes) go da calls, fresh go ->
  left_open request dr go da false calls = 0%nat.
Proof. exact plain_runs. Qed.
Print Assumptions C113_runs.

(* with Debug as many as broke off *)
Theorem C113_debug_runs : forall request (dr : request -> bytes + bytes) go da calls n, fresh go -> dumps dr da ->
  broken_calls go calls n -> left_open request dr go da true calls = n.
Proof. exact debug_runs. Qed.
Print Assumptions C113_debug_runs.

Example C113_runs_case :
  let calls := map (fun rq : nat => ([400], decode_string, inl rq : nat + bytes)) [0; 1; 1; 2]%nat in
  left_open nat (fun _ => inl []) some_network (fun _ => inl []) true calls = 2%nat
  /\ left_open nat (fun _ => inl []) some_network (fun _ => inl []) false calls = 0%nat
  /\ broken_calls some_network calls 2.
Proof.
  split; [reflexivity|split; [reflexivity|]]. cbn [map].
  apply bc_whole; [apply C113_network_case|].
  apply bc_broken; [apply C113_network_case|]. apply bc_broken; [apply C113_network_case|].
  apply bc_whole; [intros [st [t [e E]]]; discriminate E|]. apply bc_nil.
Qed.

(* over a server that replies these are the operations of C73-C75 *)
Theorem C113_agrees : forall cpus rt evs errText w models decode rp dr da, respond cpus rt evs w = Some rp ->
  perform cpus rt evs errText w models decode
  = Some (as_outcome (rsEnd (execute wire dr (fun _ => over_network errText rp) da false models decode (inl w)))).
Proof. exact operations_agree. Qed.
Print Assumptions C113_agrees.

Example C113_agrees_case : forall cpus rt evs boundary, exists rp, respond cpus rt evs (health_request boundary) = Some rp.
Proof. intros. eexists. reflexivity. Qed.
