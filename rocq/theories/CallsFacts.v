(* Proofs about calls of the client: C113 *)
From Coq Require Import ZArith NArith Bool Ascii String Lia List.
Import ListNotations.
From Verif Require Import GoBase GoTime GoLayout Tables Codec Records File Reader Json JsonFile Server Client SpecClient ClientFacts
  ClientCalls SpecCalls.
Local Open Scope Z_scope.
Local Open Scope list_scope.

Lemma judge_settles models decode st t :
  settles models decode (Done (mkAnswer st (OnWire t None))) (Got (judge models decode st t)).
Proof.
  unfold judge. destruct (Z.leb_spec 300 st) as [H|H].
  - apply settles_refused; auto. unfold refused_with. destruct (existsb (Z.eqb st) models) eqn:E.
    + left. split; auto. apply existsb_exists in E. destruct E as [x [I Q]]. apply Z.eqb_eq in Q. subst. exact I.
    + right. split; auto. intros I. assert (X : existsb (Z.eqb st) models = true) by (apply existsb_exists; exists st; split; auto; apply Z.eqb_refl).
      congruence.
  - apply settles_taken. lia.
Qed.

Lemma settles_unique models decode x a b : settles models decode x a -> settles models decode x b -> a = b.
Proof.
  intros A B. inversion A; subst; inversion B; subst; auto; try lia.
  f_equal. match goal with H : refused_with _ _ _ _, K : refused_with _ _ _ _ |- _ =>
    destruct H as [[? ?]|[? ?]], K as [[? ?]|[? ?]]; subst; tauto || auto end.
Qed.

Section Facts.
Variable request : Type.
Variables (dr : request -> bytes + bytes) (go : request -> exchange) (da : answer -> bytes + bytes).
Notation exec := (execute request dr go da).

Lemma fresh_cases rq : fresh go -> (exists e a, go rq = Undone e a) \/ (exists st t e, go rq = Done (mkAnswer st (OnWire t e))).
Proof.
  intros F. destruct (go rq) as [e a|a] eqn:G; [left; eauto|right].
  destruct (F _ _ G) as [t [e E]]. destruct a as [st b]. cbn in E. subst b. eauto.
Qed.

Lemma not_broken_undone e a : ~ breaks_off (Undone e a).
Proof. intros [st [t [x E]]]. discriminate E. Qed.

Lemma not_broken_whole st t : ~ breaks_off (Done (mkAnswer st (OnWire t None))).
Proof. intros [st' [t' [x E]]]. discriminate E. Qed.

Lemma plain_call models decode rq : fresh go -> let r := exec false models decode (inl rq) in
  settles models decode (go rq) (rsEnd r) /\ hands_on (go rq) (rsAnswer r) /\ rsLog r = [] /\ rsSent r = true /\ rsOpen r = false.
Proof.
  intros F. unfold execute, call_api, send. destruct (fresh_cases rq F) as [[e [a G]]|[st [t [e G]]]]; rewrite G; cbn.
  - repeat split; constructor.
  - destruct e as [e|]; cbn; (split; [|split; [apply hands_done|auto]]); [apply settles_broken|apply judge_settles].
Qed.

Lemma debug_call models decode rq : fresh go -> dumps dr da -> let r := exec true models decode (inl rq) in
  settles models decode (go rq) (rsEnd r) /\ logs dr da rq (go rq) (rsLog r) /\ rsSent r = true
  /\ (rsOpen r = true <-> breaks_off (go rq)) /\ (~ breaks_off (go rq) -> hands_on (go rq) (rsAnswer r)).
Proof.
  intros F [D1 D2]. destruct (D1 rq) as [d Hd]. unfold execute, call_api, send, dump_answer. rewrite Hd.
  destruct (fresh_cases rq F) as [[e [a G]]|[st [t [e G]]]]; rewrite G; cbn.
  - split; [constructor|]. split; [apply (logs_undone dr da rq e a d Hd)|]. split; [reflexivity|].
    split; [split; [discriminate|intros B; elim (not_broken_undone _ _ B)]|constructor].
  - destruct e as [e|]; cbn.
    + assert (B : breaks_off (Done (mkAnswer st (OnWire t (Some e))))) by (exists st, t, e; reflexivity).
      split; [apply settles_broken|]. split; [apply (logs_broken dr da rq _ d B Hd)|]. split; [reflexivity|].
      split; [tauto|intros N; elim (N B)].
    + unfold with_body; cbn. destruct (D2 (mkAnswer st (InMemory t))) as [d' Hd']. rewrite Hd'. cbn.
      split; [apply judge_settles|]. split; [apply (logs_done dr da rq st t d d' Hd Hd')|]. split; [reflexivity|].
      split; [split; [discriminate|intros B; elim (not_broken_whole _ _ B)]|intros _; apply hands_done].
Qed.

Lemma same_end models decode rq : fresh go -> dumps dr da ->
  rsEnd (exec true models decode (inl rq)) = rsEnd (exec false models decode (inl rq)).
Proof.
  intros F D. eapply settles_unique; [apply (debug_call models decode rq F D)|apply (plain_call models decode rq F)].
Qed.

(* Debug can only turn an end into an error *)
Lemma debug_ends models decode rq : fresh go ->
  rsEnd (exec true models decode (inl rq)) = rsEnd (exec false models decode (inl rq))
  \/ (exists e, rsEnd (exec true models decode (inl rq)) = Failed e
       /\ ((dr rq = inr e /\ rsSent (exec true models decode (inl rq)) = false)
           \/ exists st t, go rq = Done (mkAnswer st (OnWire t None)) /\ da (mkAnswer st (InMemory t)) = inr e)).
Proof.
  intros F. unfold execute, call_api, send, dump_answer. destruct (dr rq) as [d|e0] eqn:Hd.
  - destruct (fresh_cases rq F) as [[e [a G]]|[st [t [e G]]]]; rewrite G; cbn; [left; reflexivity|].
    destruct e as [e|]; cbn; [left; reflexivity|]. unfold with_body; cbn.
    destruct (da (mkAnswer st (InMemory t))) as [d'|e'] eqn:Ha; cbn; [left; reflexivity|].
    right. exists e'. split; auto. right. exists st, t. auto.
  - right. exists e0. cbn. split; auto.
Qed.

Lemma debug_whole models decode rq st t d : go rq = Done (mkAnswer st (OnWire t None)) -> dr rq = inl d ->
  let c := call_api request dr go da true rq in let r := exec true models decode (inl rq) in
  cdAnswer c = Some (mkAnswer st (InMemory t)) /\ cdOpen c = false
  /\ rsAnswer r = Some (mkAnswer st (InMemory t)) /\ rsOpen r = false.
Proof.
  intros G D. unfold execute, call_api, send, dump_answer. rewrite D, G. cbn. unfold with_body. cbn.
  destruct (da (mkAnswer st (InMemory t))); cbn; repeat split.
Qed.

Lemma unprepared debug models decode e : exec debug models decode (inr e) = mkResult (Failed e) None [] false false.
Proof. reflexivity. Qed.

Lemma plain_runs calls : fresh go -> left_open request dr go da false calls = 0%nat.
Proof.
  intros F. induction calls as [|[[m d] [rq|e]] r IH]; [reflexivity| |]; cbn [left_open]; rewrite IH.
  - destruct (plain_call m d rq F) as (_ & _ & _ & _ & O). rewrite O. reflexivity.
  - reflexivity.
Qed.

Lemma debug_runs calls n : fresh go -> dumps dr da -> broken_calls go calls n -> left_open request dr go da true calls = n.
Proof.
  intros F D B. induction B as [|m d e r n B IH|m d rq r n N B IH|m d rq r n N B IH]; [reflexivity| | |]; cbn [left_open]; rewrite IH.
  - reflexivity.
  - destruct (debug_call m d rq F D) as (_ & _ & _ & O & _). destruct (rsOpen _) eqn:E; [elim N; apply O; reflexivity|reflexivity].
  - destruct (debug_call m d rq F D) as (_ & _ & _ & O & _). rewrite (proj2 O N). reflexivity.
Qed.
End Facts.

Lemma operations_agree cpus rt evs errText w models decode rp dr da :
  respond cpus rt evs w = Some rp ->
  perform cpus rt evs errText w models decode
  = Some (as_outcome (rsEnd (execute wire dr (fun _ => over_network errText rp) da false models decode (inl w)))).
Proof.
  intros R. unfold perform. rewrite R. destruct rp as [st ct b|]; [|reflexivity]. reflexivity.
Qed.

Definition steady (x : exchange) : bytes -> exchange := fun _ => x.

Lemma debug_leaks : exists (dr : bytes -> bytes + bytes) go da models decode rq, fresh go /\ dumps dr da
  /\ rsOpen (execute bytes dr go da true models decode (inl rq)) = true
  /\ ~ hands_on (go rq) (rsAnswer (execute bytes dr go da true models decode (inl rq))).
Proof.
  exists (fun _ => inl []), (steady (Done (mkAnswer 200 (OnWire (lit "FILE") (Some (lit "unexpected EOF")))))), (fun _ => inl []), [], Returned, [].
  split; [intros rq a E; injection E as <-; eexists; eexists; reflexivity|].
  split; [split; intros; eexists; reflexivity|]. split; [reflexivity|]. intros H. inversion H.
Qed.

Lemma debug_fails : exists (dr : bytes -> bytes + bytes) go da models decode rq o e, fresh go
  /\ rsEnd (execute bytes dr go da false models decode (inl rq)) = Got o
  /\ rsEnd (execute bytes dr go da true models decode (inl rq)) = Failed e
  /\ rsSent (execute bytes dr go da true models decode (inl rq)) = false.
Proof.
  exists (fun _ => inr (lit "dump")), (steady (Done (mkAnswer 200 (OnWire (lit "FILE") None)))), (fun _ => inl []), [], Returned, [], (Returned (lit "FILE")), (lit "dump").
  split; [intros rq a E; injection E as <-; eexists; eexists; reflexivity|]. repeat split; reflexivity.
Qed.
