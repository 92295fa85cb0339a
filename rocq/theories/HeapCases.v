(* Sample programs that use pointers, and witnesses *)
From Coq Require Import ZArith NArith Bool Ascii String List Lia.
Import ListNotations.
From Verif Require Import GoBase GoBaseFacts GoTime Tables Codec Records File
  SpecCodec SpecLayouts SpecRecords SpecFile SpecValidate SpecCounters SpecApi Check Samples FileCases Heap SpecHeap
  HeapFacts HeapTyped.
Local Open Scope string_scope.
Local Open Scope nat_scope.
Local Open Scope list_scope.
Local Notation length := List.length.

(* ---- deciding whether a program is careful ---- *)

Definition memb (r : nat) (l : list nat) : bool := existsb (Nat.eqb r) l.

Lemma memb_ok r l : memb r l = false -> ~ In r l.
Proof.
  unfold memb. intros E I. assert (existsb (Nat.eqb r) l = true) as T; [|congruence].
  apply existsb_exists. exists r. split; [exact I|apply Nat.eqb_refl].
Qed.

Definition in_filesb (w : world) (r : nat) : bool := memb r (flat_map slots (wFiles w)).

Lemma in_filesb_ok w r : in_filesb w r = false -> ~ in_files w r.
Proof. intros E (f & I & J). apply memb_ok in E. apply E. apply in_flat_map. exists f. auto. Qed.

Definition considerateb (w : world) (left : list nat) (c : hcall) : bool :=
  match c with
  | HAddSegment r _ => negb (memb r left)
  | HSetRecord _ r | HAddDataRecord _ r => negb (memb r left) && negb (in_filesb w r)
  | _ => true
  end.

Lemma considerateb_ok w left c : considerateb w left c = true -> considerate w left c.
Proof.
  destruct c; cbn; auto; intros E.
  - apply negb_true_iff in E. apply memb_ok, E.
  - apply andb_prop in E as [A B]. apply negb_true_iff in A, B. split; [apply memb_ok, A|apply in_filesb_ok, B].
  - apply andb_prop in E as [A B]. apply negb_true_iff in A, B. split; [apply memb_ok, A|apply in_filesb_ok, B].
Qed.

Definition kinds : list segkind := [J1; J2; K1; K2; K3; K4; L1; N1].

Definition written_okb (w : world) (c : hcall) : bool :=
  match c with
  | HNewSegment s => has_typeb (seg_struct (sKind s)) (sFields s)
  | HWriteSegment s st =>
      has_typeb (seg_struct (sKind (seg_value (wHeap w) s))) st
      && negb (memb s (flat_map (fun r => flat_map (fun k => pointers (wHeap w) k r) kinds) (flat_map slots (wFiles w))))
  | HWriteRecord r st =>
      match record_value (wHeap w) r with
      | RHeader _ _ => has_typeb header_struct st
      | RBase _ _ => has_typeb base_struct st
      | RTrailer _ _ => has_typeb trailer_struct st
      end && negb (in_filesb w r)
  | _ => true
  end.

Lemma written_okb_ok w c : written_okb w c = true -> written_ok w c.
Proof.
  destruct c as [| | | |s|r st|s st| | | | | |]; cbn [written_okb written_ok]; auto; intros E.
  - apply has_typeb_ok, E.
  - apply andb_prop in E as [A B]. apply negb_true_iff in B. split; [|apply in_filesb_ok, B].
    destruct (record_value (wHeap w) r); apply has_typeb_ok, A.
  - apply andb_prop in E as [A B]. apply negb_true_iff in B. split; [apply has_typeb_ok, A|].
    intros r (f & I & J) (k & Q). apply memb_ok in B. apply B. apply in_flat_map. exists r. split.
    + apply in_flat_map. exists f. auto.
    + apply in_flat_map. exists k. split; [destruct k; cbn; auto 9|exact Q].
Qed.

Fixpoint careful_run (spare : nat -> nat) (fuel : nat) (w : world) (left : list nat) (cs : list hcall)
    : option (world * list nat) :=
  match cs with
  | [] => Some (w, left)
  | c :: cs' =>
      if considerateb w left c && written_okb w c then
        match h_step spare fuel w c with
        | Some w' => careful_run spare fuel w' (left ++ left_behind w c w') cs'
        | None => None
        end
      else None
  end.

Lemma careful_run_ok spare fuel cs : forall w left w' left', careful_state spare w left ->
  careful_run spare fuel w left cs = Some (w', left') ->
  run spare fuel w cs = Some w' /\ careful_state spare w' left'.
Proof.
  induction cs as [|c cs IH]; intros w left w' left' S E; [inversion E; subst; auto|]. cbn [careful_run run] in *.
  destruct (considerateb w left c && written_okb w c) eqn:Q; [|discriminate]. apply andb_prop in Q as [A B].
  destruct (h_step spare fuel w c) as [w1|] eqn:Es; [|discriminate]. apply (IH w1 (left ++ left_behind w c w1)); [|exact E].
  econstructor; [exact S|apply considerateb_ok, A|apply written_okb_ok, B|exact Es].
Qed.

Lemma careful_run_some spare fuel cs : (exists x, careful_run spare fuel start [] cs = Some x) ->
  exists w left, run spare fuel start cs = Some w /\ careful_state spare w left.
Proof.
  intros [[w left] E]. exists w, left. apply (careful_run_ok spare fuel cs start [] w left); [constructor|exact E].
Qed.

(* ---- a careful program ---- *)

(* records and segments are numbered in the order in which they are made *)
Definition careful_program : list hcall :=
  [ HNewFile false; (* records 0, 1 *)
    HNewHeader false; HWriteRecord 2 (sample_header 0 426); HSetRecord 0 2;
    HNewBase false; HWriteRecord 3 (sample_base_fields 0 426);
    HNewSegment sample_j1; HNewSegment sample_j1; HNewSegment sample_j1; HNewSegment sample_k1;
    HAddSegment 3 0; HAddSegment 3 1; HAddSegment 3 2; HAddDataRecord 0 3; HAddSegment 3 3;
    HNewBase false; HWriteRecord 4 (sample_base_fields 0 426); HAddSegment 4 0; HAddDataRecord 0 4;
    HGenerate 0; HSetRecord 0 5;
    HNewFile true; HParse 1 (concurrent_string packed_file false 1) true;
    HSetType 0 (lit "packed") ].

Lemma careful_program_state :
  exists w left, run doubling 1000 start careful_program = Some w /\ careful_state doubling w left.
Proof.
  apply careful_run_some. eexists. vm_compute. reflexivity.
Qed.

(* what it makes: a packed file with the header, the data and the trailer that were given
   to it, and the packed file of the text *)
Lemma careful_program_files : exists w f g, run doubling 1000 start careful_program = Some w
  /\ map (file_value (wHeap w)) (wFiles w) = [f; g]
  /\ flPacked f = true /\ flHeader f = RHeader true (sample_header 0 426)
  /\ map (fun r => map sKind (match r with RBase _ b => segments_of b | _ => [] end)) (flBases f) = [[J1; J1; J1; K1]; [J1]]
  /\ file_validate f = Ok tt /\ g = packed_file.
Proof.
  do 3 eexists. split; [vm_compute; reflexivity|]. split; [vm_compute; reflexivity|]. repeat split; vm_compute; reflexivity.
Qed.

(* ---- programs that share records ---- *)

(* the header of the caller is also that of the file *)
Definition shared_header : list hcall :=
  [ HNewFile false; HNewFile false; HNewHeader false; HWriteRecord 4 (sample_header 0 1300);
    HSetRecord 0 4; HSetRecord 1 4 ].

Definition fixed_text : bytes := concurrent_string fixed_file false 1.

Lemma shared_header_run : exists w w', run doubling 1000 start shared_header = Some w
  /\ h_step doubling 1000 w (HParse 0 fixed_text false) = Some w'
  /\ map hfHeader (wFiles w) = [4; 4]
  /\ record_value (wHeap w) 4 = RHeader false (sample_header 0 1300)
  /\ record_value (wHeap w') 4 = RHeader false (sample_header 0 426).
Proof.
  do 2 eexists. split; [vm_compute; reflexivity|]. split; [vm_compute; reflexivity|]. split; [reflexivity|]. split; vm_compute; reflexivity.
Qed.

(* the records of the sample headers differ *)
Lemma headers_differ : RHeader false (sample_header 0 1300) <> RHeader false (sample_header 0 426).
Proof. intros E. apply (f_equal (fun r => match r with RHeader _ st => lookup "RecordDescriptorWord" st | _ => None end)) in E. vm_compute in E. discriminate E. Qed.

(* Parse writes into the header the caller has handed over, and into that of another file *)
Lemma header_overwritten : exists fuel cs w w' r i input iv f g, run doubling fuel start cs = Some w
  /\ h_step doubling fuel w (HParse i input iv) = Some w'
  /\ record_value (wHeap w') r <> record_value (wHeap w) r
  /\ nth_error (wFiles w) (S i) = Some f /\ nth_error (wFiles w') (S i) = Some g
  /\ file_value (wHeap w') g <> file_value (wHeap w) f.
Proof.
  destruct shared_header_run as (w & w' & R & St & H & V & V'). exists 1000, shared_header, w, w', 4, 0, fixed_text, false.
  assert (exists f f1, wFiles w = [f; f1] /\ hfHeader f1 = 4) as (f & f1 & F & Hf).
  { destruct (wFiles w) as [|a [|b [|? ?]]]; try discriminate. inversion H. exists a, b. auto. }
  assert (nth_error (wFiles w') 1 = Some f1) as N.
  { cbn [h_step] in St. unfold with_file in St. rewrite F in St. cbn [nth_error] in St.
    destruct (h_parse _ _ _ _ _ _) as [[? ?]|]; [|discriminate]. injection St as <-. reflexivity. }
  exists f1, f1. split; [exact R|]. split; [exact St|]. split; [rewrite V, V'; intros E; apply headers_differ; congruence|].
  split; [rewrite F; reflexivity|]. split; [exact N|]. intros E. apply (f_equal flHeader) in E. cbn [flHeader file_value] in E.
  rewrite Hf, V, V' in E. apply headers_differ. congruence.
Qed.

Definition other_j1 : segment := mkSegment J1 (set_field "Surname" (VStr (lit "SMITH")) (sFields sample_j1)).

(* segments 0 to 3 are the same, segment 4 differs *)
Definition five_segments : list hcall :=
  [HNewSegment sample_j1; HNewSegment sample_j1; HNewSegment sample_j1; HNewSegment sample_j1; HNewSegment other_j1].

(* the file is converted, and a segment is added to the record it has left behind *)
Definition left_record : list hcall :=
  five_segments ++
  [ HNewFile false; HNewBase false; HWriteRecord 2 (sample_base_fields 0 426);
    HAddSegment 2 0; HAddSegment 2 1; HAddSegment 2 2; HAddDataRecord 0 2;
    HSetType 0 (lit "packed"); HAddSegment 2 3 ].

(* a record is added twice, the file is converted, and a segment is added to one copy *)
Definition added_twice : list hcall :=
  five_segments ++
  [ HNewFile false; HNewBase false; HWriteRecord 2 (sample_base_fields 0 426);
    HAddSegment 2 0; HAddSegment 2 1; HAddSegment 2 2; HAddDataRecord 0 2; HAddDataRecord 0 2;
    HSetType 0 (lit "packed"); HAddSegment 4 3 ].

Definition surnames (r : record) : list (option value) :=
  match r with RBase _ b => map (fun s => lookup "Surname" (sFields s)) (bJ1 b) | _ => [] end.

Definition name_of (s : segment) : option value := lookup "Surname" (sFields s).
Definition same_names : list (option value) := [name_of sample_j1; name_of sample_j1; name_of sample_j1; name_of sample_j1].
Definition changed_names : list (option value) := [name_of sample_j1; name_of sample_j1; name_of sample_j1; name_of other_j1].

Lemma names_differ : same_names <> changed_names.
Proof. vm_compute. discriminate. Qed.

(* segment 4 is added to a record of the file, and is found in another record in the place
   of segment 3 *)
Lemma left_record_run : exists w w' f r, run doubling 1000 start left_record = Some w
  /\ wFiles w = [f] /\ hfBases f = [r] /\ r <> 2
  /\ h_step doubling 1000 w (HAddSegment r 4) = Some w'
  /\ surnames (record_value (wHeap w) 2) = same_names
  /\ surnames (record_value (wHeap w') 2) = changed_names.
Proof.
  do 4 eexists. split; [vm_compute; reflexivity|]. split; [reflexivity|]. split; [reflexivity|].
  split; [discriminate|]. split; [vm_compute; reflexivity|]. split; vm_compute; reflexivity.
Qed.

Lemma added_twice_run : exists w w' f r r', run doubling 1000 start added_twice = Some w
  /\ wFiles w = [f] /\ hfBases f = [r; r'] /\ r <> r'
  /\ h_step doubling 1000 w (HAddSegment r' 4) = Some w'
  /\ surnames (record_value (wHeap w) r) = same_names
  /\ surnames (record_value (wHeap w') r) = changed_names.
Proof.
  do 5 eexists. split; [vm_compute; reflexivity|]. split; [reflexivity|]. split; [reflexivity|].
  split; [discriminate|]. split; [vm_compute; reflexivity|]. split; vm_compute; reflexivity.
Qed.

Lemma left_record_changed : exists fuel cs w w' r r' s, run doubling fuel start cs = Some w
  /\ in_files w r' /\ ~ in_files w r
  /\ h_step doubling fuel w (HAddSegment r' s) = Some w'
  /\ record_value (wHeap w') r <> record_value (wHeap w) r.
Proof.
  destruct left_record_run as (w & w' & f & r & R & F & B & Ne & St & V & V').
  exists 1000, left_record, w, w', 2, r, 4. split; [exact R|].
  split; [exists f; rewrite F; split; [left; reflexivity|unfold slots; rewrite B; cbn; auto]|].
  split; [|split; [exact St|intros E; apply (f_equal surnames) in E; rewrite V, V' in E; apply names_differ; congruence]].
  assert (option_map (fun w => flat_map slots (wFiles w)) (run doubling 1000 start left_record) = Some [3; 5; 4]) as Sl
    by (vm_compute; reflexivity).
  rewrite R in Sl. injection Sl as Sl. intros (g & I & J).
  assert (In 2 (flat_map slots (wFiles w))) as K by (apply in_flat_map; eauto). rewrite Sl in K. cbn in K.
  destruct K as [K|[K|[K|[]]]]; discriminate K.
Qed.

Lemma added_twice_changed : exists fuel cs w w' f r r' s, run doubling fuel start cs = Some w
  /\ wFiles w = [f] /\ hfBases f = [r; r'] /\ r <> r'
  /\ h_step doubling fuel w (HAddSegment r' s) = Some w'
  /\ record_value (wHeap w') r <> record_value (wHeap w) r.
Proof.
  destruct added_twice_run as (w & w' & f & r & r' & R & F & B & Ne & St & V & V').
  exists 1000, added_twice, w, w', f, r, r', 4. repeat (split; [assumption|]). intros E. apply (f_equal surnames) in E.
  rewrite V, V' in E. apply names_differ. congruence.
Qed.

(* in the middle of the careful program a segment is added to a record the file has *)
Lemma careful_call_case : exists w left w', state doubling w left /\ considerate w left (HAddSegment 3 3)
  /\ h_step doubling 1000 w (HAddSegment 3 3) = Some w' /\ in_files w 3
  /\ record_value (wHeap w') 3 <> record_value (wHeap w) 3.
Proof.
  pose (segs := fun w => length (match record_value (wHeap w) 3 with RBase _ b => segments_of b | _ => [] end)).
  assert (exists w w' f, careful_run doubling 1000 start [] (firstn 14 careful_program) = Some (w, [])
    /\ h_step doubling 1000 w (HAddSegment 3 3) = Some w' /\ wFiles w = [f] /\ hfBases f = [3]
    /\ segs w = 3 /\ segs w' = 4) as (w & w' & f & R & St & F & B & L & L').
  { do 3 eexists. split; [vm_compute; reflexivity|]. split; [vm_compute; reflexivity|]. split; [reflexivity|].
    split; [reflexivity|]. split; vm_compute; reflexivity. }
  apply careful_run_ok in R as [_ S]; [|constructor]. apply careful_is_state in S.
  exists w, [], w'. split; [exact S|]. split; [intros []|]. split; [exact St|].
  split; [exists f; rewrite F; split; [left; reflexivity|unfold slots; rewrite B; cbn; auto]|].
  intros E. unfold segs in L, L'. rewrite E in L'. congruence.
Qed.
