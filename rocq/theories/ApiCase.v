(* Examples for histories of calls *)
From Coq Require Import ZArith NArith Bool Ascii String List Lia.
Import ListNotations.
From Verif Require Import GoBase GoTime Tables Codec Records File
  SpecCodec SpecLayouts SpecRecords SpecFile SpecValidate SpecCounters SpecApi CounterProps ApiFacts Check Samples.
Local Open Scope string_scope.
Local Open Scope Z_scope.
Local Open Scope list_scope.
Local Notation length := List.length.

(* NewFile, SetRecord, AddDataRecord twice, SetType, GeneratorTrailer and SetRecord *)
Definition after (f : file) (c : call) : file :=
  match c with
  | CallSetRecord r => fst (file_set_record f r)
  | CallAddDataRecord r => fst (file_add_data_record f r)
  | CallSetType t => fst (file_set_type f t)
  | CallGenerate => match file_generate_trailer f with Ok t => fst (file_set_record f t) | _ => f end
  | _ => f
  end.
Definition history : list call :=
  [CallSetRecord (RHeader false (sample_header 0 426)); CallAddDataRecord (RBase false (sample_base 0 1300));
   CallAddDataRecord (RBase false (sample_plain 0 426)); CallSetType (lit "packed"); CallGenerate].
Definition history_file : file := fold_left after history (new_file_p false).

Lemma after_reachable f c : reachable f -> call_ok c ->
  match c with CallParse _ _ | CallAddSegment _ _ => False | _ => True end -> reachable (after f c).
Proof.
  intros R C K. destruct c; try contradiction; cbn [after].
  - apply (reach_call f _ _ R C). apply called_set_record.
  - apply (reach_call f _ _ R C). apply called_add_data_record.
  - apply (reach_call f _ _ R C). apply called_set_type.
  - destruct (file_generate_trailer f) eqn:E; [|exact R|exact R].
    apply (reach_call f _ _ R C). apply called_generate. exact E.
Qed.

Lemma history_case : reachable history_file /\ length (flBases history_file) = 2%nat /\ flPacked history_file = true
  /\ file_validate history_file = Ok tt
  /\ file_generate_trailer (set_bases history_file [RBase false (sample_plain 0 426)]) = Panic.
Proof.
  split.
  - unfold history_file. cbn [fold_left history].
    repeat (apply after_reachable; [|first [exact I | apply base_okb_ok; vm_compute; reflexivity
      | apply has_typeb_ok; vm_compute; reflexivity]|exact I]).
    apply (reach_new (lit "character")). reflexivity.
  - vm_compute. repeat split.
Qed.

Definition new_account_file : file :=
  let f := mkFile false (RHeader false (sample_header 0 426))
    [RBase false (with_field "PaymentHistoryProfile" (VStr (repeat "Z"%char 24)) (sample_plain 0 426))]
    (RTrailer false new_trailer) in
  match file_generate_trailer f with Ok t => set_trailer f t | _ => f end.

Lemma set_type_invalidates : exists f f', file_ok f /\ file_validate f = Ok tt
  /\ file_set_type f (type_name true) = (f', None) /\ file_validate f' <> Ok tt.
Proof.
  exists new_account_file, (fst (file_set_type new_account_file (type_name true))).
  split; [apply file_okb_ok; vm_compute; reflexivity|]. vm_compute. repeat split. discriminate.
Qed.

Lemma no_new_accounts_case : file_ok (sample_file false 0 1300) /\ file_times (sample_file false 0 1300)
  /\ file_validate (sample_file false 0 1300) = Ok tt /\ no_new_accounts (sample_file false 0 1300).
Proof.
  assert (file_okb (sample_file false 0 1300) = true) as O by (vm_compute; reflexivity).
  pose proof (file_okb_ok _ O) as [O1 O2]. split; [exact O1|]. split; [exact O2|]. split; [vm_compute; reflexivity|].
  destruct O1 as (_ & _ & B & _). unfold no_new_accounts.
  assert (Forall (fun r => match r with RBase _ b => existsb (byte_eqb "Z"%char) (get_str "PaymentHistoryProfile" (bFields b)) = false | _ => True end) (flBases (sample_file false 0 1300))) as Z
    by (vm_compute; repeat constructor).
  rewrite Forall_forall in *. intros r I. specialize (Z r I). destruct (B r I) as [_ R]. destruct r as [|p b|]; auto.
  intros s H Iz. destruct R as [[T _] _].
  apply (ValidateFacts.get_str_iff _ _ T (RoundTrip.base_nodup _ T)) in H; [|ValidateFacts.field].
  rewrite H in Z. rewrite (proj2 (FieldFacts.existsb_In _ _) Iz) in Z. discriminate.
Qed.
