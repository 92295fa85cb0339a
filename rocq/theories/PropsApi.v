(* Properties of the file and record interfaces: C35, C36, C37, C54, C55 *)
From Coq Require Import ZArith NArith Bool Ascii String List Lia.
Import ListNotations.
From Verif Require Import GoBase GoTime Tables Codec Records File
  SpecCodec SpecLayouts SpecRecords SpecFile SpecValidate SpecCounters SpecApi CounterProps ApiFacts Check Samples ApiCase OrderFacts.
Local Open Scope string_scope.
Local Open Scope Z_scope.
Local Open Scope list_scope.
Local Notation length := List.length.

(* C35: after any history all records are of the format of the file; generating a
   trailer and validating do not panic *)
Theorem C35_histories : forall f, reachable f ->
  file_ok f /\ (exists t, file_generate_trailer f = Ok (RTrailer (flPacked f) t) /\ has_type trailer_struct t)
  /\ file_validate f <> Panic.
Proof. exact reachable_no_panic. Qed.
Print Assumptions C35_histories.

(* a file of both formats would panic *)
Example C35_case : reachable history_file /\ length (flBases history_file) = 2%nat /\ flPacked history_file = true
  /\ file_validate history_file = Ok tt
  /\ file_generate_trailer (set_bases history_file [RBase false (sample_plain 0 426)]) = Panic.
Proof. exact history_case. Qed.

(* C36: SetType changes the format and nothing else *)
Theorem C36_contents : forall f packed, file_ok f -> exists f',
  file_set_type f (type_name packed) = (f', None)
  /\ flPacked f' = packed /\ same_contents f f' /\ file_ok f'.
Proof. exact set_type_same. Qed.
Print Assumptions C36_contents.

Theorem C36_there_and_back : forall f p q f1 f2, file_ok f ->
  file_set_type f (type_name p) = (f1, None) -> file_set_type f1 (type_name q) = (f2, None) ->
  flPacked f = q -> f2 = f.
Proof. exact there_and_back. Qed.
Print Assumptions C36_there_and_back.

Theorem C36_unknown : forall f t, t <> type_name true -> t <> type_name false ->
  exists e, file_set_type f t = (f, Some e).
Proof. exact set_type_unknown. Qed.
Print Assumptions C36_unknown.

Example C36_case : file_ok (sample_file false 0 1300)
  /\ flBases (fst (file_set_type (sample_file false 0 1300) (lit "packed"))) =
     [RBase true (sample_base 0 1300); RBase true (sample_plain 0 1300)]
  /\ snd (file_set_type (sample_file false 0 1300) (lit "Packed")) <> None.
Proof.
  split; [apply file_okb_ok; vm_compute; reflexivity|]. split; [vm_compute; reflexivity|discriminate].
Qed.

(* C37: a valid file stays valid, partial: unless a character file with a month of
   code Z becomes packed *)
Theorem C37_valid_partial : forall f packed f', file_ok f -> file_times f -> file_validate f = Ok tt ->
  (packed = true -> flPacked f = false -> no_new_accounts f) ->
  file_set_type f (type_name packed) = (f', None) -> file_validate f' = Ok tt.
Proof. exact set_type_valid. Qed.
Print Assumptions C37_valid_partial.

(* ... and this is exactly when: nothing else can go wrong *)
Theorem C37_exactly_partial : forall f packed f', file_ok f -> file_times f -> file_validate f = Ok tt ->
  file_set_type f (type_name packed) = (f', None) ->
  (file_validate f' = Ok tt <-> (packed = true -> no_new_accounts f)).
Proof. exact set_type_valid_iff. Qed.
Print Assumptions C37_exactly_partial.

Theorem C37_refuted : exists f f', file_ok f /\ file_validate f = Ok tt
  /\ file_set_type f (type_name true) = (f', None) /\ file_validate f' <> Ok tt.
Proof. exact set_type_invalidates. Qed.
Print Assumptions C37_refuted.

Example C37_case : file_ok (sample_file false 0 1300) /\ file_times (sample_file false 0 1300)
  /\ file_validate (sample_file false 0 1300) = Ok tt /\ no_new_accounts (sample_file false 0 1300).
Proof. exact no_new_accounts_case. Qed.

(* C54: adding a segment to a base segment *)
Theorem C54_add_segment : forall s b, exists b' e, base_add_segment s b = (b', e) /\
  ((e = None /\ seg_validate s = None /\ segment_added s b b')
   \/ (e <> None /\ seg_validate s <> None /\ b' = b)).
Proof. exact add_segment_spec. Qed.
Print Assumptions C54_add_segment.

(* ... to other records *)
Theorem C54_refused : forall s r, (exists p h, r = RHeader p h) \/ (exists p t, r = RTrailer p t) ->
  exists e, record_add_segment s r = (r, Some e).
Proof. exact add_refused. Qed.
Print Assumptions C54_refused.

(* ... any number of times *)
Theorem C54_history : forall l b k,
  let accepted := filter (fun s => segkind_eqb (sKind s) k && match seg_validate s with None => true | _ => false end) l in
  segs_of k (fold_left (fun b s => fst (base_add_segment s b)) l b) =
  match k with
  | J1 | J2 => segs_of k b ++ accepted
  | _ => match rev accepted with [] => segs_of k b | s :: _ => [s] end
  end.
Proof. exact add_all_spec. Qed.
Print Assumptions C54_history.

Example C54_case : let b := sample_base 0 1300 in
  seg_validate (new_segment J1) <> None /\ seg_validate (sample_segment J2) = None
  /\ length (segs_of J2 (fst (base_add_segment (sample_segment J2) b))) = 3%nat
  /\ length (segs_of K1 (fst (base_add_segment (sample_segment K1) b))) = 1%nat.
Proof. vm_compute. repeat split; discriminate. Qed.

(* C55: SetRecord and AddDataRecord *)
Theorem C55_set_record : forall f r, file_ok f -> exists f' e, file_set_record f r = (f', e) /\
  ((e = None /\ record_validate r = None /\
      (is_header (flPacked f) r /\ f' = mkFile (flPacked f) r (flBases f) (flTrailer f)
       \/ is_trailer (flPacked f) r /\ f' = mkFile (flPacked f) (flHeader f) (flBases f) r))
   \/ (e <> None /\ f' = f /\
       (record_validate r <> None \/ ~ is_header (flPacked f) r /\ ~ is_trailer (flPacked f) r))).
Proof. exact set_record_spec. Qed.
Print Assumptions C55_set_record.

Theorem C55_add_data_record : forall f r, exists f' e, file_add_data_record f r = (f', e) /\
  ((e = None /\ record_validate r = None /\ is_base (flPacked f) r
      /\ f' = mkFile (flPacked f) (flHeader f) (flBases f ++ [r]) (flTrailer f))
   \/ (e <> None /\ f' = f /\ (record_validate r <> None \/ ~ is_base (flPacked f) r))).
Proof. exact add_data_record_spec. Qed.
Print Assumptions C55_add_data_record.

Example C55_case : file_ok (new_file_p true)
  /\ snd (file_add_data_record (new_file_p true) (RBase true (sample_base 1208 1204))) = None
  /\ snd (file_add_data_record (new_file_p true) (RBase false (sample_base 1208 1204))) <> None
  /\ snd (file_set_record (new_file_p true) (RHeader true (sample_header 430 426))) = None
  /\ snd (file_set_record (new_file_p true) (RHeader true new_header)) <> None.
Proof. split; [apply file_okb_ok; vm_compute; reflexivity|]. vm_compute. repeat split; discriminate. Qed.
