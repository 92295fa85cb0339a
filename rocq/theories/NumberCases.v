(* Cases of numbers of JSON *)
From Coq Require Import ZArith NArith Bool Ascii String List Lia.
Import ListNotations.
From Verif Require Import GoBase GoBaseFacts GoTime GoLayout Json Tables Codec Records File Reader JsonFile GoFloat
  SpecCodec SpecRecords SpecJson JsonTextFacts JsonProps JsonCases SpecSparse SparseCases SpecMerge MergeCases SpecAccept AcceptFacts AcceptCases
  SpecNumbers NumberFacts NumberRound NumberMain.
Local Open Scope string_scope.
Local Open Scope Z_scope.
Local Open Scope list_scope.
Local Notation length := List.length.

Definition float_host : runtime := mkRuntime go_float (fun _ t => t) (fun _ l => l).
Lemma float_host_orders : orders float_host.
Proof. intros n l. apply Permutation.Permutation_refl. Qed.

Definition numeralsb (t : bytes) : bool := match t with [] => false | _ => forallb (fun c => (48 <=? code c) && (code c <=? 57)) t end.
Lemma numeralsb_ok t : numeralsb t = true -> numerals t.
Proof.
  unfold numeralsb, numerals. destruct t as [|c t]; [discriminate|]. intros H. split; [discriminate|]. apply Forall_forall. intros x I.
  rewrite forallb_forall in H. specialize (H x I). apply andb_prop in H as [A B]. apply Z.leb_le in A. apply Z.leb_le in B. lia.
Qed.

(* a spelling in parts *)
Definition spelling (neg : bool) (whole part : bytes) (exponent : option (byte * bytes * bytes)) : bytes :=
  (if neg then lit "-" else []) ++ whole ++ match part with [] => [] | _ => "."%char :: part end
  ++ match exponent with Some (c, g, ds) => c :: g ++ ds | None => [] end.
Definition spelling_exp (exponent : option (byte * bytes * bytes)) : Z :=
  match exponent with Some (_, g, ds) => if bytes_eqb g (lit "-") then - decimal ds else decimal ds | None => 0 end.
Definition spellingb (whole part : bytes) (exponent : option (byte * bytes * bytes)) (n d : Z) : bool :=
  (bytes_eqb whole (lit "0") || (numeralsb whole && match whole with c :: _ => negb (byte_eqb c "0") | [] => false end))
  && match part with [] => true | _ => numeralsb part end
  && match exponent with
     | Some (c, g, ds) => (byte_eqb c "e" || byte_eqb c "E") && numeralsb ds && (decimal ds <? 100000)
         && (bytes_eqb g [] || bytes_eqb g (lit "+") || bytes_eqb g (lit "-"))
     | None => true
     end
  && (0 <? d)
  && (n * 10 ^ Z.max 0 (Z.of_nat (length part) - spelling_exp exponent)
      =? decimal (whole ++ part) * 10 ^ Z.max 0 (spelling_exp exponent - Z.of_nat (length part)) * d).

Lemma spelling_ok neg whole part exponent n d : spellingb whole part exponent n d = true -> amounts (spelling neg whole part exponent) neg n d.
Proof.
  unfold spellingb. rewrite !andb_true_iff. intros ((((W & P) & X) & D) & V). apply Z.ltb_lt in D. apply Z.eqb_eq in V.
  exists whole, (match part with [] => [] | _ => "."%char :: part end), part,
    (match exponent with Some (c, g, ds) => c :: g ++ ds | None => [] end), (spelling_exp exponent).
  split; [reflexivity|]. split; [|split; [|split; [|split; [exact D|exact V]]]].
  - apply orb_prop in W as [W|W]; [left; now apply bytes_eqb_eq in W|]. right. apply andb_prop in W as [N F]. split; [now apply numeralsb_ok|].
    intros r ->. discriminate.
  - destruct part as [|c part]; [left; auto|]. right. split; [reflexivity|now apply numeralsb_ok].
  - destruct exponent as [[[c g] ds]|]; [|left; auto]. right. rewrite !andb_true_iff in X. destruct X as (((C & N) & B) & G).
    exists c, g, ds. split; [reflexivity|]. split; [apply orb_prop in C as [C|C]; apply byte_eqb_eq in C; auto|].
    split; [now apply numeralsb_ok|]. split; [now apply Z.ltb_lt in B|]. unfold spelling_exp.
    apply orb_prop in G as [G|G]; [apply orb_prop in G as [G|G]|]; apply bytes_eqb_eq in G; subst g; [left|left|right]; auto.
Qed.

(* 426, 2 and 7 in other words *)
Definition long_426 : bytes := lit "426.000".
Definition long_2 : bytes := lit "0.2E+1".
Definition long_7 : bytes := lit "70e-01".
Definition long_12 : bytes := lit "-1200e-2".

Lemma long_426_whole : whole_number long_426 426.
Proof. exact (spelling_ok false (lit "426") (lit "000") None 426 1 eq_refl). Qed.
Lemma long_2_whole : whole_number long_2 2.
Proof. exact (spelling_ok false (lit "0") (lit "2") (Some ("E"%char, lit "+", lit "1")) 2 1 eq_refl). Qed.
Lemma long_7_whole : whole_number long_7 7.
Proof. exact (spelling_ok false (lit "70") [] (Some ("e"%char, lit "-", lit "01")) 7 1 eq_refl). Qed.
Lemma long_12_whole : whole_number long_12 (-12).
Proof. exact (spelling_ok true (lit "1200") [] (Some ("e"%char, lit "-", lit "2")) 12 1 eq_refl). Qed.

Definition long_json : json :=
  JObj [ (lit "data", JArr [short_record_json; JObj []]);
         (lit "header", JObj (map (fun m => if bytes_eqb (fst m) (lit "recordDescriptorWord") then (fst m, JNum long_426) else m) short_header_json));
         (lit "version", JNum long_2) ].
Lemma long_respelled : respelled short_json long_json.
Proof.
  apply RObj. constructor; [split; [reflexivity|apply RSame]|]. constructor; [|constructor; [|constructor]].
  - split; [reflexivity|]. apply RObj. unfold short_header_json. cbn [map fst].
    do 4 (constructor; [split; [reflexivity|apply RSame]|]). constructor; [|do 2 (constructor; [split; [reflexivity|apply RSame]|]); constructor].
    split; [reflexivity|]. cbn [snd]. apply (RNum 426); [lia|apply itoa_whole|exact long_426_whole].
  - split; [reflexivity|]. cbn [snd]. apply (RNum 2); [lia|apply itoa_whole|exact long_2_whole].
Qed.

Definition long_record_json : json :=
  JObj [ (lit "k1", JObj short_k1_json); (lit "j1", JArr [JObj short_j1_json]); (lit "base", JObj short_base_json);
         (lit "remarks", JArr [text "any"; JNum (lit "1.0")]); (lit "j2", JNull) ].
Lemma long_record_respelled : respelled short_record_json long_record_json.
Proof.
  apply RObj. do 3 (constructor; [split; [reflexivity|apply RSame]|]). constructor; [|constructor; [split; [reflexivity|apply RSame]|constructor]].
  split; [reflexivity|]. apply RArr. constructor; [apply RSame|]. constructor; [|constructor].
  apply (RNum 1); [lia|apply itoa_whole|exact (spelling_ok false (lit "1") (lit "0") None 1 1 eq_refl)].
Qed.

(* a number outside of the header *)
Definition long_cased_json : json :=
  JObj [ (lit "Header", JObj [(lit "blockDescriptorWord", number 1500); (lit "reporterName", number 5)]);
         (lit "trailer", JObj [(lit "totalBaseRecords", JNum long_7)]); (lit "data", JNull) ].
Lemma long_cased_respelled : respelled_file cased_json long_cased_json.
Proof.
  apply RFile. constructor; [split; [reflexivity|]; split; [apply RSame|reflexivity]|]. constructor.
  - split; [reflexivity|]. split; [|vm_compute; discriminate]. apply RObj. constructor; [|constructor]. split; [reflexivity|].
    apply (RNum 7); [lia|apply itoa_whole|exact long_7_whole].
  - constructor; [split; [reflexivity|]; split; [apply RSame|vm_compute; discriminate]|constructor].
Qed.

(* ---- the counterexamples ---- *)

Lemma key_text k : plain_jsonb (JStr k) = true -> string_text k (print (JStr k)).
Proof. intros P. apply plain_jsonb_ok in P. apply print_spells in P. inversion P; subst; assumption. Qed.

Lemma one_member k j s : plain_jsonb (JStr k) = true -> spells j s -> spells (JObj [(k, j)]) ("{"%char :: print (JStr k) ++ ":"%char :: s ++ ["}"%char]).
Proof. intros P S. exact (SObj _ _ (SLastMember [] [] [] [] k (print (JStr k)) j s (Forall_nil _) (Forall_nil _) (Forall_nil _) (Forall_nil _) (key_text k P) S)). Qed.

Lemma amounts_text t neg n d : amounts t neg n d -> number_text t.
Proof.
  intros (whole & fraction & part & exponent & e & E & W & F & X & _). exists (if neg then lit "-" else []), whole, fraction, exponent.
  split; [exact E|]. split; [destruct neg; auto|]. split; [exact W|]. split.
  - destruct F as [[-> _]|[-> N]]; [left; reflexivity|right; eauto].
  - destruct X as [[-> _]|(c & g & ds & -> & C & N & _ & G)]; [left; reflexivity|]. right. exists c, g, ds. split; [reflexivity|]. split; [exact C|]. split; [|exact N]. tauto.
Qed.

(* a number of the header that CreateFile reads from the text *)
Definition in_record (r k t : bytes) : json := JObj [(r, JObj [(k, JNum t)])].
Lemma in_record_spells r k t neg n d : plain_jsonb (JStr r) = true -> plain_jsonb (JStr k) = true -> amounts t neg n d -> spells (in_record r k t) (print (in_record r k t)).
Proof.
  intros R K A. pose proof (one_member r _ _ R (one_member k _ _ K (SNum t (amounts_text _ _ _ _ A)))) as S.
  assert (print (in_record r k t) = "{"%char :: print (JStr r) ++ ":"%char :: ("{"%char :: print (JStr k) ++ ":"%char :: t ++ ["}"%char]) ++ ["}"%char]) as ->; [|exact S].
  unfold in_record. cbn [print]. cbn. repeat (rewrite <- ?app_assoc; cbn [app]). reflexivity.
Qed.

Lemma worded_refuted : exists rt j j' s s' f e, rtFloat rt = go_float /\ orders rt /\ plain_json j /\ tidy j /\ respelled j j'
  /\ spells j s /\ spells j' s' /\ file_from_json rt s = Ok f /\ unmarshal_file rt j' (new_file_p false) = Ok f /\ file_from_json rt s' = Err e.
Proof.
  exists float_host, (in_record (lit "header") (lit "recordDescriptorWord") (lit "426")), (in_record (lit "header") (lit "recordDescriptorWord") long_426).
  eexists; eexists.
  exists (mkFile false (RHeader false (set_field "RecordDescriptorWord" (VInt 426) new_header)) [] (RTrailer false new_trailer)), (ErrOther "reading header").
  split; [reflexivity|]. split; [exact float_host_orders|]. split; [apply plain_jsonb_ok; vm_compute; reflexivity|]. split; [apply tidyb_ok; vm_compute; reflexivity|].
  split.
  { apply RObj. constructor; [|constructor]. split; [reflexivity|]. apply RObj. constructor; [|constructor]. split; [reflexivity|].
    apply (RNum 426); [lia|exact (itoa_whole 426)|exact long_426_whole]. }
  split; [exact (in_record_spells (lit "header") (lit "recordDescriptorWord") (lit "426") false 426 1 eq_refl eq_refl (itoa_whole 426))|].
  split; [exact (in_record_spells (lit "header") (lit "recordDescriptorWord") long_426 false 426 1 eq_refl eq_refl long_426_whole)|].
  split; [vm_compute; reflexivity|]. split; vm_compute; reflexivity.
Qed.

(* numbers that are not whole *)
Definition broken_7 : bytes := lit "7.00000000000000000001".
Definition counted_file (z : Z) : file := mkFile false (RHeader false new_header) [] (RTrailer false (set_field "TotalBaseRecords" (VInt z) new_trailer)).

Lemma broken_amount : amounts broken_7 false (7 * 10 ^ 20 + 1) (10 ^ 20).
Proof. exact (spelling_ok false (lit "7") (lit "00000000000000000001") None (7 * 10 ^ 20 + 1) (10 ^ 20) eq_refl). Qed.

Lemma broken_refuted : exists rt t n d, rtFloat rt = go_float /\ orders rt /\ amounts t false n d /\ n mod d <> 0
  /\ unmarshal_file rt (in_record (lit "trailer") (lit "totalBaseRecords") t) (new_file_p false) = Ok (counted_file 7).
Proof.
  exists float_host, broken_7, (7 * 10 ^ 20 + 1), (10 ^ 20). split; [reflexivity|]. split; [exact float_host_orders|]. split; [exact broken_amount|].
  split; [vm_compute; discriminate|]. vm_compute. reflexivity.
Qed.

(* whole numbers above 2^53 *)
Lemma large_refuted : exists rt t z z', rtFloat rt = go_float /\ orders rt /\ whole_number t z /\ z' <> z
  /\ unmarshal_file rt (in_record (lit "trailer") (lit "totalBaseRecords") t) (new_file_p false) = Ok (counted_file z').
Proof.
  exists float_host, (lit "9007199254740993"), (2 ^ 53 + 1), (2 ^ 53). split; [reflexivity|]. split; [exact float_host_orders|]. split; [exact (itoa_whole (2 ^ 53 + 1))|].
  split; [lia|]. vm_compute. reflexivity.
Qed.

(* next to nothing is read as 0 *)
Lemma tiny_case : amounts (lit "1e-400") false 1 (10 ^ 400) /\ go_float (lit "1e-400") = Some (lit "0").
Proof. split; [exact (spelling_ok false (lit "1") [] (Some ("e"%char, lit "-", lit "400")) 1 (10 ^ 400) eq_refl)|vm_compute; reflexivity]. Qed.
Lemma broken_case : go_float broken_7 = Some (lit "7") /\ parse_int 64 (lit "7") = (7, None).
Proof. split; vm_compute; reflexivity. Qed.

(* the texts of the file with a number spelled otherwise *)
Lemma cased_spells : spells cased_json (print cased_json).
Proof. apply print_spells, cased_plain. Qed.
Lemma two_members k j s l t : plain_jsonb (JStr k) = true -> spells j s -> spells_members l t -> spells_members ((k, j) :: l) (print (JStr k) ++ ":"%char :: s ++ ","%char :: t).
Proof. intros P S M. exact (SNextMember [] [] [] [] k (print (JStr k)) j s l t (Forall_nil _) (Forall_nil _) (Forall_nil _) (Forall_nil _) (key_text k P) S M). Qed.
Lemma last_member k j s : plain_jsonb (JStr k) = true -> spells j s -> spells_members [(k, j)] (print (JStr k) ++ ":"%char :: s ++ ["}"%char]).
Proof. intros P S. exact (SLastMember [] [] [] [] k (print (JStr k)) j s (Forall_nil _) (Forall_nil _) (Forall_nil _) (Forall_nil _) (key_text k P) S). Qed.
Lemma long_cased_spells : spells long_cased_json (print long_cased_json).
Proof.
  assert (plain_json (JObj [(lit "blockDescriptorWord", number 1500); (lit "reporterName", number 5)])) as P by (apply plain_jsonb_ok; vm_compute; reflexivity).
  pose proof (SObj _ _ (two_members (lit "Header") _ _ _ _ eq_refl (print_spells _ P)
    (two_members (lit "trailer") _ _ _ _ eq_refl (one_member (lit "totalBaseRecords") _ _ eq_refl (SNum long_7 (amounts_text long_7 false 7 1 long_7_whole)))
      (last_member (lit "data") _ _ eq_refl SNull)))) as S.
  match type of S with spells _ ?t => assert (print long_cased_json = t) as -> by (vm_compute; reflexivity) end. exact S.
Qed.
Lemma long_cased_other : print cased_json <> print long_cased_json.
Proof. vm_compute. discriminate. Qed.
Lemma long_cased_read : file_from_json float_host (print long_cased_json) = Ok cased_file.
Proof. vm_compute. reflexivity. Qed.

Lemma broken_nearest : nearest_whole (7 * 10 ^ 20 + 1) (10 ^ 20) 7.
Proof.
  refine (proj2 (proj1 (reads_nearest broken_7 false _ _ 7 broken_amount _) (ex_intro _ (lit "7") broken_case))). split; [reflexivity|discriminate].
Qed.
Lemma tiny_bound : 2 ^ 1075 * 1 <= 10 ^ 400.
Proof. apply Z.leb_le. vm_compute. reflexivity. Qed.
Lemma tenth_nearest : to_double 1 10 = Some (7205759403792794, -56) /\ nearest 1 10 7205759403792794 (-56).
Proof.
  assert (to_double 1 10 = Some (7205759403792794, -56)) as H by (vm_compute; reflexivity). split; [exact H|].
  apply (double_nearest 1 10); [discriminate|reflexivity|exact H].
Qed.
Lemma range_case : amounts (lit "1e309") false (10 ^ 309) 1 /\ go_float (lit "1e309") = None
  /\ amounts (lit "1e308") false (10 ^ 308) 1 /\ go_float (lit "1e308") = Some (lit "1e+308").
Proof.
  split; [apply (spelling_ok false (lit "1") [] (Some ("e"%char, [], lit "309")) (10 ^ 309) 1); vm_compute; reflexivity|]. split; [vm_compute; reflexivity|].
  split; [apply (spelling_ok false (lit "1") [] (Some ("e"%char, [], lit "308")) (10 ^ 308) 1); vm_compute; reflexivity|vm_compute; reflexivity].
Qed.
Lemma written_case : amounts (lit "-0.00000012300") true 123 (10 ^ 9) /\ go_float (lit "-0.00000012300") = Some (lit "-1.23e-7")
  /\ amounts (lit "0.30000000000000004") false 30000000000000004 (10 ^ 17) /\ go_float (lit "0.30000000000000004") = Some (lit "0.30000000000000004")
  /\ amounts (lit "0.30000000000000001") false 30000000000000001 (10 ^ 17) /\ go_float (lit "0.30000000000000001") = Some (lit "0.3").
Proof.
  split; [apply (spelling_ok true (lit "0") (lit "00000012300") None 123 (10 ^ 9)); vm_compute; reflexivity|]. split; [vm_compute; reflexivity|].
  split; [apply (spelling_ok false (lit "0") (lit "30000000000000004") None 30000000000000004 (10 ^ 17)); vm_compute; reflexivity|]. split; [vm_compute; reflexivity|].
  split; [apply (spelling_ok false (lit "0") (lit "30000000000000001") None 30000000000000001 (10 ^ 17)); vm_compute; reflexivity|vm_compute; reflexivity].
Qed.
