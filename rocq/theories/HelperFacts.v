(* Proofs about the helpers of the client, pkg/client/client.go:113-140, 229-236, 501-505 *)
From Coq Require Import ZArith NArith Bool Ascii String List Lia.
Import ListNotations.
From Verif Require Import GoBase GoBaseFacts GoTime GoLayout Tables JsonTables Codec Records File Json JsonTextFacts JsonFile JsonProps ClientTypes ClientHelpers
  SpecCodec SpecLayouts SpecRecords SpecJson SpecSparse SpecSchema SpecClientTypes SpecHelpers SchemaFacts ClientTypesFacts AccessFacts FieldFacts NumberText JsonFacts SchemaCases.
Local Open Scope string_scope.
Local Open Scope Z_scope.
Local Open Scope list_scope.
Local Notation length := List.length.

(* ---- texts ---- *)

Lemma utoa_no_zero z : 0 <= z -> hd_error (utoa z) = Some "0"%char -> utoa z = ["0"%char].
Proof.
  intros P H. destruct (utoa z) as [|c r] eqn:E; [discriminate|]. injection H as ->. destruct r as [|d r]; [reflexivity|exfalso].
  pose proof (utoa_digits z P) as D. pose proof (dval_utoa z P) as V. rewrite E in D, V. cbn [forallb] in D. apply andb_true_iff in D as [_ D].
  rewrite dval_cons in V. pose proof (dval_range (d :: r) D) as R. change (digit_val "0") with 0 in V.
  pose proof (utoa_length_le z (length (d :: r)) P ltac:(lia) ltac:(cbn; lia)) as L. rewrite E in L. cbn [length] in L. lia.
Qed.

Lemma utoa_numerals z : 0 <= z -> numerals (utoa z) /\ decimal (utoa z) = z.
Proof.
  intros P. pose proof (utoa_digits z P) as D. pose proof (utoa_nonempty z) as N. rewrite decimal_dval, (dval_utoa z P). split; [|reflexivity].
  apply digits_numerals; [|exact D]. destruct (utoa z); [cbn in N; lia|discriminate].
Qed.

Lemma value_own stamp v : own_text stamp v (value_text stamp v).
Proof.
  destruct v as [z|s|t]; cbn [own_text value_text]; [|reflexivity..]. unfold itoa. destruct (Z.ltb_spec z 0) as [L|L].
  - destruct (utoa_numerals (- z) ltac:(lia)) as [N D]. exists true, (utoa (- z)). rewrite D.
    split; [reflexivity|]. split; [exact N|]. split; [lia|]. split; [lia|]. apply utoa_no_zero; lia.
  - destruct (utoa_numerals z L) as [N D]. exists false, (utoa z). rewrite D.
    split; [reflexivity|]. split; [exact N|]. split; [reflexivity|]. split; [discriminate|]. apply utoa_no_zero; lia.
Qed.

Lemma digit_nibble z : 0 <= z < 16 -> nibble (hex_char z) z.
Proof.
  intros R. unfold nibble.
  assert (z = 0 \/ z = 1 \/ z = 2 \/ z = 3 \/ z = 4 \/ z = 5 \/ z = 6 \/ z = 7 \/ z = 8 \/ z = 9 \/ z = 10 \/ z = 11 \/ z = 12 \/ z = 13 \/ z = 14 \/ z = 15) as H by lia.
  repeat destruct H as [->|H]; try (left; split; [lia|reflexivity]); try (right; split; [lia|reflexivity]). subst. right. split; [lia|reflexivity].
Qed.

Lemma hex_base16 fuel : forall z acc, 0 <= z < 16 ^ Z.of_nat fuel -> exists s, hex_digits fuel z acc = s ++ acc /\ base16 s z /\ (fuel <> O -> s <> []).
Proof.
  induction fuel as [|f IH]; intros z acc R.
  - exists []. change (16 ^ Z.of_nat 0) with 1 in R. replace z with 0 by lia. split; [reflexivity|]. split; [apply base16_end|congruence].
  - cbn [hex_digits]. pose proof (Z.mod_pos_bound z 16 ltac:(lia)) as M. pose proof (Z.div_mod z 16 ltac:(lia)) as D.
    rewrite Nat2Z.inj_succ, Z.pow_succ_r in R by lia. destruct (Z.eqb_spec (z / 16) 0) as [Q|Q].
    + exists [hex_char (z mod 16)]. split; [reflexivity|]. split; [|discriminate].
      replace z with (16 * 0 + z mod 16) at 2 by lia. exact (base16_digit [] 0 _ _ base16_end (digit_nibble _ M)).
    + destruct (IH (z / 16) (hex_char (z mod 16) :: acc)) as (s & E & B & _).
      { split; [apply Z.div_pos; lia|]. apply Z.div_lt_upper_bound; lia. }
      exists (s ++ [hex_char (z mod 16)]). split; [rewrite E, <- app_assoc; reflexivity|]. split; [|intros _ N; now destruct s].
      replace z with (16 * (z / 16) + z mod 16) at 2 by lia. exact (base16_digit _ _ _ _ B (digit_nibble _ M)).
Qed.

(* ---- properties ---- *)

Lemma find_field o p : In p (obj_schema o) -> find (fun c => bytes_eqb (lit (cKey c)) (lit (pKey p))) (client_table o) = Some (client_field p).
Proof.
  intros I. rewrite client_types. pose proof (property_keys o) as N. induction (obj_schema o) as [|q l IH]; [destruct I|]. cbn [map find].
  cbn [map] in N. inversion N as [|? ? A B]; subst. destruct I as [->|I].
  - change (cKey (client_field p)) with (pKey p). now rewrite bytes_eqb_refl.
  - change (cKey (client_field q)) with (pKey q). destruct (bytes_eqb (lit (pKey q)) (lit (pKey p))) eqn:E; [|now apply IH].
    apply bytes_eqb_eq, lit_inj in E. destruct A. rewrite E. now apply in_map.
Qed.

Lemma property_text address stamp o c p x : client_object o c -> In p (obj_schema o) -> In (pKey p, x) c ->
  value_to_string address stamp (AObject (client_table o) (Some c)) (lit (pKey p))
  = Ok (match x with Some v => entry_text address stamp (client_field p) v | None => lit "<nil>" end).
Proof.
  intros C I J. cbn [value_to_string]. unfold map_text. rewrite (find_field o p I). change (cKey (client_field p)) with (pKey p).
  rewrite (get_in (pKey p) x c); [reflexivity| |exact J]. rewrite (client_keys o c C). apply property_keys.
Qed.

Lemma text_partial address stamp o c p v : client_object o c -> In p (obj_schema o) -> In (pKey p, Some v) c ->
  pRequired p = true \/ kind_of v = KTime ->
  exists t, value_to_string address stamp (AObject (client_table o) (Some c)) (lit (pKey p)) = Ok t /\ own_text stamp v t.
Proof.
  intros C I J H. eexists. split; [exact (property_text _ _ _ _ _ _ C I J)|]. unfold entry_text. cbn [client_field cPtr].
  destruct (pRequired p); cbn [negb].
  - apply value_own.
  - destruct H as [H|H]; [discriminate|]. destruct v; try discriminate. reflexivity.
Qed.

Lemma text_address address stamp o c p v : client_object o c -> In p (obj_schema o) -> In (pKey p, Some v) c ->
  pRequired p = false -> kind_of v <> KTime -> 0 <= address (pKey p) < 2 ^ 64 ->
  exists s, value_to_string address stamp (AObject (client_table o) (Some c)) (lit (pKey p)) = Ok (lit "0x" ++ s) /\ s <> [] /\ base16 s (address (pKey p)).
Proof.
  intros C I J R K A. destruct (hex_base16 16 (address (pKey p)) []) as (s & E & B & N).
  { change (16 ^ Z.of_nat 16) with (2 ^ 64). exact A. }
  exists s. split; [|split; [apply N; discriminate|exact B]]. rewrite (property_text address stamp _ _ _ _ C I J). unfold entry_text. cbn [client_field cPtr cKey].
  rewrite R. cbn [negb]. unfold pointer_text. rewrite E, app_nil_r. destruct v; [reflexivity..|]. now destruct K.
Qed.

Lemma text_absent address stamp o c key : client_object o c ->
  (forall p v, In p (obj_schema o) -> lit (pKey p) = key -> ~ In (pKey p, Some v) c) ->
  value_to_string address stamp (AObject (client_table o) (Some c)) key = Ok (lit "<nil>").
Proof.
  intros C H. cbn [value_to_string]. unfold map_text. f_equal.
  destruct (find (fun c => bytes_eqb (lit (cKey c)) key) (client_table o)) as [f|] eqn:F; [|reflexivity].
  apply find_some in F as [I E]. apply bytes_eqb_eq in E. rewrite client_types in I. apply in_map_iff in I as (p & <- & I).
  change (cKey (client_field p)) with (pKey p) in *. destruct (c_get (pKey p) c) as [v|] eqn:G; [|reflexivity].
  destruct (H p v I E). now apply in_get.
Qed.

Lemma text_panics address stamp a key : value_to_string address stamp a key = Panic <-> a = ANil \/ exists tbl, a = AObject tbl None.
Proof.
  split.
  - destruct a as [|t| |tbl [o|]]; try discriminate; [now left|]. right. now exists tbl.
  - intros [->|(tbl & ->)]; reflexivity.
Qed.

(* ---- types ---- *)

Lemma type_checked typ expected name : type_check typ expected name = None <-> typ = None \/ typ = Some expected.
Proof.
  unfold type_check. destruct typ as [t|]; [|tauto]. destruct (bytes_eqb t expected) eqn:E.
  - apply bytes_eqb_eq in E. subst. tauto.
  - apply bytes_eqb_neq in E. split; [discriminate|]. intros [H|H]; [discriminate|congruence].
Qed.
Lemma type_told t expected name : t <> expected ->
  type_check (Some t) expected name = Some (lit "expected " ++ name ++ lit " to be of type " ++ expected ++ lit " but received " ++ t).
Proof. intros N. unfold type_check. apply bytes_eqb_neq in N. now rewrite N. Qed.

(* ---- strict reading ---- *)

Lemma keys_ascii o : forallb (fun p => forallb (fun c => code c <? 128) (lit (pKey p))) (obj_schema o) = true.
Proof. destruct o as [| | |[]]; vm_compute; reflexivity. Qed.
Lemma key_ascii o p : In p (obj_schema o) -> Forall (fun c => code c < 128) (lit (pKey p)).
Proof.
  intros I. pose proof (keys_ascii o) as H. rewrite forallb_forall in H. specialize (H p I). rewrite forallb_forall in H.
  apply Forall_forall. intros c Ic. now apply Z.ltb_lt, H.
Qed.

Lemma find_names o k : Forall (fun c => code c < 128) k -> (c_find (client_table o) k <> None <-> exists p, In p (obj_schema o) /\ names k p).
Proof.
  intros A. unfold c_find, names. split.
  - intros H. destruct (find_tag (c_tags (map cKey (client_table o))) k) as [t|] eqn:F; [|now destruct H].
    apply find_tag_fold in F as [I E]. unfold c_tags in I. rewrite client_types, !map_map in I. apply in_map_iff in I as (p & <- & I).
    exists p. split; [exact I|]. cbn [tgKey client_field cKey] in E. rewrite !upper_ascii_fold in E; [exact E|exact (key_ascii o p I)|exact A].
  - intros (p & I & E). destruct (find_tag (c_tags (map cKey (client_table o))) k) as [t|] eqn:F.
    + apply find_tag_fold in F as [It _]. unfold c_tags in It. rewrite client_types, !map_map in It. apply in_map_iff in It as (q & <- & Iq).
      cbn [tgKey client_field cKey]. intros N. assert (In (client_field q) (map client_field (obj_schema o))) as Jq by now apply in_map.
      rewrite client_types in N. pose proof (find_none _ _ N _ Jq) as M. cbn [client_field cKey] in M. rewrite String.eqb_refl in M. discriminate.
    + exfalso. refine (find_tag_none _ _ (mkTag (pKey p) (pKey p) false) F _ _).
      * unfold c_tags. rewrite client_types, !map_map. apply in_map_iff. exists p. split; [reflexivity|exact I].
      * cbn [tgKey]. rewrite !upper_ascii_fold; [exact E|exact (key_ascii o p I)|exact A].
Qed.

Lemma members_strict zone o l : plain_keys l -> forall c c',
  strict_members zone (client_table o) l c = Some c' <->
  c_decode_members zone (client_table o) l c = Some c' /\ forall k j, In (k, j) l -> exists p, In p (obj_schema o) /\ names k p.
Proof.
  intros A. induction A as [|[k j] l A As IH]; intros c c'; cbn [strict_members c_decode_members].
  - split; [intros H; split; [exact H|intros ? ? []]|tauto].
  - cbn [fst] in A. pose proof (find_names o k A) as F. destruct (c_find (client_table o) k) as [f|].
    + destruct (c_decode_value zone f (c_get (cKey f) c) j) as [v|]; [|split; [discriminate|intros [H _]; discriminate]].
      rewrite IH. split; intros [H K]; (split; [exact H|]).
      * intros k' j' [[= <- <-]|I]; [apply F; discriminate|exact (K _ _ I)].
      * intros k' j' I. exact (K k' j' (or_intror I)).
    + split; [discriminate|]. intros [_ K]. destruct (proj2 F (K k j (or_introl eq_refl)) eq_refl).
Qed.

Lemma object_strict zone o l c c' : plain_keys l ->
  (strict_decode zone (client_table o) (JObj l) c = Some c' <->
   c_decode zone (client_table o) (JObj l) c = Some c' /\ forall k j, In (k, j) l -> exists p, In p (obj_schema o) /\ names k p).
Proof. intros A. exact (members_strict zone o l A c c'). Qed.

Lemma other_strict zone tbl j c : (forall l, j <> JObj l) ->
  (strict_decode zone tbl j c = Some c <-> j = JNull) /\ (forall c', strict_decode zone tbl j c = Some c' -> c' = c)
  /\ strict_decode zone tbl j c = c_decode zone tbl j c.
Proof.
  intros N. destruct j as [| | | | |l]; cbn [strict_decode c_decode]; [|now (split; [split; discriminate|]; split; [discriminate|])..|now destruct (N l)].
  split; [tauto|]. split; [congruence|reflexivity].
Qed.

(* what the client writes *)
Lemma own_strict zone o c : good_object o c -> exists j, c_object c = Some j /\ strict_decode zone (client_table o) j (c_zero (client_table o)) = Some c.
Proof.
  intros G. destruct (object_writes o c G) as (l & E & W). exists (JObj l). split; [exact E|].
  destruct (object_survives zone o c G) as (j & E' & _ & D). rewrite E in E'. injection E' as <-.
  assert (forall k j, In (k, j) l -> exists p, In p (obj_schema o) /\ k = lit (pKey p)) as K.
  { intros k j I. destruct (wr_from _ _ _ W k j I) as (p & v & Ip & Ek & _). now exists p. }
  apply object_strict; [|split; [exact D|]].
  - apply Forall_forall. intros [k j] I. destruct (K k j I) as (p & Ip & ->). exact (key_ascii o p Ip).
  - intros k j I. destruct (K k j I) as (p & Ip & ->). now exists p.
Qed.

(* what the server writes *)
Lemma strict_unknown zone tbl l k j : In (k, j) l -> c_find tbl k = None -> forall c, strict_members zone tbl l c = None.
Proof.
  intros I F. induction l as [|[k1 j1] l IH]; [destruct I|]. intros c. cbn [strict_members]. destruct I as [[= -> ->]|I]; [now rewrite F|].
  destruct (c_find tbl k1) as [f|]; [|reflexivity]. destruct (c_decode_value zone f (c_get (cKey f) c) j1); [now apply IH|reflexivity].
Qed.
Lemma server_strict zone o st n v c : has_type (obj_struct o) st -> holds st n v -> In n (unpublished_fields o) -> ~ empty v ->
  strict_decode zone (client_table o) (obj_json o st) c = None.
Proof.
  intros T H U E. pose proof (obj_json_eq o st) as J. rewrite J. cbn [strict_decode].
  pose proof (proj2 (object_members o st n v T H _ J) (or_introl E)) as I. apply in_map_iff in I as ([k j] & Ek & I). cbn [fst] in Ek. subst k.
  refine (strict_unknown zone _ _ _ _ I _ c). apply (find_unpublished o n (kind_of v)); [exact (holds_kind o st n v T H)|].
  intros p P. apply (proj1 (schema_publishes o n (kind_of v) (holds_kind o st n v T H))); [now exists p|exact U].
Qed.

(* ---- cases ---- *)

(* pkg/client/model_l1_segment.go:21-26 *)
Definition l1_object (number : string) : cobject :=
  [("segmentIdentifier", Some (VStr (lit "L1"))); ("changeIndicator", Some (VInt (-12))); ("newConsumerAccountNumber", Some (VStr (lit number))); ("balloonPaymentDueDate", None)].
Lemma l1_client number : client_object (OSegment L1) (l1_object number).
Proof.
  unfold client_object, l1_object, obj_schema, l1_schema.
  repeat (constructor; [split; [reflexivity|cbn; repeat split; (reflexivity || lia)]|]). constructor.
Qed.

Lemma text_refuted : exists o p a b s t, In p (obj_schema o) /\ client_object o a /\ client_object o b
  /\ In (pKey p, Some (VStr s)) a /\ In (pKey p, Some (VStr t)) b /\ s <> t
  /\ (forall address stamp, value_to_string address stamp (AObject (client_table o) (Some a)) (lit (pKey p))
                          = value_to_string address stamp (AObject (client_table o) (Some b)) (lit (pKey p)))
  /\ (forall address stamp w, value_to_string address stamp (AObject (client_table o) (Some a)) (lit (pKey p)) = Ok w -> ~ own_text stamp (VStr s) w).
Proof.
  exists (OSegment L1), (mkProperty "newConsumerAccountNumber" TText false), (l1_object "7"), (l1_object "8"), (lit "7"), (lit "8").
  split; [cbn; tauto|]. split; [apply l1_client|]. split; [apply l1_client|]. split; [cbn; tauto|]. split; [cbn; tauto|]. split; [discriminate|].
  split; [reflexivity|]. intros address stamp w. change (value_to_string address stamp (AObject (client_table (OSegment L1)) (Some (l1_object "7"))) (lit "newConsumerAccountNumber"))
    with (Ok (lit "0x" ++ hex_digits 16 (address "newConsumerAccountNumber") [])). intros [= <-]. discriminate.
Qed.

Lemma text_case : forall stamp, let text := value_to_string (fun _ => 824633802768) stamp (AObject (client_table (OSegment L1)) (Some (l1_object "7"))) in
  text (lit "segmentIdentifier") = Ok (lit "L1") /\ text (lit "changeIndicator") = Ok (lit "-12")
  /\ text (lit "newConsumerAccountNumber") = Ok (lit "0xc000014010") /\ text (lit "balloonPaymentDueDate") = Ok (lit "<nil>")
  /\ text (lit "ChangeIndicator") = Ok (lit "<nil>").
Proof. intros stamp. repeat split; vm_compute; reflexivity. Qed.

Lemma strict_case : forall zone,
  strict_decode zone c_l1 (JObj [(lit "changeINDICATOR", JNum (lit "5"))]) (c_zero c_l1) <> None
  /\ strict_decode zone c_l1 (JObj [(lit "indicator", JNum (lit "5"))]) (c_zero c_l1) = None
  /\ c_decode zone c_l1 (JObj [(lit "indicator", JNum (lit "5"))]) (c_zero c_l1) = Some (c_zero c_l1).
Proof. intros zone. split; [vm_compute; discriminate|]. split; vm_compute; reflexivity. Qed.
Lemma strict_own_case : good_object (OSegment L1) (l1_object "7").
Proof.
  split; [apply l1_client|]. intros k v I. cbn in I.
  destruct I as [[= <- <-]|[[= <- <-]|[[= <- <-]|[[=]|[]]]]]; cbn [portable]; [|lia|]; apply utf8_text_ascii; reflexivity.
Qed.
Lemma server_case : holds (sample_fields OBase) "ProcessingIndicator" (VInt 1) /\ In "ProcessingIndicator" (unpublished_fields OBase) /\ ~ empty (VInt 1).
Proof. destruct processing_written as [H U]. split; [exact H|]. split; [exact U|]. intros [[=]|[=]]. Qed.

Lemma json_told m t e : to_json m = (t, e) <-> (exists j, m = inl j /\ t = print j /\ e = None) \/ (exists x, m = inr x /\ t = [] /\ e = Some x).
Proof.
  destruct m as [j|x]; cbn [to_json]; split.
  - intros [= <- <-]. left. now exists j.
  - intros [(j' & [= <-] & -> & ->)|(x & [=] & _)]. reflexivity.
  - intros [= <- <-]. right. now exists x.
  - intros [(j' & [=] & _)|(x' & [= <-] & -> & ->)]. reflexivity.
Qed.
