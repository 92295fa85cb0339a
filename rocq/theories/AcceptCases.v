(* Cases of JSON that is accepted and of JSON that is refused *)
From Coq Require Import ZArith NArith Bool Ascii String List Lia.
Import ListNotations.
From Verif Require Import GoBase GoBaseFacts GoTime GoLayout Json Tables Codec Records File Reader JsonFile
  SpecCodec SpecLayouts SpecRecords FieldFacts RecordFacts Check SpecJson JsonTextFacts JsonMapFacts JsonFacts JsonProps JsonCases
  SpecSparse SparseFacts SparseCases SpecMerge MergeFacts MergeCases SpecAccept AcceptFacts.
Local Open Scope string_scope.
Local Open Scope Z_scope.
Local Open Scope list_scope.

Fixpoint tidyb (j : json) : bool :=
  match j with
  | JArr l => forallb tidyb l
  | JObj l => clear_keysb l && forallb (fun m => tidyb (snd m)) l
  | _ => true
  end.
Lemma tidyb_ok j : tidyb j = true -> tidy j.
Proof.
  induction j as [|b|t|s|l F|l F] using json_induction; cbn [tidyb]; intros P; constructor.
  - rewrite Forall_forall in *. rewrite forallb_forall in P. auto.
  - apply andb_prop in P as [P _]. now apply clear_keysb_ok.
  - apply andb_prop in P as [_ P]. rewrite Forall_forall in *. rewrite forallb_forall in P. intros m I. apply F; auto.
Qed.

Lemma short_tidy : tidy short_json.
Proof. apply tidyb_ok. vm_compute. reflexivity. Qed.
Lemma short_record_tidy : tidy short_record_json.
Proof. apply tidyb_ok. vm_compute. reflexivity. Qed.
Lemma held_framed : framed held_file.
Proof.
  exists false, false, held_header, held_trailer. split; [reflexivity|]. split; [reflexivity|].
  split; apply has_typeb_ok; vm_compute; reflexivity.
Qed.

Lemma short_taken : takes_file (rtZone plain_host) short_json held_file mixed_file.
Proof.
  apply (unmarshal_file_spec plain_host); [exact plain_host_orders|exact short_plain|exact short_tidy|exact held_framed|].
  exact (amended_file plain_host short_json held_file mixed_file plain_host_orders short_plain held_amended).
Qed.
Lemma short_record_taken : takes_base (rtZone plain_host) short_record_json held_record mixed_record.
Proof.
  apply (unmarshal_base_spec plain_host 1); [exact plain_host_orders|exact short_record_plain|exact short_record_tidy|].
  exact (amended_base plain_host 1 _ _ _ plain_host_orders short_record_plain held_record_amended).
Qed.

(* a key in another case tells the format and nothing else *)
Definition cased_json : json :=
  JObj [ (lit "Header", JObj [(lit "blockDescriptorWord", number 1500); (lit "reporterName", number 5)]);
         (lit "trailer", JObj [(lit "totalBaseRecords", number 7)]); (lit "data", JNull) ].
Definition cased_trailer : fields := set_field "TotalBaseRecords" (VInt 7) new_trailer.
Definition cased_file : file := mkFile true (RHeader true new_header) [] (RTrailer true cased_trailer).

Lemma cased_plain : plain_json cased_json.
Proof. apply plain_jsonb_ok. vm_compute. reflexivity. Qed.
Lemma cased_tidy : tidy cased_json.
Proof. apply tidyb_ok. vm_compute. reflexivity. Qed.
Lemma cased_taken : takes_new (rtZone plain_host) cased_json cased_file.
Proof.
  exists true, new_header, new_trailer. split.
  { apply (format_spec plain_host); [exact cased_plain|exact cased_tidy|].
    exists (Some [("BlockDescriptorWord", VInt 1500); ("RecordDescriptorWord", VInt 0); ("RecordIdentifier", VStr [])]). split; vm_compute; reflexivity. }
  split; [now apply header_is_fresh|]. split; [now apply trailer_is_fresh|].
  apply (unmarshal_file_spec plain_host cased_json (new_file_p true)); [exact plain_host_orders|exact cased_plain|exact cased_tidy|apply new_framed|].
  vm_compute. reflexivity.
Qed.

(* refused: a date that is null, a header that is an array, a data record that is
   a number, a segment with an unknown code *)
Definition undated_json : list (bytes * json) := [ (lit "header", JObj [(lit "activityDate", JNull)]) ].
Definition array_json : list (bytes * json) := [ (lit "header", JArr []) ].
Definition counted_json : list (bytes * json) := [ (lit "data", JArr [JObj []; number 1]) ].
Definition unknown_json : list (bytes * json) := [ (lit "k1", JObj [(lit "creditorClassification", number 99)]) ].

Lemma refused_plain : Forall (fun l => plain_json (JObj l) /\ tidy (JObj l)) [undated_json; array_json; counted_json; unknown_json].
Proof. repeat (apply Forall_cons; [split; [apply plain_jsonb_ok|apply tidyb_ok]; vm_compute; reflexivity|]). apply Forall_nil. Qed.

Lemma unknown_untaken s : ~ takes_segment (rtZone plain_host) K1 (JObj [(lit "creditorClassification", number 99)]) s.
Proof.
  intros T. pose proof refused_plain as R. inversion R as [|x1 y1 _ R1]; subst. inversion R1 as [|x2 y2 _ R2]; subst. inversion R2 as [|x3 y3 _ R3]; subst.
  inversion R3 as [|x4 y4 [P Y] _]; subst.
  assert (unmarshal_segment plain_host (lit "k1") (norm (JObj [(lit "creditorClassification", number 99)])) new_base = Ok (put_segment s new_base)) as E.
  { apply (segment_spec plain_host K1); [exact (plain_member _ _ _ P (or_introl eq_refl))|exact (tidy_member _ _ _ Y (or_introl eq_refl))|]. exists s. auto. }
  vm_compute in E. discriminate E.
Qed.
