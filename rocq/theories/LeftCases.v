(* Cases of JSON that is refused and of what it leaves *)
From Coq Require Import ZArith NArith Bool Ascii String List Lia.
Import ListNotations.
From Verif Require Import GoBase GoBaseFacts GoTime GoLayout Json Tables Codec Records File Reader JsonFile JsonLeft
  SpecCodec SpecLayouts SpecRecords FieldFacts RecordFacts Check SpecJson JsonTextFacts JsonMapFacts JsonFacts JsonProps JsonCases
  Samples SpecSparse SparseFacts SparseCases SpecMerge MergeFacts MergeCases SpecAccept AcceptFacts AcceptCases SpecLeft LeftFacts.
Local Open Scope string_scope.
Local Open Scope Z_scope.
Local Open Scope list_scope.

(* a date that cannot be read between other members: those before are taken and
   the one after is not; a text where a number belongs is passed over *)
Definition broken_json : json :=
  JObj [ (lit "header", JObj [ (lit "reporterName", JStr (lit "AFTER")); (lit "activityDate", JStr (lit "2021-07-04"));
           (lit "dateCreated", JStr (lit "never")); (lit "blockDescriptorWord", JStr (lit "many")); (lit "cycleIdentifier", JStr (lit "07")) ]) ].
Definition broken_header : fields :=
  set_field "CycleIdentifier" (VStr (lit "07")) (set_field "ActivityDate" (VTime (mkTime 2021 7 4 0 0 0 0 None)) held_header).
Definition broken_file : file := mkFile false (RHeader false broken_header) [RBase false held_record] (RTrailer false held_trailer).

Lemma broken_plain : plain_json broken_json.
Proof. apply plain_jsonb_ok. vm_compute. reflexivity. Qed.
Lemma broken_tidy : tidy broken_json.
Proof. apply tidyb_ok. vm_compute. reflexivity. Qed.
Lemma broken_left : left_file plain_host broken_json held_file = (broken_file, Err (ErrOther "Unable to parse input json file")).
Proof. vm_compute. reflexivity. Qed.

(* null for a date: the date that was there is gone *)
Definition gone_file : file :=
  mkFile false (RHeader false (set_field "ActivityDate" (VTime no_date) held_header)) [RBase false held_record] (RTrailer false held_trailer).
Lemma gone_left : left_file plain_host (JObj undated_json) held_file = (gone_file, Err (ErrOther "Unable to parse input json file")).
Proof. vm_compute. reflexivity. Qed.

(* the data records before the first that is refused *)
Definition half_file : file :=
  mkFile false (RHeader false held_header) [RBase false held_record; RBase false new_base] (RTrailer false held_trailer).
Lemma half_left : left_file plain_host (JObj counted_json) held_file = (half_file, Err (ErrOther "Unable to parse input json file")).
Proof. vm_compute. reflexivity. Qed.

(* the J2 segments of a record are gone whatever the JSON says *)
Definition bared_record : base := mkBase short_base [] [] None (Some sample_k2) None None (Some sample_l1) None.
Lemma bared_left : exists e, left_base plain_host 1 (JObj unknown_json) held_record = (bared_record, Err e).
Proof. eexists. vm_compute. reflexivity. Qed.

Lemma held_differs : held_file <> broken_file /\ held_file <> gone_file /\ held_file <> half_file /\ held_record <> bared_record.
Proof.
  split; [|split; [|split]].
  - intros E. apply (f_equal (fun f => match flHeader f with RHeader _ st => lookup "CycleIdentifier" st | _ => None end)) in E. vm_compute in E. discriminate E.
  - intros E. apply (f_equal (fun f => match flHeader f with RHeader _ st => lookup "ActivityDate" st | _ => None end)) in E. vm_compute in E. discriminate E.
  - intros E. apply (f_equal (fun f => List.length (flBases f))) in E. vm_compute in E. discriminate E.
  - intros E. apply (f_equal (fun b => List.length (bJ2 b))) in E. vm_compute in E. discriminate E.
Qed.

Lemma changed : exists rt j f g e, orders rt /\ plain_json j /\ tidy j /\ framed f /\ left_file rt j f = (g, Err e) /\ g <> f.
Proof.
  exists plain_host, broken_json, held_file, broken_file. eexists. split; [exact plain_host_orders|]. split; [exact broken_plain|]. split; [exact broken_tidy|].
  split; [exact held_framed|]. split; [exact broken_left|]. intros E. exact (proj1 held_differs (eq_sym E)).
Qed.
Lemma changed_record : exists rt n j b c e, orders rt /\ plain_json j /\ tidy j /\ left_base rt n j b = (c, Err e) /\ c <> b.
Proof.
  destruct bared_left as (e & E). exists plain_host, 1%nat, (JObj unknown_json), held_record, bared_record, e. split; [exact plain_host_orders|].
  pose proof refused_plain as R. rewrite Forall_forall in R. destruct (R unknown_json) as [P Y]; [cbn; tauto|]. split; [exact P|]. split; [exact Y|].
  split; [exact E|]. intros D. exact (proj2 (proj2 (proj2 held_differs)) (eq_sym D)).
Qed.

(* a file that is returned with an error *)
Lemma broken_created : exists e, left_create plain_host (print (JObj undated_json))
  = (Some (mkFile false (RHeader false new_header) [] (RTrailer false new_trailer)), Err e).
Proof. eexists. vm_compute. reflexivity. Qed.
Lemma half_created : exists e, left_create plain_host (print (JObj counted_json))
  = (Some (mkFile false (RHeader false new_header) [RBase false new_base] (RTrailer false new_trailer)), Err e).
Proof. eexists. vm_compute. reflexivity. Qed.
Lemma array_created : exists e, left_create plain_host (print (JObj array_json)) = (None, Err e).
Proof. eexists. vm_compute. reflexivity. Qed.

(* the order of texts *)
Lemma order_case : earlier (lit "cycleIdentifier") (lit "dateCreated") /\ earlier (lit "dateCreated") (lit "reporterName") /\ ~ earlier (lit "b") (lit "a").
Proof.
  split; [apply earlier_cmp; reflexivity|]. split; [apply earlier_cmp; reflexivity|]. intros H. apply cmp_earlier in H. discriminate H.
Qed.
Lemma half_read : exists g e, left_new plain_host [] (print (JObj counted_json)) = Some (Some g, Err e).
Proof. eexists. eexists. vm_compute. reflexivity. Qed.
