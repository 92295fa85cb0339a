(* Cases for the published JSON objects *)
From Coq Require Import ZArith NArith Bool Ascii String List Lia.
Import ListNotations.
From Verif Require Import GoBase GoBaseFacts GoTime TimeFacts GoLayout Json Tables JsonTables Codec Records File Reader JsonFile
  SpecCodec SpecLayouts SpecRecords FieldFacts RecordFacts Check Samples SpecFile SpecFiles SpecReader SpecJson LayoutFacts JsonTextFacts
  JsonMapFacts JsonFacts JsonProps JsonReader JsonCases FileCases SpecSparse SparseFacts SparseCases SpecValidate Server SpecServer ServerCases
  SpecSchema SchemaFacts.
Local Open Scope string_scope.
Local Open Scope Z_scope.
Local Open Scope list_scope.
Local Notation length := List.length.

(* ---- checkers ---- *)

Definition value_okb (t : ptype) (j : json) : bool :=
  match t, j with
  | TInt b, JNum s => let '(z, _) := parse_int 64 s in bytes_eqb s (itoa z) && (- 2 ^ (b - 1) <=? z) && (z <? 2 ^ (b - 1))
  | TText, JStr _ => true
  | TStamp, JStr s => match time_unmarshal (fun _ t => t) (print (JStr s)) with
                      | Some d => plain_stampb d && bytes_eqb s (stamp_text_of d)
                      | None => false
                      end
  | TCode codes, JStr s => existsb (fun c => bytes_eqb s (list_ascii_of_string c)) codes
  | TNumber codes, JNum s => existsb (fun z => bytes_eqb s (itoa z)) codes
  | _, _ => false
  end.
Lemma value_okb_ok t j : value_okb t j = true -> value_ok t j.
Proof.
  destruct t as [b| | |codes|codes], j as [|?|s|s|?|?]; try discriminate; cbn [value_okb value_ok].
  - destruct (parse_int 64 s) as [z e]. rewrite !andb_true_iff, bytes_eqb_eq, Z.leb_le, Z.ltb_lt. intros [[-> H] H']. eauto.
  - eauto.
  - destruct (time_unmarshal _ _) as [d|]; [|discriminate]. rewrite andb_true_iff, bytes_eqb_eq. intros [P ->]. exists d. eexists. split; [reflexivity|].
    apply plain_stampb_ok in P as (C & Hh & Hm & Hs & Hn & Ho). pose proof (day_in_month _ _ _ C) as (Y & M & D).
    split; [split; [exact C|lia]|]. exists (d4 (tYear d)), (d2 (tMonth d)), (d2 (tDay d)), (d2 (tHour d)), (d2 (tMin d)), (d2 (tSec d)), [], (lit "Z").
    split; [reflexivity|]. split; [apply d4_decimal; lia|]. repeat (split; [apply d2_decimal; lia|]).
    split; [rewrite Hn|rewrite Ho]; constructor.
  - rewrite existsb_exists. intros (c & I & E). apply bytes_eqb_eq in E. exists c. subst. auto.
  - rewrite existsb_exists. intros (c & I & E). apply bytes_eqb_eq in E. exists c. subst. auto.
Qed.

Definition conformsb (sc : schema) (j : json) : bool :=
  match j with
  | JObj l =>
      forallb (fun p => negb (pRequired p) || existsb (fun m => bytes_eqb (fst m) (lit (pKey p))) l) sc
      && forallb (fun p => forallb (fun m => negb (bytes_eqb (fst m) (lit (pKey p))) || value_okb (pType p) (snd m)) l) sc
      && forallb (fun m => existsb (fun p => bytes_eqb (fst m) (lit (pKey p))) sc) l
  | _ => false
  end.
Lemma conformsb_ok sc j : conformsb sc j = true -> conforms true sc j.
Proof.
  destruct j as [|?|?|?|?|l]; try discriminate. cbn [conformsb]. rewrite !andb_true_iff, !forallb_forall. intros [[R V] C].
  exists l. split; [reflexivity|]. split; [|split].
  - intros p I Rp. specialize (R p I). rewrite Rp in R. cbn in R. apply existsb_exists in R as ([k v] & Im & E). apply bytes_eqb_eq in E. cbn in E. subst k. eauto.
  - intros p v I Im. specialize (V p I). rewrite forallb_forall in V. specialize (V _ Im). cbn [fst snd] in V. rewrite bytes_eqb_refl in V. now apply value_okb_ok.
  - intros _ k v I. specialize (C _ I). apply existsb_exists in C as (p & Ip & E). apply bytes_eqb_eq in E. eauto.
Qed.

(* ---- a file in published form ---- *)

(* what is published of an object, without empty texts *)
Definition published_part (o : object) (st : fields) : json :=
  match obj_json o st with
  | JObj l => JObj (filter (fun m => existsb (fun p => bytes_eqb (fst m) (lit (pKey p))) (obj_schema o)
                                     && match snd m with JStr [] => false | _ => true end) l)
  | j => j
  end.

Definition coded_base : fields := set_field "PaymentHistoryProfile" (VStr (lit "B")) (sample_base_fields 0 1098).
Definition published_record : json :=
  JObj ((lit "base", published_part OBase coded_base)
    :: (lit "j1", JArr [published_part (OSegment J1) (sFields (sample_segment J1))])
    :: (lit "j2", JArr [published_part (OSegment J2) (sFields (sample_segment J2)); published_part (OSegment J2) (sFields (sample_segment J2))])
    :: map (fun k => (lit (seg_name k), published_part (OSegment k) (sFields (sample_segment k)))) [K1; K2; K3; K4; L1; N1]).
Definition published_file : json :=
  JObj [ (lit "header", published_part OHeader (sample_header 0 426)); (lit "data", JArr [published_record]);
         (lit "trailer", published_part OTrailer (sample_trailer 426)) ].

Lemma published_plain : plain_json published_file.
Proof. apply plain_jsonb_ok. vm_compute. reflexivity. Qed.

Definition whereb (key : string) (P : json -> bool) (l : list (bytes * json)) : bool :=
  forallb (fun m => negb (bytes_eqb (fst m) (lit key)) || P (snd m)) l.
Lemma whereb_ok key P l : whereb key P l = true -> forall v, In (lit key, v) l -> P v = true.
Proof. unfold whereb. rewrite forallb_forall. intros H v I. specialize (H _ I). cbn [fst snd] in H. now rewrite bytes_eqb_refl in H. Qed.
Definition arrayb (P : json -> bool) (j : json) : bool := match j with JArr a => forallb P a | _ => false end.
Lemma arrayb_ok (P : json -> bool) (Q : json -> Prop) j : (forall x, P x = true -> Q x) -> arrayb P j = true -> array_of Q j.
Proof. intros H. destruct j; try discriminate. cbn. rewrite forallb_forall. intros F. eexists. split; [reflexivity|]. apply Forall_forall. auto. Qed.

Definition conforms_recordb (j : json) : bool :=
  match j with
  | JObj l => existsb (fun m => bytes_eqb (fst m) (lit "base")) l && whereb "base" (conformsb base_schema) l
      && whereb "j1" (arrayb (conformsb j1_schema)) l && whereb "j2" (arrayb (conformsb j2_schema)) l
      && forallb (fun k => whereb (seg_name k) (conformsb (obj_schema (OSegment k))) l) [K1; K2; K3; K4; L1; N1]
  | _ => false
  end.
Lemma has_key key (l : list (bytes * json)) : existsb (fun m => bytes_eqb (fst m) (lit key)) l = true -> exists v, In (lit key, v) l.
Proof. rewrite existsb_exists. intros ([k v] & I & E). apply bytes_eqb_eq in E. cbn in E. subst k. eauto. Qed.
Lemma conforms_recordb_ok j : conforms_recordb j = true -> conforms_record true j.
Proof.
  destruct j as [|?|?|?|?|l]; try discriminate. cbn [conforms_recordb]. rewrite !andb_true_iff. intros [[[[B Cb] C1] C2] Cs].
  exists l. split; [reflexivity|]. split; [now apply has_key|]. split; [intros v I; apply conformsb_ok; exact (whereb_ok _ _ _ Cb v I)|].
  split; [intros v I; eapply arrayb_ok; [apply conformsb_ok|exact (whereb_ok _ _ _ C1 v I)]|].
  split; [intros v I; eapply arrayb_ok; [apply conformsb_ok|exact (whereb_ok _ _ _ C2 v I)]|].
  intros k v N1 N2 I. rewrite forallb_forall in Cs. apply conformsb_ok.
  assert (whereb (seg_name k) (conformsb (obj_schema (OSegment k))) l = true) as W by (apply Cs; destruct k; cbn; tauto).
  exact (whereb_ok _ _ _ W v I).
Qed.
Definition conforms_fileb (j : json) : bool :=
  match j with
  | JObj l => existsb (fun m => bytes_eqb (fst m) (lit "header")) l && existsb (fun m => bytes_eqb (fst m) (lit "trailer")) l
      && whereb "header" (conformsb header_schema) l && whereb "data" (arrayb conforms_recordb) l && whereb "trailer" (conformsb trailer_schema) l
  | _ => false
  end.
Lemma conforms_fileb_ok j : conforms_fileb j = true -> conforms_file true j.
Proof.
  destruct j as [|?|?|?|?|l]; try discriminate. cbn [conforms_fileb]. rewrite !andb_true_iff. intros [[[[H T] Ch] Cd] Ct].
  exists l. split; [reflexivity|]. split; [now apply has_key|]. split; [now apply has_key|].
  split; [intros v I; apply conformsb_ok; exact (whereb_ok _ _ _ Ch v I)|].
  split; [intros v I; eapply arrayb_ok; [apply conforms_recordb_ok|exact (whereb_ok _ _ _ Cd v I)]|].
  intros v I; apply conformsb_ok; exact (whereb_ok _ _ _ Ct v I).
Qed.

Lemma published_conforms : conforms_file true published_file.
Proof. apply conforms_fileb_ok. vm_compute. reflexivity. Qed.

Lemma published_accepted : exists f, unmarshal_file plain_host published_file (new_file_p false) = Ok f /\ length (flBases f) = 1%nat
  /\ describes_file published_file f.
Proof.
  assert (match unmarshal_file plain_host published_file (new_file_p false) with Ok g => length (flBases g) = 1%nat | _ => False end) as L
    by (vm_compute; reflexivity).
  destruct (conforming_read plain_host false published_file plain_host_orders published_plain published_conforms) as [(f & P & D & E)|(_ & N)].
  - exists f. rewrite E in L. auto.
  - destruct (unmarshal_file plain_host published_file (new_file_p false)) as [f| |]; [elim (N f); reflexivity|destruct L|destruct L].
Qed.

(* ---- a date published but not kept ---- *)

Definition due (s : string) : list (bytes * json) :=
  (lit "balloonPaymentDueDate", JStr (list_ascii_of_string s))
  :: match obj_json (OSegment L1) (sFields sample_l1) with JObj l => l | _ => [] end.
Definition due_property : property := match find (fun p => String.eqb (pKey p) "balloonPaymentDueDate") l1_schema with Some p => p | None => mkProperty "" TText false end.
Lemma due_published : In due_property (obj_schema (OSegment L1)).
Proof. apply (find_some (fun p => String.eqb (pKey p) "balloonPaymentDueDate") l1_schema). vm_compute. reflexivity. Qed.
Lemma due_conforms : conforms true (obj_schema (OSegment L1)) (JObj (due "2024-02-29T00:00:00Z"))
  /\ conforms true (obj_schema (OSegment L1)) (JObj (due "2031-12-31T00:00:00Z")).
Proof. split; apply conformsb_ok; vm_compute; reflexivity. Qed.
Lemma due_described s : describes (obj_struct (OSegment L1)) (obj_id (OSegment L1)) (due s) (sFields sample_l1).
Proof. apply describesb_ok. vm_compute. reflexivity. Qed.
Lemma due_clear s : clear_keys (due s).
Proof. apply clear_keysb_ok. vm_compute. reflexivity. Qed.

Lemma property_lost : exists o p v v' l st, In p (obj_schema o) /\ v <> v'
  /\ conforms true (obj_schema o) (JObj ((lit (pKey p), v) :: l)) /\ conforms true (obj_schema o) (JObj ((lit (pKey p), v') :: l))
  /\ describes (obj_struct o) (obj_id o) ((lit (pKey p), v) :: l) st /\ describes (obj_struct o) (obj_id o) ((lit (pKey p), v') :: l) st.
Proof.
  exists (OSegment L1), due_property, (JStr (lit "2024-02-29T00:00:00Z")), (JStr (lit "2031-12-31T00:00:00Z")), (tl (due "")), (sFields sample_l1).
  split; [exact due_published|]. split; [discriminate|]. split; [exact (proj1 due_conforms)|]. split; [exact (proj2 due_conforms)|].
  split; [exact (due_described "2024-02-29T00:00:00Z")|exact (due_described "2031-12-31T00:00:00Z")].
Qed.

(* ---- what is written ---- *)

Definition sample_fields (o : object) : fields :=
  match o with
  | OHeader => sample_header 0 426 | OTrailer => sample_trailer 426 | OBase => coded_base
  | OSegment k => sFields (sample_segment k)
  end.
Lemma samples_typed o : has_type (obj_struct o) (sample_fields o) /\ json_fields (sample_fields o).
Proof. destruct o as [| | |[]]; (split; [apply has_typeb_ok|apply json_fieldsb_ok]; vm_compute; reflexivity). Qed.
Lemma samples_conform o : o <> OBase -> conforms true (obj_schema o) (obj_json o (sample_fields o)).
Proof. intros N. destruct o as [| | |[]]; try (apply conformsb_ok; vm_compute; reflexivity). contradiction. Qed.
Lemma conforms_open sc j : conforms true sc j -> conforms false sc j.
Proof. intros (l & E & R & V & _). exists l. repeat split; auto. discriminate. Qed.

(* a fresh header: its dates are written as empty texts *)
Lemma fresh_header_case : has_type (obj_struct OHeader) new_header /\ json_fields new_header
  /\ ~ conforms false (obj_schema OHeader) (obj_json OHeader new_header).
Proof.
  assert (has_type (obj_struct OHeader) new_header) as T by (apply has_typeb_ok; vm_compute; reflexivity).
  assert (json_fields new_header) as J by (apply json_fieldsb_ok; vm_compute; reflexivity).
  split; [exact T|]. split; [exact J|]. intros C. apply (object_conforms OHeader new_header T J) in C as [C _].
  assert (exists p, property_of OHeader p "ActivityDate" /\ pType p = TStamp) as (p & P & E).
  { exists (match find (fun p => String.eqb (pKey p) "activityDate") header_schema with Some p => p | None => mkProperty "" TText false end).
    split; [|vm_compute; reflexivity]. split; [|vm_compute; reflexivity].
    apply (find_some (fun p => String.eqb (pKey p) "activityDate") header_schema). vm_compute. reflexivity. }
  destruct (C p "ActivityDate" (VTime no_date) P) as [D|[[D|D] _]].
  - unfold holds. vm_compute. tauto.
  - rewrite E in D. cbn in D. apply D. reflexivity.
  - discriminate.
  - discriminate.
Qed.

Lemma fresh_file_json : json_file fresh_file.
Proof.
  change fresh_file with (file_of FixedFile (sample_header 0 426) [sample_base 0 1264; sample_plain 0 426; sample_base 0 1300] fresh_fields).
  apply json_file_of; vm_compute; reflexivity.
Qed.
Lemma fresh_file_valid : file_validate fresh_file = Ok tt.
Proof. vm_compute. reflexivity. Qed.
Lemma no_data_conforms : conforms_file true (encode_file false no_data).
Proof. apply conforms_fileb_ok. vm_compute. reflexivity. Qed.
Lemma written_refuted : exists f, json_file f /\ file_validate f = Ok tt /\ ~ conforms_file false (encode_file true f).
Proof.
  exists fresh_file. split; [exact fresh_file_json|]. split; [exact fresh_file_valid|].
  exact (written_file_never false true fresh_file fresh_file_json fresh_file_valid).
Qed.

(* the base segment of the sample *)
Lemma processing_written : holds (sample_fields OBase) "ProcessingIndicator" (VInt 1) /\ In "ProcessingIndicator" (unpublished_fields OBase).
Proof. split; [unfold holds; vm_compute; tauto|vm_compute; tauto]. Qed.

(* ---- a published format ---- *)

Definition metro2_request : request := body_request "text/plain" [("format", "metro2")] (file_text true fixed_file).
Lemma metro2_case : asks_format metro2_request (lit "metro2") /\ exists f, reads plain_host metro2_request f.
Proof.
  split; [right; split; [discriminate|reflexivity]|]. exists fixed_file. apply text_reads; [vm_compute; reflexivity|apply fixed_text_read].
Qed.
Lemma metro2_answer : status_of (serve_print 8 plain_host metro2_request) = Some 501
  /\ status_of (serve_convert 8 plain_host metro2_request) = Some 501.
Proof. vm_compute. split; reflexivity. Qed.
Lemma answered r s : status_of r = Some s -> exists h b, r = Some (Reply s h b).
Proof. destruct r as [[s' h b|]|]; try discriminate. cbn. intros E. injection E as <-. eauto. Qed.
Lemma statuses_refuted : exists cpus rt rq w status h b, In w published_formats /\ asks_format rq (list_ascii_of_string w)
  /\ serve_print cpus rt rq = Some (Reply status h b) /\ ~ In status (published_statuses OpPrint).
Proof.
  destruct (answered _ _ (proj1 metro2_answer)) as (h & b & E). exists 8, plain_host, metro2_request, "metro2", 501, h, b.
  split; [right; left; reflexivity|]. split; [exact (proj1 metro2_case)|]. split; [exact E|]. intros [I|[I|[]]]; discriminate.
Qed.
Lemma published_answers : status_of (answer OpPrint 8 plain_host (body_request "text/plain" [("format", "json")] (file_text true fixed_file))) = Some 200
  /\ status_of (answer OpConvert 8 plain_host (body_request "text/plain" [("format", "json")] (file_text true fixed_file))) = Some 200
  /\ asks_form (body_request "text/plain" [("format", "json")] (file_text true fixed_file)) JsonOutput.
Proof. split; [vm_compute; reflexivity|]. split; [vm_compute; reflexivity|]. apply asks_value; [discriminate|apply (names_word JsonOutput)]. Qed.

Lemma published_names : In due_property (obj_schema (OSegment L1)) /\ In (pKey due_property) (unknown_properties (OSegment L1))
  /\ In ("CorrectionIndicator", KInt) (obj_struct OBase) /\ In "CorrectionIndicator" (unpublished_fields OBase).
Proof. split; [exact due_published|]. vm_compute. tauto. Qed.
Lemma published_described : exists f, describes_file published_file f /\ flBases f <> [].
Proof. destruct published_accepted as (f & _ & L & D). exists f. split; [exact D|]. intros E. rewrite E in L. discriminate. Qed.
