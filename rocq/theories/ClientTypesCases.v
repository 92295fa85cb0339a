(* Sample objects of the client and witnesses for what gets lost *)
From Coq Require Import ZArith NArith Bool Ascii String List Lia.
Import ListNotations.
From Verif Require Import GoBase GoBaseFacts GoTime GoLayout Json Tables JsonTables Codec Records File Reader JsonFile
  SpecCodec SpecLayouts SpecRecords RecordFacts Check Samples SpecFile SpecFiles FileCases SpecReader SpecJson FieldFacts JsonTextFacts JsonFacts JsonProps JsonCases
  SpecSparse SparseFacts SpecSchema SchemaFacts SchemaCases ServerCases ClientTypes SpecClientTypes ClientTypesFacts ClientFileFacts.
Local Open Scope string_scope.
Local Open Scope Z_scope.
Local Open Scope list_scope.
Local Notation length := List.length.

(* ---- checkers ---- *)

Definition fits_typeb (t : ptype) (v : value) : bool :=
  match v, type_kind t with
  | VInt z, KInt => (- 2 ^ (bits_of t - 1) <=? z) && (z <? 2 ^ (bits_of t - 1))
  | VStr _, KStr => true
  | VTime _, KTime => true
  | _, _ => false
  end.
Lemma fits_typeb_ok t v : fits_typeb t v = true -> fits_type t v.
Proof. destruct v; cbn [fits_typeb fits_type]; destruct (type_kind t); intros H; try discriminate H; auto. apply andb_true_iff in H as [A B]. apply Z.leb_le in A. apply Z.ltb_lt in B. auto. Qed.
Definition portableb (v : value) : bool :=
  match v with
  | VInt z => Z.abs z <=? 2 ^ 53
  | VStr s => forallb is_ascii s
  | VTime t => calendar_timeb t && (0 <=? tNsec t) && (tNsec t <? 10 ^ 9) && match tOff t with None => true | _ => false end
  end.
Lemma portableb_ok v : portableb v = true -> portable v.
Proof.
  destruct v as [z|s|t]; cbn [portableb portable]; intros H; [lia|now apply utf8_text_ascii|]. rewrite !andb_true_iff in H. destruct H as [[[C A] B] O].
  split; [now apply calendar_timeb_ok|]. split; [lia|]. left. destruct (tOff t); [discriminate|reflexivity].
Qed.
Definition memberb (p : property) (m : string * option value) : bool :=
  (fst m =? pKey p)%string && match snd m with Some v => fits_typeb (pType p) v && portableb v | None => negb (pRequired p) end.
Fixpoint membersb (sc : schema) (c : cobject) : bool :=
  match sc, c with
  | [], [] => true
  | p :: sc, m :: c => memberb p m && membersb sc c
  | _, _ => false
  end.
Definition good_objectb (o : object) (c : cobject) : bool := membersb (obj_schema o) c.
Lemma good_objectb_ok o c : good_objectb o c = true -> good_object o c.
Proof.
  unfold good_objectb, good_object, client_object. generalize (obj_schema o) as sc. induction c as [|[k x] c IH]; intros [|p sc]; cbn [membersb]; intros H; try discriminate H.
  - split; [constructor|intros ? ? []].
  - apply andb_true_iff in H as [H1 H2]. destruct (IH sc H2) as [F P]. unfold memberb in H1. cbn [fst snd] in H1. apply andb_true_iff in H1 as [E X].
    apply String.eqb_eq in E. split.
    + constructor; [|assumption]. split; [assumption|]. cbn [snd]. destruct x as [v|]; [|now apply negb_true_iff]. apply andb_true_iff in X as [X _]. now apply fits_typeb_ok.
    + intros k' v [[= <- ->]|I]; [|now apply (P k')]. apply andb_true_iff in X as [_ X]. now apply portableb_ok.
Qed.
Definition good_manyb (k : segkind) (l : option (list cobject)) : bool := match l with Some a => forallb (good_objectb (OSegment k)) a | None => true end.
Definition good_oneb (k : segkind) (x : option cobject) : bool := match x with Some c => good_objectb (OSegment k) c | None => true end.
Definition good_recordb (r : crecord) : bool :=
  good_objectb OBase (crBase r) && good_manyb J1 (crJ1 r) && good_manyb J2 (crJ2 r) && good_oneb K1 (crK1 r) && good_oneb K2 (crK2 r)
  && good_oneb K3 (crK3 r) && good_oneb K4 (crK4 r) && good_oneb L1 (crL1 r) && good_oneb N1 (crN1 r).
Lemma good_recordb_ok r : good_recordb r = true -> good_record r.
Proof.
  unfold good_recordb. rewrite !andb_true_iff. intros [[[[[[[[B G1] G2] G3] G4] G5] G6] G7] G8].
  assert (forall k l, good_manyb k l = true -> good_many k l) as M.
  { intros k l H a ->. cbn [good_manyb] in H. apply Forall_forall. rewrite forallb_forall in H. intros c I. apply good_objectb_ok, H, I. }
  assert (forall k x, good_oneb k x = true -> good_one k x) as O by (intros k x H c ->; apply good_objectb_ok, H).
  exact (conj (good_objectb_ok _ _ B) (conj (M _ _ G1) (conj (M _ _ G2) (conj (O _ _ G3) (conj (O _ _ G4) (conj (O _ _ G5) (conj (O _ _ G6) (conj (O _ _ G7) (O _ _ G8))))))))).
Qed.
Definition good_fileb (f : cfile) : bool :=
  good_objectb OHeader (cfHeader f) && good_objectb OTrailer (cfTrailer f) && match cfData f with Some l => forallb good_recordb l | None => true end.
Lemma good_fileb_ok f : good_fileb f = true -> good_file f.
Proof.
  unfold good_fileb. rewrite !andb_true_iff. intros [[H T] D]. split; [now apply good_objectb_ok|]. split; [now apply good_objectb_ok|].
  intros l E. rewrite E in D. rewrite forallb_forall in D. apply Forall_forall. intros r I. apply good_recordb_ok, D, I.
Qed.

Definition readableb (o : object) (st : fields) : bool :=
  forallb (fun p => forallb (fun f => negb (bytes_eqb (lit (pKey p)) (json_key (fst f)))
    || fits_typeb (pType p) (snd f) && match snd f with VTime t => negb (is_zero t) | _ => true end) st) (obj_schema o).
Lemma readableb_ok o st : readableb o st = true -> client_readable o st.
Proof.
  unfold readableb. rewrite forallb_forall. intros H p n v [Ip E] Hn. specialize (H p Ip). rewrite forallb_forall in H. specialize (H (n, v) Hn). cbn [fst snd] in H.
  rewrite E, bytes_eqb_refl in H. cbn [negb orb] in H. apply andb_true_iff in H as [F Z]. split; [now apply fits_typeb_ok|]. intros ->. discriminate Z.
Qed.
Definition publishedb_only (o : object) (st : fields) : bool :=
  forallb (fun f => negb (existsb (String.eqb (fst f)) (unpublished_fields o)) || match snd f with VInt 0 => true | VStr [] => true | _ => false end) st.
Lemma publishedb_only_ok o st : publishedb_only o st = true -> published_only o st.
Proof.
  unfold publishedb_only. rewrite forallb_forall. intros H n v I Hn. specialize (H (n, v) Hn). cbn [fst snd] in H.
  replace (existsb (String.eqb n) (unpublished_fields o)) with true in H by (symmetry; apply existsb_exists; exists n; split; [assumption|apply String.eqb_refl]).
  cbn [negb orb] in H. destruct v as [[| |]|[|]|]; try discriminate H; [now left|now right].
Qed.
Definition base_eachb (P : object -> fields -> bool) (b : base) : bool :=
  P OBase (bFields b) && forallb (fun s => P (OSegment (sKind s)) (sFields s)) (segments_of b).
Definition file_eachb (P : object -> fields -> bool) (f : file) : bool :=
  forallb (fun r => match r with RHeader _ st => P OHeader st | RTrailer _ st => P OTrailer st | RBase _ b => base_eachb P b end)
    (flHeader f :: flTrailer f :: flBases f).
Lemma file_eachb_ok (P : object -> fields -> Prop) Pb f : (forall o st, Pb o st = true -> P o st) -> file_eachb Pb f = true -> file_each P f.
Proof.
  intros O H. unfold file_eachb in H. rewrite forallb_forall in H.
  assert (forall r, In r (flHeader f :: flTrailer f :: flBases f) -> record_each P r) as A.
  { intros r I. specialize (H r I). destruct r as [p st|p b|p st]; cbn [record_each]; [now apply O| |now apply O].
    unfold base_eachb in H. apply andb_true_iff in H as [B S]. split; [now apply O|]. intros s Is. rewrite forallb_forall in S. apply O, (S s Is). }
  split; [apply A; now left|]. split; [apply Forall_forall; intros r I; apply A; now right; right|apply A; now right; left].
Qed.

(* ---- a file of the client with few properties ---- *)

(* the object with the given values and nothing else *)
Definition c_with (t : list cfield) (l : list (string * value)) : cobject := fold_left (fun c m => c_set (fst m) (Some (snd m)) c) l (c_zero t).
Definition day (y m d : Z) : value := VTime (mkTime y m d 0 0 0 0 None).
Definition word (s : string) : value := VStr (lit s).

Definition few_header : cobject := c_with c_header
  [ ("recordDescriptorWord", VInt 426); ("recordIdentifier", word "HEADER"); ("activityDate", day 2024 2 28); ("dateCreated", day 2024 2 29);
    ("reporterName", word "BANK ""A"" & CO"); ("reporterAddress", word "MAIN ST 1"); ("reporterTelephoneNumber", VInt 5175555555) ].
Definition few_j1 : cobject := c_with c_j1
  [ ("segmentIdentifier", word "J1"); ("surname", word "DOE"); ("firstName", word "ANN"); ("dateBirth", day 1970 1 2); ("ecoaCode", word "2") ].
Definition few_l1 (due : option value) : cobject :=
  c_set "balloonPaymentDueDate" due (c_with c_l1 [ ("segmentIdentifier", word "L1"); ("changeIndicator", VInt 1); ("newConsumerAccountNumber", word "43") ]).
Definition few_record (due : option value) : crecord := mkCRecord (c_with c_base
  [ ("recordDescriptorWord", VInt 426); ("identificationNumber", word "66"); ("consumerAccountNumber", word "42"); ("accountType", word "48"); ("highestCredit", VInt 5);
    ("timeStamp", VTime (mkTime 2024 2 29 23 30 5 120000000 None)); ("termsDuration", word "LOC"); ("accountStatus", word "11");
    ("paymentHistoryProfile", word "BBBBBBBBBBBBBBBBBBBBBBBB"); ("dateAccountInformation", day 2024 2 1); ("surname", word "DOE"); ("firstName", word "JO");
    ("ecoaCode", word "1"); ("firstLineAddress", word "MAIN ST 2"); ("state", word "MI"); ("zipCode", word "72654") ])
  (Some [few_j1; few_j1]) None None None None None (Some (few_l1 due)) None.
Definition few_trailer : cobject := c_with c_trailer
  [ ("blockDescriptorWord", VInt 430); ("recordDescriptorWord", VInt 426); ("recordIdentifier", word "TRAILER"); ("totalBaseRecords", VInt 1) ].
Definition few_file (due : option value) : cfile := mkCFile few_header (Some [few_record due]) few_trailer.

Lemma few_good due : (due = None \/ due = Some (word "20240506")) -> good_file (few_file due).
Proof. intros [-> | ->]; apply good_fileb_ok; vm_compute; reflexivity. Qed.

Lemma valid_segments_dec f : (forall p b s, In (RBase p b) (flBases f) -> In s (segments_of b) -> seg_validate s = None) \/ ~ valid_segments f.
Proof.
  assert (forall s, {seg_validate s = None} + {seg_validate s <> None}) as D by (intros s; destruct (seg_validate s); [right; discriminate|now left]).
  set (Q := fun r => match r with RBase _ b => Forall (fun s => seg_validate s = None) (segments_of b) | _ => True end).
  assert (forall r, {Q r} + {~ Q r}) as Dr by (intros [p st|p b|p st]; cbn [Q]; [now left|apply Forall_dec, D|now left]).
  destruct (Forall_dec Q Dr (flBases f)) as [Y|N]; [left|right].
  - intros p b s Ib Is. rewrite Forall_forall in Y. specialize (Y _ Ib). cbn [Q] in Y. rewrite Forall_forall in Y. auto.
  - intros V. apply N. apply Forall_forall. intros [p st|p b|p st] I; cbn [Q]; try exact Logic.I. apply Forall_forall. intros s Is. exact (V p b s I Is).
Qed.

(* what the library reads is what the file of the client stands for *)
Lemma reads_stands c p g : good_file c ->
  match c_file c with Some j => unmarshal_file plain_host j (new_file_p p) = Ok g | None => False end -> stands_for_file c g /\ valid_segments g.
Proof.
  intros G U. destruct (file_stands p c G) as (f & P & S).
  destruct (valid_segments_dec f) as [V|V].
  - destruct (client_sent plain_host c f plain_host_orders G S V) as (j & E & R). rewrite E in U. rewrite P in R. assert (g = f) as -> by congruence. auto.
  - destruct (client_refused plain_host c f plain_host_orders G S V) as (j & E & R). rewrite E in U. rewrite P in R. now elim (R g).
Qed.
Definition few_read : file :=
  match c_file (few_file None) with Some j => match unmarshal_file plain_host j (new_file_p false) with Ok f => f | _ => no_data end | None => no_data end.
Lemma few_stands due : (due = None \/ due = Some (word "20240506")) -> stands_for_file (few_file due) few_read /\ valid_segments few_read.
Proof. intros D. apply (reads_stands _ false); [now apply few_good|]. destruct D as [-> | ->]; vm_compute; reflexivity. Qed.
Lemma few_case : good_file (few_file None) /\ stands_for_file (few_file None) few_read /\ valid_segments few_read
  /\ length (flBases few_read) = 1%nat /\ flPacked few_read = false.
Proof. split; [apply few_good; auto|]. destruct (few_stands None (or_introl eq_refl)). repeat (split; [assumption|]). split; vm_compute; reflexivity. Qed.
Lemma few_kept : format_kept few_read.
Proof.
  unfold format_kept. assert (flPacked few_read = false) as -> by (vm_compute; reflexivity).
  eexists _, 0, 426. split; [vm_compute; reflexivity|]. split; [apply holdsb_ok; vm_compute; reflexivity|].
  split; [apply holdsb_ok; vm_compute; reflexivity|]. split; [discriminate|]. intros [N _]. congruence.
Qed.
Lemma few_lost : exists c c' f, c <> c' /\ good_file c /\ good_file c' /\ stands_for_file c f /\ stands_for_file c' f /\ valid_segments f.
Proof.
  exists (few_file None), (few_file (Some (word "20240506"))), few_read.
  assert (forall d, d = None \/ d = Some (word "20240506") -> good_file (few_file d) /\ stands_for_file (few_file d) few_read /\ valid_segments few_read) as H.
  { intros d D. split; [now apply few_good|]. now apply few_stands. }
  destruct (H None (or_introl eq_refl)) as (A1 & A2 & A3), (H _ (or_intror eq_refl)) as (B1 & B2 & _).
  split; [vm_compute; discriminate|]. repeat (split; [assumption|]). assumption.
Qed.

(* a file of the client with a segment that is not valid *)
Definition wrong_file : cfile :=
  mkCFile few_header (Some [mkCRecord (crBase (few_record None)) None None (Some (c_with c_k1 [("segmentIdentifier", word "K9")])) None None None None None]) few_trailer.
Lemma wrong_case : good_file wrong_file /\ exists f, flPacked f = false /\ stands_for_file wrong_file f /\ ~ valid_segments f.
Proof.
  assert (good_file wrong_file) as G by (apply good_fileb_ok; vm_compute; reflexivity). split; [assumption|].
  destruct (file_stands false wrong_file G) as (f & P & S). exists f. split; [assumption|]. split; [assumption|]. intros V.
  destruct (client_sent plain_host _ f plain_host_orders G S V) as (j & E & R). rewrite P in R.
  assert (match c_file wrong_file with Some j => match unmarshal_file plain_host j (new_file_p false) with Ok _ => false | _ => true end | None => false end = true) as X by (vm_compute; reflexivity).
  rewrite E, R in X. discriminate X.
Qed.

(* ---- files the client can and cannot read ---- *)

(* the sample file without the fields that are not published *)
Definition open_record (b : base) : base := with_field "ProcessingIndicator" (VInt 0) b.
Definition open_file : file := file_of FixedFile (sample_header 0 426)
  [open_record (sample_base 0 1264); open_record (sample_plain 0 426); open_record (sample_base 0 1300)] fresh_fields.
Lemma open_case : json_file open_file /\ file_validate open_file = Ok tt /\ readable_file open_file /\ file_each published_only open_file.
Proof.
  split; [apply json_file_of; vm_compute; reflexivity|]. split; [vm_compute; reflexivity|].
  split; [apply (file_eachb_ok _ readableb _ readableb_ok)|apply (file_eachb_ok _ publishedb_only _ publishedb_only_ok)]; vm_compute; reflexivity.
Qed.
(* an account that has not been closed *)
Definition unclosed_file : file := file_of FixedFile (sample_header 0 426)
  (map (with_field "DateClosed" (VTime no_date)) [sample_base 0 1264; sample_plain 0 426; sample_base 0 1300]) fresh_fields.
Lemma unread : exists f, json_file f /\ file_validate f = Ok tt /\ forall isNil zone c, c_decode_file zone (encode_file isNil f) <> Some c.
Proof.
  exists unclosed_file. assert (json_file unclosed_file) as J by (apply json_file_of; vm_compute; reflexivity). split; [assumption|]. split; [vm_compute; reflexivity|].
  intros isNil zone c D. apply client_file_reads in D as [(_ & R & _) _]; [|assumption].
  assert (readable_base (with_field "DateClosed" (VTime no_date) (sample_base 0 1264))) as [Rb _] by (inversion R; assumption).
  destruct (Rb (mkProperty "dateClosed" TStamp false) "DateClosed" (VTime no_date)) as [_ N]; [|apply lookup_In; vm_compute; reflexivity|now elim N].
  split; [|vm_compute; reflexivity]. cbn [obj_schema]. apply (nth_error_In _ 25). vm_compute. reflexivity.
Qed.
(* two files that are the same for the client *)
Lemma unseen : exists f f', f <> f' /\ json_file f /\ json_file f' /\ file_validate f = Ok tt /\ file_validate f' = Ok tt
  /\ exists c, receives_file true f c /\ receives_file true f' c.
Proof.
  exists open_file, fresh_file. destruct open_case as (J & V & R & _).
  assert (json_file fresh_file) as J' by apply fresh_file_json. assert (file_validate fresh_file = Ok tt) as V' by apply fresh_file_valid.
  split; [vm_compute; discriminate|]. repeat (split; [assumption|]).
  destruct (client_file_read (fun _ t => t) true open_file J R) as (c & D & S). exists c. split; [assumption|].
  apply (client_file_reads (fun _ t => t) true fresh_file c J').
  assert (forall x, c_decode_file (fun _ t => t) (encode_file true open_file) = Some x -> c_decode_file (fun _ t => t) (encode_file true fresh_file) = Some x) as X.
  { assert (c_decode_file (fun _ t => t) (encode_file true open_file) = c_decode_file (fun _ t => t) (encode_file true fresh_file)) as -> by (vm_compute; reflexivity). auto. }
  exact (X c D).
Qed.
