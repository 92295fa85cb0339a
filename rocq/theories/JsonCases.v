(* Sample JSON texts and witnesses for the claims about JSON that do not hold *)
From Coq Require Import ZArith NArith Bool Ascii String List Lia Permutation.
Import ListNotations.
From Verif Require Import GoBase GoBaseFacts GoTime TimeFacts GoLayout Json Tables JsonTables Codec Records File Reader JsonFile
  SpecCodec SpecLayouts SpecRecords RecordFacts Check Samples SpecFile SpecFiles FileRoundTrip FileProps FileCases SpecReader ReaderFacts ReaderProps ReaderCases
  SpecJson LayoutFacts JsonTextFacts JsonMapFacts JsonFacts JsonProps JsonReader.
Local Open Scope string_scope.
Local Open Scope Z_scope.
Local Open Scope list_scope.
Local Notation length := List.length.

(* ---- checkers ---- *)

Definition json_valueb (v : value) : bool :=
  match v with
  | VInt z => Z.abs z <=? 2 ^ 53
  | VStr s => forallb is_ascii s
  | VTime t => plain_stampb t
  end.
Lemma json_valueb_ok v : json_valueb v = true -> json_value v.
Proof.
  destruct v; cbn [json_valueb json_value]; intros H; [lia|now apply utf8_text_ascii|]. apply stamp_dated, plain_stampb_ok, H.
Qed.
Definition json_fieldsb (st : fields) : bool := forallb (fun p => json_valueb (snd p)) st.
Lemma json_fieldsb_ok st : json_fieldsb st = true -> json_fields st.
Proof. intros H n v I. unfold json_fieldsb in H. rewrite forallb_forall in H. apply json_valueb_ok, (H _ I). Qed.

Definition json_segmentb (s : segment) : bool :=
  has_typeb (seg_struct (sKind s)) (sFields s) && json_fieldsb (sFields s) && match seg_validate s with None => true | _ => false end.
Lemma json_segmentb_ok s : json_segmentb s = true -> json_segment s.
Proof.
  unfold json_segmentb. rewrite !andb_true_iff. intros [[T F] V]. split; [now apply has_typeb_ok|]. split; [now apply json_fieldsb_ok|].
  destruct (seg_validate s); [discriminate|reflexivity].
Qed.
Definition json_baseb (b : base) : bool :=
  has_typeb base_struct (bFields b) && segs_placedb b && json_fieldsb (bFields b) && forallb json_segmentb (segments_of b).
Lemma json_baseb_ok b : json_baseb b = true -> json_base b.
Proof.
  unfold json_baseb. rewrite !andb_true_iff. intros [[[T P] F] S]. split; [split; [now apply has_typeb_ok|now apply segs_placedb_ok]|].
  split; [now apply json_fieldsb_ok|]. apply Forall_forall. intros s I. rewrite forallb_forall in S. apply json_segmentb_ok, S, I.
Qed.

Lemma json_file_of k h bases t : has_typeb header_struct h && json_fieldsb h = true -> forallb json_baseb bases = true ->
  has_typeb trailer_struct t && json_fieldsb t = true -> json_file (file_of k h bases t).
Proof.
  rewrite !andb_true_iff. intros [H1 H2] B [T1 T2]. split; [|split].
  - exists h. split; [reflexivity|]. split; [now apply has_typeb_ok|now apply json_fieldsb_ok].
  - apply Forall_forall. intros r I. cbn [file_of flBases] in I. apply in_map_iff in I as (b & <- & I). exists b. split; [reflexivity|].
    rewrite forallb_forall in B. apply json_baseb_ok, B, I.
  - exists t. split; [reflexivity|]. split; [now apply has_typeb_ok|now apply json_fieldsb_ok].
Qed.

Lemma fixed_file_json : json_file fixed_file.
Proof. apply json_file_of; vm_compute; reflexivity. Qed.
Lemma variable_file_json : json_file variable_file.
Proof. apply json_file_of; vm_compute; reflexivity. Qed.
Lemma packed_file_json : json_file packed_file.
Proof. apply json_file_of; vm_compute; reflexivity. Qed.

Lemma fixed_file_kept : format_kept fixed_file.
Proof.
  exists (sample_header 0 426), 0, 426. split; [reflexivity|]. split; [apply holdsb_ok; vm_compute; reflexivity|].
  split; [apply holdsb_ok; vm_compute; reflexivity|]. split; [discriminate|]. intros [N _]. congruence.
Qed.
Lemma variable_file_kept : format_kept variable_file.
Proof.
  exists (sample_header 430 426), 430, 426. split; [reflexivity|]. split; [apply holdsb_ok; vm_compute; reflexivity|].
  split; [apply holdsb_ok; vm_compute; reflexivity|]. split; [discriminate|]. intros [N _]. congruence.
Qed.
Lemma packed_file_kept : format_kept packed_file.
Proof.
  exists (sample_header 370 366), 370, 366. split; [reflexivity|]. split; [apply holdsb_ok; vm_compute; reflexivity|].
  split; [apply holdsb_ok; vm_compute; reflexivity|]. split; [intros _; split; [congruence|reflexivity]|]. reflexivity.
Qed.

(* ---- hosts ---- *)

Definition plain_host : runtime := mkRuntime (fun _ => None) (fun _ t => t) (fun _ l => l).
(* one that visits maps backwards, every other time *)
Definition odd_host : runtime := mkRuntime (fun _ => None) (fun _ t => t) (fun n l => if Nat.even n then rev l else l).
Lemma plain_host_orders : orders plain_host.
Proof. intros n l. reflexivity. Qed.
Lemma odd_host_orders : orders odd_host.
Proof. intros n l. cbn. destruct (Nat.even n); [apply Permutation_rev|reflexivity]. Qed.

(* ---- C47: the format of a file may change ---- *)

(* a variable-blocked file of records of 430 bytes *)
Definition wide_file : file :=
  file_of VariableFile (sample_header 434 430) [sample_plain 430 426] (sample_trailer 426).
Lemma wide_file_streams : file_streams VariableFile wide_file.
Proof.
  apply file_in_streams; [|mark].
  eexists; eexists; eexists. split; [reflexivity|]. split; [|split; [|split; [|exact I]]].
  - split; [apply header_fitsb_ok; vm_compute; reflexivity|]. exists 434, 430.
    split; [apply holdsb_ok; vm_compute; reflexivity|]. split; [apply holdsb_ok; vm_compute; reflexivity|]. lia.
  - repeat refine (Forall_cons _ _ _); [|constructor]. split; [apply base_fitsb_ok; vm_compute; reflexivity|].
    exists 430, 426. split; [apply holdsb_ok; vm_compute; reflexivity|]. split; [apply holdsb_ok; vm_compute; reflexivity|].
    vm_compute; split; reflexivity.
  - split; [apply trailer_fitsb_ok; vm_compute; reflexivity|]. split; [apply holds_str; vm_compute; reflexivity|].
    exists 426. split; [apply holdsb_ok; vm_compute; reflexivity|vm_compute; congruence].
Qed.
Lemma wide_file_json : json_file wide_file.
Proof. apply json_file_of; vm_compute; reflexivity. Qed.

Lemma format_changes : exists rt f g, orders rt /\ json_file f /\ file_streams VariableFile f
  /\ file_from_json rt (print (encode_file false f)) = Ok g /\ flPacked f = false /\ flPacked g = true.
Proof.
  exists plain_host, wide_file. eexists. split; [exact plain_host_orders|]. split; [exact wide_file_json|]. split; [exact wide_file_streams|].
  split; [vm_compute; reflexivity|]. split; reflexivity.
Qed.

(* ---- C48: keys that differ in case only ---- *)

Definition words_json (bdw rdw : Z) : json :=
  JObj [(lit "blockDescriptorWord", JNum (itoa bdw)); (lit "recordDescriptorWord", JNum (itoa rdw))].
Definition two_headers : json := JObj [(lit "header", words_json 0 426); (lit "Header", words_json 370 366)].
Definition two_headers' : json := JObj [(lit "Header", words_json 370 366); (lit "header", words_json 0 426)].

Lemma words_same bdw rdw : same_json (words_json bdw rdw) (words_json bdw rdw).
Proof.
  apply SameObj with [(lit "blockDescriptorWord", JNum (itoa bdw)); (lit "recordDescriptorWord", JNum (itoa rdw))].
  - apply (NoDup_lits ["blockDescriptorWord"; "recordDescriptorWord"]). reflexivity.
  - repeat refine (Forall_cons _ _ _); [| |constructor]; apply utf8_text_ascii; reflexivity.
  - repeat refine (Forall2_cons _ _ _ _); [| |constructor]; split; constructor.
  - reflexivity.
Qed.
Lemma two_headers_same : same_json two_headers two_headers'.
Proof.
  apply SameObj with [(lit "header", words_json 0 426); (lit "Header", words_json 370 366)].
  - apply (NoDup_lits ["header"; "Header"]). reflexivity.
  - repeat refine (Forall_cons _ _ _); [| |constructor]; apply utf8_text_ascii; reflexivity.
  - repeat refine (Forall2_cons _ _ _ _); [| |constructor]; split; try reflexivity; apply words_same.
  - apply perm_swap.
Qed.
Lemma case_matters : exists rt t t' j j' f f', orders rt /\ decode t = Some j /\ decode t' = Some j' /\ same_json j j'
  /\ file_from_json rt t = Ok f /\ file_from_json rt t' = Ok f' /\ flPacked f = true /\ flPacked f' = false.
Proof.
  exists plain_host, (print two_headers), (print two_headers'), two_headers, two_headers'. eexists; eexists. split; [exact plain_host_orders|].
  split; [vm_compute; reflexivity|]. split; [vm_compute; reflexivity|]. split; [exact two_headers_same|].
  split; [vm_compute; reflexivity|]. split; [vm_compute; reflexivity|]. split; reflexivity.
Qed.

(* ---- C50: an opening brace in a name ---- *)

Definition brace_header : fields := set_field "ReporterName" (VStr (lit "ACME {CREDIT} UNION")) (sample_header 0 426).
Definition brace_trailer : fields :=
  match file_generate_trailer (file_of FixedFile brace_header [sample_base 0 1264; sample_plain 0 426] new_trailer) with
  | Ok (RTrailer _ t) => t
  | _ => new_trailer
  end.
Definition brace_file : file := file_of FixedFile brace_header [sample_base 0 1264; sample_plain 0 426] brace_trailer.

Lemma brace_file_streams : file_streams FixedFile brace_file.
Proof.
  apply file_in_streams; [|mark].
  eexists; eexists; eexists. split; [reflexivity|]. split; [|split; [|split; [|exact I]]].
  - split; [apply header_fitsb_ok; vm_compute; reflexivity|]. exists 0, 426.
    split; [apply holdsb_ok; vm_compute; reflexivity|]. split; [apply holdsb_ok; vm_compute; reflexivity|]. lia.
  - repeat refine (Forall_cons _ _ _); [| |constructor]; (split; [apply base_fitsb_ok; vm_compute; reflexivity|]);
      [exists 0, 1264|exists 0, 426];
      (split; [apply holdsb_ok; vm_compute; reflexivity|]); (split; [apply holdsb_ok; vm_compute; reflexivity|]);
      vm_compute; split; congruence.
  - split; [apply trailer_fitsb_ok; vm_compute; reflexivity|]. split; [apply holds_str; vm_compute; reflexivity|].
    exists 426. split; [apply holdsb_ok; vm_compute; reflexivity|vm_compute; congruence].
Qed.

Lemma brace_case : exists f, file_streams FixedFile f /\ file_validate f = Ok tt /\
  forall rt evs isNewLine goroutines,
  new_file_from_reader rt evs (concurrent_string f isNewLine goroutines) = Some (Err (ErrOther "reading header")).
Proof.
  exists brace_file. split; [exact brace_file_streams|]. split; [vm_compute; reflexivity|]. intros rt evs nl g.
  apply (brace_fails rt FixedFile); [exact brace_file_streams|reflexivity|]. rewrite concurrent_text.
  assert (existsb (fun c => byte_eqb c "{") (firstn 1024 (file_text nl brace_file)) = true) as E by (destruct nl; vm_compute; reflexivity).
  apply existsb_exists in E as (c & I & E). apply byte_eqb_eq in E. now subst c.
Qed.

Lemma no_braceb s : existsb (fun c => byte_eqb c "{") (firstn 1024 s) = false -> ~ In "{"%char (firstn 1024 s).
Proof.
  intros E I. assert (existsb (fun c => byte_eqb c "{") (firstn 1024 s) = true) as E'; [|congruence].
  apply existsb_exists. exists "{"%char. split; [exact I|reflexivity].
Qed.

(* ---- C51 ---- *)

Lemma ascii_keys (l : list (bytes * json)) : forallb (fun m => forallb is_ascii (fst m)) l = true ->
  Forall (fun m => Forall (fun c => code c < 128) (fst m)) l.
Proof. intros H. apply Forall_forall. intros m I. rewrite forallb_forall in H. apply ascii_codes, (H m I). Qed.

Definition header_only (bdw rdw : Z) : json := JObj [(lit "data", JArr []); (lit "header", words_json bdw rdw)].
Lemma header_only_clear bdw rdw : clear_keys [(lit "data", JArr []); (lit "header", words_json bdw rdw)].
Proof.
  split; [apply ascii_keys; reflexivity|].
  apply (NoDup_lits ["DATA"; "HEADER"]). reflexivity.
Qed.
Lemma words_json_words bdw rdw : Z.abs bdw <= 2 ^ 53 -> Z.abs rdw <= 2 ^ 53 ->
  header_words [(lit "blockDescriptorWord", JNum (itoa bdw)); (lit "recordDescriptorWord", JNum (itoa rdw))] bdw rdw.
Proof.
  intros B R. split; [split|split; [|split]].
  - apply ascii_keys. reflexivity.
  - apply (NoDup_lits ["BLOCKDESCRIPTORWORD"; "RECORDDESCRIPTORWORD"]). reflexivity.
  - left. split; [now left|exact B].
  - left. split; [right; now left|exact R].
  - right. repeat refine (Forall_cons _ _ _); [discriminate|discriminate|constructor].
Qed.
