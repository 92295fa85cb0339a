(* Properties of the JSON form of files: C47-C51 *)
From Coq Require Import ZArith NArith Bool Ascii String List Lia Permutation.
Import ListNotations.
From Verif Require Import GoBase GoTime GoLayout Json Tables JsonTables Codec Records File Reader JsonFile
  SpecCodec SpecLayouts SpecRecords SpecFile SpecFiles SpecReader SpecJson Check Samples FileCases ReaderCases
  JsonTextFacts JsonFacts JsonProps JsonReader JsonCases.
Local Open Scope string_scope.
Local Open Scope Z_scope.
Local Open Scope list_scope.
Local Notation length := List.length.

(* C47: the JSON of a file, its keys in any order, unmarshalled into a new file
   of the same format gives the file back *)
Theorem C47_round_trip : forall rt isNil j f, orders rt -> json_file f -> same_json (encode_file isNil f) j ->
  unmarshal_file rt j (new_file_p (flPacked f)) = Ok f.
Proof. exact file_tree_round_trip. Qed.
Print Assumptions C47_round_trip.

(* CreateFile on any text of that JSON: white space between tokens, anything
   after the end; the format is found from the header *)
Theorem C47_create : forall rt isNil j s w rest f, orders rt -> json_file f -> format_kept f ->
  same_json (encode_file isNil f) j -> Forall white w -> spells j s -> file_from_json rt (w ++ s ++ rest) = Ok f.
Proof. exact file_text_round_trip. Qed.
Print Assumptions C47_create.

(* the text that json.Marshal writes *)
Theorem C47_marshal : forall rt isNil f rest, orders rt -> json_file f -> format_kept f ->
  file_from_json rt (print (encode_file isNil f) ++ rest) = Ok f.
Proof. exact file_printed. Qed.
Print Assumptions C47_marshal.

(* NewFileFromReader takes such a text for JSON *)
Theorem C47_reader : forall rt evs w s rest l, spells (JObj l) s -> (length w < 1024)%nat ->
  new_file_from_reader rt evs (w ++ s ++ rest) = Some (file_from_json rt (w ++ s ++ rest)).
Proof. exact new_file_text. Qed.
Print Assumptions C47_reader.

Example C47_files_case : json_file fixed_file /\ json_file variable_file /\ json_file packed_file
  /\ format_kept fixed_file /\ format_kept variable_file /\ format_kept packed_file
  /\ orders plain_host /\ orders odd_host.
Proof.
  exact (conj fixed_file_json (conj variable_file_json (conj packed_file_json (conj fixed_file_kept
    (conj variable_file_kept (conj packed_file_kept (conj plain_host_orders odd_host_orders))))))).
Qed.
Example C47_text_case : spells (encode_file false packed_file) (print (encode_file false packed_file))
  /\ same_json (encode_file false packed_file) (encode_file false packed_file).
Proof.
  exact (conj (print_spells _ (file_plain false packed_file packed_file_json))
    (plain_same _ (file_plain false packed_file packed_file_json))).
Qed.

(* the format is not always found: a variable-blocked file whose header is wider
   than 426 bytes comes back as a packed file *)
Theorem C47_format_refuted : exists rt f g, orders rt /\ json_file f /\ file_streams VariableFile f
  /\ file_from_json rt (print (encode_file false f)) = Ok g /\ flPacked f = false /\ flPacked g = true.
Proof. exact format_changes. Qed.
Print Assumptions C47_format_refuted.

(* C48: neither the order of keys nor the order in which Go visits maps matters *)
Theorem C48_key_order : forall rt rt' j j' f f', same_runtime rt rt' -> orders rt -> orders rt' -> same_json j j' ->
  (unmarshal_file rt j f = Ok f' <-> unmarshal_file rt' j' f = Ok f').
Proof. exact key_order. Qed.
Print Assumptions C48_key_order.

Example C48_case : same_json two_headers two_headers' /\ two_headers <> two_headers' /\ same_runtime plain_host odd_host
  /\ orders plain_host /\ orders odd_host.
Proof.
  refine (conj two_headers_same (conj _ (conj (conj eq_refl eq_refl) (conj plain_host_orders odd_host_orders)))). discriminate.
Qed.

(* CreateFile: the same while no keys of the file or its header differ in case only ... *)
Theorem C48_create : forall rt rt' t t' j j' f, same_runtime rt rt' -> orders rt -> orders rt' ->
  decode t = Some j -> decode t' = Some j' -> same_json j j' -> clear_json j ->
  (file_from_json rt t = Ok f <-> file_from_json rt' t' = Ok f).
Proof. exact file_key_order. Qed.
Print Assumptions C48_create.

Example C48_create_case : clear_json (header_only 370 366) /\ decode (print (header_only 370 366)) = Some (header_only 370 366)
  /\ exists f, file_from_json plain_host (print (header_only 370 366)) = Ok f.
Proof.
  refine (conj (conj (header_only_clear 370 366) _) (conj _ _)).
  - intros k h [E|[E|[]]]; [discriminate|]. injection E as <- <-.
    exact (proj1 (words_json_words 370 366 ltac:(vm_compute; discriminate) ltac:(vm_compute; discriminate))).
  - vm_compute. reflexivity.
  - eexists. vm_compute. reflexivity.
Qed.

(* ... otherwise the format found depends on their order *)
Theorem C48_case_refuted : exists rt t t' j j' f f', orders rt /\ decode t = Some j /\ decode t' = Some j' /\ same_json j j'
  /\ file_from_json rt t = Ok f /\ file_from_json rt t' = Ok f' /\ flPacked f = true /\ flPacked f' = false.
Proof. exact case_matters. Qed.
Print Assumptions C48_case_refuted.

(* C49: dates in UTC to the second survive JSON; the zero date is the empty
   text, other dates are written as RFC 3339 says *)
Theorem C49_round_trip : forall zone t, plain_stamp t ->
  time_unmarshal zone (print (JStr (time_json_text t))) = Some t.
Proof. exact stamp_round_trip. Qed.
Print Assumptions C49_round_trip.

Theorem C49_zero : forall t, plain_stamp t -> (time_json_text t = [] <-> t = no_date).
Proof. exact stamp_empty. Qed.
Print Assumptions C49_zero.

Theorem C49_text : forall t, plain_stamp t -> t <> no_date -> rfc3339_utc t (time_json_text t).
Proof. exact stamp_rfc3339. Qed.
Print Assumptions C49_text.

(* dates in other zones too, unless they stand for the zero date *)
Theorem C49_zones : forall zone t, dated t -> time_unmarshal zone (print (JStr (time_json_text t))) = Some t.
Proof. exact time_round_trip. Qed.
Print Assumptions C49_zones.

Example C49_case : plain_stamp (mkTime 2000 2 29 23 59 59 0 None)
  /\ time_json_text (mkTime 2000 2 29 23 59 59 0 None) = lit "2000-02-29T23:59:59Z"
  /\ time_json_text no_date = [] /\ plain_stamp no_date.
Proof.
  refine (conj _ (conj eq_refl (conj eq_refl _))); apply plain_stampb_ok; reflexivity.
Qed.

(* C50: NewFileFromReader reads back what String writes when there is no opening
   brace in its first 1024 bytes ... *)
Theorem C50_raw_partial : forall rt k f isNewLine goroutines evs, file_streams k f -> patient evs ->
  (length (concurrent_string f isNewLine goroutines) < useful evs)%nat ->
  ~ In "{"%char (firstn 1024 (concurrent_string f isNewLine goroutines)) ->
  new_file_from_reader rt evs (concurrent_string f isNewLine goroutines) = Some (Ok f).
Proof. exact raw_read. Qed.
Print Assumptions C50_raw_partial.

Example C50_case : ~ In "{"%char (firstn 1024 (concurrent_string packed_file true 2))
  /\ file_streams PackedFile packed_file.
Proof. refine (conj (no_braceb _ _) packed_file_streams). vm_compute. reflexivity. Qed.

(* ... and refuses the character format when there is one ... *)
Theorem C50_brace : forall rt k f isNewLine goroutines evs, file_streams k f -> packed_of k = false ->
  In "{"%char (firstn 1024 (concurrent_string f isNewLine goroutines)) ->
  new_file_from_reader rt evs (concurrent_string f isNewLine goroutines) = Some (Err (ErrOther "reading header")).
Proof. exact brace_fails. Qed.
Print Assumptions C50_brace.

(* ... so not every valid file is read back *)
Theorem C50_refuted : exists f, file_streams FixedFile f /\ file_validate f = Ok tt /\
  forall rt evs isNewLine goroutines,
  new_file_from_reader rt evs (concurrent_string f isNewLine goroutines) = Some (Err (ErrOther "reading header")).
Proof. exact brace_case. Qed.
Print Assumptions C50_refuted.

(* C51: JSON makes a character file exactly when the record descriptor word of
   its header is 426 or its block descriptor word is not positive *)
Theorem C51_format : forall rt text l h bdw rdw f, decode text = Some (JObj l) -> clear_keys l ->
  In (lit "header", JObj h) l -> header_words h bdw rdw -> file_from_json rt text = Ok f ->
  (flPacked f = false <-> rdw = 426 \/ bdw <= 0).
Proof. exact format_rule. Qed.
Print Assumptions C51_format.

(* the whole of CreateFile is unmarshalling into a new file of that format *)
Theorem C51_create : forall rt text l h bdw rdw, decode text = Some (JObj l) -> clear_keys l ->
  In (lit "header", JObj h) l -> header_words h bdw rdw ->
  file_from_json rt text = unmarshal_file rt (JObj l) (new_file_p (negb (rdw =? 426) && (0 <? bdw))).
Proof. exact file_from_words. Qed.
Print Assumptions C51_create.

(* without a header, or with null for one, it is a character file *)
Theorem C51_no_header : forall rt text l f, decode text = Some (JObj l) -> clear_keys l ->
  (forall k j, In (k, j) l -> to_upper k = lit "HEADER" -> j = JNull) -> file_from_json rt text = Ok f -> flPacked f = false.
Proof. exact format_no_header. Qed.
Print Assumptions C51_no_header.

Example C51_case : exists f, file_from_json plain_host (print (header_only 370 366)) = Ok f /\ flPacked f = true
  /\ decode (print (header_only 370 366)) = Some (header_only 370 366)
  /\ clear_keys [(lit "data", JArr []); (lit "header", words_json 370 366)]
  /\ header_words [(lit "blockDescriptorWord", JNum (itoa 370)); (lit "recordDescriptorWord", JNum (itoa 366))] 370 366.
Proof.
  eexists. refine (conj _ (conj _ (conj _ (conj (header_only_clear 370 366) (words_json_words 370 366 _ _)))));
    vm_compute; first [reflexivity|discriminate].
Qed.
