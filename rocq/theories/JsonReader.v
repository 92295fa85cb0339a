(* Facts about dates in JSON and about NewFileFromReader on texts that are not JSON *)
From Coq Require Import ZArith NArith Bool Ascii String List Lia.
Import ListNotations.
From Verif Require Import GoBase GoBaseFacts GoTime TimeFacts GoLayout Json Tables JsonTables Codec Records File Reader JsonFile
  SpecCodec SpecLayouts SpecRecords FieldFacts FieldProps RecordFacts SpecFiles FileFacts FileRoundTrip FileProps SpecReader ReaderFacts ReaderProps
  SpecJson LayoutFacts JsonTextFacts JsonMapFacts JsonFacts.
Local Open Scope string_scope.
Local Open Scope Z_scope.
Local Open Scope list_scope.
Local Notation length := List.length.

(* ---- dates ---- *)

Lemma stamp_dated t : plain_stamp t -> dated t.
Proof.
  intros P. pose proof (plain_stamp_is_zero t P) as Z. destruct P as (C & H1 & H2 & H3 & H4 & H5). split; [|exact Z].
  split; [|now left]. split; [exact C|tauto].
Qed.

Lemma stamp_round_trip zone t : plain_stamp t -> time_unmarshal zone (print (JStr (time_json_text t))) = Some t.
Proof. intros P. apply time_round_trip, stamp_dated, P. Qed.

Lemma format_nonempty t : clock t -> format_rfc3339 t <> [].
Proof. intros C. rewrite format_stamp by assumption. destruct (stamp_first t (format_zone (tOff t)) C) as (c & s & E & _). rewrite E. discriminate. Qed.

Lemma stamp_empty t : plain_stamp t -> (time_json_text t = [] <-> t = no_date).
Proof.
  intros P. split.
  - unfold time_json_text. destruct (is_zero t) eqn:Z; [intros _; now apply plain_stamp_is_zero|]. intros E. exfalso. revert E. apply format_nonempty.
    destruct P as (C & H1 & H2 & H3 & H4 & H5). split; [exact C|tauto].
  - intros ->. reflexivity.
Qed.

Lemma stamp_rfc3339 t : plain_stamp t -> t <> no_date -> rfc3339_utc t (time_json_text t).
Proof.
  intros P N. unfold time_json_text. destruct (is_zero t) eqn:Z; [exfalso; apply N; now apply plain_stamp_is_zero|].
  destruct P as (C & H1 & H2 & H3 & H4 & H5). rewrite format_stamp by (split; [exact C|tauto]). rewrite H5.
  destruct (calendar_date_ranges _ _ _ C) as (Hy & Hm & Hd).
  exists (d4 (tYear t)), (d2 (tMonth t)), (d2 (tDay t)), (d2 (tHour t)), (d2 (tMin t)), (d2 (tSec t)).
  split; [unfold stamp_text; rewrite <- !app_assoc; reflexivity|].
  split; [apply d4_decimal; lia|]. repeat split; apply d2_decimal; lia.
Qed.

(* ---- texts that are not JSON ---- *)

Lemma no_brace s : ~ In "{"%char (firstn 1024 s) -> looks_like_json s = false.
Proof.
  intros N. unfold looks_like_json. destruct (existsb _ _) eqn:E; [|reflexivity]. apply existsb_exists in E as (c & I & E).
  apply byte_eqb_eq in E. subst c. contradiction.
Qed.
Lemma brace s : In "{"%char (firstn 1024 s) -> looks_like_json s = true.
Proof. intros I. unfold looks_like_json. apply existsb_exists. exists "{"%char. split; [exact I|reflexivity]. Qed.

Lemma text_begins k f isNewLine goroutines : file_streams k f ->
  exists n, begins_with_word (packed_of k) n (concurrent_string f isNewLine goroutines).
Proof.
  intros (h & bases & t & -> & H & _). pose proof H as (F & bdw & rdw & Hb & Hr & _).
  exists (if 0 <? bdw then bdw else rdw). rewrite concurrent_text. unfold file_text. cbn [file_of flHeader record_string].
  apply begins_app. apply header_in_begins; [exact H|]. exists bdw, rdw. split; [exact Hb|]. split; [exact Hr|].
  destruct (Z.ltb_spec 0 bdw); split; intros; try reflexivity; lia.
Qed.

Lemma begins_nonempty p z s : begins_with_word p z s -> s <> [].
Proof. intros (w & rest & m & -> & L & _). destruct w; discriminate. Qed.

Lemma begins_digit z s : begins_with_word false z s -> exists c r, s = c :: r /\ is_digit c = true.
Proof.
  intros (w & rest & m & -> & L & _ & F & _). destruct w as [|c w]; [discriminate|]. exists c, (w ++ rest). split; [reflexivity|].
  apply forall_digits in F. cbn [forallb] in F. now apply andb_prop in F as [F _].
Qed.

Lemma raw_read rt k f isNewLine goroutines evs : file_streams k f -> patient evs ->
  (length (concurrent_string f isNewLine goroutines) < useful evs)%nat ->
  ~ In "{"%char (firstn 1024 (concurrent_string f isNewLine goroutines)) ->
  new_file_from_reader rt evs (concurrent_string f isNewLine goroutines) = Some (Ok f).
Proof.
  intros S P U N. pose proof (stream_round_trip k f isNewLine goroutines evs S P U) as R. unfold new_file_from_reader.
  rewrite (no_brace _ N). destruct (text_begins k f isNewLine goroutines S) as (n & B). apply begins_nonempty in B.
  destruct (concurrent_string f isNewLine goroutines) eqn:E; [contradiction|exact R].
Qed.

Lemma decode_digit rt c r : is_digit c = true -> file_from_json rt (c :: r) = Err (ErrOther "reading header").
Proof.
  intros D. unfold file_from_json, decode. cbn [read_value].
  assert (is_json_space c = false /\ byte_eqb c "{" = false /\ byte_eqb c "[" = false /\ byte_eqb c quote_char = false
      /\ byte_eqb c "t" = false /\ byte_eqb c "f" = false /\ byte_eqb c "n" = false) as (N1 & N2 & N3 & N4 & N5 & N6 & N7).
  { apply is_digit_spec in D.
    assert (forall x, 57 < bval x \/ bval x < 48 -> byte_eqb c x = false) as X by (intros x Hx; apply byte_eqb_neq; intros ->; lia).
    rewrite !X by (vm_compute; first [left; reflexivity|right; reflexivity]). repeat split. unfold is_json_space.
    repeat (rewrite (proj2 (Z.eqb_neq _ _)) by lia). reflexivity. }
  rewrite skip_none by assumption. rewrite N2, N3, N4, N5, N6, N7. destruct (read_number (c :: r)) as [[t r']|]; reflexivity.
Qed.

Lemma brace_fails rt k f isNewLine goroutines evs : file_streams k f -> packed_of k = false ->
  In "{"%char (firstn 1024 (concurrent_string f isNewLine goroutines)) ->
  new_file_from_reader rt evs (concurrent_string f isNewLine goroutines) = Some (Err (ErrOther "reading header")).
Proof.
  intros S K I. unfold new_file_from_reader. rewrite (brace _ I). destruct (text_begins k f isNewLine goroutines S) as (n & B).
  rewrite K in B. apply begins_digit in B as (c & r & -> & D). f_equal. now apply decode_digit.
Qed.
