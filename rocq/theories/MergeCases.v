(* Cases of JSON read into records and files that hold something already *)
From Coq Require Import ZArith NArith Bool Ascii String List Lia.
Import ListNotations.
From Verif Require Import GoBase GoBaseFacts GoTime TimeFacts GoLayout Json Tables JsonTables Codec Records File Reader JsonFile
  SpecCodec SpecLayouts SpecRecords FieldFacts RecordFacts Check Samples SpecFile SpecFiles SpecReader SpecJson LayoutFacts JsonTextFacts
  JsonMapFacts JsonFacts JsonProps JsonReader JsonCases SpecSparse SparseFacts SparseCases SpecMerge MergeFacts.
Local Open Scope string_scope.
Local Open Scope Z_scope.
Local Open Scope list_scope.
Local Notation length := List.length.

Definition value_is (v w : value) : bool :=
  match v, w with
  | VInt a, VInt b => a =? b
  | VStr a, VStr b => bytes_eqb a b
  | VTime a, VTime b => (tYear a =? tYear b) && (tMonth a =? tMonth b) && (tDay a =? tDay b) && (tHour a =? tHour b) && (tMin a =? tMin b)
      && (tSec a =? tSec b) && (tNsec a =? tNsec b) && match tOff a, tOff b with None, None => true | _, _ => false end
  | _, _ => false
  end.
Lemma value_is_ok v w : value_is v w = true -> v = w.
Proof.
  destruct v as [a|a|a], w as [b|b|b]; try discriminate; cbn [value_is].
  - intros H. apply Z.eqb_eq in H. congruence.
  - intros H. apply bytes_eqb_eq in H. congruence.
  - destruct a as [y m d h mi s n [o|]], b as [y' m' d' h' mi' s' n' [o'|]]; cbn [tYear tMonth tDay tHour tMin tSec tNsec tOff];
      rewrite !andb_true_iff; try (intros [_ H]; discriminate H). rewrite !Z.eqb_eq. intros H. decompose [and] H. congruence.
Qed.

Definition keepsb (old : fields) (n : string) (v : value) : bool := match lookup n old with Some w => value_is w v | None => false end.
Lemma keepsb_ok old n v : keepsb old n v = true -> holds old n v.
Proof. unfold keepsb. destruct (lookup n old) as [w|] eqn:L; [|discriminate]. intros H. apply value_is_ok in H. subst. now apply lookup_In. Qed.

Definition amendsb (s : structure) (l : list (bytes * json)) (old st : fields) : bool :=
  clear_keysb l && has_typeb s old && has_typeb s st && forallb (fun f =>
    match find (key_isb (fst f)) l with
    | Some (_, JNull) => keepsb old (fst f) (snd f) && match snd f with VTime _ => false | _ => true end
    | Some (_, j) => statedb j (snd f)
    | None => keepsb old (fst f) (snd f)
    end) st.
Lemma amendsb_ok s l old st : amendsb s l old st = true -> amends s l old st.
Proof.
  unfold amendsb. rewrite !andb_true_iff, forallb_forall. intros [[[C To] T] F]. split; [now apply clear_keysb_ok|].
  split; [now apply has_typeb_ok|]. split; [now apply has_typeb_ok|]. intros n v H. specialize (F _ H). cbn [fst snd] in F.
  destruct (find (key_isb n) l) as [[k j]|] eqn:E.
  - left. apply find_some in E as [I K]. exists k, j. split; [assumption|]. split; [now apply bytes_eqb_eq|].
    destruct j; try (left; now apply statedb_ok). right. apply andb_prop in F as [F G]. split; [reflexivity|].
    split; [destruct v; discriminate|now apply keepsb_ok].
  - right. split; [|now apply keepsb_ok]. intros k j I K. pose proof (find_none _ _ E _ I) as N. unfold key_isb in N. cbn [fst] in N.
    rewrite K, bytes_eqb_refl in N. discriminate.
Qed.

Lemma not_among key keys : existsb (String.eqb key) keys = false -> forall l, map fst l = map lit keys -> absent key l.
Proof.
  intros E l M I. rewrite M in I. apply in_map_iff in I as (x & X & I). apply lit_inj in X. subst x.
  rewrite (proj2 (existsb_exists _ _)) in E; [discriminate|]. exists key. split; [assumption|apply String.eqb_refl].
Qed.

(* ---- a file that has a header, a data record and a trailer already ---- *)

Definition held_header : fields := fill header_struct
  [ ("RecordDescriptorWord", VInt 426); ("RecordIdentifier", VStr (lit "HEADER")); ("CycleIdentifier", VStr (lit "11"));
    ("ActivityDate", VTime (mkTime 2001 1 31 0 0 0 0 None)); ("ReporterName", VStr (lit "AN EARLIER NAME"));
    ("SoftwareVendorName", VStr (lit "VENDOR")) ].
Definition held_trailer : fields := fill trailer_struct
  [ ("RecordDescriptorWord", VInt 426); ("RecordIdentifier", VStr (lit "TRAILER")); ("TotalBaseRecords", VInt 1) ].
Definition held_record : base := mkBase short_base [] [sample_j2] None (Some sample_k2) None None (Some sample_l1) None.
Definition held_file : file := mkFile false (RHeader false held_header) [RBase false held_record] (RTrailer false held_trailer).

(* fields that are not given, or null, are kept *)
Definition mixed_header : fields := set_field "CycleIdentifier" (VStr (lit "11")) (set_field "SoftwareVendorName" (VStr (lit "VENDOR")) short_header).
Definition mixed_file : file := mkFile false (RHeader false mixed_header)
  [RBase false held_record; RBase false short_record; RBase false new_base] (RTrailer false held_trailer).
Definition mixed_record : base := mkBase short_base [sample_j1] [] (Some sample_k1) (Some sample_k2) None None (Some sample_l1) None.

Lemma held_amended : amends_file short_json held_file mixed_file.
Proof.
  eexists _, false, false, false, held_header, mixed_header, held_trailer, held_trailer, [short_record; new_base].
  split; [reflexivity|]. do 4 (split; [reflexivity|]).
  split. { left. exists short_header_json. split; [right; left; reflexivity|]. apply amendsb_ok. vm_compute. reflexivity. }
  split. { left. eexists. split; [left; reflexivity|]. constructor; [exact short_record_described|]. constructor; [exact empty_record_described|constructor]. }
  right. split; [|reflexivity]. left. apply (not_among "trailer" ["data"; "header"; "version"]); reflexivity.
Qed.

Lemma held_record_amended : amends_base short_record_json held_record mixed_record.
Proof.
  destruct short_record_described as (l & E & D0 & D1 & D2 & D3 & D4 & D5 & D6 & D7 & D8). exists l. split; [assumption|].
  unfold short_record_json in E. injection E as <-.
  assert (forall key, existsb (String.eqb key) ["k1"; "j1"; "base"; "remarks"; "j2"] = false ->
    absent key [ (lit "k1", JObj short_k1_json); (lit "j1", JArr [JObj short_j1_json]); (lit "base", JObj short_base_json);
         (lit "remarks", JArr [text "any"; number 1]); (lit "j2", JNull) ]) as A by (intros key H; eapply not_among; [exact H|reflexivity]).
  split. { left. exists short_base_json. split; [right; right; left; reflexivity|]. apply describesb_ok. vm_compute. reflexivity. }
  split; [exact D1|]. split; [exact D2|].
  split. { left. exists (JObj short_k1_json), sample_k1. split; [left; reflexivity|]. split; [reflexivity|]. apply describes_segmentb_ok; [reflexivity|vm_compute; reflexivity]. }
  do 4 (split; [right; split; [apply A; reflexivity|reflexivity]|]). right. split; [apply A; reflexivity|reflexivity].
Qed.

(* ---- what was there matters ---- *)

Lemma merge_depends : exists rt j f f' g g', orders rt /\ plain_json j /\ flPacked f = flPacked f'
  /\ unmarshal_file rt j f = Ok g /\ unmarshal_file rt j f' = Ok g' /\ g <> g'.
Proof.
  exists plain_host, short_json, (new_file_p false), short_file, short_file,
    (mkFile false (flHeader short_file) (flBases short_file ++ flBases short_file) (flTrailer short_file)).
  split; [exact plain_host_orders|]. split; [exact short_plain|]. split; [reflexivity|].
  split; [exact (described_file plain_host short_json short_file plain_host_orders short_plain short_described)|].
  split; [exact (file_again plain_host short_json short_file plain_host_orders short_plain short_described)|].
  intros E. apply (f_equal (fun f => length (flBases f))) in E. discriminate E.
Qed.

Lemma merge_record_depends : exists rt n j b b' c c', orders rt /\ plain_json j
  /\ unmarshal_base rt n j b = Ok c /\ unmarshal_base rt n j b' = Ok c' /\ c <> c'.
Proof.
  exists plain_host, 1%nat, short_record_json, new_base, held_record, short_record, mixed_record.
  split; [exact plain_host_orders|]. split; [exact short_record_plain|].
  split; [exact (described_base plain_host 1 _ _ plain_host_orders short_record_plain short_record_described)|].
  split; [exact (amended_base plain_host 1 _ _ _ plain_host_orders short_record_plain held_record_amended)|].
  intros E. apply (f_equal bK2) in E. discriminate E.
Qed.

(* the text of a file read into a file without data records that has a header *)
Definition empty_file : file := mkFile false (RHeader false short_header) [] (RTrailer false new_trailer).
Definition named_file : file := mkFile false (RHeader false held_header) [] (RTrailer false held_trailer).
Lemma merge_own : exists rt f g h, orders rt /\ bare false f /\ bare false g /\ unmarshal_file rt (encode_file true g) f = Ok h /\ flHeader h <> flHeader g.
Proof.
  exists plain_host, named_file, empty_file, (mkFile false (RHeader false mixed_header) [] (RTrailer false new_trailer)).
  split; [exact plain_host_orders|].
  split. { exists held_header, held_trailer. split; [reflexivity|]. split; apply has_typeb_ok; vm_compute; reflexivity. }
  split. { exists short_header, new_trailer. split; [reflexivity|]. split; apply has_typeb_ok; vm_compute; reflexivity. }
  split; [vm_compute; reflexivity|].
  intros E. assert (lookup "CycleIdentifier" mixed_header = lookup "CycleIdentifier" short_header) as F.
  { change (lookup "CycleIdentifier" (match RHeader false mixed_header with RHeader _ st => st | _ => [] end)
      = lookup "CycleIdentifier" (match RHeader false short_header with RHeader _ st => st | _ => [] end)).
    change (RHeader false mixed_header = RHeader false short_header) in E. rewrite E. reflexivity. }
  vm_compute in F. discriminate F.
Qed.

(* ---- JSON that gives everything ---- *)

Definition spoken (v : value) : json :=
  match v with VInt z => JNum (itoa z) | VStr s => JStr s | VTime t => JStr (if is_no_date t then [] else day_text t) end.
Definition all_fields (st : fields) : list (bytes * json) := map (fun f => (json_key (fst f), spoken (snd f))) st.
Definition whole_json : json :=
  JObj [ (lit "trailer", JObj (all_fields held_trailer)); (lit "data", JArr [short_record_json]); (lit "header", JObj (all_fields short_header)) ].
Definition whole_result : file := mkFile false (RHeader false short_header) [RBase false short_record] (RTrailer false held_trailer).

Definition gives_allb (o : list (bytes * json)) (s : structure) : bool :=
  forallb (fun f => match find (key_isb (fst f)) o with Some (_, JNull) => false | Some _ => true | None => false end) s.
Lemma gives_allb_ok o s : gives_allb o s = true -> forall n, In n (map fst s) -> exists k v, In (k, v) o /\ key_is n k /\ v <> JNull.
Proof.
  unfold gives_allb. rewrite forallb_forall. intros F n I. apply in_map_iff in I as ([n' t] & <- & I). specialize (F _ I). cbn [fst] in *.
  destruct (find (key_isb n') o) as [[k v]|] eqn:E; [|discriminate]. apply find_some in E as [J K]. exists k, v.
  split; [assumption|]. split; [now apply bytes_eqb_eq|]. destruct v; congruence.
Qed.

Lemma whole_case : plain_json whole_json /\ whole whole_json /\ bare false named_file /\ bare false (new_file_p false)
  /\ amends_file whole_json named_file whole_result.
Proof.
  split; [apply plain_jsonb_ok; vm_compute; reflexivity|].
  split. { eexists. split; [reflexivity|]. split.
    - eexists. split; [do 2 right; left; reflexivity|]. apply gives_allb_ok. vm_compute. reflexivity.
    - eexists. split; [left; reflexivity|]. apply gives_allb_ok. vm_compute. reflexivity. }
  split. { exists held_header, held_trailer. split; [reflexivity|]. split; apply has_typeb_ok; vm_compute; reflexivity. }
  split. { exists new_header, new_trailer. split; [reflexivity|]. split; apply has_typeb_ok; vm_compute; reflexivity. }
  eexists _, false, false, false, held_header, short_header, held_trailer, held_trailer, [short_record].
  split; [reflexivity|]. do 4 (split; [reflexivity|]).
  split. { left. eexists. split; [do 2 right; left; reflexivity|]. apply amendsb_ok. vm_compute. reflexivity. }
  split. { left. eexists. split; [right; left; reflexivity|]. constructor; [exact short_record_described|constructor]. }
  left. eexists. split; [left; reflexivity|]. apply amendsb_ok. vm_compute. reflexivity.
Qed.
