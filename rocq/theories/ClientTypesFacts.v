(* Facts about the JSON of the types of the client *)
From Coq Require Import ZArith NArith Bool Ascii String List Permutation Lia.
Import ListNotations.
From Verif Require Import GoBase GoBaseFacts GoTime TimeFacts GoLayout Json Tables JsonTables Codec Records File Reader JsonFile
  SpecCodec SpecLayouts SpecRecords FieldFacts FieldProps RecordFacts SpecJson LayoutFacts JsonTextFacts JsonMapFacts JsonFacts JsonProps
  SpecSparse DateFacts SparseFacts SpecSchema SchemaFacts ClientTypes SpecClientTypes.
From Verif Require Layout.
Local Open Scope string_scope.
Local Open Scope Z_scope.
Local Open Scope list_scope.
Local Notation length := List.length.

(* ---- times ---- *)

Lemma zone_reads zone t f neg m : calendar_time t -> fraction_text (tNsec t) f -> 0 <= m < 1440 -> tOff t = Some (60 * (if neg : bool then - m else m)) ->
  parse_layout zone "2006-01-02T15:04:05Z07:00" (stamp_text t ++ f ++ offset_text neg m) = Some t.
Proof.
  intros C Ft M O. rewrite <- (parse_moment_offset zone t f neg m C Ft M O). unfold parse_layout.
  change (chList (chunks "2006-01-02T15:04:05Z07:00")) with (stamp_chunks ++ [([], StdISOTZ ZColon)]).
  change (chRest (chunks "2006-01-02T15:04:05Z07:00")) with (@nil ascii).
  change (chList (chunks "2006-01-02T15:04:05-07:00")) with (stamp_chunks ++ [([], StdNumTZ ZColon)]).
  change (chRest (chunks "2006-01-02T15:04:05-07:00")) with (@nil ascii). unfold offset_text.
  rewrite !parse_stamp_fraction by (auto; destruct neg; repeat split; reflexivity).
  cbn [parse_chunks skip_prefix parse_std]. destruct neg; reflexivity.
Qed.
Lemma utc_reads zone t f : calendar_time t -> fraction_text (tNsec t) f -> tOff t = None ->
  parse_layout zone "2006-01-02T15:04:05Z07:00" (stamp_text t ++ f ++ lit "Z") = Some t.
Proof.
  intros C Ft O. unfold parse_layout.
  change (chList (chunks "2006-01-02T15:04:05Z07:00")) with (stamp_chunks ++ [([], StdISOTZ ZColon)]).
  change (chRest (chunks "2006-01-02T15:04:05Z07:00")) with (@nil ascii).
  rewrite parse_stamp_fraction by (auto; repeat split; reflexivity).
  cbn [parse_chunks skip_prefix parse_std]. change (has_prefix "Z" (lit "Z")) with true. cbn [skipn lit list_ascii_of_string].
  unfold set_utc. pose proof (valid_moment t C) as V. destruct C as (H & H1 & H2 & H3). destruct (calendar_date_ranges _ _ _ H) as (Hy & Hm & Hd).
  unfold parsed_time. cbn [pPm pAm pHour pMonth pDay pYear pMin pSec pNsec pUTC pOffset pZone andb].
  rewrite (proj2 (Z.ltb_ge _ _)), (proj2 (Z.ltb_ge _ _)) by lia. rewrite V. rewrite ?andb_false_r. cbn [andb negb].
  destruct t; cbn in *; subst; reflexivity.
Qed.

Lemma strict_reads zone t s : date_time_text t s -> strict_time zone s = Some t.
Proof.
  intros (C & y & m & d & h & mi & sec & f & z & -> & Y & M & D & Hh & Hm & Hs & F & Z). pose proof C as (H & H1 & H2 & H3).
  destruct (calendar_date_ranges _ _ _ H) as (Ry & Rm & Rd).
  apply four_text in Y; [|lia]. apply two_text in M, D, Hh, Hm, Hs; try lia. subst.
  assert (forall r, d4 (tYear t) ++ lit "-" ++ d2 (tMonth t) ++ lit "-" ++ d2 (tDay t) ++ lit "T" ++ d2 (tHour t) ++ lit ":"
    ++ d2 (tMin t) ++ lit ":" ++ d2 (tSec t) ++ r = stamp_text t ++ r) as -> by (intros; unfold stamp_text; rewrite <- !app_assoc; reflexivity).
  unfold strict_time. remember (tOff t) as o eqn:O. symmetry in O.
  pose proof (zone_forms o z (or_introl Z)) as Zf. destruct Zf as [|neg k K|].
  - now apply utc_reads.
  - now apply zone_reads.
  - inversion Z.
Qed.
Lemma strict_empty zone : strict_time zone [] = None.
Proof. reflexivity. Qed.

Lemma drop_zeros s : exists k, rev s = repeat zero_char k ++ drop_while (fun c => byte_eqb c "0") (rev s)
  /\ (forall c r, drop_while (fun c => byte_eqb c "0") (rev s) = c :: r -> c <> zero_char).
Proof.
  induction (rev s) as [|c r (k & E & N)]; [exists 0%nat; split; [reflexivity|discriminate]|]. cbn [drop_while].
  destruct (byte_eqb c "0") eqn:B.
  - apply Ascii.eqb_eq in B. subst c. exists (S k). split; [cbn [repeat app]; unfold zero_char at 1; f_equal; exact E|exact N].
  - exists 0%nat. split; [reflexivity|]. intros ? ? [= <- <-] ->. discriminate B.
Qed.

Lemma nine_text ns : 0 <= ns < 10 ^ 9 -> decimal_text 9 ns (append_int 9 ns).
Proof.
  intros H. apply decimal_text_spec. split; [apply Layout.append_int_len; [lia|exact H]|]. unfold append_int.
  rewrite (proj2 (Z.ltb_ge _ _)) by lia. split.
  - rewrite forallb_app, utoa_digits by lia. rewrite andb_true_r. apply forallb_forall. intros c I. apply repeat_spec in I. now subst.
  - rewrite dval_zeros. apply dval_utoa. lia.
Qed.

Lemma nano_fraction ns : 0 <= ns < 10 ^ 9 -> fraction_text ns (nano_text ns).
Proof.
  intros H. unfold nano_text. destruct (Z.eqb_spec ns 0) as [->|N]; [constructor|].
  pose proof (nine_text ns H) as D. apply decimal_text_spec in D as (L & Dg & V). set (s := append_int 9 ns) in *.
  destruct (drop_zeros s) as (k & E & _). set (r := drop_while _ (rev s)) in *.
  assert (s = rev r ++ repeat zero_char k) as Es.
  { rewrite <- (rev_involutive s), E, rev_app_distr. f_equal. clear. induction k; [reflexivity|]. cbn [repeat rev]. rewrite IHk.
    change [zero_char] with (repeat zero_char 1). rewrite <- repeat_app. replace (k + 1)%nat with (S k) by lia. reflexivity. }
  rewrite Es in L, Dg, V. rewrite app_length, repeat_length in L. rewrite forallb_app in Dg. apply andb_prop in Dg as [Dg _].
  rewrite dval_app, repeat_length in V. rewrite <- (app_nil_r (repeat zero_char k)), dval_zeros in V. change (dval []) with 0 in V. rewrite Z.add_0_r in V.
  assert (length (rev r) <> 0%nat) as L0.
  { intros X. apply length_zero_iff_nil in X. rewrite X in V. change (dval []) with 0 in V. lia. }
  replace ns with (dval (rev r) * 10 ^ (9 - Z.of_nat (length (rev r)))).
  - apply (FractionSome (length (rev r)) (dval (rev r)) (rev r)); [lia|]. now apply decimal_text_spec.
  - rewrite <- V. do 2 f_equal. lia.
Qed.

Lemma strict_writes t : portable (VTime t) -> exists s, strict_text t = Some s /\ date_time_text t s.
Proof.
  intros (C & N & Z). pose proof C as (H & H1 & H2 & H3). destruct (calendar_date_ranges _ _ _ H) as (Ry & Rm & Rd).
  assert (Z.abs (match tOff t with Some o => o | None => 0 end) < 86400) as B.
  { destruct Z as [-> | (z & -> & m & -> & M)]; lia. }
  unfold strict_text. rewrite (proj2 (Z.leb_le _ _)), (proj2 (Z.leb_le _ _)), (proj2 (Z.ltb_lt _ _)) by lia. cbn [andb].
  eexists. split; [reflexivity|]. split; [assumption|]. rewrite append_int_4, !append_int_2 by lia.
  exists (d4 (tYear t)), (d2 (tMonth t)), (d2 (tDay t)), (d2 (tHour t)), (d2 (tMin t)), (d2 (tSec t)), (nano_text (tNsec t)), (format_zone (tOff t)).
  split; [reflexivity|]. split; [apply d4_decimal; lia|]. repeat (split; [apply d2_decimal; lia|]).
  split; [now apply nano_fraction|now apply format_zone_text].
Qed.

(* ---- values ---- *)

(* a value as the client or the library writes it *)
Inductive said : json -> value -> Prop :=
| SaidInt z : Z.abs z <= 2 ^ 53 -> said (JNum (itoa z)) (VInt z)
| SaidStr s : utf8_text s -> said (JStr s) (VStr s)
| SaidTime t s : date_time_text t s -> said (JStr s) (VTime t).

Lemma value_refused v : c_value v = None <-> untimely v.
Proof.
  destruct v as [z|s|t]; cbn [c_value]; [split; [discriminate|intros (? & [=] & _)]..|].
  transitivity (strict_text t = None); [destruct (strict_text t); split; (discriminate || reflexivity)|].
  unfold strict_text.
  destruct (0 <=? tYear t) eqn:A; [apply Z.leb_le in A|apply Z.leb_gt in A]; cbn [andb].
  2: { split; [intros _; exists t; auto|reflexivity]. }
  destruct (tYear t <=? 9999) eqn:B; [apply Z.leb_le in B|apply Z.leb_gt in B]; cbn [andb].
  2: { split; [intros _; exists t; auto|reflexivity]. }
  match goal with |- context [?x <? 86400] => destruct (x <? 86400) eqn:E end; [apply Z.ltb_lt in E|apply Z.ltb_ge in E].
  - split; [discriminate|]. intros (t' & [= <-] & [H|[H|(z & Ez & H)]]); try lia. rewrite Ez in E. lia.
  - split; [intros _|reflexivity]. exists t. split; [reflexivity|]. right. right.
    destruct (tOff t) as [z|]; [|cbn in E; lia]. exists z. split; [reflexivity|lia].
Qed.

Lemma value_writes v : portable v -> exists j, c_value v = Some j /\ said j v.
Proof.
  destruct v as [z|s|t]; intros P; cbn [c_value].
  - eexists. split; [reflexivity|now constructor].
  - eexists. split; [reflexivity|]. rewrite utf8_text_clean by exact P. now constructor.
  - destruct (strict_writes t P) as (s & -> & D). eexists. split; [reflexivity|now constructor].
Qed.

Lemma said_stated j v : said j v -> stated j v.
Proof. intros [z H|s H|t s H]; constructor; try assumption. now apply stamp_date. Qed.
Lemma simple_utf8 s : forallb simple s = true -> utf8_text s.
Proof.
  intros S. apply utf8_text_ascii. revert S. apply forallb_impl.
  intros c H. unfold simple in H. apply andb_prop in H as [_ H]. unfold in_range, is_ascii in *. apply andb_prop in H as [_ H]. lia.
Qed.
Lemma said_plain j v : said j v -> plain_json j.
Proof.
  intros [z H|s H|t s H]; constructor; try assumption. apply simple_utf8. apply (date_simple t). now apply stamp_date.
Qed.

Definition int_fits (bits z : Z) : bool := (- 2 ^ (bits - 1) <=? z) && (z <? 2 ^ (bits - 1)).
Lemma int_fits_spec bits z : int_fits bits z = true <-> - 2 ^ (bits - 1) <= z < 2 ^ (bits - 1).
Proof. unfold int_fits. rewrite andb_true_iff, Z.leb_le, Z.ltb_lt. reflexivity. Qed.

Lemma said_reads zone k ptr t j v old : said j v -> fits_type t v -> c_decode_value zone (mkC k (ctype_of t) ptr) old j = Some (Some v).
Proof.
  unfold ctype_of. intros [z H|s H|d s H] F; cbn [fits_type] in F.
  - destruct F as [-> F]. cbn [c_decode_value cType]. rewrite parse_itoa by assumption.
    change (match int_fits (bits_of t) z with true => Some (Some (VInt z)) | false => None end = Some (Some (VInt z))).
    apply int_fits_spec in F. now rewrite F.
  - rewrite F. reflexivity.
  - rewrite F. cbn [c_decode_value cType]. now rewrite (strict_reads zone d s H).
Qed.

(* a value the library writes is read by the client exactly if it fits and is
   not the missing date *)
Lemma written_said v : json_value v -> v <> VTime no_date -> said (written_value v) v.
Proof.
  destruct v as [z|s|d]; cbn [json_value written_value]; intros J N.
  - now constructor.
  - rewrite utf8_text_clean by assumption. now constructor.
  - destruct J as [J Z]. unfold time_json_text. destruct (is_zero d) eqn:E; [elim N; f_equal; auto|].
    constructor. now apply stamp_written.
Qed.
Lemma no_date_unread zone k ptr t old : type_kind t = KTime -> c_decode_value zone (mkC k (ctype_of t) ptr) old (JStr []) = None.
Proof. unfold ctype_of. intros ->. reflexivity. Qed.
Lemma wide_unread zone k ptr t old z : type_kind t = KInt -> Z.abs z <= 2 ^ 53 -> ~ (- 2 ^ (bits_of t - 1) <= z < 2 ^ (bits_of t - 1)) ->
  c_decode_value zone (mkC k (ctype_of t) ptr) old (JNum (itoa z)) = None.
Proof.
  unfold ctype_of. intros -> H N. cbn [c_decode_value cType]. rewrite parse_itoa by assumption.
  change (match int_fits (bits_of t) z with true => Some (Some (VInt z)) | false => None end = None).
  destruct (int_fits (bits_of t) z) eqn:E; [|reflexivity]. apply int_fits_spec in E. contradiction.
Qed.
Lemma time_eq_no_date d : is_zero d = true -> dated d -> d = no_date.
Proof. intros E [_ Z]. auto. Qed.
Lemma client_value zone k ptr t old v : json_value v -> kind_of v = type_kind t ->
  (client_reads t v /\ c_decode_value zone (mkC k (ctype_of t) ptr) old (written_value v) = Some (Some v))
  \/ (~ client_reads t v /\ forall old, c_decode_value zone (mkC k (ctype_of t) ptr) old (written_value v) = None).
Proof.
  intros J K. destruct v as [z|s|d]; cbn [kind_of] in K; symmetry in K.
  - destruct (int_fits (bits_of t) z) eqn:E.
    + apply int_fits_spec in E. left. assert (fits_type t (VInt z)) as F by (split; assumption).
      split; [split; [assumption|discriminate]|]. apply said_reads; [|assumption]. apply written_said; [assumption|discriminate].
    + right. split.
      * intros [[_ F] _]. apply int_fits_spec in F. congruence.
      * intros o. apply wide_unread; [assumption|assumption|]. intros F. apply int_fits_spec in F. congruence.
  - left. split; [split; [exact K|discriminate]|]. apply said_reads; [|exact K]. apply written_said; [assumption|discriminate].
  - destruct (is_zero d) eqn:E.
    + right. pose proof (time_eq_no_date d E J). subst d. split; [intros [_ N]; now apply N|]. intros o. now apply no_date_unread.
    + left. assert (VTime d <> VTime no_date) as N by (intros [= ->]; discriminate E). split; [split; [exact K|exact N]|].
      apply said_reads; [|exact K]. now apply written_said.
Qed.

(* ---- objects ---- *)

Lemma client_types o : client_table o = map client_field (obj_schema o).
Proof. destruct o as [| | |[]]; reflexivity. Qed.

Definition find_okb (o : object) : bool :=
  forallb (fun p => match c_find (client_table o) (lit (pKey p)) with Some c => String.eqb (cKey c) (pKey p) | None => false end) (obj_schema o)
  && forallb (fun f => publishedb o (fst f) || match c_find (client_table o) (json_key (fst f)) with Some _ => false | None => true end) (obj_struct o)
  && nodupb (map pKey (obj_schema o)).
Lemma finds_ok o : find_okb o = true.
Proof. destruct o as [| | |[]]; vm_compute; reflexivity. Qed.

Lemma property_keys o : NoDup (map pKey (obj_schema o)).
Proof. pose proof (finds_ok o) as H. unfold find_okb in H. rewrite !andb_true_iff in H. destruct H as [_ H]. now apply nodupb_NoDup. Qed.
Lemma find_property o p : In p (obj_schema o) -> c_find (client_table o) (lit (pKey p)) = Some (client_field p).
Proof.
  intros I. pose proof (finds_ok o) as H. unfold find_okb in H. rewrite !andb_true_iff, !forallb_forall in H. destruct H as [[H _] _].
  specialize (H p I). destruct (c_find (client_table o) (lit (pKey p))) as [c|] eqn:F; [|discriminate]. apply String.eqb_eq in H. f_equal.
  unfold c_find in F. destruct (find_tag _ _) as [t|]; [|discriminate]. apply find_some in F as [Ic _]. rewrite client_types in Ic.
  apply in_map_iff in Ic as (q & <- & Iq). cbn [client_field cKey] in H. f_equal.
  now apply (NoDup_map_inj pKey (obj_schema o)); [apply property_keys|..].
Qed.
Lemma find_unpublished o n k : In (n, k) (obj_struct o) -> (forall p, ~ property_of o p n) -> c_find (client_table o) (json_key n) = None.
Proof.
  intros I N. pose proof (finds_ok o) as H. unfold find_okb in H. rewrite !andb_true_iff, !forallb_forall in H. destruct H as [[_ H] _].
  specialize (H _ I). cbn [fst] in H. apply orb_prop in H as [H|H].
  - unfold publishedb in H. apply existsb_exists in H as (p & Ip & E). apply bytes_eqb_eq in E. elim (N p). split; assumption.
  - destruct (c_find (client_table o) (json_key n)); [discriminate|reflexivity].
Qed.

Lemma set_keys k v o : map fst (c_set k v o) = map fst o.
Proof.
  unfold c_set. rewrite map_map. apply map_ext_in. intros [k' x] _. cbn [fst]. destruct (String.eqb_spec k' k); [subst; reflexivity|reflexivity].
Qed.
Lemma set_in k v o k' x : In (k', x) (c_set k v o) -> (k' = k /\ x = v) \/ (k' <> k /\ In (k', x) o).
Proof.
  unfold c_set. intros I. apply in_map_iff in I as ([k1 x1] & E & I). cbn [fst] in E. destruct (String.eqb_spec k1 k).
  - injection E as <- <-. now left.
  - injection E as <- <-. now right.
Qed.
Lemma same_entries (a c : cobject) : map fst a = map fst c -> NoDup (map fst c) -> (forall k x, In (k, x) a -> In (k, x) c) -> a = c.
Proof.
  revert c. induction a as [|[k x] a IH]; intros [|[k' x'] c] E N H; try discriminate E; [reflexivity|]. cbn [map fst] in E, N.
  injection E as <- E. inversion N as [|? ? Nk Nc]; subst.
  assert (x = x') as <-.
  { destruct (H k x (or_introl eq_refl)) as [X|X]; [congruence|]. elim Nk. apply (in_map fst) in X. exact X. }
  f_equal. apply IH; [assumption|assumption|]. intros k1 x1 I. destruct (H k1 x1 (or_intror I)) as [X|X]; [|assumption].
  injection X as <- <-. elim Nk. rewrite <- E. apply (in_map fst) in I. exact I.
Qed.

Lemma decode_all zone tbl (c : cobject) l : NoDup (map fst c) ->
  (forall k j, In (k, j) l -> c_find tbl k = None
     \/ exists f v, c_find tbl k = Some f /\ (forall old, c_decode_value zone f old j = Some v) /\ In (cKey f, v) c) ->
  forall acc, map fst acc = map fst c ->
  (forall k x, In (k, x) acc -> In (k, x) c \/ exists k' j f, In (k', j) l /\ c_find tbl k' = Some f /\ cKey f = k) ->
  c_decode_members zone tbl l acc = Some c.
Proof.
  intros N. induction l as [|[k j] l IH]; intros G acc E R; cbn [c_decode_members].
  - f_equal. apply same_entries; [assumption|assumption|]. intros k x I. destruct (R k x I) as [X|(? & ? & ? & [] & _)]. exact X.
  - destruct (G k j (or_introl eq_refl)) as [F|(f & v & F & D & I)]; rewrite F.
    + apply IH; [intros; apply G; now right|assumption|]. intros k1 x1 I1. destruct (R k1 x1 I1) as [X|(k2 & j2 & f2 & [X|X] & F2 & K2)]; [now left| |].
      * injection X as <- <-. congruence.
      * right. exists k2, j2, f2. auto.
    + rewrite D. apply IH; [intros; apply G; now right|now rewrite set_keys|]. intros k1 x1 I1.
      apply set_in in I1 as [[-> ->]|[Nk I1]]; [now left|]. destruct (R k1 x1 I1) as [X|(k2 & j2 & f2 & [X|X] & F2 & K2)]; [now left| |].
      * injection X as <- <-. congruence.
      * right. exists k2, j2, f2. auto.
Qed.
Lemma decode_fails zone tbl l k j f : In (k, j) l -> c_find tbl k = Some f -> (forall old, c_decode_value zone f old j = None) ->
  forall acc, c_decode_members zone tbl l acc = None.
Proof.
  intros I F D. induction l as [|[k1 j1] l IH]; [destruct I|]. intros acc. cbn [c_decode_members]. destruct I as [[= -> ->]|I].
  - now rewrite F, D.
  - destruct (c_find tbl k1); [|now apply IH]. destruct (c_decode_value _ _ _ _); [now apply IH|reflexivity].
Qed.

(* ---- objects of the client as JSON ---- *)

Record writes (o : object) (c : cobject) (l : list (bytes * json)) : Prop := mkWrites {
  wr_nodup : NoDup (map fst l);
  wr_from : forall k j, In (k, j) l -> exists p v, In p (obj_schema o) /\ k = lit (pKey p) /\ In (pKey p, Some v) c /\ fits_type (pType p) v /\ said j v;
  wr_all : forall p v, In p (obj_schema o) -> In (pKey p, Some v) c -> exists j, In (lit (pKey p), j) l /\ said j v }.

Lemma client_keys o c : client_object o c -> map fst c = map pKey (obj_schema o).
Proof. unfold client_object. induction 1 as [|p m sc c [E _] F IH]; [reflexivity|]. cbn [map]. congruence. Qed.
Lemma client_entry o c p : client_object o c -> In p (obj_schema o) ->
  exists x, In (pKey p, x) c /\ match x with Some v => fits_type (pType p) v | None => pRequired p = false end.
Proof.
  unfold client_object. induction 1 as [|q [k x] sc c [E V] F IH]; [intros []|]. cbn [fst snd] in *. intros [->|I].
  - exists x. split; [left; congruence|assumption].
  - destruct (IH I) as (y & Iy & Vy). exists y. split; [now right|assumption].
Qed.
Lemma client_entries o c k x : client_object o c -> In (k, x) c ->
  exists p, In p (obj_schema o) /\ k = pKey p /\ match x with Some v => fits_type (pType p) v | None => pRequired p = false end.
Proof.
  unfold client_object. induction 1 as [|q [k1 x1] sc c [E V] F IH]; [intros []|]. cbn [fst snd] in *. intros [[= -> ->]|I].
  - exists q. split; [now left|]. split; assumption.
  - destruct (IH I) as (p & Ip & R). exists p. split; [now right|assumption].
Qed.
Lemma client_unique o c k x y : client_object o c -> In (k, x) c -> In (k, y) c -> x = y.
Proof.
  intros C I J. assert (NoDup (map fst c)) as N by (rewrite (client_keys o c C); apply property_keys).
  now pose proof (NoDup_map_inj fst c (k, x) (k, y) N I J eq_refl) as [= ->].
Qed.
Lemma property_unique o p q : In p (obj_schema o) -> In q (obj_schema o) -> pKey p = pKey q -> p = q.
Proof. intros I J E. apply (NoDup_map_inj pKey (obj_schema o)); try assumption. apply property_keys. Qed.

Lemma members_write (c : cobject) : NoDup (map fst c) -> (forall k v, In (k, Some v) c -> portable v) ->
  exists l, c_members c = Some l /\ NoDup (map fst l) /\ (forall k, In k (map fst l) -> exists key, k = lit key /\ In key (map fst c))
  /\ (forall k j, In (k, j) l -> exists key v, k = lit key /\ In (key, Some v) c /\ said j v)
  /\ (forall key v, In (key, Some v) c -> exists j, In (lit key, j) l /\ said j v).
Proof.
  induction c as [|[k [v|]] c IH]; intros N P; cbn [c_members].
  - exists []. split; [reflexivity|]. split; [constructor|]. split; [intros ? []|]. split; [intros ? ? []|intros ? ? []].
  - cbn [map fst] in N. inversion N as [|? ? Nk Nc]; subst. destruct IH as (l & -> & Nl & K & F & A); [assumption|intros; eapply P; right; eassumption|].
    destruct (value_writes v (P k v (or_introl eq_refl))) as (j & -> & S). exists ((lit k, j) :: l). split; [reflexivity|]. split; [|split; [|split]].
    + cbn [map fst]. constructor; [|assumption]. intros I. destruct (K _ I) as (key & E & I'). apply lit_inj in E. subst. contradiction.
    + cbn [map fst]. intros k' [<-|I]; [exists k; split; [reflexivity|now left]|]. destruct (K _ I) as (key & E & I'). exists key. split; [assumption|now right].
    + intros k' j' [[= <- <-]|I]; [exists k, v; split; [reflexivity|split; [now left|assumption]]|].
      destruct (F _ _ I) as (key & w & E & I' & S'). exists key, w. split; [assumption|]. split; [now right|assumption].
    + intros key w [[= -> ->]|I]; [exists j; split; [now left|assumption]|]. destruct (A _ _ I) as (j' & I' & S'). exists j'. split; [now right|assumption].
  - cbn [map fst] in N. inversion N as [|? ? Nk Nc]; subst. destruct IH as (l & E & Nl & K & F & A); [assumption|intros; eapply P; right; eassumption|].
    exists l. split; [assumption|]. split; [assumption|]. split; [|split].
    + intros k' I. destruct (K _ I) as (key & E' & I'). exists key. split; [assumption|now right].
    + intros k' j' I. destruct (F _ _ I) as (key & w & E' & I' & S'). exists key, w. split; [assumption|]. split; [now right|assumption].
    + intros key w [[= _]|I]. exact (A _ _ I).
Qed.

Lemma object_writes o c : good_object o c -> exists l, c_object c = Some (JObj l) /\ writes o c l.
Proof.
  intros [C P]. destruct (members_write c) as (l & E & N & K & F & A); [rewrite (client_keys o c C); apply property_keys|assumption|].
  unfold c_object. rewrite E. exists (put_members l). split; [reflexivity|]. pose proof (put_members_perm l N) as Pm. constructor.
  - eapply Permutation_NoDup; [apply Permutation_map, Pm|assumption].
  - intros k j I. apply (Permutation_in _ (Permutation_sym Pm)) in I. destruct (F k j I) as (key & v & -> & Ic & S).
    destruct (client_entries o c key _ C Ic) as (p & Ip & -> & V). exists p, v. auto.
  - intros p v Ip Ic. destruct (A _ _ Ic) as (j & I & S). exists j. split; [|assumption]. exact (Permutation_in _ Pm I).
Qed.

Lemma writes_plain o c l : writes o c l -> plain_json (JObj l).
Proof.
  intros W. constructor; [apply (wr_nodup _ _ _ W)|]. apply Forall_forall. intros [k j] I. destruct (wr_from _ _ _ W k j I) as (p & v & Ip & -> & _ & _ & S).
  cbn [fst snd]. split; [|now apply (said_plain j v)]. apply utf8_text_ascii. now apply (proj1 (schema_keys o)).
Qed.

Lemma writes_describes o c l st : writes o c l -> stands_for o c st -> describes (obj_struct o) (obj_id o) l st.
Proof.
  intros W [T H]. split; [|split; [assumption|]].
  - apply (conforming_keys o); [|apply (wr_nodup _ _ _ W)]. intros k v I. destruct (wr_from _ _ _ W k v I) as (p & w & Ip & E & _). eauto.
  - intros n v Hn. pose proof (holds_kind o st n v T Hn) as In'. destruct (H n v Hn) as [(p & (Ip & Ek) & Ic)|[N L]].
    + left. destruct (wr_all _ _ _ W p v Ip Ic) as (j & I & S). exists (lit (pKey p)), j. split; [assumption|]. split; [unfold key_is; now rewrite Ek|].
      left. now apply said_stated.
    + right. split; [|assumption]. intros k j I X. destruct (wr_from _ _ _ W k j I) as (p & w & Ip & -> & Ic & _). apply (N p w); [|assumption].
      split; [assumption|]. now apply (case_keys o p n (kind_of v)).
Qed.

Lemma zero_keys o : map fst (c_zero (client_table o)) = map pKey (obj_schema o).
Proof. rewrite client_types. unfold c_zero. rewrite !map_map. reflexivity. Qed.
Lemma zero_entry o k x : In (k, x) (c_zero (client_table o)) -> exists p, In p (obj_schema o) /\ k = pKey p
  /\ x = if pRequired p then Some (c_zero_value (ctype_of (pType p))) else None.
Proof.
  rewrite client_types. unfold c_zero. rewrite map_map. intros I. apply in_map_iff in I as (p & E & Ip). cbn [client_field cKey cPtr cType] in E.
  injection E as <- <-. exists p. split; [assumption|]. split; [reflexivity|]. destruct (pRequired p); reflexivity.
Qed.

Lemma writes_reads zone o c l : client_object o c -> writes o c l -> c_decode_members zone (client_table o) l (c_zero (client_table o)) = Some c.
Proof.
  intros C W. apply decode_all.
  - rewrite (client_keys o c C). apply property_keys.
  - intros k j I. destruct (wr_from _ _ _ W k j I) as (p & v & Ip & -> & Ic & F & S). right. exists (client_field p), (Some v).
    split; [now apply find_property|]. split; [intros old; now apply said_reads|exact Ic].
  - rewrite zero_keys. symmetry. now apply client_keys.
  - intros k x I. destruct (zero_entry o k x I) as (p & Ip & -> & ->). destruct (client_entry o c p C Ip) as ([v|] & Ic & V).
    + right. destruct (wr_all _ _ _ W p v Ip Ic) as (j & Ij & _). exists (lit (pKey p)), j, (client_field p). split; [assumption|].
      split; [now apply find_property|reflexivity].
    + left. rewrite V. exact Ic.
Qed.

Lemma object_refused c : c_object c = None <-> exists k v, In (k, Some v) c /\ untimely v.
Proof.
  transitivity (c_members c = None); [unfold c_object; destruct (c_members c); split; (discriminate || reflexivity)|].
  induction c as [|[k [v|]] c IH]; cbn [c_members].
  - split; [discriminate|intros (? & ? & [] & _)].
  - destruct (c_value v) as [j|] eqn:Ev.
    + transitivity (c_members c = None); [destruct (c_members c); split; (discriminate || reflexivity)|]. rewrite IH. split.
      * intros (k' & v' & I & U). exists k', v'. split; [right; exact I|exact U].
      * intros (k' & v' & [[= <- <-]|I] & U); [|eauto]. apply value_refused in U. congruence.
    + split; [intros _|reflexivity]. exists k, v. split; [left; reflexivity|apply value_refused, Ev].
  - rewrite IH. split; intros (k' & v' & I & U); exists k', v'; (split; [|exact U]); [right; exact I|].
    destruct I as [[=]|I]; exact I.
Qed.

Lemma object_survives zone o c : good_object o c -> exists j, c_object c = Some j /\ j <> JNull /\ c_decode zone (client_table o) j (c_zero (client_table o)) = Some c.
Proof.
  intros G. destruct (object_writes o c G) as (l & E & W). exists (JObj l). split; [assumption|]. split; [discriminate|].
  apply writes_reads; [apply G|assumption].
Qed.

(* every object stands for a record *)
Lemma stands_exists o c : client_object o c -> exists st, stands_for o c st.
Proof.
  intros C. destruct (collect_fields (obj_struct o) (fun n v => (exists p, property_of o p n /\ In (pKey p, Some v) c)
    \/ ((forall p w, property_of o p n -> ~ In (pKey p, Some w) c) /\ left_out (obj_id o) n v))) as (st & T & Q); [|exists st; split; assumption].
  intros n kd I. destruct (find (fun p => bytes_eqb (lit (pKey p)) (json_key n)) (obj_schema o)) as [p|] eqn:Fd.
  - apply find_some in Fd as [Ip E]. apply bytes_eqb_eq in E. destruct (schema_fields o p Ip) as [_ K]. specialize (K n kd I E).
    destruct (client_entry o c p C Ip) as ([v|] & Ic & V).
    + exists v. split; [|left; exists p; split; [split; assumption|assumption]]. destruct v; cbn [fits_type kind_of] in *; try destruct V; congruence.
    + assert (forall q w, property_of o q n -> ~ In (pKey q, Some w) c) as N.
      { intros q w (Iq & Eq) Iw. assert (pKey q = pKey p) as X by (apply lit_inj; congruence). rewrite X in Iw.
        pose proof (client_unique o c _ _ _ C Ic Iw). discriminate. }
      destruct (string_dec n (fst (obj_id o))) as [Ei|Ne].
      * rewrite Ei in I. pose proof (id_text o kd I) as Kd. exists (VStr (snd (obj_id o))). split; [cbn [kind_of]; congruence|]. right. split; [assumption|now constructor].
      * destruct kd; [exists (VInt 0)|exists (VStr [])|exists (VTime no_date)]; (split; [reflexivity|]; right; split; [assumption|now constructor]).
  - assert (forall q w, property_of o q n -> ~ In (pKey q, Some w) c) as N.
    { intros q w (Iq & Eq) _. apply (find_none _ _ Fd) in Iq. rewrite Eq, bytes_eqb_refl in Iq. discriminate. }
    destruct (string_dec n (fst (obj_id o))) as [Ei|Ne].
    * rewrite Ei in I. pose proof (id_text o kd I) as Kd. exists (VStr (snd (obj_id o))). split; [cbn [kind_of]; congruence|]. right. split; [assumption|now constructor].
    * destruct kd; [exists (VInt 0)|exists (VStr [])|exists (VTime no_date)]; (split; [reflexivity|]; right; split; [assumption|now constructor]).
Qed.

(* ---- objects of the library read by the client ---- *)

Lemma collect_properties (sc : schema) (Q : property -> option value -> Prop) : (forall p, In p sc -> exists x, Q p x) ->
  exists c : cobject, Forall2 (fun p m => fst m = pKey p /\ Q p (snd m)) sc c.
Proof.
  induction sc as [|p sc IH]; intros H; [exists []; constructor|]. destruct IH as (c & F); [intros; apply H; now right|].
  destruct (H p (or_introl eq_refl)) as (x & Qx). exists ((pKey p, x) :: c). constructor; [split; [reflexivity|exact Qx]|exact F].
Qed.
Lemma collected_entry (Q : property -> option value -> Prop) sc (c : cobject) p : Forall2 (fun p m => fst m = pKey p /\ Q p (snd m)) sc c -> In p sc ->
  exists x, In (pKey p, x) c /\ Q p x.
Proof.
  induction 1 as [|q [k x] sc c [E V] F IH]; [intros []|]. cbn [fst snd] in *. intros [->|I].
  - exists x. split; [left; congruence|assumption].
  - destruct (IH I) as (y & Iy & Vy). exists y. split; [now right|assumption].
Qed.

Lemma empty_fits t v : kind_of v = type_kind t -> empty v -> 0 < bits_of t -> fits_type t v.
Proof.
  intros K [-> | ->] B; cbn [fits_type kind_of] in *; [|congruence]. split; [congruence|].
  assert (0 < 2 ^ (bits_of t - 1)) by (apply Z.pow_pos_nonneg; lia). lia.
Qed.
Definition bits_okb (o : object) : bool := forallb (fun p => 0 <? bits_of (pType p)) (obj_schema o).
Lemma bits_pos o p : In p (obj_schema o) -> 0 < bits_of (pType p).
Proof.
  assert (bits_okb o = true) as H by (destruct o as [| | |[]]; vm_compute; reflexivity). unfold bits_okb in H. rewrite forallb_forall in H.
  intros I. apply Z.ltb_lt. now apply H.
Qed.

Lemma property_kind o st p n v : has_type (obj_struct o) st -> property_of o p n -> holds st n v -> kind_of v = type_kind (pType p).
Proof. intros T (Ip & E) H. apply (proj2 (schema_fields o p Ip) n); [exact (holds_kind o st n v T H)|assumption]. Qed.

(* the member of a published field *)
Lemma written_member o st n v l : has_type (obj_struct o) st -> json_fields st -> obj_json o st = JObj l -> holds st n v ->
  ~ empty v \/ always_written o n -> In (json_key n, written_value v) l.
Proof.
  intros T J El H W. apply (object_members o st n v T H l El) in W. apply in_map_iff in W as ([k j] & Ek & I). cbn [fst] in Ek. subst k.
  destruct (object_values o st l _ _ T J El I) as (n' & v' & H' & E & ->).
  destruct (key_field o n n' _ _ (holds_kind o st n v T H) (holds_kind o st n' v' T H') E) as [<- _].
  apply (holds_lookup o) in H, H'; try assumption. rewrite H in H'. injection H' as <-. exact I.
Qed.

Lemma readable_dec o st : has_type (obj_struct o) st -> json_fields st -> forall p n v, property_of o p n -> holds st n v ->
  client_reads (pType p) v \/ ~ client_reads (pType p) v.
Proof.
  intros T J p n v P H. destruct (client_value (fun _ t => t) "" false (pType p) None v (J n v H) (property_kind o st p n v T P H)) as [[A _]|[A _]]; auto.
Qed.

Lemma client_unread zone o st : has_type (obj_struct o) st -> json_fields st -> forall acc c,
  c_decode zone (client_table o) (obj_json o st) acc = Some c -> client_readable o st.
Proof.
  intros T J acc c D p n v P H. destruct (client_value zone (pKey p) (negb (pRequired p)) (pType p) None v (J n v H) (property_kind o st p n v T P H)) as [[A _]|[A U]]; [exact A|].
  exfalso. rewrite obj_json_eq in D. cbn [c_decode] in D. rewrite (decode_fails zone _ _ (json_key n) (written_value v) (client_field p)) in D; [discriminate| | |exact U].
  - apply (written_member o st n v); try assumption; [apply obj_json_eq|]. destruct (empty_dec v) as [E|N]; [|now left]. right. destruct (always_dec o n) as [Aw|Na]; [assumption|].
    elim A. split; [apply empty_fits; [now apply (property_kind o st p n)|assumption|apply (bits_pos o); apply P]|]. intros ->. destruct E; discriminate.
  - destruct P as (Ip & <-). now apply find_property.
Qed.

Lemma client_reads_object zone o st : has_type (obj_struct o) st -> json_fields st -> client_readable o st ->
  exists c, receives o st c /\ c_decode zone (client_table o) (obj_json o st) (c_zero (client_table o)) = Some c.
Proof.
  intros T J R.
  set (Q := fun (p : property) (x : option value) => match x with Some v => fits_type (pType p) v | None => pRequired p = false end /\
    ((exists n v, property_of o p n /\ holds st n v
       /\ (((~ empty v \/ always_written o n \/ pRequired p = true) /\ x = Some v)
           \/ (empty v /\ ~ always_written o n /\ pRequired p = false /\ x = None)))
    \/ (In (pKey p) (unknown_properties o) /\ x = None))).
  destruct (collect_properties (obj_schema o) Q) as (c & F).
  { intros p Ip. destruct (in_dec string_dec (pKey p) (unknown_properties o)) as [U|K].
    - exists None. split; [|right; auto]. destruct (pRequired p) eqn:E; [|reflexivity]. elim (required_known o p Ip E U).
    - apply (proj1 (schema_fields o p Ip)) in K as (n & I & E). destruct (field_value o st n _ T I) as (v & H & Kv).
      assert (property_of o p n) as P by (split; assumption). pose proof (proj1 (R p n v P H)) as Fv.
      destruct (empty_dec v) as [Em|Ne]; [|exists (Some v); split; [assumption|left; exists n, v; auto 8]].
      destruct (always_dec o n) as [A|Na]; [exists (Some v); split; [assumption|left; exists n, v; auto 8]|].
      destruct (pRequired p) eqn:Er; [exists (Some v); split; [assumption|left; exists n, v; auto 8]|].
      exists None. split; [assumption|]. left. exists n, v. auto 9. }
  exists c.
  assert (client_object o c) as C.
  { unfold client_object. clear - F. induction F as [|p m sc c0 [E [V _]] F IH]; constructor; auto. }
  split.
  - split; [exact C|]. intros p Ip. destruct (collected_entry Q _ c p F Ip) as (x & Ix & _ & [(n & v & P & H & [(W & ->)|(Em & Na & Er & ->)])|[U ->]]).
    + left. exists n, v. auto 8.
    + left. exists n, v. auto 9.
    + right. auto.
  - rewrite obj_json_eq. cbn [c_decode]. apply decode_all.
    + rewrite (client_keys o c C). apply property_keys.
    + intros k j I. destruct (object_values o st _ k j T J (obj_json_eq o st) I) as (n & v & H & -> & ->).
      destruct (find (fun p => bytes_eqb (lit (pKey p)) (json_key n)) (obj_schema o)) as [p|] eqn:Fd.
      * apply find_some in Fd as [Ip E]. apply bytes_eqb_eq in E. assert (property_of o p n) as P by (split; assumption). right.
        exists (client_field p), (Some v). split; [rewrite <- E; now apply find_property|]. destruct (R p n v P H) as [Fv Nd]. split.
        -- intros old. apply said_reads; [|assumption]. apply written_said; [exact (J n v H)|assumption].
        -- cbn [client_field cKey]. destruct (collected_entry Q _ c p F Ip) as (x & Ix & _ & [(n' & v' & (_ & E') & H' & X)|[U _]]).
           ++ destruct (key_field o n n' _ _ (holds_kind o st n v T H) (holds_kind o st n' v' T H')) as [<- _]; [congruence|].
              apply (holds_lookup o) in H; [|assumption]. pose proof H' as H2. apply (holds_lookup o) in H2; [|assumption]. rewrite H in H2. injection H2 as <-.
              destruct X as [[_ ->]|(Em & Na & _)]; [exact Ix|]. exfalso. apply (in_map fst) in I. cbn [fst] in I.
              apply (object_members o st n v T) in I; [|now apply (holds_lookup o)|apply obj_json_eq]. tauto.
           ++ exfalso. apply (proj1 (schema_fields o p Ip)); [|exact U]. exists n. split; [|assumption].
              rewrite <- (property_kind o st p n v T P H). now apply (holds_kind o st).
      * left. apply (find_unpublished o n (kind_of v)); [now apply (holds_kind o st)|]. intros p (Ip & E). apply (find_none _ _ Fd) in Ip.
        rewrite E, bytes_eqb_refl in Ip. discriminate.
    + rewrite zero_keys. symmetry. now apply client_keys.
    + intros k x I. destruct (zero_entry o k x I) as (p & Ip & -> & ->).
      destruct (collected_entry Q _ c p F Ip) as (x & Ix & _ & [(n & v & P & H & X)|[U ->]]).
      * destruct X as [[W ->]|(Em & Na & Er & ->)]; [|left; rewrite Er; exact Ix].
        destruct (empty_dec v) as [Em|Ne]; [destruct (always_dec o n) as [A|Na]|].
        -- right. exists (json_key n), (written_value v), (client_field p). split; [apply (written_member o st n v _ T J (obj_json_eq o st) H); now right|].
           destruct P as (_ & <-). split; [now apply find_property|reflexivity].
        -- left. destruct W as [W|[W|W]]; [contradiction|contradiction|]. rewrite W. pose proof (property_kind o st p n v T P H) as Kv.
           unfold ctype_of. rewrite <- Kv. destruct Em as [-> | ->]; exact Ix.
        -- right. exists (json_key n), (written_value v), (client_field p). split; [apply (written_member o st n v _ T J (obj_json_eq o st) H); now left|].
           destruct P as (_ & <-). split; [now apply find_property|reflexivity].
      * left. destruct (pRequired p) eqn:E; [|exact Ix]. elim (required_known o p Ip E U).
Qed.

(* there is only one such object *)
Lemma receives_unique o st c c' : has_type (obj_struct o) st -> receives o st c -> receives o st c' -> c = c'.
Proof.
  intros T [C H] [C' H']. apply same_entries.
  - now rewrite (client_keys o c C), (client_keys o c' C').
  - rewrite (client_keys o c' C'). apply property_keys.
  - intros k x I. destruct (client_entries o c k x C I) as (p & Ip & -> & _).
    assert (forall n v n' v', property_of o p n -> property_of o p n' -> holds st n v -> holds st n' v' -> n = n' /\ v = v') as U.
    { intros n v n' v' (_ & E) (_ & E') Hn Hn'. destruct (key_field o n n' _ _ (holds_kind o st n v T Hn) (holds_kind o st n' v' T Hn')) as [<- _]; [congruence|].
      apply (holds_lookup o) in Hn, Hn'; try assumption. split; [reflexivity|congruence]. }
    assert (forall n v, property_of o p n -> holds st n v -> ~ In (pKey p) (unknown_properties o)) as K.
    { intros n v P Hn. apply (proj1 (schema_fields o p Ip)). exists n. rewrite <- (property_kind o st p n v T P Hn).
      split; [now apply (holds_kind o st)|apply P]. }
    destruct (H p Ip) as [(n & v & P & Hn & X)|[U1 X]], (H' p Ip) as [(n' & v' & P' & Hn' & X')|[U2 X']].
    + destruct (U n v n' v' P P' Hn Hn') as [<- <-].
      destruct X as [[W X]|(Em & Na & Er & X)], X' as [[W' X']|(Em' & Na' & Er' & X')];
        try (rewrite (client_unique o c _ _ _ C I X); exact X'); exfalso.
      * destruct W as [W|[W|W]]; [contradiction|contradiction|congruence].
      * destruct W' as [W|[W|W]]; [contradiction|contradiction|congruence].
    + elim (K n v P Hn U2).
    + elim (K n' v' P' Hn' U1).
    + rewrite (client_unique o c _ _ _ C I X). exact X'.
Qed.

Lemma client_object_reads zone o st c : has_type (obj_struct o) st -> json_fields st ->
  (c_decode zone (client_table o) (obj_json o st) (c_zero (client_table o)) = Some c <-> client_readable o st /\ receives o st c).
Proof.
  intros T J. split.
  - intros D. pose proof (client_unread zone o st T J _ _ D) as R. split; [assumption|].
    destruct (client_reads_object zone o st T J R) as (c' & Rc & E). rewrite D in E. injection E as <-. exact Rc.
  - intros [R Rc]. destruct (client_reads_object zone o st T J R) as (c' & Rc' & E). rewrite E. f_equal. now apply (receives_unique o st).
Qed.

(* what the client has received it stands for *)
Definition id_okb (o : object) : bool :=
  forallb (fun p => pRequired p || negb (bytes_eqb (lit (pKey p)) (json_key (fst (obj_id o))))) (obj_schema o)
  && forallb (fun n => negb (String.eqb n (fst (obj_id o)))) (unpublished_fields o).
Lemma id_ok o : id_okb o = true.
Proof. destruct o as [| | |[]]; vm_compute; reflexivity. Qed.

Lemma receives_stands o st c : has_type (obj_struct o) st -> published_only o st -> receives o st c -> stands_for o c st.
Proof.
  intros T Pu [C H]. split; [assumption|]. pose proof (id_ok o) as Id. unfold id_okb in Id. rewrite andb_true_iff, !forallb_forall in Id. destruct Id as [Id Iu].
  intros n v Hn. pose proof (holds_kind o st n v T Hn) as I.
  assert (forall m, m = n -> empty v -> m <> fst (obj_id o) -> left_out (obj_id o) n v) as Lo by (intros m -> [-> | ->] N; now constructor).
  destruct (in_dec string_dec n (unpublished_fields o)) as [U|K].
  - right. split.
    + intros p w P _. assert (exists p, property_of o p n) as X by eauto. apply (schema_publishes o n _ I) in X. contradiction.
    + apply (Lo n eq_refl (Pu n v U Hn)). specialize (Iu n U). intros E. rewrite E, String.eqb_refl in Iu. discriminate.
  - apply (schema_publishes o n _ I) in K as (p & P). pose proof P as (Ip & E).
    destruct (H p Ip) as [(n' & v' & (_ & E') & Hn' & X)|[U1 X]].
    + destruct (key_field o n n' _ _ I (holds_kind o st n' v' T Hn')) as [<- _]; [congruence|].
      assert (v = v') as <- by (apply (holds_lookup o) in Hn, Hn'; try assumption; congruence).
      destruct X as [[_ X]|(Em & _ & Er & X)]; [left; eauto|]. right. split.
      * intros q w (Iq & Eq) Iw. assert (pKey q = pKey p) as Y by (apply lit_inj; congruence). rewrite Y in Iw.
        pose proof (client_unique o c _ _ _ C X Iw). discriminate.
      * apply (Lo n eq_refl Em). intros Ei. specialize (Id p Ip). rewrite Er, <- Ei, E, bytes_eqb_refl in Id. discriminate.
    + exfalso. apply (proj1 (schema_fields o p Ip)); [|exact U1]. exists n. rewrite <- (property_kind o st p n v T P Hn). split; assumption.
Qed.
