(* Strict reading of data records and files *)
From Coq Require Import ZArith NArith Bool Ascii String List Lia.
Import ListNotations.
From Verif Require Import GoBase GoBaseFacts GoTime Tables JsonTables Codec Records File Json JsonFile JsonProps ClientTypes ClientHelpers ClientStrict
  SpecCodec SpecJson SpecSchema SpecClientTypes SpecHelpers SpecStrict SchemaFacts ClientTypesFacts ClientFileFacts HelperFacts.
Local Open Scope string_scope.
Local Open Scope Z_scope.
Local Open Scope list_scope.
Local Notation length := List.length.

(* ---- keys ---- *)

Definition lower_key (s : string) : bool := forallb (fun c => code c <? 128) (lit s).
Lemma key_found keys k : forallb lower_key keys = true -> plain_key k ->
  (c_key keys k = "" /\ forall s, In s keys -> ~ same_name k s) \/ (In (c_key keys k) keys /\ same_name k (c_key keys k)).
Proof.
  intros L P. assert (A : forall s, In s keys -> fold_name (lit s) = to_upper (lit s)).
  { intros s I. apply upper_ascii_fold. rewrite forallb_forall in L. specialize (L s I). unfold lower_key in L. rewrite forallb_forall in L.
    apply Forall_forall. intros c Ic. now apply Z.ltb_lt, L. }
  unfold c_key. destruct (find_tag (c_tags keys) k) as [t|] eqn:F.
  - right. apply find_tag_fold in F as [I E]. unfold c_tags in I. apply in_map_iff in I as (s & <- & I). cbn [tgKey] in *. split; [assumption|].
    unfold same_name. now rewrite <- (A s I), <- E, upper_ascii_fold.
  - left. split; [reflexivity|]. intros s I E. refine (find_tag_none _ _ (mkTag s s false) F _ _).
    + unfold c_tags. apply in_map_iff. now exists s.
    + cbn [tgKey]. rewrite (A s I), upper_ascii_fold by assumption. exact E.
Qed.

(* ---- parts ---- *)

Lemma map_iff {A B} (f : A -> B) x y P : (forall v, x = Some v <-> y = Some v /\ P) -> forall r, option_map f x = Some r <-> option_map f y = Some r /\ P.
Proof.
  intros H r. destruct x as [a|], y as [b|]; cbn [option_map].
  - destruct (proj1 (H a) eq_refl) as [E Q]. injection E as ->. tauto.
  - destruct (proj1 (H a) eq_refl). discriminate.
  - split; [discriminate|]. intros [_ Q]. pose proof (proj2 (H b) (conj eq_refl Q)). discriminate.
  - split; [discriminate|]. intros [E _]. exact E.
Qed.

Lemma decode_iff zone o j c c' : plain_object j ->
  strict_decode zone (client_table o) j c = Some c' <-> c_decode zone (client_table o) j c = Some c' /\ known_object o j.
Proof.
  intros P. destruct j as [| | | | |l]; try (cbn [strict_decode c_decode]; split; [intros H; split; [exact H|intros ? ?; discriminate]|intros [H _]; exact H]).
  rewrite (object_strict zone o l c c' (P l eq_refl)). split; intros [H K]; (split; [exact H|]).
  - intros l' E. injection E as <-. exact K.
  - exact (K l eq_refl).
Qed.
Lemma ptr_iff zone o j c c' : plain_object j ->
  strict_ptr zone (client_table o) j c = Some c' <-> c_decode_ptr zone (client_table o) j c = Some c' /\ known_object o j.
Proof.
  intros P. unfold strict_ptr, c_decode_ptr. destruct j as [| | | | |l] eqn:E; [split; [intros H; split; [exact H|intros ? ?; discriminate]|tauto]|..];
    rewrite <- E in *; apply map_iff; intros v; now apply decode_iff.
Qed.
Lemma slice_iff {A} (dec strict : json -> option A) (P : json -> Prop) j : (forall l, j = JArr l -> Forall (fun x => forall v, strict x = Some v <-> dec x = Some v /\ P x) l) ->
  forall v, c_decode_slice strict j = Some v <-> c_decode_slice dec j = Some v /\ all_in P j.
Proof.
  intros H. destruct j as [| | | |l|]; try (cbn [c_decode_slice]; intros v; split; [intros E; split; [exact E|intros ? ?; discriminate]|tauto]).
  specialize (H l eq_refl). cbn [c_decode_slice].
  assert (Q : forall v, all_some (map strict l) = Some v <-> all_some (map dec l) = Some v /\ Forall P l).
  { induction H as [|x l Hx Hl IH]; intros v; cbn [map all_some].
    - split; [intros E; split; [exact E|constructor]|tauto].
    - destruct (strict x) as [a|] eqn:S.
      + destruct (proj1 (Hx a) eq_refl) as [D Px]. rewrite D. rewrite (map_iff (cons a) _ _ _ IH v). split; intros [E F]; (split; [exact E|]); [now constructor|now inversion F].
      + split; [discriminate|]. intros [E F]. inversion F as [|? ? F1 F2]; subst. destruct (dec x) as [d|] eqn:D; [|discriminate]. exfalso. pose proof (proj2 (Hx d) (conj eq_refl F1)). discriminate. }
  intros v. rewrite (map_iff Some _ _ _ Q v). split; intros [E F]; (split; [exact E|]).
  - intros l' El. injection El as <-. exact F.
  - exact (F l eq_refl).
Qed.
Lemma many_iff zone o j : all_in plain_object j -> forall v, c_decode_slice (fun x => strict_decode zone (client_table o) x (c_zero (client_table o))) j = Some v
  <-> c_decode_slice (fun x => c_decode zone (client_table o) x (c_zero (client_table o))) j = Some v /\ all_in (known_object o) j.
Proof.
  intros P. apply slice_iff. intros l E. specialize (P l E). eapply Forall_impl; [|exact P]. intros x Px v. cbv beta. now apply decode_iff.
Qed.

(* ---- records ---- *)

Definition known_part (k : bytes) (x : json) : Prop :=
  exists key many o, In (key, many, o) record_parts /\ same_name k key /\ if many : bool then all_in (known_object o) x else known_object o x.

Definition distinct (keys : list string) : bool :=
  forallb (fun s => forallb (fun t => String.eqb s t || negb (bytes_eqb (to_upper (lit s)) (to_upper (lit t)))) keys) keys.
Lemma distinct_names keys s t k : distinct keys = true -> In s keys -> In t keys -> same_name k s -> same_name k t -> s = t.
Proof.
  intros D I J A B. unfold distinct in D. rewrite forallb_forall in D. specialize (D s I). rewrite forallb_forall in D. specialize (D t J).
  apply orb_true_iff in D as [D|D]; [now apply String.eqb_eq|]. unfold same_name in A, B. rewrite <- A, <- B, bytes_eqb_refl in D. discriminate.
Qed.

Lemma part_at k x s many o : In (s, many, o) record_parts -> same_name k s ->
  known_part k x <-> if many : bool then all_in (known_object o) x else known_object o x.
Proof.
  intros I A. split; [|intros H; exists s, many, o; auto]. intros (s' & many' & o' & I' & A' & H).
  assert (s = s') as <-.
  { apply (distinct_names record_keys s s' k); [vm_compute; reflexivity| | |assumption|assumption];
      [apply (in_map (fun p => fst (fst p))) in I; exact I|apply (in_map (fun p => fst (fst p))) in I'; exact I']. }
  assert (forall p q, In p record_parts -> In q record_parts -> fst (fst p) = fst (fst q) -> p = q) as U.
  { intros p q Ip Iq. cbn [record_parts In] in Ip, Iq.
    repeat (destruct Ip as [<-|Ip]; [repeat (destruct Iq as [<-|Iq]; [cbn [fst]; first [reflexivity|discriminate]|]); destruct Iq|]). destruct Ip. }
  specialize (U _ _ I I' eq_refl). injection U as <- <-. exact H.
Qed.

Lemma record_member_iff zone k x r r' : plain_key k -> plain_object x -> all_in plain_object x ->
  strict_record_member zone (k, x) r = Some r' <-> c_decode_record_member zone (k, x) r = Some r' /\ known_part k x.
Proof.
  intros Pk Px Pa. destruct r as [b j1 j2 k1 k2 k3 k4 l1 n1]. unfold strict_record_member, c_decode_record_member.
  destruct (key_found record_keys k eq_refl Pk) as [[E N]|[I A]].
  - rewrite E. cbn [String.eqb]. split; [discriminate|]. intros [_ (s & many & o & I & A & _)]. exfalso. apply (N s); [|assumption].
    apply (in_map (fun p => fst (fst p))) in I. exact I.
  - cbn [record_keys In] in I. destruct I as [E|[E|[E|[E|[E|[E|[E|[E|[E|[]]]]]]]]]]; rewrite <- E in *;
      cbn [String.eqb Ascii.eqb Bool.eqb]; apply map_iff; intros v.
    + rewrite (part_at k x "base" false OBase) by (cbn; tauto). now apply (decode_iff zone OBase).
    + rewrite (part_at k x "j1" true (OSegment J1)) by (cbn; tauto). now apply (many_iff zone (OSegment J1)).
    + rewrite (part_at k x "j2" true (OSegment J2)) by (cbn; tauto). now apply (many_iff zone (OSegment J2)).
    + rewrite (part_at k x "k1" false (OSegment K1)) by (cbn; tauto). now apply (ptr_iff zone (OSegment K1)).
    + rewrite (part_at k x "k2" false (OSegment K2)) by (cbn; tauto). now apply (ptr_iff zone (OSegment K2)).
    + rewrite (part_at k x "k3" false (OSegment K3)) by (cbn; tauto). now apply (ptr_iff zone (OSegment K3)).
    + rewrite (part_at k x "k4" false (OSegment K4)) by (cbn; tauto). now apply (ptr_iff zone (OSegment K4)).
    + rewrite (part_at k x "l1" false (OSegment L1)) by (cbn; tauto). now apply (ptr_iff zone (OSegment L1)).
    + rewrite (part_at k x "n1" false (OSegment N1)) by (cbn; tauto). now apply (ptr_iff zone (OSegment N1)).
Qed.

Lemma record_strict zone j r r' : plain_record j ->
  strict_record zone j r = Some r' <-> c_decode_record zone j r = Some r' /\ known_record j.
Proof.
  intros P. destruct j as [| | | | |l]; try (cbn [strict_record c_decode_record]; split; [intros H; split; [exact H|intros ? ?; discriminate]|tauto]).
  specialize (P l eq_refl). cbn [strict_record c_decode_record].
  assert (strict_record_members zone l r = Some r' <-> c_decode_record_members zone l r = Some r' /\ forall k x, In (k, x) l -> known_part k x) as ->.
  { revert r. induction l as [|[k x] l IH]; intros r; cbn [strict_record_members c_decode_record_members].
    - split; [intros H; split; [exact H|intros ? ? []]|tauto].
    - destruct (P k x (or_introl eq_refl)) as (P1 & P2 & P3). pose proof (fun r' => record_member_iff zone k x r r' P1 P2 P3) as M.
      assert (P' : forall k x, In (k, x) l -> plain_key k /\ plain_object x /\ all_in plain_object x) by (intros; apply P; now right). specialize (IH P').
      destruct (strict_record_member zone (k, x) r) as [r1|].
      + destruct (proj1 (M r1) eq_refl) as [D K]. rewrite D, IH. split; intros [E F]; (split; [exact E|]).
        * intros k' x' [Ex|I]; [injection Ex as <- <-; exact K|now apply F].
        * intros k' x' I. apply F. now right.
      + split; [discriminate|]. intros [E F]. destruct (c_decode_record_member zone (k, x) r) as [r1|]; [|discriminate].
        pose proof (proj2 (M r1) (conj eq_refl (F k x (or_introl eq_refl)))). discriminate. }
  split; intros [H K]; (split; [exact H|]).
  - intros l' E. injection E as <-. exact K.
  - exact (K l eq_refl).
Qed.

(* ---- files ---- *)

Definition known_file_part (k : bytes) (x : json) : Prop :=
  same_name k "header" /\ known_object OHeader x \/ same_name k "data" /\ all_in known_record x \/ same_name k "trailer" /\ known_object OTrailer x.

Lemma records_iff zone j : all_in plain_record j -> forall v, c_decode_slice (fun x => strict_record zone x crecord0) j = Some v
  <-> c_decode_slice (fun x => c_decode_record zone x crecord0) j = Some v /\ all_in known_record j.
Proof.
  intros P. apply slice_iff. intros l E. specialize (P l E). eapply Forall_impl; [|exact P]. intros x Px v. cbv beta. now apply record_strict.
Qed.

Lemma file_names k s t : In s ["header"; "data"; "trailer"] -> In t ["header"; "data"; "trailer"] -> same_name k s -> same_name k t -> s = t.
Proof. intros I J A B. eapply (distinct_names ["header"; "data"; "trailer"]); try eassumption. vm_compute. reflexivity. Qed.

Lemma file_member_iff zone k x f f' : plain_key k -> plain_object x -> all_in plain_record x ->
  strict_file_member zone (k, x) f = Some f' <-> c_decode_file_member zone (k, x) f = Some f' /\ known_file_part k x.
Proof.
  intros Pk Px Pa. destruct f as [h d t]. unfold strict_file_member, c_decode_file_member.
  destruct (key_found ["header"; "data"; "trailer"] k eq_refl Pk) as [[E N]|[I A]].
  - rewrite E. cbn [String.eqb]. split; [discriminate|]. intros [_ [[Q _]|[[Q _]|[Q _]]]]; exfalso; refine (N _ _ Q); cbn; tauto.
  - pose proof (file_names k _ "header" I) as H1. pose proof (file_names k _ "data" I) as H2. pose proof (file_names k _ "trailer" I) as H3.
    assert (U1 : In "header" ["header"; "data"; "trailer"]) by (cbn; tauto). assert (U2 : In "data" ["header"; "data"; "trailer"]) by (cbn; tauto). assert (U3 : In "trailer" ["header"; "data"; "trailer"]) by (cbn; tauto).
    specialize (H1 U1 A). specialize (H2 U2 A). specialize (H3 U3 A). clear U1 U2 U3.
    cbn [In] in I. unfold known_file_part. destruct I as [E|[E|[E|[]]]]; rewrite <- E in *; cbn [String.eqb Ascii.eqb Bool.eqb]; apply map_iff; intros v.
    + rewrite (decode_iff zone OHeader) by assumption. split; intros [D K]; (split; [exact D|]); [now left|].
      destruct K as [[_ K]|[[Q _]|[Q _]]]; [exact K|discriminate (H2 Q)|discriminate (H3 Q)].
    + rewrite (records_iff zone) by assumption. split; intros [D K]; (split; [exact D|]); [right; now left|].
      destruct K as [[Q _]|[[_ K]|[Q _]]]; [discriminate (H1 Q)|exact K|discriminate (H3 Q)].
    + rewrite (decode_iff zone OTrailer) by assumption. split; intros [D K]; (split; [exact D|]); [now right; right|].
      destruct K as [[Q _]|[[Q _]|[_ K]]]; [discriminate (H1 Q)|discriminate (H2 Q)|exact K].
Qed.

Lemma file_strict zone j f : plain_file j ->
  strict_file zone j = Some f <-> c_decode_file zone j = Some f /\ known_file j.
Proof.
  intros P. destruct j as [| | | | |l]; try (cbn [strict_file c_decode_file]; split; [intros H; split; [exact H|intros ? ?; discriminate]|tauto]).
  specialize (P l eq_refl). cbn [strict_file c_decode_file].
  assert (forall f0, strict_file_members zone l f0 = Some f <-> c_decode_file_members zone l f0 = Some f /\ forall k x, In (k, x) l -> known_file_part k x) as Q.
  { induction l as [|[k x] l IH]; intros r; cbn [strict_file_members c_decode_file_members].
    - split; [intros H; split; [exact H|intros ? ? []]|tauto].
    - destruct (P k x (or_introl eq_refl)) as (P1 & P2 & P3). pose proof (fun r' => file_member_iff zone k x r r' P1 P2 P3) as M.
      assert (P' : forall k x, In (k, x) l -> plain_key k /\ plain_object x /\ all_in plain_record x) by (intros; apply P; now right). specialize (IH P').
      destruct (strict_file_member zone (k, x) r) as [r1|].
      + destruct (proj1 (M r1) eq_refl) as [D K]. rewrite D, IH. split; intros [E F]; (split; [exact E|]).
        * intros k' x' [Ex|I]; [injection Ex as <- <-; exact K|now apply F].
        * intros k' x' I. apply F. now right.
      + split; [discriminate|]. intros [E F]. destruct (c_decode_file_member zone (k, x) r) as [r1|]; [|discriminate].
        pose proof (proj2 (M r1) (conj eq_refl (F k x (or_introl eq_refl)))). discriminate. }
  rewrite Q. split; intros [H K]; (split; [exact H|]).
  - intros l' E. injection E as <-. exact K.
  - exact (K l eq_refl).
Qed.

(* ---- what the client writes ---- *)

Lemma own_object o c j : good_object o c -> c_object c = Some j -> exists l, j = JObj l /\ plain_object j /\ known_object o j.
Proof.
  intros G E. destruct (object_writes o c G) as (l & E' & W). rewrite E in E'. injection E' as ->. exists l. split; [reflexivity|].
  assert (forall k x, In (k, x) l -> exists p, In p (obj_schema o) /\ k = lit (pKey p)) as K.
  { intros k x I. destruct (wr_from _ _ _ W k x I) as (p & v & Ip & Ek & _). now exists p. }
  split.
  - intros l' El. injection El as <-. apply Forall_forall. intros [k x] I. destruct (K k x I) as (p & Ip & ->). exact (key_ascii o p Ip).
  - intros l' El. injection El as <-. intros k x I. destruct (K k x I) as (p & Ip & ->). now exists p.
Qed.

Lemma literal_plain s : lower_key s = true -> plain_key (lit s).
Proof. unfold lower_key. intros H. rewrite forallb_forall in H. apply Forall_forall. intros c I. now apply Z.ltb_lt, H. Qed.

Lemma no_array l : forall P, all_in P (JObj l).
Proof. intros P l' E. discriminate. Qed.
Lemma no_object l : plain_object (JArr l).
Proof. intros l' E. discriminate. Qed.

Lemma own_segment r k j : r_good r k -> seg_written r k (Some j) ->
  plain_object j /\ all_in plain_object j /\ exists many, In (seg_name k, many, OSegment k) record_parts /\ if many : bool then all_in (known_object (OSegment k)) j else known_object (OSegment k) j.
Proof.
  unfold r_good, seg_written. intros G S. destruct (is_many k) eqn:M.
  - destruct (r_many r k) as [l|]; [|contradiction]. destruct S as (a & -> & F). specialize (G l eq_refl).
    assert (Forall (fun j => plain_object j /\ known_object (OSegment k) j) a) as Q.
    { induction F as [|c j l a E F IH]; [constructor|]. inversion G as [|? ? Gc Gl]; subst. constructor; [|now apply IH].
      destruct (own_object _ c j Gc E) as (m & _ & A & B). auto. }
    split; [apply no_object|]. split; [intros l' E; injection E as <-; eapply Forall_impl; [|exact Q]; cbv beta; tauto|].
    exists true. split; [destruct k; try discriminate; cbn; tauto|]. intros l' E. injection E as <-. eapply Forall_impl; [|exact Q]. cbv beta. tauto.
  - destruct (r_one r k) as [c|]; [|contradiction]. cbn [same_option] in S. destruct (own_object _ c j (G c eq_refl) S) as (m & -> & A & B).
    split; [exact A|]. split; [apply no_array|]. exists false. split; [destruct k; try discriminate; cbn; tauto|]. exact B.
Qed.

Lemma own_record r j : good_record r -> c_record r = Some j -> plain_record j /\ known_record j.
Proof.
  intros G E. destruct (record_writes r G) as (jb & x & E' & Eb & S). rewrite E in E'. injection E' as ->. apply record_good in G as [B Gs].
  destruct (own_object OBase _ jb B Eb) as (lb & -> & Pb & Kb). split; intros l El; injection El as <-; intros k y I; apply record_in in I as [[-> ->]|(s & -> & Y)].
  - split; [now apply literal_plain|]. split; [exact Pb|apply no_array].
  - pose proof (S s) as W. rewrite Y in W. destruct (own_segment r s y (Gs s) W) as (P1 & P2 & _). split; [apply literal_plain; destruct s; reflexivity|auto].
  - exists "base", false, OBase. split; [cbn; tauto|]. split; [reflexivity|exact Kb].
  - pose proof (S s) as W. rewrite Y in W. destruct (own_segment r s y (Gs s) W) as (_ & _ & many & I & K). exists (seg_name s), many, (OSegment s). split; [exact I|]. split; [reflexivity|exact K].
Qed.

Lemma record_own zone r : good_record r -> exists j, c_record r = Some j /\ strict_record zone j crecord0 = Some r.
Proof.
  intros G. destruct (record_survives zone r G) as (j & E & D). exists j. split; [exact E|]. destruct (own_record r j G E) as [P K]. apply record_strict; auto.
Qed.

Lemma file_own zone f : good_file f -> exists j, c_file f = Some j /\ strict_file zone j = Some f.
Proof.
  intros G. destruct (file_survives zone f G) as (j & E & D). exists j. split; [exact E|].
  destruct (file_writes f G) as (jd & jh & jt & E' & Eh & Et & S). rewrite E in E'. injection E' as ->. destruct G as (Gh & Gt & Gd).
  destruct (own_object OHeader _ jh Gh Eh) as (lh & -> & Ph & Kh). destruct (own_object OTrailer _ jt Gt Et) as (lt & -> & Pt & Kt).
  assert (Q : forall y, jd = Some y -> exists a, y = JArr a /\ Forall (fun j => plain_record j /\ known_record j) a).
  { intros y ->. destruct (cfData f) as [rs|]; [|contradiction]. destruct S as (a & -> & F). exists a. split; [reflexivity|]. specialize (Gd rs eq_refl). clear -F Gd.
    induction F as [|r j rs a Er F IH]; [constructor|]. inversion Gd as [|? ? Gr Gs]; subst. constructor; [now apply (own_record r)|now apply IH]. }
  assert (I : forall k y, In (k, y) (file_json jd (JObj lh) (JObj lt)) -> k = lit "data" /\ jd = Some y \/ k = lit "header" /\ y = JObj lh \/ k = lit "trailer" /\ y = JObj lt).
  { intros k y I. unfold file_json in I. apply in_app_iff in I as [I|[I|[I|[]]]].
    - destruct jd as [z|]; [|destruct I]. destruct I as [I|[]]. injection I as <- <-. auto.
    - injection I as <- <-. auto.
    - injection I as <- <-. auto. }
  apply file_strict; [|split; [exact D|]]; intros l El; injection El as <-; intros k y Iy; destruct (I k y Iy) as [[-> Ey]|[[-> ->]|[-> ->]]].
  - destruct (Q y Ey) as (a & -> & F). split; [now apply literal_plain|]. split; [apply no_object|]. intros l' El. injection El as <-. eapply Forall_impl; [|exact F]. cbv beta. tauto.
  - split; [now apply literal_plain|]. split; [exact Ph|apply no_array].
  - split; [now apply literal_plain|]. split; [exact Pt|apply no_array].
  - destruct (Q y Ey) as (a & -> & F). right. left. split; [reflexivity|]. intros l' El. injection El as <-. eapply Forall_impl; [|exact F]. cbv beta. tauto.
  - left. split; [reflexivity|exact Kh].
  - right. right. split; [reflexivity|exact Kt].
Qed.

Lemma strict_file_case zone :
  strict_file zone (JObj [(lit "HEADER", JObj [(lit "recordIdentifier", JStr (lit "HEADER"))]); (lit "data", JArr [JObj [(lit "k3", JNull); (lit "j1", JArr [JObj []])]])]) <> None
  /\ strict_file zone (JObj [(lit "format", JStr (lit "x"))]) = None
  /\ strict_file zone (JObj [(lit "data", JArr [JObj [(lit "j1", JArr [JObj [(lit "other", JNull)]])]])]) = None
  /\ strict_record zone (JObj [(lit "k2", JObj [(lit "other", JNull)])]) crecord0 = None.
Proof. split; [vm_compute; discriminate|]. split; [reflexivity|]. split; vm_compute; reflexivity. Qed.

(* a text of which every member names a property *)
Definition known_text : json :=
  JObj [(lit "HEADER", JObj [(lit "recordIdentifier", JStr (lit "HEADER"))]);
        (lit "data", JArr [JObj [(lit "K3", JObj [(lit "segmentIDENTIFIER", JStr (lit "K3"))])]])].
Lemma plain_by k : forallb (fun c => code c <? 128) k = true -> plain_key k.
Proof. intros H. rewrite forallb_forall in H. apply Forall_forall. intros c I. now apply Z.ltb_lt, H. Qed.
Lemma known_text_case : plain_file known_text /\ known_file known_text.
Proof.
  split; intros l E; injection E as <-; intros k x [I|[I|[]]]; injection I as <- <-.
  - split; [now apply plain_by|]. split; [|apply no_array]. intros l E. injection E as <-. constructor; [now apply plain_by|constructor].
  - split; [now apply plain_by|]. split; [apply no_object|]. intros l E. injection E as <-. constructor; [|constructor].
    intros l E. injection E as <-. intros k x [I|[]]. injection I as <- <-. split; [now apply plain_by|]. split; [|apply no_array].
    intros l E. injection E as <-. constructor; [now apply plain_by|constructor].
  - left. split; [reflexivity|]. intros l E. injection E as <-. intros k x [I|[]]. injection I as <- <-. exists (mkProperty "recordIdentifier" (TCode ["HEADER"]) true). split; [|reflexivity].
    cbn. tauto.
  - right. left. split; [reflexivity|]. intros l E. injection E as <-. constructor; [|constructor]. intros l E. injection E as <-. intros k x [I|[]]. injection I as <- <-.
    exists "k3", false, (OSegment K3). split; [cbn; tauto|]. split; [reflexivity|]. intros l E. injection E as <-. intros k x [I|[]]. injection I as <- <-.
    eexists. split; [left; reflexivity|reflexivity].
Qed.
