(* Facts about the JSON of the records and files of the client *)
From Coq Require Import ZArith NArith Bool Ascii String List Permutation Sorted Lia.
Import ListNotations.
From Verif Require Import GoBase GoBaseFacts GoTime TimeFacts GoLayout Json Tables JsonTables Codec Records File Reader JsonFile
  SpecCodec SpecLayouts SpecRecords FieldFacts FieldProps RecordFacts SpecFiles SpecJson LayoutFacts JsonTextFacts JsonMapFacts JsonFacts JsonProps
  SpecSparse DateFacts SparseFacts SpecSchema SchemaFacts ClientTypes SpecClientTypes ClientTypesFacts.
Local Open Scope string_scope.
Local Open Scope Z_scope.
Local Open Scope list_scope.
Local Notation length := List.length.

(* ---- lists of options ---- *)

Lemma all_some_map {A B} (f : A -> option B) l m : all_some (map f l) = Some m <-> Forall2 (fun x y => f x = Some y) l m.
Proof.
  revert m. induction l as [|x l IH]; intros m; cbn [map all_some].
  - split; [intros [= <-]; constructor|intros H; inversion H; reflexivity].
  - split.
    + destruct (f x) as [y|] eqn:E; [|discriminate]. destruct (all_some (map f l)) as [r|] eqn:R; [|discriminate]. intros [= <-].
      constructor; [assumption|]. now apply IH.
    + intros H. inversion H as [|? y ? r E F]; subst. rewrite E. apply IH in F. rewrite F. reflexivity.
Qed.
Lemma all_some_given {A} (l : list A) : all_some (map Some l) = Some l.
Proof. induction l as [|x l IH]; [reflexivity|]. cbn [map all_some]. now rewrite IH. Qed.

Lemma Forall2_imp {A B} (R R' : A -> B -> Prop) l m : (forall x y, In x l -> In y m -> R x y -> R' x y) -> Forall2 R l m -> Forall2 R' l m.
Proof.
  intros H F. induction F as [|x y l m Hx F IH]; constructor; [apply H; auto; now left|]. apply IH. intros. apply H; auto; now right.
Qed.
Lemma Forall2_iff {A B} (R R' : A -> B -> Prop) l m : (forall x y, In x l -> (R x y <-> R' x y)) -> (Forall2 R l m <-> Forall2 R' l m).
Proof. intros H. split; apply Forall2_imp; intros x y I _ X; now apply (H x y I). Qed.

(* ---- data records as JSON ---- *)

Definition opt_member (key : bytes) (y : option json) : list (bytes * json) := match y with Some j => [(key, j)] | None => [] end.
Definition record_json (jb : json) (x : segkind -> option json) : list (bytes * json) :=
  (lit "base", jb) :: flat_map (fun k => opt_member (lit (seg_name k)) (x k)) all_kinds.

Lemma record_in jb x k j : In (k, j) (record_json jb x) <-> (k = lit "base" /\ j = jb) \/ exists s, k = lit (seg_name s) /\ x s = Some j.
Proof.
  unfold record_json. cbn [In]. rewrite in_flat_map. split.
  - intros [[= <- <-]|(s & _ & I)]; [now left|]. right. exists s. destruct (x s) as [j'|]; [|destruct I]. destruct I as [[= <- <-]|[]]. auto.
  - intros [[-> ->]|(s & -> & E)]; [now left|]. right. exists s. split; [destruct s; cbn; auto 10|]. rewrite E. now left.
Qed.
Lemma seg_name_inj k k' : lit (seg_name k) = lit (seg_name k') -> k = k'.
Proof. destruct k, k'; (reflexivity || discriminate). Qed.
Lemma record_base jb x j : In (lit "base", j) (record_json jb x) <-> j = jb.
Proof.
  rewrite record_in. split; [|now left]. intros [[_ E]|(s & E & _)]; [exact E|]. now apply seg_name_not_base in E.
Qed.
Lemma record_seg jb x k j : In (lit (seg_name k), j) (record_json jb x) <-> x k = Some j.
Proof.
  rewrite record_in. split.
  - intros [[E _]|(s & E & X)]; [symmetry in E; now apply seg_name_not_base in E|]. apply seg_name_inj in E. congruence.
  - intros E. right. eauto.
Qed.
Lemma record_absent jb x k : absent (seg_name k) (record_json jb x) <-> x k = None.
Proof.
  unfold absent. rewrite in_map_iff. split.
  - intros N. destruct (x k) as [j|] eqn:E; [|reflexivity]. elim N. exists (lit (seg_name k), j). split; [reflexivity|]. now apply record_seg.
  - intros E ([k' j] & Ek & I). cbn [fst] in Ek. subst k'. apply record_seg in I. congruence.
Qed.

Lemma opts_sorted (keys : list bytes) (f : bytes -> option json) : sorted (map (fun k => (k, JNull)) keys) ->
  sorted (flat_map (fun k => opt_member k (f k)) keys)
  /\ forall m, In m (flat_map (fun k => opt_member k (f k)) keys) -> In (fst m) keys.
Proof.
  induction keys as [|k keys IH]; intros S; cbn [map flat_map] in *; [split; [constructor|intros m []]|].
  inversion S as [|? ? S' F]; subst. destruct (IH S') as [Sk I]. destruct (f k) as [j|]; cbn [opt_member app]; [|split; [assumption|intros; right; auto]].
  split; [|intros m [<-|Im]; [now left|right; auto]]. constructor; [assumption|]. apply Forall_forall. intros m Im. apply I in Im.
  rewrite Forall_forall in F. exact (F _ (in_map (fun k => (k, JNull)) _ _ Im)).
Qed.
Lemma record_sorted jb x : sorted (record_json jb x).
Proof.
  set (f := fun key => if bytes_eqb key (lit "base") then Some jb else match kind_of_name key with Some k => x k | None => None end).
  assert (record_json jb x = flat_map (fun k => opt_member k (f k)) (lit "base" :: map (fun k => lit (seg_name k)) all_kinds)) as ->.
  { reflexivity. }
  apply opts_sorted. repeat (constructor; [|repeat (constructor; [reflexivity|]); constructor]). constructor.
Qed.
Lemma sorted_put l : sorted l -> put_members l = l.
Proof.
  intros S. symmetry. apply sorted_unique; [assumption|apply put_members_sorted|]. apply put_members_perm. now apply sorted_nodup.
Qed.
Lemma record_plain jb x : plain_json jb -> (forall k j, x k = Some j -> plain_json j) -> plain_json (JObj (record_json jb x)).
Proof.
  intros B S. constructor; [apply sorted_nodup, record_sorted|]. apply Forall_forall. intros [k j] I. cbn [fst snd].
  apply record_in in I as [[-> ->]|(s & -> & E)]; (split; [apply utf8_text_ascii|]); [reflexivity|assumption|destruct s; reflexivity|eauto].
Qed.

(* ---- what the client writes ---- *)

Definition r_many (r : crecord) (k : segkind) : option (list cobject) := match k with J1 => crJ1 r | _ => crJ2 r end.
Definition r_one (r : crecord) (k : segkind) : option cobject :=
  match k with K1 => crK1 r | K2 => crK2 r | K3 => crK3 r | K4 => crK4 r | L1 => crL1 r | _ => crN1 r end.
Definition r_json (r : crecord) (k : segkind) : list (option json) :=
  if is_many k then match r_many r k with Some l => [c_array (map c_object l)] | None => [] end
  else match r_one r k with Some c => [c_object c] | None => [] end.

Definition seg_written (r : crecord) (k : segkind) (y : option json) : Prop :=
  if is_many k then same_option (fun l j => exists a, j = JArr a /\ Forall2 (fun c j => c_object c = Some j) l a) (r_many r k) y
  else same_option (fun c j => c_object c = Some j) (r_one r k) y.
Definition r_good (r : crecord) (k : segkind) : Prop := if is_many k then good_many k (r_many r k) else good_one k (r_one r k).
Lemma record_good r : good_record r -> good_object OBase (crBase r) /\ forall k, r_good r k.
Proof. intros (B & G1 & G2 & G3 & G4 & G5 & G6 & G7 & G8). split; [assumption|]. intros []; assumption. Qed.

Lemma objects_write o l : Forall (good_object o) l -> exists a, Forall2 (fun c j => c_object c = Some j) l a.
Proof.
  induction 1 as [|c l G F (a & IH)]; [exists []; constructor|]. destruct (object_writes o c G) as (m & E & _). exists (JObj m :: a). now constructor.
Qed.

Lemma seg_writes r k : r_good r k -> exists y, seg_written r k y /\ map (option_map (fun j => (lit (seg_name k), j))) (r_json r k)
  = map Some (opt_member (lit (seg_name k)) y).
Proof.
  unfold r_good, seg_written, r_json. destruct (is_many k).
  - intros G. destruct (r_many r k) as [l|]; [|exists None; split; [exact I|reflexivity]].
    destruct (objects_write (OSegment k) l (G l eq_refl)) as (a & F). exists (Some (JArr a)). split; [exists a; auto|].
    unfold c_array. cbn [map opt_member]. apply all_some_map in F. now rewrite F.
  - intros G. destruct (r_one r k) as [c|]; [|exists None; split; [exact I|reflexivity]].
    destruct (object_writes (OSegment k) c (G c eq_refl)) as (m & E & _). exists (Some (JObj m)). split; [exact E|].
    cbn [map opt_member]. now rewrite E.
Qed.

Lemma c_record_eq r : c_record r = option_map (fun l => JObj (put_members l))
  (all_some (option_map (fun j => (lit "base", j)) (c_object (crBase r))
     :: flat_map (fun k => map (option_map (fun j => (lit (seg_name k), j))) (r_json r k)) all_kinds)).
Proof.
  destruct r as [b j1 j2 k1 k2 k3 k4 l1 n1]. unfold c_record.
  cbn [crBase crJ1 crJ2 crK1 crK2 crK3 crK4 crL1 crN1 flat_map all_kinds r_json is_many r_many r_one]. unfold c_member. cbn [app]. rewrite app_nil_r.
  destruct j1, j2, k1, k2, k3, k4, l1, n1; reflexivity.
Qed.

Lemma record_writes r : good_record r -> exists jb x, c_record r = Some (JObj (record_json jb x)) /\ c_object (crBase r) = Some jb
  /\ forall k, seg_written r k (x k).
Proof.
  intros G. apply record_good in G as [B S]. destruct (object_writes OBase _ B) as (l & E & _).
  assert (exists x : segkind -> option json, forall k, seg_written r k (x k)
    /\ map (option_map (fun j => (lit (seg_name k), j))) (r_json r k) = map Some (opt_member (lit (seg_name k)) (x k))) as (x & X).
  { destruct (seg_writes r J1 (S J1)) as (y1 & Y1), (seg_writes r J2 (S J2)) as (y2 & Y2), (seg_writes r K1 (S K1)) as (y3 & Y3),
      (seg_writes r K2 (S K2)) as (y4 & Y4), (seg_writes r K3 (S K3)) as (y5 & Y5), (seg_writes r K4 (S K4)) as (y6 & Y6),
      (seg_writes r L1 (S L1)) as (y7 & Y7), (seg_writes r N1 (S N1)) as (y8 & Y8).
    exists (fun k => match k with J1 => y1 | J2 => y2 | K1 => y3 | K2 => y4 | K3 => y5 | K4 => y6 | L1 => y7 | N1 => y8 end).
    intros []; assumption. }
  exists (JObj l), x. split; [|split; [assumption|intros k; apply X]]. rewrite c_record_eq, E. cbn [option_map].
  assert (Some (lit "base", JObj l) :: flat_map (fun k => map (option_map (fun j => (lit (seg_name k), j))) (r_json r k)) all_kinds
    = map Some (record_json (JObj l) x)) as ->.
  { unfold record_json. cbn [map]. f_equal. induction all_kinds as [|k ks IH]; [reflexivity|]. cbn [flat_map]. rewrite map_app, <- IH. f_equal. apply X. }
  rewrite all_some_given. cbn [option_map]. now rewrite sorted_put by apply record_sorted.
Qed.

(* ---- what the client reads ---- *)

Section Reads.
Variable zone : bytes -> time -> time.

Definition read_segment (k : segkind) (j : json) : option cobject := c_decode zone (c_segment k) j (c_zero (c_segment k)).
Definition read_many (k : segkind) (y : option json) : option (option (list cobject)) :=
  match y with Some j => c_decode_slice (read_segment k) j | None => Some None end.
Definition read_one (k : segkind) (y : option json) : option (option cobject) :=
  match y with Some j => c_decode_ptr zone (c_segment k) j None | None => Some None end.

Local Notation members := (c_decode_record_members zone).
Lemma read_base jb l b r2 r3 r4 r5 r6 r7 r8 r9 : members ((lit "base", jb) :: l) (mkCRecord b r2 r3 r4 r5 r6 r7 r8 r9)
  = match c_decode zone c_base jb b with Some x => members l (mkCRecord x r2 r3 r4 r5 r6 r7 r8 r9) | None => None end.
Proof. cbn [c_decode_record_members]. unfold c_decode_record_member. change (c_key record_keys (lit "base")) with "base". cbn [String.eqb Ascii.eqb Bool.eqb].
  destruct (c_decode zone c_base jb b); reflexivity. Qed.
Ltac step k := cbn [opt_member app read_many read_one]; cbn [c_decode_record_members]; unfold c_decode_record_member;
  change (c_key record_keys (lit (seg_name k))) with (seg_name k); cbn [seg_name String.eqb Ascii.eqb Bool.eqb].
Lemma read_j1 y l b r3 r4 r5 r6 r7 r8 r9 : members (opt_member (lit (seg_name J1)) y ++ l) (mkCRecord b None r3 r4 r5 r6 r7 r8 r9)
  = match read_many J1 y with Some x => members l (mkCRecord b x r3 r4 r5 r6 r7 r8 r9) | None => None end.
Proof. destruct y as [j|]; [|reflexivity]. step J1. unfold read_segment. cbn [c_segment]. destruct (c_decode_slice _ j); reflexivity. Qed.
Lemma read_j2 y l b r2 r4 r5 r6 r7 r8 r9 : members (opt_member (lit (seg_name J2)) y ++ l) (mkCRecord b r2 None r4 r5 r6 r7 r8 r9)
  = match read_many J2 y with Some x => members l (mkCRecord b r2 x r4 r5 r6 r7 r8 r9) | None => None end.
Proof. destruct y as [j|]; [|reflexivity]. step J2. unfold read_segment. cbn [c_segment]. destruct (c_decode_slice _ j); reflexivity. Qed.
Lemma read_k1 y l b r2 r3 r5 r6 r7 r8 r9 : members (opt_member (lit (seg_name K1)) y ++ l) (mkCRecord b r2 r3 None r5 r6 r7 r8 r9)
  = match read_one K1 y with Some x => members l (mkCRecord b r2 r3 x r5 r6 r7 r8 r9) | None => None end.
Proof. destruct y as [j|]; [|reflexivity]. step K1. cbn [c_segment]. destruct (c_decode_ptr zone c_k1 j None); reflexivity. Qed.
Lemma read_k2 y l b r2 r3 r4 r6 r7 r8 r9 : members (opt_member (lit (seg_name K2)) y ++ l) (mkCRecord b r2 r3 r4 None r6 r7 r8 r9)
  = match read_one K2 y with Some x => members l (mkCRecord b r2 r3 r4 x r6 r7 r8 r9) | None => None end.
Proof. destruct y as [j|]; [|reflexivity]. step K2. cbn [c_segment]. destruct (c_decode_ptr zone c_k2 j None); reflexivity. Qed.
Lemma read_k3 y l b r2 r3 r4 r5 r7 r8 r9 : members (opt_member (lit (seg_name K3)) y ++ l) (mkCRecord b r2 r3 r4 r5 None r7 r8 r9)
  = match read_one K3 y with Some x => members l (mkCRecord b r2 r3 r4 r5 x r7 r8 r9) | None => None end.
Proof. destruct y as [j|]; [|reflexivity]. step K3. cbn [c_segment]. destruct (c_decode_ptr zone c_k3 j None); reflexivity. Qed.
Lemma read_k4 y l b r2 r3 r4 r5 r6 r8 r9 : members (opt_member (lit (seg_name K4)) y ++ l) (mkCRecord b r2 r3 r4 r5 r6 None r8 r9)
  = match read_one K4 y with Some x => members l (mkCRecord b r2 r3 r4 r5 r6 x r8 r9) | None => None end.
Proof. destruct y as [j|]; [|reflexivity]. step K4. cbn [c_segment]. destruct (c_decode_ptr zone c_k4 j None); reflexivity. Qed.
Lemma read_l1 y l b r2 r3 r4 r5 r6 r7 r9 : members (opt_member (lit (seg_name L1)) y ++ l) (mkCRecord b r2 r3 r4 r5 r6 r7 None r9)
  = match read_one L1 y with Some x => members l (mkCRecord b r2 r3 r4 r5 r6 r7 x r9) | None => None end.
Proof. destruct y as [j|]; [|reflexivity]. step L1. cbn [c_segment]. destruct (c_decode_ptr zone c_l1 j None); reflexivity. Qed.
Lemma read_n1 y l b r2 r3 r4 r5 r6 r7 r8 : members (opt_member (lit (seg_name N1)) y ++ l) (mkCRecord b r2 r3 r4 r5 r6 r7 r8 None)
  = match read_one N1 y with Some x => members l (mkCRecord b r2 r3 r4 r5 r6 r7 r8 x) | None => None end.
Proof. destruct y as [j|]; [|reflexivity]. step N1. cbn [c_segment]. destruct (c_decode_ptr zone c_n1 j None); reflexivity. Qed.

Lemma record_reads jb x r : c_decode_record zone (JObj (record_json jb x)) crecord0 = Some r <->
  c_decode zone c_base jb (c_zero c_base) = Some (crBase r)
  /\ read_many J1 (x J1) = Some (crJ1 r) /\ read_many J2 (x J2) = Some (crJ2 r)
  /\ read_one K1 (x K1) = Some (crK1 r) /\ read_one K2 (x K2) = Some (crK2 r) /\ read_one K3 (x K3) = Some (crK3 r)
  /\ read_one K4 (x K4) = Some (crK4 r) /\ read_one L1 (x L1) = Some (crL1 r) /\ read_one N1 (x N1) = Some (crN1 r).
Proof.
  cbn [c_decode_record]. unfold record_json, crecord0. cbn [flat_map all_kinds]. rewrite read_base.
  destruct (c_decode zone c_base jb (c_zero c_base)) as [b|]; [|split; [discriminate|intros (X & _); discriminate X]].
  rewrite read_j1. destruct (read_many J1 (x J1)) as [a1|]; [|split; [discriminate|intros (_ & X & _); discriminate X]].
  rewrite read_j2. destruct (read_many J2 (x J2)) as [a2|]; [|split; [discriminate|intros (_ & _ & X & _); discriminate X]].
  rewrite read_k1. destruct (read_one K1 (x K1)) as [a3|]; [|split; [discriminate|intros (_ & _ & _ & X & _); discriminate X]].
  rewrite read_k2. destruct (read_one K2 (x K2)) as [a4|]; [|split; [discriminate|intros (_ & _ & _ & _ & X & _); discriminate X]].
  rewrite read_k3. destruct (read_one K3 (x K3)) as [a5|]; [|split; [discriminate|intros (_ & _ & _ & _ & _ & X & _); discriminate X]].
  rewrite read_k4. destruct (read_one K4 (x K4)) as [a6|]; [|split; [discriminate|intros (_ & _ & _ & _ & _ & _ & X & _); discriminate X]].
  rewrite read_l1. destruct (read_one L1 (x L1)) as [a7|]; [|split; [discriminate|intros (_ & _ & _ & _ & _ & _ & _ & X & _); discriminate X]].
  rewrite read_n1. destruct (read_one N1 (x N1)) as [a8|]; [|split; [discriminate|intros (_ & _ & _ & _ & _ & _ & _ & _ & X); discriminate X]].
  cbn [c_decode_record_members]. split.
  - intros [= <-]. repeat split.
  - destruct r as [b0 c1 c2 c3 c4 c5 c6 c7 c8]; cbn [crBase crJ1 crJ2 crK1 crK2 crK3 crK4 crL1 crN1]. intros (X1 & X2 & X3 & X4 & X5 & X6 & X7 & X8 & X9). congruence.
Qed.
End Reads.

(* ---- the client reads what it has written ---- *)

Lemma ptr_reads zone tbl j c : j <> JNull -> c_decode zone tbl j (c_zero tbl) = Some c -> c_decode_ptr zone tbl j None = Some (Some c).
Proof. intros N E. unfold c_decode_ptr. destruct j; [now elim N|..]; now rewrite E. Qed.

Lemma many_survives zone k l : is_many k = true -> good_many k l -> forall y,
  same_option (fun l j => exists a, j = JArr a /\ Forall2 (fun c j => c_object c = Some j) l a) l y -> read_many zone k y = Some l.
Proof.
  intros M G y S. destruct l as [l|], y as [j|]; cbn [same_option] in S; try contradiction; [|reflexivity]. destruct S as (a & -> & F). cbn [read_many c_decode_slice].
  assert (all_some (map (read_segment zone k) a) = Some l) as ->; [|reflexivity]. apply all_some_map.
  specialize (G l eq_refl). clear M. induction F as [|c j l a E F IH]; [constructor|]. inversion G as [|? ? Gc Gl]; subst. constructor; [|now apply IH].
  destruct (object_survives zone (OSegment k) c Gc) as (j' & E' & _ & D). rewrite E in E'. injection E' as <-. exact D.
Qed.
Lemma one_survives zone k c : good_one k c -> forall y, same_option (fun c j => c_object c = Some j) c y -> read_one zone k y = Some c.
Proof.
  intros G y S. destruct c as [c|], y as [j|]; cbn [same_option] in S; try contradiction; [|reflexivity]. cbn [read_one].
  destruct (object_survives zone (OSegment k) c (G c eq_refl)) as (j' & E' & N & D).
  assert (j = j') as -> by congruence. now apply ptr_reads.
Qed.

Lemma record_survives zone r : good_record r -> exists j, c_record r = Some j /\ c_decode_record zone j crecord0 = Some r.
Proof.
  intros G. destruct (record_writes r G) as (jb & x & E & Eb & S). exists (JObj (record_json jb x)). split; [assumption|].
  apply record_good in G as [B Gs]. apply record_reads. split.
  { destruct (object_survives zone OBase _ B) as (j' & E' & _ & D). rewrite Eb in E'. injection E' as <-. exact D. }
  split; [exact (many_survives zone J1 _ eq_refl (Gs J1) _ (S J1))|]. split; [exact (many_survives zone J2 _ eq_refl (Gs J2) _ (S J2))|].
  split; [exact (one_survives zone K1 _ (Gs K1) _ (S K1))|]. split; [exact (one_survives zone K2 _ (Gs K2) _ (S K2))|].
  split; [exact (one_survives zone K3 _ (Gs K3) _ (S K3))|]. split; [exact (one_survives zone K4 _ (Gs K4) _ (S K4))|].
  split; [exact (one_survives zone L1 _ (Gs L1) _ (S L1))|exact (one_survives zone N1 _ (Gs N1) _ (S N1))].
Qed.

(* ---- files ---- *)

(* as the client writes them: sorted by key *)
Definition file_json (jd : option json) (jh jt : json) : list (bytes * json) :=
  opt_member (lit "data") jd ++ [(lit "header", jh); (lit "trailer", jt)].

Lemma records_write l : Forall good_record l -> exists a, Forall2 (fun r j => c_record r = Some j) l a.
Proof.
  induction 1 as [|c l G F (a & IH)]; [exists []; constructor|]. destruct (record_writes c G) as (jb & x & E & _). eexists (_ :: a). constructor; eassumption.
Qed.
Lemma file_writes f : good_file f -> exists jd jh jt, c_file f = Some (JObj (file_json jd jh jt))
  /\ c_object (cfHeader f) = Some jh /\ c_object (cfTrailer f) = Some jt
  /\ same_option (fun l j => exists a, j = JArr a /\ Forall2 (fun r j => c_record r = Some j) l a) (cfData f) jd.
Proof.
  intros (Gh & Gt & Gd). destruct (object_writes OHeader _ Gh) as (h & Eh & _), (object_writes OTrailer _ Gt) as (t & Et & _).
  unfold c_file. destruct (cfData f) as [l|].
  - destruct (records_write l (Gd l eq_refl)) as (a & F). exists (Some (JArr a)), (JObj h), (JObj t).
    split; [|split; [assumption|split; [assumption|exists a; auto]]]. cbn [c_member app]. rewrite Eh, Et. unfold c_array. apply all_some_map in F. rewrite F.
    reflexivity.
  - exists None, (JObj h), (JObj t). split; [|split; [assumption|split; [assumption|exact I]]]. cbn [c_member app]. rewrite Eh, Et. reflexivity.
Qed.

Lemma file_header zone j h d t : c_decode_file_member zone (lit "header", j) (mkCFile h d t) = option_map (fun x => mkCFile x d t) (c_decode zone c_header j h).
Proof. reflexivity. Qed.
Lemma file_trailer zone j h d t : c_decode_file_member zone (lit "trailer", j) (mkCFile h d t) = option_map (fun x => mkCFile h d x) (c_decode zone c_trailer j t).
Proof. reflexivity. Qed.
Lemma file_data zone j h d t : c_decode_file_member zone (lit "data", j) (mkCFile h d t)
  = option_map (fun x => mkCFile h x t) (c_decode_slice (fun x => c_decode_record zone x crecord0) j).
Proof. reflexivity. Qed.

Lemma file_survives zone f : good_file f -> exists j, c_file f = Some j /\ c_decode_file zone j = Some f.
Proof.
  intros G. destruct (file_writes f G) as (jd & jh & jt & E & Eh & Et & S). exists (JObj (file_json jd jh jt)). split; [assumption|].
  destruct G as (Gh & Gt & Gd).
  destruct (object_survives zone OHeader _ Gh) as (j1 & E1 & _ & D1). rewrite Eh in E1. injection E1 as <-.
  destruct (object_survives zone OTrailer _ Gt) as (j2 & E2 & _ & D2). rewrite Et in E2. injection E2 as <-. cbn [client_table] in D1, D2.
  assert (forall d, c_decode_file_members zone [(lit "header", jh); (lit "trailer", jt)] (mkCFile (c_zero c_header) d (c_zero c_trailer))
    = Some (mkCFile (cfHeader f) d (cfTrailer f))) as H.
  { intros d. cbn [c_decode_file_members]. rewrite file_header, D1. cbn [option_map]. rewrite file_trailer, D2. reflexivity. }
  cbn [c_decode_file]. unfold file_json, cfile0. destruct f as [h d t]. cbn [cfHeader cfData cfTrailer] in *. destruct d as [l|], jd as [j|]; cbn [same_option] in S; try contradiction.
  - destruct S as (a & -> & F). cbn [opt_member app c_decode_file_members]. rewrite file_data. cbn [c_decode_slice].
    assert (all_some (map (fun x => c_decode_record zone x crecord0) a) = Some l) as ->.
    { apply all_some_map. specialize (Gd l eq_refl). clear - F Gd. induction F as [|c j l a E F IH]; [constructor|]. inversion Gd as [|? ? Gc Gl]; subst.
      constructor; [|now apply IH]. destruct (record_survives zone c Gc) as (j' & E' & D). rewrite E in E'. injection E' as <-. exact D. }
    cbn [option_map]. exact (H (Some l)).
  - exact (H None).
Qed.

(* ---- the client reads what the library has written ---- *)

Definition segs_json (b : base) (k : segkind) : option json :=
  match segs_of k b with
  | [] => None
  | s :: l => Some (if is_many k then JArr (map encode_segment (s :: l)) else encode_segment s)
  end.
Lemma encode_base_eq b : encode_base b = JObj (record_json (obj_json OBase (bFields b)) (segs_json b)).
Proof.
  unfold encode_base, record_json, obj_json. cbn [flat_map all_kinds]. unfold segs_json. cbn [is_many].
  do 2 f_equal. rewrite app_nil_r. repeat f_equal;
    match goal with |- match segs_of ?k b with _ => _ end = _ => destruct (segs_of k b); reflexivity end.
Qed.

Definition segment_ok (k : segkind) (s : segment) : Prop := sKind s = k /\ has_type (seg_struct k) (sFields s) /\ json_fields (sFields s).
Lemma segment_client zone k s c : segment_ok k s -> (read_segment zone k (encode_segment s) = Some c <->
  client_readable (OSegment k) (sFields s) /\ receives_segment k s c).
Proof.
  intros (K & T & J). unfold read_segment, encode_segment. rewrite K. exact (client_object_reads zone (OSegment k) (sFields s) c T J).
Qed.

Lemma many_client zone k b a : is_many k = true -> Forall (segment_ok k) (segs_of k b) -> (read_many zone k (segs_json b k) = Some a <->
  Forall (fun s => client_readable (OSegment k) (sFields s)) (segs_of k b) /\ receives_many k (segs_of k b) a).
Proof.
  intros M O. unfold segs_json, read_many, receives_many. rewrite M. destruct (segs_of k b) as [|s l].
  - split; [intros [= <-]; split; [constructor|reflexivity]|]. intros [_ R]. destruct a as [a|]; [|reflexivity]. destruct R as [R _]. now elim R.
  - cbn [c_decode_slice]. rewrite map_map. destruct (all_some (map (fun x => read_segment zone k (encode_segment x)) (s :: l))) as [c|] eqn:E.
    + pose proof E as F. apply all_some_map in F. split.
      * intros [= <-]. rewrite Forall_forall in O. split; [|split; [discriminate|]].
        -- apply Forall_forall. intros x I. clear - F O I. revert I. induction F as [|y c0 l0 a0 Ey F IH]; [intros []|]. intros [->|I].
           ++ apply segment_client in Ey; [tauto|]. apply O. now left.
           ++ apply IH; [|assumption]. intros z Iz. apply O. now right.
        -- eapply Forall2_imp; [|exact F]. intros x y I _ X. apply segment_client in X; [tauto|auto].
      * intros [R S]. destruct a as [a|]; [|discriminate S]. destruct S as [_ S]. cbn [option_map].
        enough (all_some (map (fun x => read_segment zone k (encode_segment x)) (s :: l)) = Some a) as X by (rewrite E in X; injection X as ->; reflexivity).
        apply all_some_map. rewrite Forall_forall in O, R. eapply Forall2_imp; [|exact S]. intros x y I _ X. apply segment_client; [auto|]. split; [exact (R x I)|exact X].
    + split; [discriminate|]. intros [R S]. destruct a as [a|]; [|discriminate S]. destruct S as [_ S]. exfalso.
      enough (all_some (map (fun x => read_segment zone k (encode_segment x)) (s :: l)) = Some a) as X by congruence.
      apply all_some_map. rewrite Forall_forall in O, R. eapply Forall2_imp; [|exact S]. intros x y I _ X. apply segment_client; [auto|]. split; [exact (R x I)|exact X].
Qed.

Lemma one_client zone k b (s : option segment) a : is_many k = false -> segs_of k b = opt_list s -> (forall x, s = Some x -> segment_ok k x) ->
  (read_one zone k (segs_json b k) = Some a <-> (forall x, s = Some x -> client_readable (OSegment k) (sFields x)) /\ same_option (receives_segment k) s a).
Proof.
  intros M E O. unfold segs_json, read_one. rewrite M, E. destruct s as [s|]; cbn [opt_list].
  - pose proof (fun c => segment_client zone k s c (O s eq_refl)) as H. unfold read_segment in H.
    assert (c_decode_ptr zone (c_segment k) (encode_segment s) None = option_map Some (c_decode zone (c_segment k) (encode_segment s) (c_zero (c_segment k)))) as -> by reflexivity.
    destruct (c_decode zone (c_segment k) (encode_segment s) (c_zero (c_segment k))) as [c|] eqn:D; cbn [option_map].
    + split.
      * intros [= <-]. destruct (proj1 (H c) eq_refl) as [R S]. split; [intros x [= <-]; exact R|exact S].
      * intros [R S]. destruct a as [a|]; [|destruct S]. cbn [same_option] in S. pose proof (proj2 (H a) (conj (R s eq_refl) S)) as X. congruence.
    + split; [discriminate|]. intros [R S]. destruct a as [a|]; [|destruct S]. cbn [same_option] in S. pose proof (proj2 (H a) (conj (R s eq_refl) S)) as X. discriminate.
  - split; [intros [= <-]; split; [discriminate|exact I]|]. intros [_ S]. destruct a; [destruct S|reflexivity].
Qed.

Lemma base_segments b : json_base b -> (forall k, Forall (segment_ok k) (segs_of k b)).
Proof.
  intros ([_ P] & _ & F). assert (forall s, In s (segments_of b) -> has_type (seg_struct (sKind s)) (sFields s) /\ json_fields (sFields s)) as G.
  { rewrite Forall_forall in F. intros s I. destruct (F s I) as (T & J & _). split; assumption. }
  destruct P as (P1 & P2 & P3 & P4 & P5 & P6 & P7 & P8). rewrite Forall_forall in P1, P2.
  intros k. apply Forall_forall. intros s I. unfold segment_ok.
  assert (sKind s = k /\ In s (segments_of b)) as [<- Is]; [|split; [reflexivity|now apply G]].
  unfold segments_of. rewrite !in_app_iff.
  destruct k; cbn [segs_of] in I.
  - split; [auto|tauto].
  - split; [auto|tauto].
  - destruct (bK1 b) as [x|]; [|destruct I]. destruct I as [<-|[]]. split; [auto|cbn; tauto].
  - destruct (bK2 b) as [x|]; [|destruct I]. destruct I as [<-|[]]. split; [auto|cbn; tauto].
  - destruct (bK3 b) as [x|]; [|destruct I]. destruct I as [<-|[]]. split; [auto|cbn; tauto].
  - destruct (bK4 b) as [x|]; [|destruct I]. destruct I as [<-|[]]. split; [auto|cbn; tauto].
  - destruct (bL1 b) as [x|]; [|destruct I]. destruct I as [<-|[]]. split; [auto|cbn; tauto].
  - destruct (bN1 b) as [x|]; [|destruct I]. destruct I as [<-|[]]. split; [auto|cbn; tauto].
Qed.
Lemma segments_split b (P : segment -> Prop) : (forall s, In s (segments_of b) -> P s) <->
  Forall P (bJ1 b) /\ Forall P (bJ2 b) /\ (forall s, bK1 b = Some s -> P s) /\ (forall s, bK2 b = Some s -> P s) /\ (forall s, bK3 b = Some s -> P s)
  /\ (forall s, bK4 b = Some s -> P s) /\ (forall s, bL1 b = Some s -> P s) /\ (forall s, bN1 b = Some s -> P s).
Proof.
  assert (forall o : option segment, (forall s, In s (opt_to_list o) -> P s) <-> (forall s, o = Some s -> P s)) as O.
  { intros [o|]; cbn [opt_to_list In]; split; intros H s E.
    - injection E as <-. apply H. now left.
    - destruct E as [<-|[]]. now apply H.
    - discriminate E.
    - destruct E. }
  rewrite <- !O, !Forall_forall. unfold segments_of. split.
  - intros H. repeat split; intros s I; apply H; rewrite !in_app_iff; tauto.
  - intros (H1 & H2 & H3 & H4 & H5 & H6 & H7 & H8) s. rewrite !in_app_iff. intros I. intuition.
Qed.

Lemma client_base_reads zone b r : json_base b ->
  (c_decode_record zone (encode_base b) crecord0 = Some r <-> readable_base b /\ receives_base b r).
Proof.
  intros G. pose proof (base_segments b G) as S. pose proof G as ([T P] & J & F). rewrite encode_base_eq, record_reads.
  assert (forall k o s, segs_of k b = opt_list o -> o = Some s -> segment_ok k s) as O.
  { intros k o s E ->. specialize (S k). rewrite E in S. inversion S; assumption. }
  change (c_decode zone c_base (obj_json OBase (bFields b)) (c_zero c_base)) with (c_decode zone (client_table OBase) (obj_json OBase (bFields b)) (c_zero (client_table OBase))).
  rewrite (client_object_reads zone OBase (bFields b) (crBase r) T J).
  rewrite (many_client zone J1 b _ eq_refl (S J1)), (many_client zone J2 b _ eq_refl (S J2)).
  rewrite (one_client zone K1 b (bK1 b) _ eq_refl eq_refl (fun s => O K1 _ s eq_refl)), (one_client zone K2 b (bK2 b) _ eq_refl eq_refl (fun s => O K2 _ s eq_refl)),
    (one_client zone K3 b (bK3 b) _ eq_refl eq_refl (fun s => O K3 _ s eq_refl)), (one_client zone K4 b (bK4 b) _ eq_refl eq_refl (fun s => O K4 _ s eq_refl)),
    (one_client zone L1 b (bL1 b) _ eq_refl eq_refl (fun s => O L1 _ s eq_refl)), (one_client zone N1 b (bN1 b) _ eq_refl eq_refl (fun s => O N1 _ s eq_refl)).
  cbn [segs_of]. unfold readable_base, receives_base. rewrite segments_split.
  assert (forall k l, Forall (segment_ok k) l -> (Forall (fun s => client_readable (OSegment (sKind s)) (sFields s)) l <-> Forall (fun s => client_readable (OSegment k) (sFields s)) l)) as A.
  { intros k l Ok. rewrite !Forall_forall in *. split; intros H s I; specialize (H s I); destruct (Ok s I) as [E _]; rewrite E in *; exact H. }
  assert (forall k o, (forall s, o = Some s -> segment_ok k s) -> ((forall s, o = Some s -> client_readable (OSegment (sKind s)) (sFields s)) <-> (forall s, o = Some s -> client_readable (OSegment k) (sFields s)))) as B.
  { intros k o Ok. split; intros H s I; specialize (H s I); destruct (Ok s I) as [E _]; rewrite E in *; exact H. }
  rewrite (A J1 _ (S J1)), (A J2 _ (S J2)).
  rewrite (B K1 _ (fun s => O K1 _ s eq_refl)), (B K2 _ (fun s => O K2 _ s eq_refl)), (B K3 _ (fun s => O K3 _ s eq_refl)), (B K4 _ (fun s => O K4 _ s eq_refl)),
    (B L1 _ (fun s => O L1 _ s eq_refl)), (B N1 _ (fun s => O N1 _ s eq_refl)).
  tauto.
Qed.

Lemma client_file_reads zone isNil f c : json_file f ->
  (c_decode_file zone (encode_file isNil f) = Some c <-> readable_file f /\ receives_file isNil f c).
Proof.
  intros ((h & Eh & Th & Jh) & F & (t & Et & Tt & Jt)).
  assert (exists bases, flBases f = map (RBase (flPacked f)) bases /\ Forall json_base bases) as (bases & Eb & Jb).
  { clear - F. induction F as [|r l (b & -> & J) F (bs & E & Js)]; [exists []; split; [reflexivity|constructor]|]. exists (b :: bs). split; [cbn [map]; congruence|now constructor]. }
  assert (f = mkFile (flPacked f) (RHeader (flPacked f) h) (map (RBase (flPacked f)) bases) (RTrailer (flPacked f) t)) as Ef.
  { destruct f as [p fh fb ft]. cbn [flPacked flHeader flBases flTrailer] in *. congruence. }
  assert (readable_file f <-> client_readable OHeader h /\ Forall readable_base bases /\ client_readable OTrailer t) as Er.
  { unfold file_each. rewrite Eh, Eb, Et. cbn [record_each]. rewrite Forall_map. reflexivity. }
  assert (receives_file isNil f c <-> receives OHeader h (cfHeader c) /\ receives OTrailer t (cfTrailer c)
    /\ match cfData c with Some l => (bases = [] -> isNil = false) /\ Forall2 receives_base bases l | None => bases = [] /\ isNil = true end) as Es.
  { split.
    - intros (h' & bs' & t' & E & R). rewrite Ef in E. cbn [flPacked] in E. injection E as <- Eb' <-.
      assert (bases = bs') as <-; [|exact R]. clear - Eb'. revert bs' Eb'. induction bases as [|b bs IH]; intros [|b' bs'] E; try discriminate E; [reflexivity|].
      cbn [map] in E. injection E as <- E. f_equal. now apply IH.
    - intros R. exists h, bases, t. split; [exact Ef|exact R]. }
  rewrite Er, Es. unfold encode_file. rewrite Eh, Et. cbn [encode_record].
  set (jd := match flBases f with [] => if isNil then JNull else JArr [] | l => JArr (map encode_record l) end).
  assert (forall a, c_decode_slice (fun x => c_decode_record zone x crecord0) jd = Some a <-> Forall readable_base bases
    /\ match a with Some l => (bases = [] -> isNil = false) /\ Forall2 receives_base bases l | None => bases = [] /\ isNil = true end) as D.
  { intros a. subst jd. rewrite Eb. destruct bases as [|b bs].
    - cbn [map]. destruct isNil; cbn [c_decode_slice map all_some option_map].
      + split; [intros [= <-]; auto|]. intros [_ X]. destruct a; [|reflexivity]. destruct X as [X _]. discriminate (X eq_refl).
      + split; [intros [= <-]; repeat constructor|]. intros [_ X]. destruct a as [a|]; [|destruct X as [_ X]; discriminate X].
        destruct X as [_ X]. inversion X. reflexivity.
    - set (l := b :: bs) in *. change (match map (RBase (flPacked f)) l with [] => if isNil then JNull else JArr [] | l0 => JArr (map encode_record l0) end)
        with (JArr (map encode_record (map (RBase (flPacked f)) l))). cbn [c_decode_slice]. rewrite !map_map. cbn [encode_record].
      assert (forall m, all_some (map (fun x => c_decode_record zone (encode_base x) crecord0) l) = Some m <-> Forall readable_base l /\ Forall2 receives_base l m) as Dm.
      { intros m. rewrite all_some_map. rewrite Forall_forall in Jb. split.
        - intros X. split.
          + apply Forall_forall. intros x Ix. clear - X Jb Ix. revert Ix. induction X as [|y c0 l0 a0 Ey X IH]; [intros []|]. intros [->|Ix].
            * apply client_base_reads in Ey; [tauto|]. apply Jb. now left.
            * apply IH; [|assumption]. intros z Iz. apply Jb. now right.
          + eapply Forall2_imp; [|exact X]. intros x y Ix _ Y. apply client_base_reads in Y; [tauto|auto].
        - intros [R X]. rewrite Forall_forall in R. eapply Forall2_imp; [|exact X]. intros x y Ix _ Y. apply client_base_reads; [auto|]. split; [exact (R x Ix)|exact Y]. }
      destruct (all_some (map (fun x => c_decode_record zone (encode_base x) crecord0) l)) as [m|]; cbn [option_map].
      + split.
        * intros [= <-]. destruct (proj1 (Dm m) eq_refl) as [R X]. split; [assumption|]. split; [discriminate|assumption].
        * intros [R X]. destruct a as [a|]; [|destruct X as [X _]; discriminate X]. destruct X as [_ X]. pose proof (proj2 (Dm a) (conj R X)) as Y. congruence.
      + split; [discriminate|]. intros [R X]. destruct a as [a|]; [|destruct X as [X _]; discriminate X]. destruct X as [_ X].
        pose proof (proj2 (Dm a) (conj R X)) as Y. discriminate. }
  cbn [c_decode_file c_decode_file_members]. unfold cfile0. rewrite file_header.
  pose proof (fun x => client_object_reads zone OHeader h x Th Jh) as Hh. pose proof (fun x => client_object_reads zone OTrailer t x Tt Jt) as Ht.
  cbn [client_table] in Hh, Ht. unfold obj_json in Hh, Ht.
  destruct (c_decode zone c_header (encode_struct header_tags h) (c_zero c_header)) as [ch|]; cbn [option_map];
    [|split; [discriminate|]; intros ((R1 & R2 & R3) & S1 & S2 & S3); discriminate (proj2 (Hh _) (conj R1 S1))].
  rewrite file_data. destruct (c_decode_slice (fun x => c_decode_record zone x crecord0) jd) as [cd|]; cbn [option_map];
    [|split; [discriminate|]; intros ((R1 & R2 & R3) & S1 & S2 & S3); discriminate (proj2 (D _) (conj R2 S3))].
  rewrite file_trailer. destruct (c_decode zone c_trailer (encode_struct trailer_tags t) (c_zero c_trailer)) as [ct|]; cbn [option_map];
    [|split; [discriminate|]; intros ((R1 & R2 & R3) & S1 & S2 & S3); discriminate (proj2 (Ht _) (conj R3 S2))].
  destruct (proj1 (Hh ch) eq_refl) as [R1 S1], (proj1 (D cd) eq_refl) as [R2 S2], (proj1 (Ht ct) eq_refl) as [R3 S3]. destruct c as [c1 c2 c3]. cbn [cfHeader cfData cfTrailer].
  split.
  - intros [= <- <- <-]. tauto.
  - intros (_ & X1 & X3 & X2). pose proof (proj2 (Hh c1) (conj R1 X1)). pose proof (proj2 (D c2) (conj R2 X2)). pose proof (proj2 (Ht c3) (conj R3 X3)). congruence.
Qed.

(* the client can read the file or not *)
Lemma client_file_readable zone isNil f : json_file f -> ((exists c, c_decode_file zone (encode_file isNil f) = Some c) -> readable_file f).
Proof. intros J (c & D). apply client_file_reads in D; tauto. Qed.

(* ---- the library reads what the client has written ---- *)

Lemma segment_described k c j s : good_object (OSegment k) c -> c_object c = Some j -> stands_for_segment k c s ->
  exists l, j = JObj l /\ plain_json j /\ sKind s = k /\ describes (seg_struct k) (segment_id k) l (sFields s).
Proof.
  intros G E [K S]. destruct (object_writes _ c G) as (l & E' & W). rewrite E in E'. injection E' as ->. exists l. split; [reflexivity|].
  split; [now apply (writes_plain (OSegment k) c)|]. split; [assumption|]. exact (writes_describes (OSegment k) c l (sFields s) W S).
Qed.
Lemma segment_described_valid k c j s : good_object (OSegment k) c -> c_object c = Some j -> stands_for_segment k c s -> seg_validate s = None -> describes_segment k j s.
Proof.
  intros G E S V. destruct (segment_described k c j s G E S) as (l & -> & _ & K & D). split; [assumption|]. split; [assumption|]. exists l. auto.
Qed.
Lemma segment_undescribed k c j s : good_object (OSegment k) c -> c_object c = Some j -> stands_for_segment k c s -> seg_validate s <> None -> invalid_segment k j.
Proof.
  intros G E S V. destruct (segment_described k c j s G E S) as (l & -> & _ & K & D). exists l, s. auto.
Qed.

(* the segments of a record and of what it stands for *)
Definition b_many (b : base) (k : segkind) : list segment := match k with J1 => bJ1 b | _ => bJ2 b end.
Definition b_one (b : base) (k : segkind) : option segment :=
  match k with K1 => bK1 b | K2 => bK2 b | K3 => bK3 b | K4 => bK4 b | L1 => bL1 b | _ => bN1 b end.
Definition seg_stands (r : crecord) (b : base) (k : segkind) : Prop :=
  if is_many k then Forall2 (stands_for_segment k) (listed (r_many r k)) (b_many b k) else same_option (stands_for_segment k) (r_one r k) (b_one b k).
Definition segs_at (b : base) (k : segkind) : list segment := if is_many k then b_many b k else opt_list (b_one b k).
Lemma record_stands r b : stands_for_base r b <-> stands_for OBase (crBase r) (bFields b) /\ forall k, seg_stands r b k.
Proof.
  split.
  - intros (B & S1 & S2 & S3 & S4 & S5 & S6 & S7 & S8). split; [assumption|]. intros []; assumption.
  - intros [B S]. exact (conj B (conj (S J1) (conj (S J2) (conj (S K1) (conj (S K2) (conj (S K3) (conj (S K4) (conj (S L1) (S N1))))))))).
Qed.
Lemma segs_at_in b s : In s (segments_of b) -> exists k, In s (segs_at b k).
Proof.
  unfold segments_of. rewrite !in_app_iff. intros I.
  destruct I as [I|[I|[I|[I|[I|[I|[I|I]]]]]]]; [exists J1|exists J2|exists K1|exists K2|exists K3|exists K4|exists L1|exists N1]; exact I.
Qed.
Lemma in_segs_at b k s : In s (segs_at b k) -> In s (segments_of b).
Proof. unfold segments_of. rewrite !in_app_iff. destruct k; cbn [segs_at is_many b_many b_one]; intros I; auto 12. Qed.

Lemma seg_described r b k y l : r_good r k -> seg_stands r b k -> seg_written r k y -> Forall (fun s => seg_validate s = None) (segs_at b k) ->
  (forall j, In (lit (seg_name k), j) l <-> y = Some j) -> (absent (seg_name k) l <-> y = None) ->
  if is_many k then describes_many l (seg_name k) k (b_many b k) else describes_one l (seg_name k) k (b_one b k).
Proof.
  unfold r_good, seg_stands, seg_written, segs_at. intros G S W V Il Al. destruct (is_many k).
  - destruct (r_many r k) as [cs|], y as [j|]; cbn [same_option listed] in *; try contradiction.
    + destruct W as (a & -> & F). left. exists a. split; [now apply Il|]. specialize (G cs eq_refl). clear Il Al. revert a F V. induction S as [|c s cs ss Sc S IH]; intros a F V.
      * inversion F. constructor.
      * inversion F as [|? j ? a' E F']; subst. inversion V; subst. inversion G; subst. constructor; [now apply (segment_described_valid k c)|now apply IH].
    + right. split; [left; now apply Al|]. inversion S. reflexivity.
  - destruct (r_one r k) as [c|], (b_one b k) as [s|], y as [j|]; cbn [same_option] in *; try contradiction.
    + left. exists j, s. split; [now apply Il|]. split; [reflexivity|]. apply (segment_described_valid k c); auto. inversion V. assumption.
    + right. split; [now apply Al|reflexivity].
Qed.
Lemma seg_undescribed r b k y l s : r_good r k -> seg_stands r b k -> seg_written r k y -> In s (segs_at b k) -> seg_validate s <> None ->
  (forall j, In (lit (seg_name k), j) l <-> y = Some j) -> exists x, in_record l k x /\ invalid_segment k x.
Proof.
  unfold r_good, seg_stands, seg_written, segs_at, in_record. intros G S W I V Il. destruct (is_many k).
  - destruct (r_many r k) as [cs|], y as [j|]; cbn [same_option listed] in *; try contradiction.
    + destruct W as (a & -> & F). specialize (G cs eq_refl).
      assert (exists x, In x a /\ invalid_segment k x) as (x & Ix & X); [|exists x; split; [right; exists a; split; [now apply Il|assumption]|assumption]].
      clear Il. revert a F I. induction S as [|c s' cs ss Sc S IH]; intros a F I; [destruct I|].
      inversion F as [|? j ? a' E F']; subst. inversion G; subst. destruct I as [->|I].
      * exists j. split; [now left|]. now apply (segment_undescribed k c j s).
      * destruct (IH H2 a' F' I) as (x & Ix & X). exists x. split; [now right|assumption].
    + inversion S as [E|]; subst. rewrite <- H in I. destruct I.
  - destruct (r_one r k) as [c|], (b_one b k) as [s'|], y as [j|]; cbn [same_option opt_list] in *; try contradiction.
    destruct I as [->|[]]. exists j. split; [left; now apply Il|]. now apply (segment_undescribed k c j s); [apply G|..].
Qed.

Lemma seg_plain r k y j : r_good r k -> seg_written r k y -> y = Some j -> plain_json j.
Proof.
  unfold r_good, seg_written. intros G W ->. destruct (is_many k).
  - destruct (r_many r k) as [cs|]; cbn [same_option] in W; [|contradiction]. destruct W as (a & -> & F). constructor. specialize (G cs eq_refl).
    induction F as [|c j cs a E F IH]; constructor; inversion G as [|? ? Gc Gs]; subst; [|auto].
    destruct (object_writes _ c Gc) as (l & E' & W). rewrite E in E'. injection E' as ->. now apply (writes_plain (OSegment k) c).
  - destruct (r_one r k) as [c|]; cbn [same_option] in W; [|contradiction]. destruct (object_writes _ c (G c eq_refl)) as (l & E' & W').
    rewrite W in E'. injection E' as ->. now apply (writes_plain (OSegment k) c).
Qed.

Lemma record_described r : good_record r -> exists l, c_record r = Some (JObj l) /\ plain_json (JObj l)
  /\ (forall b, stands_for_base r b -> Forall (fun s => seg_validate s = None) (segments_of b) -> describes_base (JObj l) b)
  /\ (forall b s, stands_for_base r b -> In s (segments_of b) -> seg_validate s <> None -> invalid_in l).
Proof.
  intros G. destruct (record_writes r G) as (jb & x & E & Eb & W). apply record_good in G as [B S]. exists (record_json jb x). split; [assumption|].
  destruct (object_writes OBase _ B) as (lb & Eb' & Wb). rewrite Eb in Eb'. injection Eb' as ->. split; [|split].
  - apply record_plain; [now apply (writes_plain OBase (crBase r))|]. intros k j. apply (seg_plain r k (x k) j); auto.
  - intros b St V. apply record_stands in St as [Sb Ss].
    assert (forall k, Forall (fun s => seg_validate s = None) (segs_at b k)) as Vk.
    { intros k. apply Forall_forall. intros s I. apply in_segs_at in I. rewrite Forall_forall in V. auto. }
    pose proof (fun k => seg_described r b k (x k) (record_json (JObj lb) x) (S k) (Ss k) (W k) (Vk k) (record_seg (JObj lb) x k) (record_absent (JObj lb) x k)) as D.
    exists (record_json (JObj lb) x). split; [reflexivity|]. split.
    { left. exists lb. split; [now apply record_base|]. exact (writes_describes OBase _ lb _ Wb Sb). }
    exact (conj (D J1) (conj (D J2) (conj (D K1) (conj (D K2) (conj (D K3) (conj (D K4) (conj (D L1) (D N1)))))))).
  - intros b s St I V. apply record_stands in St as [_ Ss]. apply segs_at_in in I as (k & I).
    destruct (seg_undescribed r b k (x k) (record_json (JObj lb) x) s (S k) (Ss k) (W k) I V (record_seg (JObj lb) x k)) as (y & Y & X). exists k, y. auto.
Qed.

Lemma file_json_in jd jh jt k j : In (k, j) (file_json jd jh jt) <-> (k = lit "data" /\ jd = Some j) \/ (k = lit "header" /\ j = jh) \/ (k = lit "trailer" /\ j = jt).
Proof.
  unfold file_json. rewrite in_app_iff. destruct jd as [d|]; cbn [opt_member In]; split.
  - intros [[[= <- <-]|[]]|[[= <- <-]|[[= <- <-]|[]]]]; auto.
  - intros [[-> [= ->]]|[[-> ->]|[-> ->]]]; auto.
  - intros [[]|[[= <- <-]|[[= <- <-]|[]]]]; auto.
  - intros [[_ X]|[[-> ->]|[-> ->]]]; [discriminate X|auto|auto].
Qed.

Lemma file_described c : good_file c -> exists j, c_file c = Some j /\ plain_json j /\ plain_keys j
  /\ (forall f, stands_for_file c f -> valid_segments f -> describes_file j f)
  /\ (forall f p b s, stands_for_file c f -> In (RBase p b) (flBases f) -> In s (segments_of b) -> seg_validate s <> None ->
        exists k x, segment_in j k x /\ invalid_segment k x).
Proof.
  intros G. destruct (file_writes c G) as (jd & jh & jt & E & Eh & Et & W). destruct G as (Gh & Gt & Gd).
  destruct (object_writes OHeader _ Gh) as (lh & Eh' & Wh). rewrite Eh in Eh'. injection Eh' as ->.
  destruct (object_writes OTrailer _ Gt) as (lt & Et' & Wt). rewrite Et in Et'. injection Et' as ->.
  exists (JObj (file_json jd (JObj lh) (JObj lt))). split; [assumption|].
  assert (forall l a, Forall good_record l -> Forall2 (fun r j => c_record r = Some j) l a -> Forall plain_json a) as Pa.
  { intros l a Gl F. induction F as [|r j l a Er F IH]; constructor; inversion Gl as [|? ? Gr Gs]; subst; [|auto].
    destruct (record_described r Gr) as (m & Em & P & _). rewrite Er in Em. now injection Em as ->. }
  split; [|split; [|split]].
  - constructor.
    + unfold file_json. destruct jd; cbn [opt_member app map fst]; repeat constructor; cbn; intuition discriminate.
    + apply Forall_forall. intros [k j] I. cbn [fst snd]. apply file_json_in in I as [[-> ->]|[[-> ->]|[-> ->]]]; (split; [apply utf8_text_ascii; reflexivity|]).
      * destruct (cfData c) as [l|]; cbn [same_option] in W; [|contradiction]. destruct W as (a & -> & F). constructor. apply (Pa l); auto.
      * now apply (writes_plain OHeader (cfHeader c)).
      * now apply (writes_plain OTrailer (cfTrailer c)).
  - eexists. split; [reflexivity|]. split; [split|].
    + apply Forall_forall. intros [k j] I. cbn [fst]. apply file_json_in in I as [[-> _]|[[-> _]|[-> _]]]; apply ascii_codes; reflexivity.
    + unfold file_json. destruct jd; cbn [opt_member app map fst]; repeat constructor; cbn; intuition discriminate.
    + intros k v I U. apply file_json_in in I as [[-> _]|[[-> _]|[-> _]]]; [discriminate U|reflexivity|discriminate U].
  - intros f (h & bases & t & Ef & Sh & Sd & St) V. exists (file_json jd (JObj lh) (JObj lt)), h, bases, t. split; [reflexivity|]. split; [exact Ef|].
    split; [left; exists lh; split; [apply file_json_in; auto|exact (writes_describes OHeader _ lh _ Wh Sh)]|].
    split; [|left; exists lt; split; [apply file_json_in; auto|exact (writes_describes OTrailer _ lt _ Wt St)]].
    destruct (cfData c) as [l|], jd as [j|]; cbn [same_option listed] in *; try contradiction.
    + destruct W as (a & -> & F). left. exists a. split; [apply file_json_in; auto|]. specialize (Gd l eq_refl). specialize (Pa l a Gd F).
      assert (Forall (fun b => Forall (fun s => seg_validate s = None) (segments_of b)) bases) as Vb.
      { apply Forall_forall. intros b Ib. apply Forall_forall. intros s Is. apply (V (flPacked f) b s); [|assumption]. rewrite Ef. cbn [flBases flPacked]. now apply in_map. }
      clear - Gd Sd F Vb. revert a F Gd Vb. induction Sd as [|r b l bs Sr Sd IH]; intros a F Gd Vb; inversion F as [|? j ? a' Er F']; subst; constructor.
      * inversion Gd; subst. inversion Vb; subst. destruct (record_described r H1) as (m & Em & _ & D & _). rewrite Er in Em. injection Em as ->. now apply D.
      * inversion Gd; subst. inversion Vb; subst. now apply IH.
    + right. inversion Sd. split; [left|reflexivity]. unfold absent. rewrite in_map_iff. intros ([k j] & Ek & I). cbn [fst] in Ek. subst k.
      apply file_json_in in I as [[_ X]|[[X _]|[X _]]]; discriminate X.
  - intros f p b s (h & bases & t & Ef & Sh & Sd & St) Ib Is V. rewrite Ef in Ib. cbn [flBases flPacked] in Ib. apply in_map_iff in Ib as (b' & Eb' & Ib). injection Eb' as _ <-.
    destruct (cfData c) as [l|], jd as [j|]; cbn [same_option listed] in *; try contradiction; [|inversion Sd; subst; destruct Ib].
    destruct W as (a & -> & F). specialize (Gd l eq_refl).
    assert (exists r, In (JObj r) a /\ invalid_in r) as (r & Ir & k & x & X & B).
    { clear - Gd Sd F Ib Is V. revert a F Gd Ib. induction Sd as [|r b0 l bs Sr Sd IH]; intros a F Gd Ib; [destruct Ib|]. inversion F as [|? j ? a' Er F']; subst. inversion Gd; subst.
      destruct Ib as [->|Ib].
      - destruct (record_described r H1) as (m & Em & _ & _ & D). rewrite Er in Em. injection Em as ->. exists m. split; [now left|]. now apply (D b' s).
      - destruct (IH a' F' H2 Ib) as (m & Im & X). exists m. split; [now right|assumption]. }
    exists k, x. split; [|assumption]. exists (file_json (Some (JArr a)) (JObj lh) (JObj lt)), a, r. split; [reflexivity|]. split; [apply file_json_in; auto|]. split; assumption.
Qed.

(* ---- every file of the client stands for a file ---- *)

Lemma segment_stands k c : client_object (OSegment k) c -> exists s, stands_for_segment k c s.
Proof. intros C. destruct (stands_exists _ c C) as (st & S). exists (mkSegment k st). split; [reflexivity|exact S]. Qed.
Lemma each_stands {A B} (P : A -> Prop) (R : A -> B -> Prop) l : (forall x, P x -> exists y, R x y) -> Forall P l -> exists m, Forall2 R l m.
Proof. intros H. induction 1 as [|x l Px F (m & IH)]; [exists []; constructor|]. destruct (H x Px) as (y & Y). exists (y :: m). now constructor. Qed.
Lemma many_stands k l : good_many k l -> exists m, Forall2 (stands_for_segment k) (listed l) m.
Proof.
  intros G. apply (each_stands (good_object (OSegment k))); [intros c Gc; apply segment_stands, Gc|]. destruct l as [l|]; [exact (G l eq_refl)|constructor].
Qed.
Lemma one_stands k c : good_one k c -> exists s, same_option (stands_for_segment k) c s.
Proof. intros G. destruct c as [c|]; [|exists None; exact I]. destruct (segment_stands k c (proj1 (G c eq_refl))) as (s & S). exists (Some s). exact S. Qed.
Lemma base_stands r : good_record r -> exists b, stands_for_base r b.
Proof.
  intros (B & G1 & G2 & G3 & G4 & G5 & G6 & G7 & G8). destruct (stands_exists OBase _ (proj1 B)) as (st & S).
  destruct (many_stands _ _ G1) as (s1 & S1), (many_stands _ _ G2) as (s2 & S2), (one_stands _ _ G3) as (s3 & S3), (one_stands _ _ G4) as (s4 & S4),
    (one_stands _ _ G5) as (s5 & S5), (one_stands _ _ G6) as (s6 & S6), (one_stands _ _ G7) as (s7 & S7), (one_stands _ _ G8) as (s8 & S8).
  exists (mkBase st s1 s2 s3 s4 s5 s6 s7 s8). unfold stands_for_base. cbn [bFields bJ1 bJ2 bK1 bK2 bK3 bK4 bL1 bN1]. auto 12.
Qed.
Lemma file_stands p c : good_file c -> exists f, flPacked f = p /\ stands_for_file c f.
Proof.
  intros (Gh & Gt & Gd). destruct (stands_exists OHeader _ (proj1 Gh)) as (h & Sh), (stands_exists OTrailer _ (proj1 Gt)) as (t & St).
  destruct (each_stands good_record stands_for_base (listed (cfData c)) base_stands) as (bases & Sd).
  { destruct (cfData c) as [l|]; [exact (Gd l eq_refl)|constructor]. }
  exists (mkFile p (RHeader p h) (map (RBase p) bases) (RTrailer p t)). split; [reflexivity|]. exists h, bases, t. cbn [flPacked]. auto.
Qed.

(* ---- there and back ---- *)

Lemma clock_calendar t : clock t -> calendar_time t /\ 0 <= tNsec t < 10 ^ 9.
Proof. intros (D & H & M & S & N). split; [exact (conj D (conj H (conj M S)))|lia]. Qed.
Lemma receives_good o st c : has_type (obj_struct o) st -> json_fields st -> receives o st c -> good_object o c.
Proof.
  intros T J [C H]. split; [assumption|]. intros k v I.
  destruct (client_entries o c k _ C I) as (p & Ip & -> & _).
  destruct (H p Ip) as [(n & w & _ & Hn & [[_ X]|(_ & _ & _ & X)])|[_ X]]; pose proof (client_unique o c _ _ _ C I X) as Y; try discriminate Y.
  injection Y as ->. specialize (J n w Hn). destruct w as [z|s|t]; [exact J|exact J|]. destruct J as [[Cl Z] _]. destruct (clock_calendar t Cl). split; [|split]; assumption.
Qed.

Lemma object_received o st : has_type (obj_struct o) st -> json_fields st -> client_readable o st -> exists c, receives o st c.
Proof. intros T J R. destruct (client_reads_object (fun _ t => t) o st T J R) as (c & S & _). eauto. Qed.

(* the segments of a record by kind *)
Definition seg_receives (b : base) (r : crecord) (k : segkind) : Prop :=
  if is_many k then receives_many k (b_many b k) (r_many r k) else same_option (receives_segment k) (b_one b k) (r_one r k).
Lemma base_receives b r : receives_base b r <-> receives OBase (bFields b) (crBase r) /\ forall k, seg_receives b r k.
Proof.
  split.
  - intros (B & S1 & S2 & S3 & S4 & S5 & S6 & S7 & S8). split; [assumption|]. intros []; assumption.
  - intros [B S]. exact (conj B (conj (S J1) (conj (S J2) (conj (S K1) (conj (S K2) (conj (S K3) (conj (S K4) (conj (S L1) (S N1))))))))).
Qed.
Lemma segs_at_of b k : segs_at b k = segs_of k b.
Proof. destruct k; reflexivity. Qed.
Lemma base_ok b : json_base b -> forall k s, In s (segs_at b k) -> segment_ok k s.
Proof. intros J k s I. pose proof (base_segments b J k) as F. rewrite Forall_forall in F. apply F. now rewrite <- segs_at_of. Qed.

Lemma good_by_kind r : good_object OBase (crBase r) -> (forall k, r_good r k) -> good_record r.
Proof. intros B S. exact (conj B (conj (S J1) (conj (S J2) (conj (S K1) (conj (S K2) (conj (S K3) (conj (S K4) (conj (S L1) (S N1))))))))). Qed.
Lemma record_receives_good b r : json_base b -> receives_base b r -> good_record r.
Proof.
  intros J R. pose proof (base_ok b J) as O. apply base_receives in R as [B S]. destruct J as ([T _] & Jf & _). apply good_by_kind; [now apply (receives_good OBase (bFields b))|].
  intros k. specialize (S k). specialize (O k). unfold seg_receives, r_good, segs_at in *. destruct (is_many k).
  - intros a E. rewrite E in S. destruct S as [_ S]. clear E. induction S as [|s c l a R S IH]; constructor.
    + destruct (O s (or_introl eq_refl)) as (_ & Ts & Js). now apply (receives_good (OSegment k) (sFields s)).
    + apply IH. intros x I. apply O. now right.
  - intros c E. rewrite E in S. destruct (b_one b k) as [s|]; [|destruct S]. destruct (O s (or_introl eq_refl)) as (_ & Ts & Js). now apply (receives_good (OSegment k) (sFields s)).
Qed.
Lemma record_receives_stands b r : json_base b -> base_each published_only b -> receives_base b r -> stands_for_base r b.
Proof.
  intros J [Pb Ps] R. pose proof (base_ok b J) as O. apply base_receives in R as [B S]. destruct J as ([T _] & Jf & _). apply record_stands. split; [now apply receives_stands|].
  assert (forall k s, In s (segs_at b k) -> published_only (OSegment k) (sFields s)) as P.
  { intros k s I. pose proof (O k s I) as (<- & _). apply Ps. now apply (in_segs_at b (sKind s)). }
  assert (forall k s c, In s (segs_at b k) -> receives_segment k s c -> stands_for_segment k c s) as Q.
  { intros k s c I R. destruct (O k s I) as (K & Ts & _). split; [assumption|]. apply receives_stands; [assumption|now apply P|assumption]. }
  intros k. specialize (S k). specialize (Q k). unfold seg_receives, seg_stands, segs_at in *. destruct (is_many k).
  - unfold receives_many in S. destruct (r_many r k) as [a|]; cbn [listed]; [|rewrite S; constructor]. destruct S as [_ S].
    clear - S Q. induction S as [|s c l a R S IH]; constructor; [apply Q; [now left|assumption]|]. apply IH. intros x y I. apply Q. now right.
  - destruct (b_one b k) as [s|], (r_one r k) as [c|]; try contradiction; [|exact I]. apply Q; [now left|exact S].
Qed.
Lemma base_received b : json_base b -> readable_base b -> exists r, receives_base b r.
Proof.
  intros J [Rb Rs]. pose proof (base_ok b J) as O. destruct J as ([T _] & Jf & _). destruct (object_received OBase _ T Jf Rb) as (cb & Cb).
  assert (forall k s, In s (segs_at b k) -> exists c, receives_segment k s c) as Q.
  { intros k s I. pose proof (O k s I) as (K & Ts & Js). apply object_received; [assumption|assumption|]. rewrite <- K. apply Rs. now apply (in_segs_at b k). }
  assert (forall k, is_many k = true -> exists a, receives_many k (b_many b k) a) as Qm.
  { intros k M. specialize (Q k). unfold segs_at in Q. rewrite M in Q. destruct (b_many b k) as [|s l] eqn:E; [exists None; reflexivity|].
    destruct (each_stands (fun x => In x (s :: l)) (receives_segment k) (s :: l)) as (a & A); [exact Q|apply Forall_forall; auto|]. exists (Some a). split; [discriminate|assumption]. }
  assert (forall k, is_many k = false -> exists a, same_option (receives_segment k) (b_one b k) a) as Qo.
  { intros k M. specialize (Q k). unfold segs_at in Q. rewrite M in Q. destruct (b_one b k) as [s|]; [|exists None; exact I]. destruct (Q s (or_introl eq_refl)) as (c & C). exists (Some c). exact C. }
  destruct (Qm J1 eq_refl) as (a1 & A1), (Qm J2 eq_refl) as (a2 & A2), (Qo K1 eq_refl) as (a3 & A3), (Qo K2 eq_refl) as (a4 & A4),
    (Qo K3 eq_refl) as (a5 & A5), (Qo K4 eq_refl) as (a6 & A6), (Qo L1 eq_refl) as (a7 & A7), (Qo N1 eq_refl) as (a8 & A8).
  exists (mkCRecord cb a1 a2 a3 a4 a5 a6 a7 a8). exact (conj Cb (conj A1 (conj A2 (conj A3 (conj A4 (conj A5 (conj A6 (conj A7 A8)))))))).
Qed.

Lemma file_split f : json_file f -> exists h bases t,
  f = mkFile (flPacked f) (RHeader (flPacked f) h) (map (RBase (flPacked f)) bases) (RTrailer (flPacked f) t)
  /\ has_type header_struct h /\ json_fields h /\ Forall json_base bases /\ has_type trailer_struct t /\ json_fields t.
Proof.
  intros ((h & Eh & Th & Jh) & F & (t & Et & Tt & Jt)).
  assert (exists bases, flBases f = map (RBase (flPacked f)) bases /\ Forall json_base bases) as (bases & Eb & Jb).
  { clear - F. induction F as [|r l (b & -> & J) F (bs & E & Js)]; [exists []; split; [reflexivity|constructor]|]. exists (b :: bs). split; [cbn [map]; congruence|now constructor]. }
  exists h, bases, t. split; [|auto]. destruct f as [p fh fb ft]. cbn [flPacked flHeader flBases flTrailer] in *. congruence.
Qed.
Lemma bases_same p bs bs' : map (RBase p) bs = map (RBase p) bs' -> bs = bs'.
Proof. revert bs'. induction bs as [|b bs IH]; intros [|b' bs'] E; try discriminate E; [reflexivity|]. cbn [map] in E. injection E as <- E. f_equal. now apply IH. Qed.
Lemma file_same p h h' bs bs' t t' : mkFile p (RHeader p h) (map (RBase p) bs) (RTrailer p t) = mkFile p (RHeader p h') (map (RBase p) bs') (RTrailer p t') ->
  h = h' /\ bs = bs' /\ t = t'.
Proof. intros E. injection E as Eh Eb Et. apply bases_same in Eb. auto. Qed.

Lemma file_received isNil f : json_file f -> readable_file f -> exists c, receives_file isNil f c.
Proof.
  intros J R. destruct (file_split f J) as (h & bases & t & E & Th & Jh & Jb & Tt & Jt). destruct R as (Rh & Rb & Rt).
  rewrite E in Rh, Rb, Rt. cbn [flHeader flBases flTrailer record_each] in Rh, Rb, Rt. rewrite Forall_map in Rb. cbn [record_each] in Rb.
  destruct (object_received OHeader h Th Jh Rh) as (ch & Ch), (object_received OTrailer t Tt Jt Rt) as (ct & Ct).
  destruct (each_stands (fun b => json_base b /\ readable_base b) receives_base bases) as (a & A).
  { intros b [X Y]. now apply base_received. }
  { rewrite Forall_forall in *. auto. }
  exists (mkCFile ch (if isNil then match bases with [] => None | _ => Some a end else Some a) ct). exists h, bases, t.
  split; [exact E|]. split; [exact Ch|]. split; [exact Ct|]. cbn [cfData].
  destruct isNil; [|auto]. destruct bases as [|b bs]; [auto|]. split; [discriminate|exact A].
Qed.

Lemma file_returns isNil f c : json_file f -> file_each published_only f -> receives_file isNil f c -> good_file c /\ stands_for_file c f /\ valid_segments f.
Proof.
  intros J P (h & bases & t & E & Sh & St & Sd). destruct (file_split f J) as (h' & bases' & t' & E' & Th & Jh & Jb & Tt & Jt).
  assert (h' = h /\ bases' = bases /\ t' = t) as (-> & -> & ->) by (apply (file_same (flPacked f)); congruence). clear E'.
  rewrite Forall_forall in Jb. destruct P as (Ph & Pb & Pt).
  rewrite E in Ph, Pb, Pt. cbn [flHeader flBases flTrailer record_each] in Ph, Pb, Pt. rewrite Forall_map in Pb. cbn [record_each] in Pb. rewrite Forall_forall in Pb.
  split; [|split].
  - split; [now apply (receives_good OHeader h)|]. split; [now apply (receives_good OTrailer t)|]. intros l El. rewrite El in Sd. destruct Sd as [_ Sd].
    clear - Sd Jb. induction Sd as [|b r bs l R S IH]; constructor; [apply (record_receives_good b); [apply Jb; now left|assumption]|]. apply IH. intros x I. apply Jb. now right.
  - exists h, bases, t. split; [exact E|]. split; [now apply receives_stands|]. split; [|now apply receives_stands].
    destruct (cfData c) as [l|]; cbn [listed]; [|destruct Sd as [-> _]; constructor]. destruct Sd as [_ Sd].
    clear - Sd Jb Pb. induction Sd as [|b r bs l R S IH]; constructor; [apply record_receives_stands; [apply Jb; now left|apply Pb; now left|assumption]|].
    apply IH; intros x I; [apply Pb|apply Jb]; now right.
  - intros p b s Ib Is. rewrite E in Ib. cbn [flBases] in Ib. apply in_map_iff in Ib as (b' & Eb & Ib). injection Eb as _ <-.
    destruct (Jb b' Ib) as (_ & _ & F). rewrite Forall_forall in F. apply (F s Is).
Qed.

(* ---- the library and the client ---- *)

(* a file sent by the client *)
Lemma client_sent rt c f : orders rt -> good_file c -> stands_for_file c f -> valid_segments f ->
  exists j, c_file c = Some j /\ unmarshal_file rt j (new_file_p (flPacked f)) = Ok f.
Proof.
  intros O G S V. destruct (file_described c G) as (j & E & P & _ & D & _). exists j. split; [assumption|]. apply described_file; auto.
Qed.
Lemma client_sent_text rt evs c f : orders rt -> good_file c -> stands_for_file c f -> valid_segments f -> format_kept f ->
  exists j, c_file c = Some j /\ forall s w rest, spells j s -> Forall white w ->
    file_from_json rt (w ++ s ++ rest) = Ok f /\ ((length w < 1024)%nat -> new_file_from_reader rt evs (w ++ s ++ rest) = Some (Ok f)).
Proof.
  intros O G S V K. destruct (file_described c G) as (j & E & P & Pk & D & _). exists j. split; [assumption|]. intros s w rest Sp W.
  split; [now apply (described_text rt j s w rest f O P Pk (D f S V) K W Sp)|]. intros L. exact (described_read rt evs j s w rest f O P Pk (D f S V) K W L Sp).
Qed.
Lemma client_refused rt c f : orders rt -> good_file c -> stands_for_file c f -> ~ valid_segments f ->
  exists j, c_file c = Some j /\ forall g, unmarshal_file rt j (new_file_p (flPacked f)) <> Ok g.
Proof.
  intros O G S V. destruct (file_described c G) as (j & E & P & _ & _ & B). exists j. split; [assumption|].
  assert (exists p b s, In (RBase p b) (flBases f) /\ In s (segments_of b) /\ seg_validate s <> None) as (p & b & s & Ib & Is & X).
  { destruct S as (h & bases & t & Ef & _). rewrite Ef in V. unfold valid_segments in V. cbn [flBases flPacked] in V. rewrite Ef. cbn [flBases flPacked].
    assert (forall b, {Forall (fun s => seg_validate s = None) (segments_of b)} + {~ Forall (fun s => seg_validate s = None) (segments_of b)}) as Db.
    { intros b. apply Forall_dec. intros s. destruct (seg_validate s); [right; discriminate|now left]. }
    destruct (Forall_dec _ Db bases) as [Y|N].
    - elim V. intros p b s Ib Is. apply in_map_iff in Ib as (b' & Eb & Ib). injection Eb as _ <-. rewrite Forall_forall in Y. specialize (Y b' Ib). rewrite Forall_forall in Y. auto.
    - apply neg_Forall_Exists_neg in N; [|exact Db]. apply Exists_exists in N as (b & Ib & N).
      apply neg_Forall_Exists_neg in N; [|intros s; destruct (seg_validate s); [right; discriminate|now left]]. apply Exists_exists in N as (s & Is & N).
      exists (flPacked f), b, s. split; [now apply in_map|]. auto. }
  destruct (B f p b s S Ib Is X) as (k & x & I & Y). exact (file_fails rt (flPacked f) j k x O P I Y).
Qed.

(* a file sent to the client and back *)
Lemma client_file_read zone isNil f : json_file f -> readable_file f -> exists c, c_decode_file zone (encode_file isNil f) = Some c /\ receives_file isNil f c.
Proof. intros J R. destruct (file_received isNil f J R) as (c & C). exists c. split; [|assumption]. apply client_file_reads; auto. Qed.
Lemma client_returned zone rt isNil f : orders rt -> json_file f -> readable_file f -> file_each published_only f ->
  exists c j, c_decode_file zone (encode_file isNil f) = Some c /\ c_file c = Some j /\ unmarshal_file rt j (new_file_p (flPacked f)) = Ok f.
Proof.
  intros O J R P. destruct (client_file_read zone isNil f J R) as (c & D & S). destruct (file_returns isNil f c J P S) as (G & St & V).
  destruct (client_sent rt c f O G St V) as (j & E & U). exists c, j. auto.
Qed.

(* ---- files in the character layout: only dates keep the client from reading ---- *)

Definition doc_of (o : object) : list doc_field :=
  match o with OHeader => header_char_doc | OTrailer => trailer_char_doc | OBase => base_char_doc | OSegment k => seg_doc k end.
Definition small_field (t : ptype) (n : string) (d : doc_field) : bool :=
  (dName d =? n)%string && match dKind d with FNumber => 10 ^ Z.of_nat (dWidth d) <=? 2 ^ (bits_of t - 1) | _ => false end.
Definition smallb (o : object) : bool :=
  forallb (fun p => forallb (fun f => match type_kind (pType p) with
    | KInt => negb (bytes_eqb (lit (pKey p)) (json_key (fst f)))
              || ((fst f =? "BlockDescriptorWord")%string && (bits_of (pType p) =? 32)) || existsb (small_field (pType p) (fst f)) (doc_of o)
    | _ => true end) (obj_struct o)) (obj_schema o).
Lemma small o : smallb o = true.
Proof. destruct o as [| | |[]]; vm_compute; reflexivity. Qed.

Lemma object_dated o st : has_type (obj_struct o) st -> record_fits (doc_of o) st ->
  (forall z, holds st "BlockDescriptorWord" (VInt z) -> 0 <= z < 10000) -> (client_readable o st <-> all_dated o st).
Proof.
  intros T R B. split.
  - intros C p n P H. destruct (C p n _ P H) as [_ N]. now elim N.
  - intros D p n v P H. pose proof (property_kind o st p n v T P H) as K. split; [|intros ->; exact (D p n P H)].
    destruct v as [z|s|t]; cbn [fits_type kind_of] in *; [|auto|auto]. split; [congruence|].
    pose proof (small o) as Sm. unfold smallb in Sm. rewrite forallb_forall in Sm. destruct P as [Ip Ek]. specialize (Sm p Ip).
    rewrite forallb_forall in Sm. specialize (Sm _ (holds_kind o st n _ T H)). cbn [fst] in Sm. rewrite <- K, Ek, bytes_eqb_refl in Sm. cbn [negb orb] in Sm.
    apply orb_true_iff in Sm as [Sm|Sm].
    + apply andb_true_iff in Sm as [E Eb]. apply String.eqb_eq in E. apply Z.eqb_eq in Eb. subst n. specialize (B z H). rewrite Eb. change (2 ^ (32 - 1)) with 2147483648. lia.
    + apply existsb_exists in Sm as (d & Id & E). unfold small_field in E. apply andb_true_iff in E as [E W]. apply String.eqb_eq in E. subst n.
      destruct (R d Id) as (v & Hv & F); [intros X; rewrite X in W; discriminate|].
      assert (v = VInt z) as -> by (apply (holds_lookup o) in Hv, H; try assumption; congruence).
      unfold fits in F. destruct (dKind d); try discriminate W. apply Z.leb_le in W. destruct F as [F _]. lia.
Qed.
Lemma file_dated k f : k <> PackedFile -> file_in k f -> (file_each client_readable f <-> file_each all_dated f).
Proof.
  intros N (h & bases & t & -> & ([Th Rh] & bh & rh & Hb & _ & Bh) & F & ([Tt Rt] & _) & _).
  assert (packed_of k = false) as Ep by (destruct k; [reflexivity|reflexivity|now elim N]). rewrite Ep in *.
  assert (forall o st z, has_type (obj_struct o) st -> holds st "BlockDescriptorWord" (VInt z) -> 0 <= z < 10000 ->
    forall z', holds st "BlockDescriptorWord" (VInt z') -> 0 <= z' < 10000) as Q.
  { intros o st z T H B z' H'. apply (holds_lookup o) in H, H'; try assumption. assert (z' = z) by congruence. lia. }
  assert (forall b, base_in k b -> (base_each client_readable b <-> base_each all_dated b)) as X.
  { intros b ([[Tb _] [Rb Gb]] & bdw & rdw & Hbd & _ & Bd). rewrite Ep in Rb. rewrite Forall_forall in Gb.
    assert (client_readable OBase (bFields b) <-> all_dated OBase (bFields b)) as Xb.
    { apply object_dated; [assumption|assumption|]. apply (Q OBase _ bdw Tb Hbd). destruct k; [lia| |now elim N]. destruct Bd as [-> Bd]. pose proof (Zle_0_nat 0). unfold base_size in *. split; [|lia].
      apply Z.le_trans with (Z.of_nat (record_size false + segs_size (segments_of b)) + 4); lia. }
    unfold base_each. rewrite Xb. split; intros [A C]; (split; [assumption|]); intros s I; specialize (C s I); destruct (Gb s I) as ([Ts Rs] & _);
      apply (object_dated (OSegment (sKind s))); try assumption; intros z Hz; apply (holds_kind (OSegment (sKind s)) _ _ _ Ts) in Hz; destruct (sKind s); vm_compute in Hz; intuition discriminate. }
  unfold file_each, file_of. cbn [flHeader flBases flTrailer record_each]. rewrite Ep. rewrite !Forall_map. cbn [record_each].
  rewrite (object_dated OHeader h), (object_dated OTrailer t); try assumption.
  - assert (Forall (base_each client_readable) bases <-> Forall (base_each all_dated) bases) as ->; [|reflexivity].
    rewrite !Forall_forall in *. split; intros A b I; apply X; auto.
  - intros z Hz. apply (holds_kind OTrailer _ _ _ Tt) in Hz. vm_compute in Hz. intuition discriminate.
  - apply (Q OHeader h bh Th Hb). destruct k; [lia|lia|now elim N].
Qed.

(* ---- what gets lost ---- *)

(* what a client object has for the properties the library does not keep does
   not count *)
Lemma unknown_lost o c c' st : client_object o c' -> (forall k v, ~ In k (unknown_properties o) -> (In (k, Some v) c <-> In (k, Some v) c')) ->
  stands_for o c st -> stands_for o c' st.
Proof.
  intros C S [T H]. split; [assumption|]. intros n v Hn.
  assert (forall p w, property_of o p n -> (In (pKey p, Some w) c <-> In (pKey p, Some w) c')) as Q.
  { intros p w P. apply S. intros U. apply (proj1 (schema_fields o p (proj1 P))); [|exact U]. exists n. rewrite <- (property_kind o st p n v T P Hn).
    split; [now apply (holds_kind o st)|apply P]. }
  destruct (H n v Hn) as [(p & P & I)|[A L]]; [left; exists p; split; [assumption|now apply Q]|]. right. split; [|assumption].
  intros p w P I. apply Q in I; [|assumption]. exact (A p w P I).
Qed.
(* and the client sees nothing of the fields that are not published *)
Lemma unpublished_lost o st st' c : (forall n v, ~ In n (unpublished_fields o) -> (holds st n v <-> holds st' n v)) ->
  has_type (obj_struct o) st -> receives o st c -> receives o st' c.
Proof.
  intros S T [C H]. split; [assumption|]. intros p Ip. destruct (H p Ip) as [(n & v & P & Hn & X)|U]; [left|now right].
  exists n, v. split; [assumption|]. split; [|assumption]. apply S; [|assumption]. apply (schema_publishes o n _ (holds_kind o st n v T Hn)). eauto.
Qed.
