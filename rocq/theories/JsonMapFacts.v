(* Facts about JsonFile.v: objects as maps *)
From Coq Require Import ZArith NArith Bool Ascii String List Lia Permutation Sorted.
Import ListNotations.
From Verif Require Import GoBase GoBaseFacts GoTime TimeFacts GoLayout Json Tables Codec Records File JsonFile SpecCodec SpecJson JsonTextFacts.
Local Open Scope string_scope.
Local Open Scope Z_scope.
Local Open Scope list_scope.
Local Notation length := List.length.

(* ---- the order of keys ---- *)

Lemma cmp_refl a : bytes_cmp a a = Eq.
Proof. induction a as [|x a IH]; [reflexivity|]. cbn. now rewrite Z.compare_refl. Qed.
Lemma cmp_eq a : forall b, bytes_cmp a b = Eq -> a = b.
Proof.
  induction a as [|x a IH]; intros [|y b]; cbn; try congruence. destruct (Z.compare_spec (bval x) (bval y)) as [E|E|E]; try congruence.
  intros H. f_equal; [now apply bval_inj|now apply IH].
Qed.
Lemma cmp_opp a : forall b, bytes_cmp b a = CompOpp (bytes_cmp a b).
Proof.
  induction a as [|x a IH]; intros [|y b]; try reflexivity. cbn. rewrite (Z.compare_antisym (bval x) (bval y)).
  destruct (bval x ?= bval y); cbn; [apply IH|reflexivity|reflexivity].
Qed.
Lemma cmp_trans a : forall b c, bytes_cmp a b = Lt -> bytes_cmp b c = Lt -> bytes_cmp a c = Lt.
Proof.
  induction a as [|x a IH]; intros [|y b] [|z c]; cbn; try congruence.
  destruct (Z.compare_spec (bval x) (bval y)) as [E|E|E]; destruct (Z.compare_spec (bval y) (bval z)) as [E'|E'|E']; try congruence; intros H H'.
  - rewrite E, E', Z.compare_refl. now apply (IH b).
  - rewrite E. rewrite (proj2 (Z.compare_lt_iff _ _)) by lia. reflexivity.
  - rewrite <- E'. rewrite (proj2 (Z.compare_lt_iff _ _)) by lia. reflexivity.
  - rewrite (proj2 (Z.compare_lt_iff _ _)) by lia. reflexivity.
Qed.

Definition before (x y : bytes * json) : Prop := bytes_cmp (fst x) (fst y) = Lt.
Definition sorted := StronglySorted before.

Lemma before_trans x y z : before x y -> before y z -> before x z.
Proof. apply cmp_trans. Qed.
Lemma before_irrefl x : ~ before x x.
Proof. unfold before. rewrite cmp_refl. discriminate. Qed.

Lemma sorted_nodup l : sorted l -> NoDup (map fst l).
Proof.
  induction 1 as [|x l S IH F]; [constructor|]. cbn [map]. constructor; [|assumption].
  intros I. apply in_map_iff in I as (y & E & I). rewrite Forall_forall in F. specialize (F y I). unfold before in F.
  rewrite E, cmp_refl in F. discriminate.
Qed.

Lemma put_in k v l y : In y (put_member k v l) -> y = (k, v) \/ In y l.
Proof.
  induction l as [|[k' v'] l IH]; cbn [put_member]; [intros [<-|[]]; now left|].
  destruct (bytes_cmp k k'); cbn; intuition congruence.
Qed.

Lemma put_sorted k v l : sorted l -> sorted (put_member k v l).
Proof.
  induction 1 as [|[k' v'] l S IH F]; cbn [put_member]; [repeat constructor|].
  destruct (bytes_cmp k k') eqn:E.
  - apply cmp_eq in E. subst. constructor; [assumption|]. exact F.
  - constructor; [constructor; assumption|]. constructor; [exact E|].
    eapply Forall_impl; [|exact F]. intros y Hy. apply (before_trans _ (k', v')); [exact E|exact Hy].
  - constructor; [assumption|]. rewrite Forall_forall in *. intros y I. destruct (put_in _ _ _ _ I) as [->|I'].
    + unfold before. cbn. rewrite cmp_opp, E. reflexivity.
    + auto.
Qed.

Lemma put_new k v l : ~ In k (map fst l) -> Permutation ((k, v) :: l) (put_member k v l).
Proof.
  induction l as [|[k' v'] l IH]; cbn [put_member map]; intros N; [reflexivity|].
  destruct (bytes_cmp k k') eqn:E.
  - apply cmp_eq in E. exfalso. apply N. left. symmetry. exact E.
  - reflexivity.
  - rewrite perm_swap. constructor. apply IH. intros I. apply N. now right.
Qed.

Lemma put_fold l : forall acc, NoDup (map fst (l ++ acc)) -> sorted acc ->
  let r := fold_left (fun acc m => put_member (fst m) (snd m) acc) l acc in Permutation (l ++ acc) r /\ sorted r.
Proof.
  induction l as [|[k v] l IH]; intros acc N S; cbn [fold_left app fst snd]; [split; [reflexivity|assumption]|].
  cbn [app map fst] in N. inversion N as [|? ? N1 N2]; subst.
  assert (Permutation ((k, v) :: acc) (put_member k v acc)) as P.
  { apply put_new. intros I. apply N1. rewrite map_app. apply in_or_app. now right. }
  assert (Permutation ((k, v) :: l ++ acc) (l ++ put_member k v acc)) as Q.
  { rewrite <- P. apply Permutation_middle. }
  destruct (IH (put_member k v acc)) as [P' S'].
  - eapply Permutation_NoDup; [|exact N]. change (k :: map fst (l ++ acc)) with (map fst ((k, v) :: l ++ acc)). apply Permutation_map. exact Q.
  - apply put_sorted. assumption.
  - split; [|assumption]. rewrite Q. exact P'.
Qed.

Lemma put_members_perm l : NoDup (map fst l) -> Permutation l (put_members l).
Proof.
  intros N. destruct (put_fold l []) as [P _]; [now rewrite app_nil_r|constructor|]. now rewrite app_nil_r in P.
Qed.
Lemma put_members_sorted l : sorted (put_members l).
Proof.
  unfold put_members. assert (sorted []) as S by constructor. revert S. generalize (@nil (bytes * json)). induction l as [|m l IH]; intros acc S; [assumption|].
  cbn [fold_left]. apply IH. apply put_sorted. assumption.
Qed.

Lemma sorted_unique l : forall l', sorted l -> sorted l' -> Permutation l l' -> l = l'.
Proof.
  induction l as [|x l IH]; intros l' S S' P.
  - symmetry. now apply Permutation_nil.
  - destruct l' as [|y l']; [symmetry in P; now apply Permutation_nil in P|].
    inversion S as [|? ? S1 F]; subst. inversion S' as [|? ? S1' F']; subst.
    assert (x = y) as <-.
    { assert (In x (y :: l')) as I by (eapply Permutation_in; [exact P|now left]).
      assert (In y (x :: l)) as J by (eapply Permutation_in; [symmetry; exact P|now left]).
      destruct I as [<-|I]; [reflexivity|]. destruct J as [->|J]; [reflexivity|].
      rewrite Forall_forall in F, F'. exfalso. apply (before_irrefl x). eapply before_trans; [apply F|apply F']; eassumption. }
    f_equal. apply IH; [assumption|assumption|]. eapply Permutation_cons_inv; exact P.
Qed.

Lemma put_members_unique l l' : NoDup (map fst l) -> Permutation l l' -> put_members l = put_members l'.
Proof.
  intros N P. apply sorted_unique; try apply put_members_sorted.
  rewrite <- put_members_perm by assumption. rewrite P. apply put_members_perm.
  eapply Permutation_NoDup; [apply Permutation_map; exact P|assumption].
Qed.

(* ---- json.Unmarshal into an interface and json.Marshal of it ---- *)

Fixpoint traverse {A B} (f : A -> option B) (l : list A) : option (list B) :=
  match l with
  | [] => Some []
  | x :: r => match f x, traverse f r with Some y, Some s => Some (y :: s) | _, _ => None end
  end.
Definition remarshal_member (rt : runtime) (m : bytes * json) : option (bytes * json) :=
  option_map (pair (clean (fst m))) (remarshal rt (snd m)).

Lemma remarshal_arr rt l : remarshal rt (JArr l) = option_map JArr (traverse (remarshal rt) l).
Proof.
  cbn [remarshal]. f_equal. induction l as [|j l IH]; [reflexivity|]. cbn [traverse]. rewrite <- IH. reflexivity.
Qed.
Lemma remarshal_obj rt l : remarshal rt (JObj l) = option_map (fun l => JObj (put_members l)) (traverse (remarshal_member rt) l).
Proof.
  cbn [remarshal]. f_equal. induction l as [|[k j] l IH]; [reflexivity|]. cbn [traverse]. rewrite <- IH.
  unfold remarshal_member. cbn [fst snd]. destruct (remarshal rt j); reflexivity.
Qed.

Lemma traverse_ext {A B} (f g : A -> option B) l : Forall (fun x => f x = g x) l -> traverse f l = traverse g l.
Proof. induction 1 as [|x l H _ IH]; [reflexivity|]. cbn. now rewrite H, IH. Qed.

Lemma traverse_two {A B} (f g : A -> option B) l m : Forall2 (fun x y => f x = g y) l m -> traverse f l = traverse g m.
Proof. induction 1 as [|x y l m H _ IH]; [reflexivity|]. cbn. now rewrite H, IH. Qed.

Lemma traverse_perm {A B} (f : A -> option B) l l' : Permutation l l' ->
  match traverse f l, traverse f l' with
  | Some a, Some b => Permutation a b
  | None, None => True
  | _, _ => False
  end.
Proof.
  induction 1 as [|x l l' P IH|x y l|l1 l2 l3 P1 IH1 P2 IH2]; cbn [traverse].
  - constructor.
  - destruct (f x), (traverse f l), (traverse f l'); try tauto; try constructor; assumption.
  - destruct (f x), (f y), (traverse f l); try tauto. apply perm_swap.
  - destruct (traverse f l1), (traverse f l2), (traverse f l3); try tauto. etransitivity; eassumption.
Qed.

Lemma traverse_keys rt l l' : traverse (remarshal_member rt) l = Some l' -> map fst l' = map (fun m => clean (fst m)) l.
Proof.
  revert l'. induction l as [|[k j] l IH]; intros l'; cbn [traverse]; [intros [= <-]; reflexivity|].
  unfold remarshal_member at 1. cbn [fst snd]. destruct (remarshal rt j); [|discriminate]. cbn [option_map].
  destruct (traverse (remarshal_member rt) l) as [r|]; [|discriminate]. intros [= <-]. cbn. f_equal. now apply IH.
Qed.

Lemma clean_keys (l : list (bytes * json)) : Forall (fun m => utf8_text (fst m)) l -> map (fun m => clean (fst m)) l = map fst l.
Proof. induction 1 as [|m l H _ IH]; [reflexivity|]. cbn. rewrite utf8_text_clean by assumption. now rewrite IH. Qed.

Lemma Forall2_keys {A B} (R : A -> B -> Prop) (l : list (bytes * A)) (m : list (bytes * B)) :
  Forall2 (fun x y => fst x = fst y /\ R (snd x) (snd y)) l m -> map fst l = map fst m.
Proof. induction 1 as [|x y l m [E _] _ IH]; [reflexivity|]. cbn. now rewrite E, IH. Qed.

Lemma remarshal_same rt j : forall j', same_json j j' -> remarshal rt j = remarshal rt j'.
Proof.
  induction j using json_induction; intros j' S; inversion S as [| | | |l0 l1 F|l0 m l1 N U F P]; subst; try reflexivity.
  - rewrite !remarshal_arr. f_equal. apply traverse_two. clear S.
    induction F as [|x y l0 m Hxy F IH]; constructor; inversion H; subst; auto.
  - rewrite !remarshal_obj.
    assert (traverse (remarshal_member rt) l = traverse (remarshal_member rt) m) as ->.
    { apply traverse_two. clear - H F.
      induction F as [|x y l0 m0 [Hk Hxy] F IH]; constructor; inversion H; subst.
      - unfold remarshal_member. rewrite Hk. f_equal. auto.
      - apply IH; assumption. }
    pose proof (traverse_perm (remarshal_member rt) m l1 P) as T.
    destruct (traverse (remarshal_member rt) m) as [a|] eqn:Ea, (traverse (remarshal_member rt) l1) as [b|] eqn:Eb; try tauto; try reflexivity.
    cbn [option_map]. do 2 f_equal. apply put_members_unique; [|assumption].
    rewrite (traverse_keys rt m a Ea). rewrite clean_keys; rewrite <- ?(Forall2_keys _ _ _ F); [assumption|].
    clear - U F. induction F as [|x y l0 m0 [Hk _] F IH]; constructor; inversion U; subst; [rewrite <- Hk; assumption|apply IH; assumption].
Qed.

(* ---- the canonical form of a plain value ---- *)

Fixpoint norm (j : json) : json :=
  match j with
  | JArr l => JArr (map norm l)
  | JObj l => JObj (put_members (map (fun m => (fst m, norm (snd m))) l))
  | _ => j
  end.

Lemma exact_integer_itoa z : Z.abs z <= 2 ^ 53 -> exact_integer (itoa z) = true.
Proof.
  intros H. unfold exact_integer. rewrite parse_itoa by assumption. rewrite bytes_eqb_refl. apply Z.leb_le. assumption.
Qed.

Lemma traverse_some {A B} (f : A -> option B) g l : Forall (fun x => f x = Some (g x)) l -> traverse f l = Some (map g l).
Proof. induction 1 as [|x l H _ IH]; [reflexivity|]. cbn. now rewrite H, IH. Qed.

Lemma remarshal_plain rt j : plain_json j -> remarshal rt j = Some (norm j).
Proof.
  induction j using json_induction; intros P; inversion P as [| |z Hz|s0 Hs|l0 Fl|l0 N F]; subst; try reflexivity.
  - cbn [remarshal norm]. unfold renumber. rewrite exact_integer_itoa by assumption. reflexivity.
  - cbn [remarshal norm]. rewrite utf8_text_clean by assumption. reflexivity.
  - rewrite remarshal_arr. cbn [norm]. rewrite (traverse_some _ norm); [reflexivity|]. rewrite Forall_forall in *. intros x I. apply H; auto.
  - rewrite remarshal_obj. cbn [norm]. rewrite (traverse_some _ (fun m => (fst m, norm (snd m)))); [reflexivity|].
    rewrite Forall_forall in *. intros [k x] I. destruct (F _ I) as [U Px]. unfold remarshal_member. cbn [fst snd] in *.
    rewrite utf8_text_clean by assumption. pose proof (H _ I Px) as E. cbn [snd] in E. rewrite E. reflexivity.
Qed.

Lemma map_keys {A B} (f : A -> B) (l : list (bytes * A)) : map fst (map (fun m => (fst m, f (snd m))) l) = map fst l.
Proof. induction l as [|m l IH]; [reflexivity|]. cbn. now rewrite IH. Qed.

Lemma norm_plain j : plain_json j -> plain_json (norm j).
Proof.
  induction j using json_induction; intros P; inversion P as [| |z Hz|s0 Hs|l0 Fl|l0 N F]; subst; try (constructor; assumption).
  - cbn [norm]. constructor. rewrite Forall_forall in *. intros x I. apply in_map_iff in I as (y & <- & I). apply H; auto.
  - cbn [norm]. rewrite <- (map_keys norm) in N. pose proof (put_members_perm _ N) as Q. constructor.
    + eapply Permutation_NoDup; [apply Permutation_map; exact Q|assumption].
    + eapply Permutation_Forall; [exact Q|]. rewrite Forall_forall in *. intros x I. apply in_map_iff in I as ([k y] & <- & I). cbn [fst snd] in *.
      destruct (F _ I). split; [assumption|]. apply (H _ I). assumption.
Qed.

Lemma norm_same j : plain_json j -> same_json j (norm j).
Proof.
  induction j using json_induction; intros P; inversion P as [| |z Hz|s0 Hs|l0 Fl|l0 N F]; subst; try constructor.
  - clear P. induction l as [|x l IH]; [constructor|]. inversion H; inversion Fl; subst. cbn [map]. constructor; [auto|]. apply IH; assumption.
  - cbn [norm]. apply (SameObj l (map (fun m => (fst m, norm (snd m))) l)); [assumption| | |].
    + eapply Forall_impl; [|exact F]. intros m [U _]. exact U.
    + clear P N. induction l as [|[k x] l IH]; [constructor|]. inversion H; inversion F; subst. cbn [map fst snd] in *.
      constructor; [split; [reflexivity|]; cbn; tauto|]. apply IH; assumption.
    + apply put_members_perm. rewrite map_keys. assumption.
Qed.

Lemma norm_norm j : plain_json j -> norm (norm j) = norm j.
Proof.
  intros P. assert (Some (norm (norm j)) = Some (norm j)) as E; [|congruence].
  rewrite <- (remarshal_plain (mkRuntime (fun _ => None) (fun _ t => t) (fun _ l => l)) (norm j)) by (apply norm_plain; assumption).
  rewrite <- (remarshal_plain (mkRuntime (fun _ => None) (fun _ t => t) (fun _ l => l)) j) by assumption.
  symmetry. apply remarshal_same. apply norm_same. assumption.
Qed.

Lemma json_map_nodup rt j l : json_map rt j = Some l -> NoDup (map fst l).
Proof.
  unfold json_map. destruct j; cbn [remarshal]; try discriminate.
  - intros [= <-]. constructor.
  - destruct (renumber rt text); discriminate.
  - destruct ((fix go (l : list json) := _) l0); discriminate.
  - match goal with |- context [option_map _ ?X] => destruct X as [x|]; [|discriminate] end. cbn.
    intros [= <-]. apply sorted_nodup. apply put_members_sorted.
Qed.

(* ---- results that do not depend on the order of the steps ---- *)

Fixpoint run_steps {A B} (step : A -> B -> res B) (l : list A) (b : B) : res B :=
  match l with
  | [] => Ok b
  | x :: r => match step x b with Ok b' => run_steps step r b' | e => e end
  end.

Lemma run_steps_perm {A B K} (key : A -> K) (step : A -> B -> res B) :
  (forall x y b b1 b2, key x <> key y -> step x b = Ok b1 -> step y b1 = Ok b2 ->
     exists b1', step y b = Ok b1' /\ step x b1' = Ok b2) ->
  forall l l', Permutation l l' -> NoDup (map key l) -> forall b b', run_steps step l b = Ok b' -> run_steps step l' b = Ok b'.
Proof.
  intros C l l' P. induction P as [|x l l' P IH|x y l|l1 l2 l3 P1 IH1 P2 IH2]; intros N b b' R.
  - exact R.
  - cbn [run_steps] in *. destruct (step x b) as [b1|e|]; try discriminate. inversion N; subst. apply IH; assumption.
  - cbn [run_steps] in *. destruct (step y b) as [b1|e|] eqn:E1; try discriminate. destruct (step x b1) as [b2|e|] eqn:E2; try discriminate.
    destruct (C y x b b1 b2) as (b1' & Ex & Ey).
    + inversion N as [|? ? N1 _]; subst. intros E. apply N1. left. symmetry. exact E.
    + exact E1.
    + exact E2.
    + rewrite Ex, Ey. exact R.
  - apply IH2; [eapply Permutation_NoDup; [apply Permutation_map; exact P1|assumption]|]. apply IH1; assumption.
Qed.

Lemma run_steps_app {A B} (step : A -> B -> res B) l l' b b' : run_steps step l b = Ok b' ->
  run_steps step (l ++ l') b = run_steps step l' b'.
Proof.
  revert b. induction l as [|x l IH]; intros b; cbn [run_steps app]; [intros [= ->]; reflexivity|].
  destruct (step x b); try discriminate. apply IH.
Qed.
