(* The texts of errors *)
From Coq Require Import ZArith NArith Bool Ascii String List Lia.
Import ListNotations.
From Verif Require Import GoBase GoBaseFacts Tables Codec Records Errors SpecReport FieldFacts.
Local Open Scope string_scope.
Local Open Scope list_scope.
Local Notation length := List.length.

(* ---- letters ---- *)

Lemma small_letter_lower c : lower_char c = small_letter c.
Proof. reflexivity. Qed.

Lemma lower_separator c : separator (lower_char c) = separator c.
Proof. destruct c as [[] [] [] [] [] [] [] []]; reflexivity. Qed.
Lemma small_twice c : small_letter (small_letter c) = small_letter c.
Proof. destruct c as [[] [] [] [] [] [] [] []]; reflexivity. Qed.

Lemma plain_cons c s : plain (c :: s) = if separator c then plain s else small_letter c :: plain s.
Proof. unfold plain. cbn [filter]. destruct (separator c); reflexivity. Qed.

Lemma plain_lower s : plain (to_lower s) = plain s.
Proof.
  induction s as [|c s IH]; [reflexivity|]. cbn [to_lower map]. fold (to_lower s).
  rewrite !plain_cons, lower_separator, IH. destruct (separator c); [reflexivity|]. f_equal. apply small_twice.
Qed.

Lemma list_pairs (P : bytes -> Prop) : P [] -> (forall c, P [c]) ->
  (forall c u t, P t -> P (u :: t) -> P (c :: u :: t)) -> forall s, P s.
Proof.
  intros H0 H1 H2. assert (forall s, P s /\ forall c, P (c :: s)) as H.
  { induction s as [|c s [IH1 IH2]]; [auto|]. split; [apply IH2|]. intros d. apply H2; [exact IH1|apply IH2]. }
  intros s. apply H.
Qed.

Lemma plain_all_caps s : plain (all_caps s) = plain s.
Proof.
  induction s as [|c|c u t IH1 IH2] using list_pairs; [reflexivity|reflexivity|].
  cbn [all_caps]. cbn [all_caps] in IH2. destruct ((low c || dig c) && cap u).
  - rewrite (plain_cons c (u :: t)), (plain_cons u t), <- IH1, !plain_cons. reflexivity.
  - rewrite (plain_cons c (u :: t)), <- IH2. apply plain_cons.
Qed.

Lemma plain_first_caps s : forall b, plain (first_caps b s) = plain s.
Proof.
  induction s as [|c|c u t IH1 IH2] using list_pairs; intros b.
  - reflexivity.
  - cbn. destruct (b && low c); reflexivity.
  - cbn [first_caps]. destruct (b && low c).
    + rewrite (plain_cons c (u :: t)), <- (IH2 true). apply plain_cons.
    + destruct (_ && _ && _).
      * rewrite (plain_cons c (u :: t)), (plain_cons u t), <- (IH1 true), !plain_cons. reflexivity.
      * rewrite (plain_cons c (u :: t)), <- (IH2 false). apply plain_cons.
Qed.

Lemma snake_letters s : plain (to_snake_case s) = letters s.
Proof. unfold to_snake_case. rewrite plain_lower, plain_all_caps, plain_first_caps. reflexivity. Qed.
Lemma snake_small s : map small_letter (to_snake_case s) = to_snake_case s.
Proof.
  unfold to_snake_case, to_lower. rewrite map_map. apply map_ext. intros c. apply small_twice.
Qed.

(* ---- words ---- *)

Lemma cap_capital c : capital c <-> cap c = true.
Proof. unfold capital, cap. rewrite andb_true_iff, !Nat.leb_le. tauto. Qed.
Lemma low_small c : small c <-> low c = true.
Proof. unfold small, low. rewrite andb_true_iff, !Nat.leb_le. tauto. Qed.
Lemma cap_not_low c : cap c = true -> low c = false /\ dig c = false.
Proof. destruct c as [[] [] [] [] [] [] [] []]; try discriminate; split; reflexivity. Qed.
Lemma low_not_cap c : low c = true -> cap c = false /\ byte_eqb c lf_char = false.
Proof. destruct c as [[] [] [] [] [] [] [] []]; try discriminate; split; reflexivity. Qed.

(* the text after a word: nothing, or a capital letter *)
Definition fresh (t : bytes) : Prop := match t with [] => True | c :: _ => cap c = true end.

Lemma first_fresh t b : fresh t -> first_caps b t = first_caps false t.
Proof.
  destruct t as [|c t]; [reflexivity|]. cbn [fresh first_caps]. intros H. destruct (cap_not_low c H) as [-> _].
  rewrite andb_false_r. reflexivity.
Qed.
Lemma first_lows ls t : Forall (fun c => low c = true) ls -> fresh t -> first_caps true (ls ++ t) = ls ++ first_caps false t.
Proof.
  induction 1 as [|c ls L H IH]; intros F; [apply first_fresh; exact F|]. cbn [app first_caps]. rewrite L. cbn [andb].
  rewrite IH by exact F. reflexivity.
Qed.
(* no capital letter within a run of small letters; the last one is before a capital *)
Lemma first_before ls c x t : ls <> [] -> Forall (fun c => low c = true) ls -> cap c = true -> low x = true ->
  first_caps false (ls ++ c :: x :: t) = ls ++ "_"%char :: c :: first_caps true (x :: t).
Proof.
  intros N H C L. induction H as [|d ls D H IH]; [congruence|]. cbn [app first_caps andb].
  destruct ls as [|d' ls].
  - cbn [app]. destruct (low_not_cap d D) as [_ ->]. rewrite C, L. cbn [negb andb first_caps]. rewrite ?L. reflexivity.
  - inversion H; subst. destruct (low_not_cap d' H2) as [E _]. cbn [app]. rewrite E. rewrite andb_false_r. cbn [andb].
    f_equal. apply IH. discriminate.
Qed.

Lemma first_single ls : Forall (fun c => low c = true) ls -> first_caps false ls = ls.
Proof.
  induction 1 as [|d ls D H IH]; [reflexivity|]. cbn [first_caps andb]. destruct ls as [|d' ls]; [reflexivity|].
  inversion H; subst. destruct (low_not_cap d' H2) as [E _]. rewrite E, andb_false_r. cbn [andb]. f_equal. exact IH.
Qed.

Lemma all_lows ls t : Forall (fun c => low c = true) ls -> ls <> [] ->
  all_caps (ls ++ "_"%char :: t) = ls ++ "_"%char :: all_caps t.
Proof.
  intros H N. induction H as [|d ls D H IH]; [congruence|]. destruct ls as [|d' ls].
  - cbn [app all_caps]. rewrite andb_false_r. destruct t as [|u t]; reflexivity.
  - inversion H; subst. destruct (low_not_cap d' H2) as [E _].
    transitivity (d :: all_caps ((d' :: ls) ++ "_"%char :: t)); [|rewrite IH by discriminate; reflexivity].
    cbn [app all_caps]. rewrite E, andb_false_r. reflexivity.
Qed.
Lemma all_single ls : Forall (fun c => low c = true) ls -> all_caps ls = ls.
Proof.
  induction 1 as [|d ls D H IH]; [reflexivity|]. cbn [all_caps]. destruct ls as [|d' ls]; [reflexivity|].
  inversion H; subst. destruct (low_not_cap d' H2) as [E _]. rewrite E, andb_false_r. f_equal. exact IH.
Qed.
Lemma all_cap c t : cap c = true -> all_caps (c :: t) = c :: all_caps t.
Proof.
  intros C. destruct (cap_not_low c C) as [E1 E2]. cbn [all_caps]. destruct t as [|u t]; [reflexivity|].
  rewrite E1, E2. reflexivity.
Qed.
Lemma all_before ls c t : Forall (fun c => low c = true) ls -> ls <> [] -> cap c = true ->
  all_caps (ls ++ c :: t) = ls ++ "_"%char :: all_caps (c :: t).
Proof.
  intros H N C. rewrite (all_cap c t C). induction H as [|d ls D H IH]; [congruence|]. destruct ls as [|d' ls].
  - cbn [app all_caps]. rewrite D, C. reflexivity.
  - inversion H; subst. destruct (low_not_cap d' H2) as [E _].
    transitivity (d :: all_caps ((d' :: ls) ++ c :: t)); [|rewrite IH by discriminate; reflexivity].
    cbn [app all_caps]. rewrite E, andb_false_r. reflexivity.
Qed.

Fixpoint joined (ws : list bytes) : bytes :=
  match ws with
  | [] => []
  | [w] => w
  | w :: ws' => w ++ "_"%char :: joined ws'
  end.

Lemma two_words (P : list bytes -> Prop) : P [] -> (forall w, P [w]) -> (forall w v ws, P ws -> P (w :: v :: ws)) -> forall ws, P ws.
Proof.
  intros H0 H1 H2. assert (forall ws, P ws /\ forall w, P (w :: ws)) as H.
  { induction ws as [|v ws [IH1 IH2]]; [auto|]. split; [apply IH2|]. intros w. apply H2. exact IH1. }
  intros ws. apply H.
Qed.

Lemma words_fresh ws : Forall word ws -> fresh (concat ws).
Proof.
  destruct 1 as [|w ws (c & x & r & -> & C & _) _]; [exact I|]. cbn. apply cap_capital. exact C.
Qed.
Lemma first_head t c r : fresh t -> t = c :: r -> exists r', first_caps false t = c :: r'.
Proof.
  intros _ ->. cbn [first_caps andb]. destruct r as [|u r]; [eauto|]. destruct (_ && _ && _); eauto.
Qed.

Lemma snake_words_bytes ws : Forall word ws -> all_caps (first_caps false (concat ws)) = joined ws.
Proof.
  induction ws as [|w|w v ws IH] using two_words; intros H.
  - reflexivity.
  - inversion H as [|? ? (c & x & r & -> & C & S) _]; subst. cbn [concat joined]. rewrite app_nil_r.
    apply cap_capital in C. assert (Forall (fun c => low c = true) (x :: r)) as L
      by (revert S; apply Forall_impl; intros d; apply low_small).
    transitivity (all_caps (c :: first_caps false (x :: r))).
    + f_equal. inversion L as [|? ? Lx _]; subst. destruct (low_not_cap x Lx) as [E _].
      cbn [first_caps andb]. rewrite E, andb_false_r. reflexivity.
    + rewrite first_single by exact L. rewrite all_cap by exact C. rewrite all_single by exact L. reflexivity.
  - inversion H as [|? ? (c & x & r & -> & C & S) H']; subst. inversion H' as [|? ? (c' & x' & r' & -> & C' & S') H'']; subst.
    specialize (IH H''). apply cap_capital in C, C'.
    assert (Forall (fun c => low c = true) (x :: r)) as L by (revert S; apply Forall_impl; intros d; apply low_small).
    assert (Forall (fun c => low c = true) (x' :: r')) as L' by (revert S'; apply Forall_impl; intros d; apply low_small).
    inversion L as [|? ? Lx _]; subst. inversion L' as [|? ? Lx' _]; subst.
    assert (first_caps false (concat ((c :: x :: r) :: (c' :: x' :: r') :: ws))
      = (c :: x :: r) ++ "_"%char :: (c' :: x' :: r') ++ first_caps false (concat ws)) as ->.
    { transitivity (c :: first_caps false ((x :: r) ++ c' :: x' :: (r' ++ concat ws))).
      - cbn [concat app]. destruct (low_not_cap x Lx) as [E _]. cbn [first_caps andb]. rewrite E, andb_false_r. reflexivity.
      - rewrite (first_before (x :: r) c' x' (r' ++ concat ws)) by (discriminate || assumption).
        change (x' :: r' ++ concat ws) with ((x' :: r') ++ concat ws).
        rewrite first_lows by (exact L' || apply words_fresh; exact H''). reflexivity. }
    change ((c :: x :: r) ++ "_"%char :: (c' :: x' :: r') ++ first_caps false (concat ws))
      with (c :: (x :: r) ++ "_"%char :: c' :: (x' :: r') ++ first_caps false (concat ws)).
    rewrite all_cap by exact C. rewrite all_lows by (exact L || discriminate). rewrite all_cap by exact C'.
    destruct ws as [|w2 ws].
    + cbn [concat]. change (first_caps false []) with (@nil byte). rewrite app_nil_r, all_single by exact L'. reflexivity.
    + destruct (concat (w2 :: ws)) as [|d t] eqn:Ec.
      { inversion H'' as [|? ? (? & ? & ? & -> & _) _]; subst. discriminate. }
      pose proof (words_fresh _ H'') as F. rewrite Ec in F. cbn [fresh] in F.
      destruct (first_head (d :: t) d t F eq_refl) as [t' Et]. rewrite Et in IH |- *.
      rewrite all_before by (exact L' || discriminate || exact F). rewrite IH. reflexivity.
Qed.

Lemma joined_lower ws : to_lower (joined ws) = underscored ws.
Proof.
  induction ws as [|w ws IH]; [reflexivity|]. destruct ws as [|v ws]; [reflexivity|].
  cbn [joined underscored] in *. unfold to_lower in *. rewrite map_app. cbn [map].
  change (lower_char "_") with "_"%char. rewrite <- IH. reflexivity.
Qed.

Lemma snake_words s ws : list_ascii_of_string s = concat ws -> Forall word ws -> to_snake_case s = underscored ws.
Proof.
  intros E H. unfold to_snake_case, lit. rewrite E, snake_words_bytes by exact H. apply joined_lower.
Qed.

(* ---- which error has a text ---- *)

(* the last characters of a text *)
Definition final (t : bytes) : bytes := firstn 19 (rev t).
Definition last_char (t : bytes) : bytes := firstn 1 (rev t).

Lemma final_text x s : (19 <= length s)%nat -> final (x ++ s) = final s.
Proof.
  intros L. unfold final. rewrite rev_app_distr, firstn_app, rev_length.
  replace (19 - length s)%nat with 0%nat by lia. cbn [firstn]. apply app_nil_r.
Qed.
Lemma last_text x s : (1 <= length s)%nat -> last_char (x ++ s) = last_char s.
Proof.
  intros L. unfold last_char. rewrite rev_app_distr, firstn_app, rev_length.
  replace (1 - length s)%nat with 0%nat by lia. cbn [firstn]. apply app_nil_r.
Qed.

Fixpoint is_prefix (p s : bytes) : bool :=
  match p, s with
  | [], _ => true
  | a :: p', b :: s' => byte_eqb a b && is_prefix p' s'
  | _ :: _, [] => false
  end.
Lemma prefix_app p q x y : p ++ x = q ++ y -> is_prefix p q = true \/ is_prefix q p = true.
Proof.
  revert q. induction p as [|a p IH]; intros q E; [left; reflexivity|]. destruct q as [|b q]; [right; reflexivity|].
  cbn [app] in E. injection E as -> E. cbn [is_prefix]. rewrite !byte_eqb_refl. apply (IH q E).
Qed.

Definition ends (r : string) : bytes := rev (lit " in " ++ lit r).
Definition starts (r : string) : bytes := lit r ++ lit " has not".
Lemma titles_apart : forallb (fun r => forallb (fun r' =>
    String.eqb r r' || negb (is_prefix (ends r) (ends r')) && negb (is_prefix (starts r) (starts r'))) titles) titles = true.
Proof. vm_compute. reflexivity. Qed.
Lemma titles_differ r r' : In r titles -> In r' titles ->
  r = r' \/ is_prefix (ends r) (ends r') = false /\ is_prefix (starts r) (starts r') = false.
Proof.
  intros H H'. pose proof titles_apart as A. rewrite forallb_forall in A. specialize (A r H). rewrite forallb_forall in A.
  specialize (A r' H'). apply orb_prop in A as [A|A]; [left; apply String.eqb_eq; exact A|right].
  apply andb_prop in A as [A B]. apply negb_true_iff in A, B. auto.
Qed.

Lemma field_text_same f r f' r' w : In r titles -> In r' titles -> field_text f r w = field_text f' r' w ->
  names f f' /\ r = r'.
Proof.
  intros H H' E. unfold field_text in E. rewrite !app_assoc in E. apply app_inv_tail in E. rewrite <- !app_assoc in E.
  assert (r = r') as <-.
  { apply (f_equal (@rev byte)) in E. rewrite !rev_app_distr in E.
    assert (ends r ++ rev (to_snake_case f) = ends r' ++ rev (to_snake_case f')) as E'
      by (unfold ends; rewrite !rev_app_distr; exact E).
    destruct (titles_differ r r' H H') as [D|[D _]]; [exact D|]. destruct (titles_differ r' r H' H) as [D'|[D' _]]; [congruence|].
    apply prefix_app in E' as [E'|E']; congruence. }
  split; [|reflexivity]. apply app_inv_tail in E. unfold names. rewrite <- !snake_letters, E. reflexivity.
Qed.

Lemma applicable_same r s r' s' : In r titles -> In r' titles ->
  lit r ++ lit " has not applicable segment (" ++ lit s ++ lit ")" = lit r' ++ lit " has not applicable segment (" ++ lit s' ++ lit ")" ->
  r = r' /\ s = s'.
Proof.
  intros H H' E. assert (r = r') as <-.
  { change (lit " has not applicable segment (") with (lit " has not" ++ lit " applicable segment (") in E.
    assert (starts r ++ lit " applicable segment (" ++ lit s ++ lit ")" = starts r' ++ lit " applicable segment (" ++ lit s' ++ lit ")") as E'
      by (unfold starts; rewrite <- !app_assoc in *; exact E).
    destruct (titles_differ r r' H H') as [D|[_ D]]; [exact D|]. destruct (titles_differ r' r H' H) as [D'|[_ D']]; [congruence|].
    apply prefix_app in E' as [E'|E']; congruence. }
  split; [reflexivity|]. apply app_inv_head in E. apply app_inv_head in E. apply app_inv_tail in E.
  apply (f_equal string_of_list_ascii) in E. unfold lit in E. rewrite !string_of_list_ascii_of_string in E. exact E.
Qed.

(* the text of an applicable segment error starts with a title *)
Lemma applicable_other r x p y : In r titles -> In p ["has an"; "is an "] -> lit r ++ x <> lit p ++ y.
Proof.
  intros H P E. apply prefix_app in E.
  assert (forallb (fun r => forallb (fun p => negb (is_prefix (lit r) (lit p)) && negb (is_prefix (lit p) (lit r))) ["has an"; "is an "]) titles = true) as A
    by (vm_compute; reflexivity).
  rewrite forallb_forall in A. specialize (A r H). rewrite forallb_forall in A. specialize (A p P).
  apply andb_prop in A as [A B]. apply negb_true_iff in A, B. destruct E; congruence.
Qed.

Lemma lit_inj a b : lit a = lit b -> a = b.
Proof. intros E. apply (f_equal string_of_list_ascii) in E. unfold lit in E. rewrite !string_of_list_ascii_of_string in E. exact E. Qed.

(* what a text ends with *)
Definition finals (e : error) : bytes :=
  match e with
  | ErrInvalidMetroFile => final (lit "the file isn't metro file")
  | ErrFailedParsing => final (lit "is failed parsing raw data")
  | ErrBlockDescriptorWord => final (lit "should be block descriptor word")
  | ErrInvalidValueOfField _ _ => final (lit " has an invalid value")
  | ErrNonAlphanumeric _ _ => final (lit " has not alphanumeric characters")
  | ErrUpperAlpha _ _ => final (lit " has not uppercase A-Z or 0-9")
  | ErrNumeric _ _ => final (lit " has not numeric characters")
  | ErrFieldRequired _ _ => final (lit " is a required field")
  | ErrPhoneNumber _ => final (lit " has an invalid phone number")
  | ErrSegmentLength _ => final (lit " has an invalid length")
  | _ => []
  end.
Lemma some_same {A} (a b : A) : Some a = Some b -> a = b.
Proof. congruence. Qed.
Lemma text_ends e t : error_text e = Some t -> exists x s, t = x ++ s
  /\ (finals e = final s /\ (19 <= length s)%nat \/ finals e = [] /\ s = lit ")").
Proof.
  assert (forall x s f, f = final s -> (19 <= length s)%nat -> exists y z, x ++ s = y ++ z
    /\ (f = final z /\ (19 <= length z)%nat \/ f = [] /\ z = lit ")")) as A by (intros x s f E L; exists x, s; auto).
  assert (forall x, exists y z, x ++ lit ")" = y ++ z
    /\ (@nil byte = final z /\ (19 <= length z)%nat \/ @nil byte = [] /\ z = lit ")")) as B by (intros x; exists x, (lit ")"); auto).
  destruct e; cbn [error_text finals]; intros H; try discriminate H; apply some_same in H; subst t; unfold field_text.
  all: try (rewrite ?app_assoc; apply A; [reflexivity|vm_compute; lia]).
  all: try (apply (A []); [reflexivity|vm_compute; lia]).
  all: rewrite !app_assoc; apply B.
Qed.
Lemma text_final e t : error_text e = Some t -> finals e <> [] -> final t = finals e.
Proof.
  intros H N. destruct (text_ends e t H) as (x & s & -> & [[-> L]|[E _]]); [apply final_text; exact L|congruence].
Qed.
Lemma text_last e t : error_text e = Some t -> last_char t = match finals e with [] => lit ")" | x => firstn 1 x end.
Proof.
  intros H. destruct (text_ends e t H) as (x & s & -> & [[E L]|[-> ->]]).
  - rewrite last_text by lia. rewrite E. unfold last_char, final. pose proof (rev_length s) as R.
    destruct (rev s) as [|c r]; [cbn in R; lia|]. reflexivity.
  - apply last_text. vm_compute. lia.
Qed.

Lemma text_tells e e' t : well_titled e -> well_titled e' -> error_text e = Some t -> error_text e' = Some t ->
  same_complaint e e'.
Proof.
  intros W W' E E'.
  assert (finals e = finals e') as F.
  { pose proof (text_last e t E) as L. rewrite (text_last e' t E') in L.
    destruct (finals e) as [|c x] eqn:Fe, (finals e') as [|c' x'] eqn:Fe'; [reflexivity|exfalso..|].
    - destruct e'; vm_compute in Fe'; try discriminate Fe'; injection Fe' as <- <-; discriminate L.
    - destruct e; vm_compute in Fe; try discriminate Fe; injection Fe as <- <-; discriminate L.
    - rewrite <- Fe, <- Fe'. rewrite <- (text_final e t E), <- (text_final e' t E') by congruence. reflexivity. }
  destruct e; cbn [error_text] in E; try discriminate E; apply some_same in E; subst t;
    destruct e'; cbn [error_text] in E'; try discriminate E'; try (vm_compute in F; discriminate F);
    apply some_same in E'; cbn [well_titled same_complaint] in *; symmetry in E';
    try reflexivity; try (apply field_text_same in E'; assumption).
  - apply app_inv_head in E'. apply app_inv_tail in E'. f_equal. apply lit_inj. exact E'.
  - apply app_inv_tail in E'. f_equal. apply lit_inj. exact E'.
  - apply app_inv_head in E'. apply app_inv_tail in E'. congruence.
  - exfalso. symmetry in E'. change (lit "has an invalid segment (") with (lit "has an" ++ lit " invalid segment (") in E'.
    rewrite <- app_assoc in E'. revert E'. apply applicable_other; [exact W'|cbn; auto].
  - apply app_inv_head in E'. apply app_inv_tail in E'. congruence.
  - exfalso. symmetry in E'. change (lit "is an invalid record (") with (lit "is an " ++ lit "invalid record (") in E'.
    rewrite <- app_assoc in E'. revert E'. apply applicable_other; [exact W'|cbn; auto].
  - exfalso. change (lit "has an invalid segment (") with (lit "has an" ++ lit " invalid segment (") in E'.
    rewrite <- app_assoc in E'. revert E'. apply applicable_other; [exact W|cbn; auto].
  - exfalso. change (lit "is an invalid record (") with (lit "is an " ++ lit "invalid record (") in E'.
    rewrite <- app_assoc in E'. revert E'. apply applicable_other; [exact W|cbn; auto].
  - apply applicable_same in E' as [-> ->]; auto.
Qed.
