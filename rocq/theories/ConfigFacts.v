(* The address of the server a call goes to *)
From Coq Require Import ZArith NArith Bool Ascii String List Lia Permutation.
Import ListNotations.
From Verif Require Import GoBase GoBaseFacts ClientConfig SpecConfig.
Local Open Scope string_scope.
Local Open Scope Z_scope.
Local Open Scope list_scope.
Local Notation length := List.length.

(* ---- maps ---- *)

Lemma find_key_in {A} k (m : list (bytes * A)) a : find_key k m = Some a -> In (k, a) m.
Proof.
  unfold find_key. destruct (find _ m) as [[k' a']|] eqn:F; [|discriminate]. intros [= <-].
  apply find_some in F as [I E]. cbn in E. apply bytes_eqb_eq in E. subst. exact I.
Qed.

Lemma find_key_none {A} k (m : list (bytes * A)) : find_key k m = None <-> ~ In k (map fst m).
Proof.
  unfold find_key. split.
  - destruct (find _ m) as [p|] eqn:F; [discriminate|]. intros _ I. apply in_map_iff in I as ([k' a] & <- & I).
    pose proof (find_none _ _ F _ I) as N. cbn in N. apply bytes_eqb_neq in N. contradiction.
  - intros N. destruct (find _ m) as [[k' a]|] eqn:F; [|reflexivity]. destruct N. apply find_some in F as [I E].
    cbn in E. apply bytes_eqb_eq in E. subst. apply (in_map fst _ _ I).
Qed.

Lemma find_key_once {A} k (m : list (bytes * A)) a : keys_once m -> In (k, a) m -> find_key k m = Some a.
Proof.
  unfold keys_once. induction m as [|[k' a'] m IH]; [intros _ []|]. cbn [map fst]. intros N I.
  inversion N as [|? ? N1 N2]; subst. unfold find_key. cbn [find fst]. destruct (bytes_eqb k' k) eqn:E.
  - apply bytes_eqb_eq in E. subst. destruct I as [[= ->]|I]; [reflexivity|]. destruct N1. apply (in_map fst _ _ I).
  - apply bytes_eqb_neq in E. destruct I as [[= -> ->]|I]; [contradiction|]. apply (IH N2 I).
Qed.

(* ---- replacing ---- *)

Lemma starts_self p s : starts_with p (p ++ s) = true.
Proof. induction p as [|a p IH]; [reflexivity|]. cbn. rewrite IH, (proj2 (byte_eqb_eq a a) eq_refl). reflexivity. Qed.

(* two words before a closing brace *)
Lemma starts_closed n m r : braceless n -> braceless m ->
  starts_with (n ++ ["}"%char]) (m ++ "}"%char :: r) = true -> n = m.
Proof.
  revert m. induction n as [|a n IH]; intros [|b m] [N1 N2] [M1 M2].
  - reflexivity.
  - cbn [app starts_with]. intros H. apply andb_prop in H as [E _]. apply byte_eqb_eq in E. subst. destruct M2. left. reflexivity.
  - cbn [app starts_with]. intros H. apply andb_prop in H as [E _]. apply byte_eqb_eq in E. subst. destruct N2. left. reflexivity.
  - cbn [app starts_with]. intros H. apply andb_prop in H as [E H]. apply byte_eqb_eq in E. subst. f_equal. apply IH.
    + split; intros I; [apply N1|apply N2]; right; exact I.
    + split; intros I; [apply M1|apply M2]; right; exact I.
    + exact H.
Qed.

Lemma template_said t l : template (Said t :: l) = t ++ template l.
Proof. reflexivity. Qed.
Lemma template_place m l : template (Place m :: l) = "{"%char :: m ++ "}"%char :: template l.
Proof. unfold template. cbn [flat_map]. rewrite <- !app_assoc. reflexivity. Qed.

Section Replace.
Variables (n v : bytes).
Let old := "{"%char :: n ++ ["}"%char].

Lemma no_start c s : c <> "{"%char -> starts_with old (c :: s) = false.
Proof.
  intros N. unfold old. cbn [starts_with]. destruct (byte_eqb "{" c) eqn:E; [|reflexivity].
  apply byte_eqb_eq in E. subst. contradiction.
Qed.

Lemma replace_said t r : ~ In "{"%char t -> replace_all old v (t ++ r) 0 = t ++ replace_all old v r 0.
Proof.
  induction t as [|c t IH]; [reflexivity|]. intros N. cbn [app].
  change (replace_all old v (c :: t ++ r) 0) with
    (if starts_with old (c :: t ++ r) then v ++ replace_all old v (t ++ r) (pred (length old)) else c :: replace_all old v (t ++ r) 0).
  rewrite no_start by (intros ->; apply N; left; reflexivity). f_equal. apply IH. intros I. apply N. right. exact I.
Qed.

Lemma replace_skip : forall t r, replace_all old v (t ++ r) (length t) = replace_all old v r 0.
Proof. induction t as [|c t IH]; intros r; [reflexivity|]. cbn [app length replace_all]. apply IH. Qed.

Lemma replace_place m r : braceless n -> braceless m ->
  replace_all old v ("{"%char :: m ++ "}"%char :: r) 0
  = (if bytes_eqb m n then v else "{"%char :: m ++ ["}"%char]) ++ replace_all old v r 0.
Proof.
  intros Bn Bm.
  change (replace_all old v ("{"%char :: m ++ "}"%char :: r) 0) with
    (if starts_with old ("{"%char :: m ++ "}"%char :: r)
     then v ++ replace_all old v (m ++ "}"%char :: r) (pred (length old)) else "{"%char :: replace_all old v (m ++ "}"%char :: r) 0).
  destruct (bytes_eqb m n) eqn:E.
  - apply bytes_eqb_eq in E. subst m.
    replace ("{"%char :: n ++ "}"%char :: r) with (old ++ r) by (unfold old; cbn; rewrite <- app_assoc; reflexivity).
    rewrite starts_self. f_equal.
    replace (n ++ "}"%char :: r) with ((n ++ ["}"%char]) ++ r) by (rewrite <- app_assoc; reflexivity).
    apply (replace_skip (n ++ ["}"%char])).
  - destruct (starts_with old ("{"%char :: m ++ "}"%char :: r)) eqn:Q.
    + exfalso. unfold old in Q. cbn [starts_with] in Q. apply andb_prop in Q as [_ Q]. apply bytes_eqb_neq in E. apply E. symmetry. apply (starts_closed n m r); assumption.
    + cbn [app]. f_equal. rewrite replace_said by apply Bm. rewrite <- app_assoc. f_equal.
Qed.

Definition put (p : piece) : piece := match p with Said t => Said t | Place m => if bytes_eqb m n then Said v else Place m end.

Lemma replace_template l : braceless n -> Forall plain_piece l -> replace_all old v (template l) 0 = template (map put l).
Proof.
  intros Bn. induction l as [|p l IH]; [reflexivity|]. intros P. inversion P as [|? ? P1 P2]; subst.
  cbn [map]. destruct p as [t|m]; cbn [put].
  - rewrite !template_said, replace_said by apply P1. f_equal. apply IH. exact P2.
  - rewrite template_place, replace_place by assumption. rewrite (IH P2).
    destruct (bytes_eqb m n); [reflexivity|]. rewrite template_place. cbn [app]. rewrite <- app_assoc. reflexivity.
Qed.

Lemma put_plain l : braceless v -> Forall plain_piece l -> Forall plain_piece (map put l).
Proof.
  intros Bv P. induction P as [|p l P1 P2 IH]; [constructor|]. constructor; [|exact IH].
  destruct p as [t|m]; [exact P1|]. cbn. destruct (bytes_eqb m n); [exact Bv|exact P1].
Qed.
End Replace.

(* ---- filling ---- *)

Lemma unlisted_spec (v : server_variable) x : Nat.eqb (length (svEnum v)) 0 || existsb (bytes_eqb x) (svEnum v) = true <->
  ~ (svEnum v <> [] /\ ~ In x (svEnum v)).
Proof.
  destruct (svEnum v) as [|e l]; cbn [length Nat.eqb orb]; [split; [intros _ [N _]; contradiction|reflexivity]|].
  rewrite existsb_exists. split.
  - intros (y & I & E) [_ N]. apply bytes_eqb_eq in E. subst. contradiction.
  - intros N. destruct (in_dec (list_eq_dec ascii_dec) x (e :: l)) as [I|I].
    + exists x. split; [exact I|]. apply bytes_eqb_eq. reflexivity.
    + exfalso. apply N. split; [discriminate|exact I].
Qed.

Lemma listed_cases given n v : keys_once given ->
  (exists x, find_key n given = Some x /\ svEnum v <> [] /\ ~ In x (svEnum v)
     /\ forall url, fill_variable given n v url = inr (BadValue n x))
  \/ exists x, (forall url, fill_variable given n v url = inl (replace_all ("{"%char :: n ++ ["}"%char]) x url 0))
     /\ (In (n, x) given \/ (~ In n (map fst given) /\ x = svDefault v))
     /\ forall y, In (n, y) given -> ~ (svEnum v <> [] /\ ~ In y (svEnum v)).
Proof.
  intros K. unfold fill_variable. cbv zeta. destruct (find_key n given) as [x|] eqn:F.
  - pose proof (unlisted_spec v x) as U. destruct (Nat.eqb (length (svEnum v)) 0 || existsb (bytes_eqb x) (svEnum v)).
    + right. exists x. split; [reflexivity|]. split; [left; apply find_key_in; exact F|].
      intros y I. rewrite (find_key_once _ _ _ K I) in F. injection F as <-. apply U. reflexivity.
    + left. exists x. split; [reflexivity|].
      destruct (svEnum v) as [|e l] eqn:Ee; [exfalso; assert (false = true) as X by (apply U; intros [Z _]; contradiction); discriminate|].
      assert (~ In x (e :: l)) as N.
      { intros I. assert (false = true) as X by (apply U; intros [_ Z]; contradiction). discriminate. }
      split; [discriminate|]. split; [exact N|reflexivity].
  - right. exists (svDefault v). split; [reflexivity|]. apply find_key_none in F. split; [right; auto|].
    intros y I. destruct F. apply (in_map fst _ _ I).
Qed.

(* an error exactly when a value is not listed *)
Lemma fill_errors given : keys_once given -> forall vs url,
  ((exists e, fill_variables given vs url = inr e) <-> unlisted vs given).
Proof.
  intros K vs. induction vs as [|[n v] vs IH]; intros url; cbn [fill_variables].
  - split; [intros [e E]; discriminate|]. intros (n & v & x & [] & _).
  - destruct (listed_cases given n v K) as [(x & F & Ne & N & E)|(x & E & _ & L)]; rewrite E.
    + split; [intros _|intros _; eexists; reflexivity]. exists n, v, x. split; [left; reflexivity|].
      split; [apply find_key_in; exact F|]. auto.
    + rewrite IH. split.
      * intros (m & w & y & I & R). exists m, w, y. split; [right; exact I|exact R].
      * intros (m & w & y & [[= -> ->]|I] & G & R); [destruct (L y G R)|]. exists m, w, y. auto.
Qed.

(* what a piece becomes when the variables vs are filled in *)
Lemma fill_filled given : keys_once given -> forall vs, keys_once vs ->
  Forall (fun p => braceless (fst p)) vs -> (forall n x, stands_for vs given n x -> braceless x) -> ~ unlisted vs given ->
  forall l r, Forall plain_piece l -> filled vs given l r -> fill_variables given vs (template l) = inl r.
Proof.
  intros K vs. induction vs as [|[n v] vs IH]; intros Kv Bn Bx U l r P F.
  - cbn [fill_variables]. f_equal. induction F as [|t l r F IH|n x l r S F IH|n l r N F IH].
    + reflexivity.
    + inversion P; subst. rewrite template_said, IH by assumption. reflexivity.
    + inversion S as [w y I|w I]; destruct I.
    + inversion P; subst. rewrite template_place, IH by assumption. reflexivity.
  - cbn [fill_variables]. unfold keys_once in Kv. cbn [map fst] in Kv. inversion Kv as [|? ? K1 K2]; subst.
    inversion Bn as [|? ? B1 B2]; subst. cbn [fst] in B1.
    destruct (listed_cases given n v K) as [(x & G & Ne & N & E)|(x & E & S & L)].
    { destruct U. exists n, v, x. split; [left; reflexivity|]. split; [apply find_key_in; exact G|auto]. }
    rewrite E.
    assert (stands_for ((n, v) :: vs) given n x) as Sx.
    { destruct S as [S|[S ->]]; [apply (stands_given _ _ _ v); [left; reflexivity|exact S]|].
      apply stands_default; [left; reflexivity|exact S]. }
    pose proof (Bx _ _ Sx) as Bv.
    rewrite replace_template by assumption.
    assert (forall m y, stands_for vs given m y -> stands_for ((n, v) :: vs) given m y) as Up.
    { intros m y [w z I G|w I G]; [apply (stands_given _ _ _ w); [right; exact I|exact G]|apply stands_default; [right; exact I|exact G]]. }
    apply IH.
    + exact K2.
    + exact B2.
    + intros m y Sy. apply (Bx m). apply Up. exact Sy.
    + intros (m & w & y & I & R). apply U. exists m, w, y. split; [right; exact I|exact R].
    + apply put_plain; assumption.
    + clear IH U Bx Bn E P. induction F as [|t l r F IH|m y l r Sy F IH|m l r N F IH]; cbn [map put].
      * constructor.
      * apply filled_said. exact IH.
      * destruct (bytes_eqb m n) eqn:Em.
        -- apply bytes_eqb_eq in Em. subst m.
           assert (y = x) as ->.
           { assert (forall w, In (n, w) ((n, v) :: vs) -> w = v) as One.
             { intros w [[= ->]|I]; [reflexivity|]. destruct K1. apply (in_map fst _ _ I). }
             inversion Sy as [w y' I G|w I G]; subst; destruct S as [S|[S Ed]].
             - pose proof (find_key_once _ _ _ K G) as E1. pose proof (find_key_once _ _ _ K S) as E2. congruence.
             - destruct S. apply (in_map fst _ _ G).
             - destruct G. apply (in_map fst _ _ S).
             - rewrite (One w I). congruence. }
           apply filled_said. exact IH.
        -- apply bytes_eqb_neq in Em. apply filled_place; [|exact IH].
           inversion Sy as [w y' I G|w I G]; subst; (destruct I as [[= -> ->]|I]; [contradiction|]).
           ++ apply (stands_given _ _ _ w); assumption.
           ++ apply stands_default; assumption.
      * assert (bytes_eqb m n = false) as -> by (apply bytes_eqb_neq; intros ->; apply N; left; reflexivity).
        apply filled_unknown; [|exact IH]. intros I. apply N. right. exact I.
Qed.

(* a text in which no place occurs *)
Lemma starts_app p : forall s, starts_with p s = true -> exists b, s = p ++ b.
Proof.
  induction p as [|a p IH]; intros s; [exists s; reflexivity|]. destruct s as [|c s]; [discriminate|]. cbn [starts_with].
  intros H. apply andb_prop in H as [E H]. apply byte_eqb_eq in E. subst. destruct (IH s H) as [b ->]. exists b. reflexivity.
Qed.

Lemma replace_nowhere old v : forall s, ~ (exists a b, s = a ++ old ++ b) -> replace_all old v s 0 = s.
Proof.
  induction s as [|c s IH]; [reflexivity|]. intros N.
  change (replace_all old v (c :: s) 0) with
    (if starts_with old (c :: s) then v ++ replace_all old v s (pred (length old)) else c :: replace_all old v s 0).
  destruct (starts_with old (c :: s)) eqn:S.
  - destruct N. apply starts_app in S as [b E]. exists [], b. exact E.
  - f_equal. apply IH. intros (a & b & E). apply N. exists (c :: a), b. rewrite E. reflexivity.
Qed.

Lemma fill_nowhere given : keys_once given -> forall vs url, ~ unlisted vs given ->
  (forall n, In n (map fst vs) -> ~ exists a b, url = a ++ ("{"%char :: n ++ ["}"%char]) ++ b) -> fill_variables given vs url = inl url.
Proof.
  intros K vs url. induction vs as [|[n v] vs IH]; intros U N; [reflexivity|]. cbn [fill_variables].
  destruct (listed_cases given n v K) as [(x & G & Ne & L & E)|(x & E & _)].
  { destruct U. exists n, v, x. split; [left; reflexivity|]. split; [apply find_key_in; exact G|auto]. }
  rewrite E, replace_nowhere by (apply N; left; reflexivity). apply IH.
  - intros (m & w & y & I & R). apply U. exists m, w, y. split; [right; exact I|exact R].
  - intros m I. apply N. right. exact I.
Qed.

Lemma in_range_nth {A} (l : list A) i : 0 <= i < Z.of_nat (length l) -> exists a, nth_error l (Z.to_nat i) = Some a.
Proof.
  intros R. destruct (nth_error l (Z.to_nat i)) as [a|] eqn:E; [eauto|]. apply nth_error_None in E. lia.
Qed.

Lemma servers_at sc i given s : 0 <= i -> nth_error sc (Z.to_nat i) = Some s ->
  servers_url sc i given = fill_variables given (scVariables s) (scURL s).
Proof.
  intros P E. unfold servers_url. rewrite E. assert (Z.to_nat i < length sc)%nat by (apply nth_error_Some; congruence).
  assert (i <? 0 = false) as -> by (apply Z.ltb_ge; exact P).
  assert (Z.of_nat (length sc) <=? i = false) as -> by (apply Z.leb_gt; lia). reflexivity.
Qed.

Lemma url_filled sc i given s l r : 0 <= i -> nth_error sc (Z.to_nat i) = Some s ->
  scURL s = template l -> Forall plain_piece l -> Forall (fun p => braceless (fst p)) (scVariables s) ->
  keys_once (scVariables s) -> keys_once given ->
  (forall n x, stands_for (scVariables s) given n x -> braceless x) -> ~ unlisted (scVariables s) given ->
  filled (scVariables s) given l r -> servers_url sc i given = inl r.
Proof.
  intros P E El Pl Bn Kv K Bx U F. rewrite (servers_at sc i given s P E), El. apply fill_filled; assumption.
Qed.

Lemma url_untouched sc i given s : 0 <= i -> nth_error sc (Z.to_nat i) = Some s -> keys_once given -> ~ unlisted (scVariables s) given ->
  (forall n, In n (map fst (scVariables s)) ->
     ~ exists a b, scURL s = a ++ (list_ascii_of_string "{" ++ n ++ list_ascii_of_string "}") ++ b) ->
  servers_url sc i given = inl (scURL s).
Proof. intros P E K U N. rewrite (servers_at sc i given s P E). apply fill_nowhere; [exact K|exact U|exact N]. Qed.

Lemma url_errors sc i given : keys_once given ->
  ((exists e, servers_url sc i given = inr e) <->
   i < 0 \/ Z.of_nat (length sc) <= i \/ exists s, nth_error sc (Z.to_nat i) = Some s /\ unlisted (scVariables s) given).
Proof.
  intros K. destruct (Z_lt_le_dec i 0) as [N|P].
  { split; [auto|]. intros _. unfold servers_url. apply Z.ltb_lt in N. rewrite N. eexists. reflexivity. }
  destruct (Z_lt_le_dec i (Z.of_nat (length sc))) as [L|G].
  - destruct (in_range_nth sc i (conj P L)) as (s & E). rewrite (servers_at sc i given s P E), fill_errors by exact K.
    split; [intros U; right; right; exists s; auto|]. intros [Z|[Z|(s' & E' & U)]]; [lia|lia|].
    rewrite E in E'. injection E' as <-. exact U.
  - split; [auto|]. intros _. unfold servers_url. assert (Z.of_nat (length sc) <=? i = true) as -> by (apply Z.leb_le; exact G).
    rewrite orb_true_r. eexists. reflexivity.
Qed.

Lemma unlisted_permutation vs vs' given : Permutation vs vs' -> unlisted vs given -> unlisted vs' given.
Proof. intros P (n & v & x & I & R). exists n, v, x. split; [apply (Permutation_in _ P I)|exact R]. Qed.

Lemma stands_permutation vs vs' given n x : Permutation vs vs' -> stands_for vs given n x -> stands_for vs' given n x.
Proof.
  intros P [v y I G|v I G]; [apply (stands_given _ _ _ v)|apply stands_default]; auto; apply (Permutation_in _ P I).
Qed.

Lemma filled_permutation vs vs' given l r : Permutation vs vs' -> filled vs given l r -> filled vs' given l r.
Proof.
  intros P F. induction F as [|t l r F IH|n x l r S F IH|n l r N F IH].
  - constructor.
  - apply filled_said. exact IH.
  - apply filled_place; [apply (stands_permutation vs); assumption|exact IH].
  - apply filled_unknown; [|exact IH]. intros I. apply N. apply (Permutation_in n (Permutation_map fst (Permutation_sym P)) I).
Qed.

Lemma stands_some vs given n : In n (map fst vs) -> exists x, stands_for vs given n x.
Proof.
  intros I. apply in_map_iff in I as ([m v] & <- & I). cbn [fst].
  destruct (in_dec (list_eq_dec ascii_dec) m (map fst given)) as [G|G].
  - apply in_map_iff in G as ([m' x] & E & G). cbn in E. subst m'. exists x. apply (stands_given _ _ _ v); assumption.
  - exists (svDefault v). apply stands_default; assumption.
Qed.

Lemma filled_some vs given l : exists r, filled vs given l r.
Proof.
  induction l as [|[t|n] l (r & F)].
  - exists []. constructor.
  - exists (t ++ r). apply filled_said. exact F.
  - destruct (in_dec (list_eq_dec ascii_dec) n (map fst vs)) as [I|I].
    + destruct (stands_some vs given n I) as (x & S). exists (x ++ r). apply filled_place; assumption.
    + eexists. apply filled_unknown; [exact I|exact F].
Qed.

(* the order of the variables does not matter *)
Lemma url_order given url vs vs' l : Permutation vs vs' -> url = template l -> Forall plain_piece l ->
  Forall (fun p => braceless (fst p)) vs -> keys_once vs -> keys_once given ->
  (forall n x, stands_for vs given n x -> braceless x) -> ~ unlisted vs given ->
  servers_url [mkServer url vs'] 0 given = servers_url [mkServer url vs] 0 given.
Proof.
  intros P El Pl Bn Kv K Bx U. destruct (filled_some vs given l) as (r & F).
  rewrite (url_filled [mkServer url vs] 0 given (mkServer url vs) l r); auto; [|lia].
  apply (url_filled [mkServer url vs'] 0 given (mkServer url vs') l r); auto; cbn [scVariables].
  - lia.
  - apply (Permutation_Forall P Bn).
  - apply (Permutation_NoDup (Permutation_map fst P) Kv).
  - intros n x S. apply (Bx n). apply (stands_permutation vs'); [apply Permutation_sym; exact P|exact S].
  - intros X. apply U. apply (unlisted_permutation vs'); [apply Permutation_sym; exact P|exact X].
  - apply (filled_permutation vs); assumption.
Qed.

Definition nested : list (bytes * server_variable) :=
  [(lit "a", mkVariable (lit "{b}") []); (lit "b", mkVariable (lit "x") [])].
Lemma order_matters : exists url vs vs', Permutation vs vs' /\ keys_once vs
  /\ servers_url [mkServer url vs] 0 [] <> servers_url [mkServer url vs'] 0 [].
Proof.
  exists (lit "{a}"), nested, (rev nested). split; [apply perm_swap|]. split.
  - repeat constructor; cbn; intuition discriminate.
  - vm_compute. discriminate.
Qed.

(* ---- contexts ---- *)

Lemma says_spec {A} (one : carried (list (bytes * A))) all none endpoint (m1 : A + config_error) :
  (forall m, one = Carried m -> keys_once m) ->
  m1 = match one with
       | OtherType => inr BadContext
       | Carried m => match find_key endpoint m with Some a => inl a | None =>
           match all with Missing => inl none | OtherType => inr BadContext | Carried a => inl a end end
       | Missing => match all with Missing => inl none | OtherType => inr BadContext | Carried a => inl a end
       end ->
  (exists a, m1 = inl a /\ context_says one all none endpoint a /\ forall b, context_says one all none endpoint b -> b = a)
  \/ (m1 = inr BadContext /\ forall a, ~ context_says one all none endpoint a).
Proof.
  intros K ->. destruct one as [| |m].
  - destruct all as [| |a].
    + left. exists none. split; [reflexivity|]. split; [apply says_none; auto|].
      intros b S. inversion S as [m b' E|b' C E|C E]; try congruence.
    + right. split; [reflexivity|]. intros a S. inversion S as [m b' E|b' C E|C E]; discriminate.
    + left. exists a. split; [reflexivity|]. split; [apply says_all; auto|].
      intros b S. inversion S as [m b' E|b' C E|C E]; try congruence.
  - right. split; [reflexivity|]. intros a S. inversion S as [m b' E|b' C E|C E].
    + discriminate.
    + destruct C as [C|(m & C & _)]; discriminate.
    + destruct C as [C|(m & C & _)]; discriminate.
  - pose proof (K m eq_refl) as Km. destruct (find_key endpoint m) as [a|] eqn:F.
    + left. exists a. split; [reflexivity|]. split; [apply (says_one _ _ _ _ m); [reflexivity|apply find_key_in; exact F]|].
      intros b S. inversion S as [m' b' [= <-] I|b' C E|C E].
      * rewrite (find_key_once _ _ _ Km I) in F. congruence.
      * destruct C as [C|(m' & [= <-] & N)]; [discriminate|]. destruct N. apply find_key_in in F. apply (in_map fst _ _ F).
      * destruct C as [C|(m' & [= <-] & N)]; [discriminate|]. destruct N. apply find_key_in in F. apply (in_map fst _ _ F).
    + apply find_key_none in F. destruct all as [| |a].
      * left. exists none. split; [reflexivity|]. split; [apply says_none; eauto|].
        intros b S. inversion S as [m' b' [= <-] I|b' C E|C E]; try congruence. destruct F. apply (in_map fst _ _ I).
      * right. split; [reflexivity|]. intros a S. inversion S as [m' b' [= <-] I|b' C E|C E]; try discriminate.
        destruct F. apply (in_map fst _ _ I).
      * left. exists a. split; [reflexivity|]. split; [apply says_all; eauto|].
        intros b S. inversion S as [m' b' [= <-] I|b' C E|C E]; try congruence. destruct F. apply (in_map fst _ _ I).
Qed.

Lemma servers_of cf endpoint sc : keys_once (cfOperationServers cf) -> operation_servers cf endpoint sc ->
  match find_key endpoint (cfOperationServers cf) with Some sc => sc | None => cfServers cf end = sc.
Proof.
  intros K [sc' I|N]; [rewrite (find_key_once _ _ _ K I); reflexivity|]. apply find_key_none in N. rewrite N. reflexivity.
Qed.

Lemma context_url cf cx endpoint sc : keys_once (cfOperationServers cf) ->
  (forall m, cxIndices cx = Carried m -> keys_once m) -> (forall m, cxOperationVariables cx = Carried m -> keys_once m) ->
  operation_servers cf endpoint sc ->
  (exists i given, context_says (cxIndices cx) (cxIndex cx) 0 endpoint i
     /\ context_says (cxOperationVariables cx) (cxVariables cx) [] endpoint given
     /\ server_url cf (Some cx) endpoint = servers_url sc i given)
  \/ (((forall i, ~ context_says (cxIndices cx) (cxIndex cx) 0 endpoint i)
       \/ (forall g, ~ context_says (cxOperationVariables cx) (cxVariables cx) [] endpoint g))
      /\ server_url cf (Some cx) endpoint = inr BadContext).
Proof.
  intros K K1 K2 O. unfold server_url. rewrite (servers_of cf endpoint sc K O). cbv zeta.
  destruct (says_spec (cxIndices cx) (cxIndex cx) 0 endpoint (get_operation_index cx endpoint) K1 eq_refl) as [(i & Ei & Si & _)|[Ei Ni]];
    rewrite Ei; [|right; auto].
  destruct (says_spec (cxOperationVariables cx) (cxVariables cx) [] endpoint (get_operation_variables cx endpoint) K2 eq_refl)
    as [(g & Eg & Sg & _)|[Eg Ng]]; rewrite Eg; [|right; auto].
  left. exists i, g. auto.
Qed.

Lemma nil_context_url cf endpoint sc : keys_once (cfOperationServers cf) -> operation_servers cf endpoint sc ->
  server_url cf None endpoint = servers_url sc 0 [].
Proof. intros K O. unfold server_url. rewrite (servers_of cf endpoint sc K O). reflexivity. Qed.

Lemma default_url endpoint : server_url new_configuration None endpoint = inl (list_ascii_of_string "http://localhost:8080")
  /\ server_url new_configuration (Some (mkContext Missing Missing Missing Missing)) endpoint
     = inl (list_ascii_of_string "http://localhost:8080")
  /\ configured_url new_configuration 0 [] = inl (list_ascii_of_string "http://localhost:8080").
Proof. repeat split. Qed.

Lemma configured cf i given : configured_url cf i given = servers_url (cfServers cf) i given.
Proof. reflexivity. Qed.
