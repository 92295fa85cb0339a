(* Facts for C108 *)
From Coq Require Import ZArith NArith Bool Ascii String List Lia.
Import ListNotations.
From Verif Require Import GoBase GoBaseFacts GoTime GoLayout LayoutFacts GoFloat Client ClientScalars ClientParams SpecCodec SpecJson SpecParams TimeFacts FieldFacts FieldProps ParamNumbers SingleText.
Local Open Scope string_scope.
Local Open Scope Z_scope.
Local Open Scope list_scope.
Local Notation length := List.length.

Lemma gval_induction (P : gval -> Prop) :
  P GNil -> (forall z, P (GInt z)) -> (forall z, P (GUint z)) -> (forall x, P (GFloat x)) -> (forall b, P (GBool b)) -> (forall t, P (GText t)) ->
  (forall l, Forall P l -> P (GList l)) -> (forall m, Forall (fun p => P (snd p)) m -> P (GMap m)) -> P (GPtr None) -> (forall v, P v -> P (GPtr (Some v))) ->
  (forall m, Forall (fun p => P (snd p)) m -> P (GMapped m)) -> P GFailed -> (forall t, P (GTime t)) -> (forall t, P (GOther t)) -> forall v, P v.
Proof.
  intros H1 H2 H3 H4 H5 H6 H7 H8 H9 H10 H11 H12 H13 H14. fix rec 1. intros v. destruct v as [| | | | | |l|m|[v|]|m| | |]; try (first [exact H1|exact (H2 _)|exact (H3 _)|exact (H4 _)|exact (H5 _)|exact (H6 _)|exact H9|exact H12|exact (H13 _)|exact (H14 _)|exact (H10 _ (rec _))]).
  - apply H7. induction l as [|a l IH]; constructor; [apply rec|exact IH].
  - apply H8. induction m as [|[n a] m IH]; constructor; [apply rec|exact IH].
  - apply H11. induction m as [|[n a] m IH]; constructor; [apply rec|exact IH].
Qed.

(* putting one after the other *)
Fixpoint puts (s : sink) (st : store) (l : list (bytes * bytes)) : store :=
  match l with [] => st | (k, t) :: r => puts s (put s st k t) r end.

Lemma puts_app s st l l' : puts s st (l ++ l') = puts s (puts s st l) l'.
Proof. revert st. induction l as [|[k t] l IH]; intros st; [reflexivity|]. cbn [app puts]. apply IH. Qed.

Lemma stamp_unique t s s' : rfc3339_utc t s -> rfc3339_utc t s' -> s = s'.
Proof.
  intros (y & m & d & h & mi & sec & -> & Y & M & D & H & I & S) (y' & m' & d' & h' & mi' & sec' & -> & Y' & M' & D' & H' & I' & S').
  rewrite (decimal_text_unique _ _ _ _ Y Y'), (decimal_text_unique _ _ _ _ M M'), (decimal_text_unique _ _ _ _ D D'), (decimal_text_unique _ _ _ _ H H'), (decimal_text_unique _ _ _ _ I I'), (decimal_text_unique _ _ _ _ S S').
  reflexivity.
Qed.

Lemma plain_text t : plain_stamp t -> rfc3339_utc t (format_rfc3339 t).
Proof.
  intros P. destruct P as (C & H1 & H2 & H3 & H4 & H5). rewrite format_stamp by (split; [exact C|tauto]). rewrite H5.
  destruct (calendar_date_ranges _ _ _ C) as (Hy & Hm & Hd).
  exists (d4 (tYear t)), (d2 (tMonth t)), (d2 (tDay t)), (d2 (tHour t)), (d2 (tMin t)), (d2 (tSec t)).
  split; [unfold stamp_text; rewrite <- !app_assoc; reflexivity|].
  split; [apply d4_decimal; lia|]. repeat split; apply d2_decimal; lia.
Qed.

Lemma one_put s st k v t : one_text float_text v t -> add_param s st k v = Ok (put s st k t).
Proof.
  intros H. inversion H as [|z E|z N E|x E|E|E|t' E|u w P R E|t' E]; subst; try reflexivity.
  - cbn [add_param]. do 2 f_equal. unfold itoa. destruct (z <? 0) eqn:Q; [apply Z.ltb_lt in Q; lia|reflexivity].
  - cbn [add_param]. do 2 f_equal. exact (stamp_unique u _ _ (plain_text u P) R).
Qed.

Lemma each_puts {A} s (f : store -> A -> res store) (r : A -> list (bytes * bytes) -> Prop) l ps :
  Forall (fun a => forall st p, r a p -> f st a = Ok (puts s st p)) l -> Forall2 r l ps -> forall st, each f st l = Ok (puts s st (concat ps)).
Proof.
  intros F. revert ps. induction F as [|a l Fa F IH]; intros ps H; inversion H as [|? p ? ps' Ra R]; subst; intros st; [reflexivity|].
  cbn [each concat]. rewrite (Fa st p Ra), puts_app. apply IH. exact R.
Qed.

Lemma param_puts s v : forall st k l, pieces float_text k v l -> add_param s st k v = Ok (puts s st l).
Proof.
  induction v as [|z|z|x|b|t|l F|m F| |v IH|m F| |t|t] using gval_induction; intros st k ps H;
    inversion H as [k' v' t' O|k' l' ps' G|k' m' ps' G|k' m' ps' G|k'|k' v' l' G]; subst; try (exact (one_put s st k _ _ O)); try (inversion O; fail).
  - cbn [add_param]. apply (each_puts s _ (pieces float_text k)); [|exact G]. eapply Forall_impl; [|exact F]. intros a Ha st' p. apply Ha.
  - cbn [add_param]. apply (each_puts s _ _ m ps'  ) with (2 := G). eapply Forall_impl; [|exact F]. intros [n a] Ha st' p. cbn [fst snd] in *. apply Ha.
  - cbn [add_param]. apply IH. exact G.
  - cbn [add_param]. apply (each_puts s _ _ m ps'  ) with (2 := G). eapply Forall_impl; [|exact F]. intros [n a] Ha st' p. cbn [fst snd] in *. apply Ha.
  - reflexivity.
Qed.

(* the store *)
Lemma get_set st k vs q : store_get (store_set st k vs) q = if bytes_eqb k q then vs else store_get st q.
Proof.
  induction st as [|[k' vs'] st IH]; cbn [store_set store_get]; [reflexivity|]. destruct (bytes_eqb k' k) eqn:E.
  - apply bytes_eqb_eq in E. subst. cbn [store_get]. destruct (bytes_eqb k q); reflexivity.
  - cbn [store_get]. rewrite IH. destruct (bytes_eqb k' q) eqn:Q; [|reflexivity]. apply bytes_eqb_eq in Q. subst.
    destruct (bytes_eqb k q) eqn:R; [|reflexivity]. apply bytes_eqb_eq in R. subst. rewrite bytes_eqb_refl in E. discriminate.
Qed.

Lemma other_key k q : k <> q -> bytes_eqb k q = false.
Proof. intros N. destruct (bytes_eqb k q) eqn:E; [|reflexivity]. apply bytes_eqb_eq in E. contradiction. Qed.

Lemma put_other s st k t q : k <> q -> store_get (put s st k t) q = store_get st q.
Proof. intros N. unfold put. destruct s; [|destruct (store_first st k)|]; rewrite get_set, (other_key _ _ N); reflexivity. Qed.

Lemma multi_puts q l ts : texts_under q l ts -> forall st, store_get (puts Multi st l) q = store_get st q ++ ts.
Proof.
  induction 1 as [|t l ts H IH|k t l ts N H IH]; intros st; cbn [puts]; [now rewrite app_nil_r| |].
  - rewrite IH. unfold put. rewrite get_set, bytes_eqb_refl, <- app_assoc. reflexivity.
  - rewrite IH, put_other by exact N. reflexivity.
Qed.

Lemma single_puts q l ts : texts_under q l ts -> forall st, store_get (puts Single st l) q = match rev ts with t :: _ => [t] | [] => store_get st q end.
Proof.
  induction 1 as [|t l ts H IH|k t l ts N H IH]; intros st; cbn [puts]; [reflexivity| |].
  - rewrite IH. cbn [rev]. destruct (rev ts) as [|x r]; [|reflexivity]. unfold put. rewrite get_set, bytes_eqb_refl. reflexivity.
  - rewrite IH, put_other by exact N. reflexivity.
Qed.

Lemma csv_more q l ts : texts_under q l ts -> forall st a w, a <> [] -> store_get st q = [a] -> with_commas (a :: ts) w -> store_get (puts Csv st l) q = [w].
Proof.
  induction 1 as [|t l ts H IH|k t l ts N H IH]; intros st a w A G W; cbn [puts].
  - inversion W as [|? ? ? L _]; subst; [exact G|contradiction].
  - apply (IH _ (a ++ lit "," ++ t)).
    + destruct a; [contradiction|discriminate].
    + unfold put, store_first. rewrite G. destruct a as [|c a]; [contradiction|]. rewrite get_set, bytes_eqb_refl. reflexivity.
    + inversion W as [|? ? u L U]; subst. inversion U as [|? ? x M X]; subst; [apply commas_one|].
      replace (a ++ list_ascii_of_string "," ++ t ++ list_ascii_of_string "," ++ x) with ((a ++ lit "," ++ t) ++ list_ascii_of_string "," ++ x) by (rewrite <- !app_assoc; reflexivity).
      apply commas_more; assumption.
  - apply (IH _ a); [exact A| |exact W]. rewrite put_other by exact N. exact G.
Qed.

Lemma csv_puts q l t ts : texts_under q l (t :: ts) -> t <> [] -> forall st w, store_get st q = [] -> with_commas (t :: ts) w -> store_get (puts Csv st l) q = [w].
Proof.
  intros H T. remember (t :: ts) as us eqn:E. revert E. induction H as [|x l us H IH|k x l us N H IH]; intros E st w G W; cbn [puts]; [discriminate| |].
  - injection E as -> ->. apply (csv_more q l ts H _ t w T); [|exact W]. unfold put, store_first. rewrite G. cbn [app]. rewrite get_set, bytes_eqb_refl. reflexivity.
  - apply (IH E); [|exact W]. rewrite put_other by exact N. exact G.
Qed.

Lemma csv_after q l ts : texts_under q l ts -> forall st r, store_get st q = [] :: r -> store_get (puts Csv st l) q = ([] :: r) ++ ts.
Proof.
  induction 1 as [|t l ts H IH|k t l ts N H IH]; intros st r G; cbn [puts]; [now rewrite app_nil_r| |].
  - rewrite (IH _ (r ++ [t])); [cbn [app]; now rewrite <- app_assoc|]. cbn [put]. unfold store_first. rewrite G, get_set, bytes_eqb_refl. reflexivity.
  - apply IH. rewrite put_other; assumption.
Qed.
Lemma csv_empty q l ts : texts_under q l ts -> forall st r, ts = [] :: r -> store_get st q = [] -> store_get (puts Csv st l) q = ts.
Proof.
  induction 1 as [|t l ts H IH|k t l ts N H IH]; intros st r E G; cbn [puts]; [discriminate| |].
  - injection E as -> ->. rewrite (csv_after q l r H _ []); [reflexivity|]. cbn [put]. unfold store_first. rewrite G, get_set, bytes_eqb_refl. reflexivity.
  - apply (IH _ r E). rewrite put_other; assumption.
Qed.
Lemma csv_none q l : texts_under q l [] -> forall st, store_get (puts Csv st l) q = store_get st q.
Proof.
  intros H. remember [] as us eqn:E. induction H as [|x l us H IH|k x l us N H IH]; intros st; cbn [puts]; [reflexivity|discriminate|].
  rewrite IH by exact E. apply put_other. exact N.
Qed.

(* parameters *)
Lemma query_values st k v l : pieces float_text k v l -> exists st', add_param Multi st k v = Ok st'
  /\ forall q ts, texts_under q l ts -> store_get st' q = store_get st q ++ ts.
Proof. intros H. eexists. split; [exact (param_puts Multi v st k l H)|]. intros q ts T. exact (multi_puts q l ts T st). Qed.

Lemma csv_values st k v l : pieces float_text k v l -> exists st', add_param Csv st k v = Ok st'
  /\ forall q ts, texts_under q l ts ->
     (ts = [] -> store_get st' q = store_get st q)
     /\ (forall t r w, ts = t :: r -> t <> [] -> store_get st q = [] -> with_commas ts w -> store_get st' q = [w])
     /\ (forall r, ts = [] :: r -> store_get st q = [] -> store_get st' q = ts).
Proof.
  intros H. eexists. split; [exact (param_puts Csv v st k l H)|]. intros q ts T. split; [|split].
  - intros ->. exact (csv_none q l T st).
  - intros t r w -> N G W. exact (csv_puts q l t r T N st w G W).
  - intros r -> G. exact (csv_empty q l _ T st r eq_refl G).
Qed.

Lemma header_values st k v l : pieces float_text k v l -> exists st', add_param Single st k v = Ok st'
  /\ forall q ts, texts_under q l ts ->
     (ts = [] -> store_get st' q = store_get st q) /\ (forall r t, ts = r ++ [t] -> store_get st' q = [t]).
Proof.
  intros H. eexists. split; [exact (param_puts Single v st k l H)|]. intros q ts T. rewrite (single_puts q l ts T st). split.
  - intros ->. reflexivity.
  - intros r t ->. rewrite rev_app_distr. reflexivity.
Qed.

(* every value has its texts *)
Lemma each_exists {A} (Q : A -> list (bytes * bytes) -> Prop) (P : A -> Prop) l : Forall (fun a => P a -> exists p, Q a p) l -> Forall P l -> exists ps, Forall2 Q l ps.
Proof.
  induction 1 as [|a l H F IH]; intros G; [eauto|]. inversion G as [|? ? Ga Gl]; subst. destruct (H Ga) as [p Hp]. destruct (IH Gl) as [ps Hs]. eauto.
Qed.
Lemma pieces_exist w v : proper v -> forall k, exists l, pieces w k v l.
Proof.
  induction v as [|z|z|x|b|t|l F|m F| |v IH|m F| |t|t] using gval_induction; intros H k; inversion H as [| |? Z| | | |? G|? G|? G|? G| |? G|]; subst.
  - eexists. apply pieces_one, text_nil.
  - eexists. apply pieces_one, text_int.
  - eexists. apply pieces_one, text_uint, Z.
  - eexists. apply pieces_one, text_float.
  - destruct b; eexists; apply pieces_one; [apply text_true|apply text_false].
  - eexists. apply pieces_one, text_text.
  - destruct (each_exists (pieces w k) proper l) as [ps Ps]; [|exact G|eexists; apply pieces_list, Ps]. eapply Forall_impl; [|exact F]. intros a Ha Hp. exact (Ha Hp k).
  - destruct (each_exists (fun p q => pieces w (k ++ lit "[" ++ fst p ++ lit "]") (snd p) q) (fun p => proper (snd p)) m) as [ps Ps]; [|exact G|eexists; apply pieces_map, Ps].
    eapply Forall_impl; [|exact F]. intros a Ha Hp. exact (Ha Hp _).
  - destruct (IH G k) as [l L]. eexists. apply pieces_pointer, L.
  - destruct (each_exists (fun p q => pieces w (k ++ lit "[" ++ fst p ++ lit "]") (snd p) q) (fun p => proper (snd p)) m) as [ps Ps]; [|exact G|eexists; apply pieces_object, Ps].
    eapply Forall_impl; [|exact F]. intros a Ha Hp. exact (Ha Hp _).
  - eexists. apply pieces_failed.
  - eexists. apply pieces_one, (text_time w t _ G (plain_text t G)).
  - eexists. apply pieces_one, text_other.
Qed.

(* all together *)
Lemma params_told : exists w, (forall x, float_says x (w x)) /\ forall st k v l, pieces w k v l ->
  (exists st', add_param Multi st k v = Ok st' /\ forall q ts, texts_under q l ts -> store_get st' q = store_get st q ++ ts)
  /\ (exists st', add_param Csv st k v = Ok st' /\ forall q ts, texts_under q l ts ->
       (ts = [] -> store_get st' q = store_get st q)
       /\ (forall t r w, ts = t :: r -> t <> [] -> store_get st q = [] -> with_commas ts w -> store_get st' q = [w])
       /\ (forall r, ts = [] :: r -> store_get st q = [] -> store_get st' q = ts))
  /\ (exists st', add_param Single st k v = Ok st' /\ forall q ts, texts_under q l ts ->
       (ts = [] -> store_get st' q = store_get st q) /\ (forall r t, ts = r ++ [t] -> store_get st' q = [t])).
Proof.
  exists float_text. split; [exact float_said|]. intros st k v l H. split; [exact (query_values st k v l H)|]. split; [exact (csv_values st k v l H)|exact (header_values st k v l H)].
Qed.

(* numbers *)
Lemma floats_case : float_text (Finite false 3 (-1)) = lit "1.5" /\ float_text (Finite true 3 (-1)) = lit "-1.5" /\ float_text (Finite false 1 100) = lit "1.2676506e+30"
  /\ float_text (Finite false 1 (-20)) = lit "9.536743e-07" /\ float_text (Finite false 1 200) = lit "+Inf" /\ float_text (Finite true 1 20) = lit "-1.048576e+06" /\ float_text (Finite true 0 0) = lit "-0".
Proof. repeat split; vm_compute; reflexivity. Qed.

Lemma texts_exist q l : exists ts, texts_under q l ts.
Proof.
  induction l as [|[k t] l (ts & IH)]; [eauto using under_none|]. destruct (bytes_eqb k q) eqn:E.
  - apply bytes_eqb_eq in E. subst. eauto using under_here.
  - exists ts. apply under_other; [|exact IH]. intros ->. rewrite bytes_eqb_refl in E. discriminate.
Qed.

(* nil pointers *)
Lemma each_panics {A} (f : store -> A -> res store) (bad : A -> Prop) l :
  Forall (fun a => (bad a -> forall st, f st a = Panic) /\ (~ bad a -> forall st, exists st', f st a = Ok st')) l ->
  (forall a, In a l -> bad a \/ ~ bad a) ->
  ((exists a, In a l /\ bad a) -> forall st, each f st l = Panic) /\ (~ (exists a, In a l /\ bad a) -> forall st, exists st', each f st l = Ok st').
Proof.
  intros F D. induction F as [|a l [Fp Fo] F IH].
  - split; [intros (a & [] & _)|]. intros _ st. exists st. reflexivity.
  - destruct IH as [IHp IHo]; [intros x I; apply D; now right|]. split.
    + intros E st. cbn [each]. destruct (D a (or_introl eq_refl)) as [B|N]; [now rewrite (Fp B)|]. destruct (Fo N st) as (st' & ->). apply IHp.
      destruct E as (x & [->|I] & B); [contradiction|]. exists x. tauto.
    + intros N st. cbn [each]. destruct (Fo (fun B => N (ex_intro _ a (conj (or_introl eq_refl) B))) st) as (st' & ->). apply IHo.
      intros (x & I & B). apply N. exists x. split; [now right|exact B].
Qed.

Lemma exists_decided {A} (bad : A -> Prop) l : (forall a, In a l -> bad a \/ ~ bad a) -> (exists a, In a l /\ bad a) \/ ~ (exists a, In a l /\ bad a).
Proof.
  induction l as [|a l IH]; intros D; [right; intros (a & [] & _)|]. destruct (D a (or_introl eq_refl)) as [B|N]; [left; exists a; split; [now left|exact B]|].
  destruct IH as [(x & I & B)|K]; [intros x I; apply D; now right|left; exists x; split; [now right|exact B]|]. right. intros (x & [->|I] & B); [contradiction|]. apply K. eauto.
Qed.

Lemma nil_decided v : nil_inside v \/ ~ nil_inside v.
Proof.
  induction v as [|z|z|x|b|t|l F|m F| |v IH|m F| |t|t] using gval_induction; try (right; intros H; inversion H; fail).
  - rewrite Forall_forall in F. destruct (exists_decided nil_inside l F) as [(a & I & B)|N]; [left; exact (nil_list l a I B)|]. right. intros H. inversion H; subst. apply N. eauto.
  - rewrite Forall_forall in F. destruct (exists_decided (fun p => nil_inside (snd p)) m F) as [([n a] & I & B)|N]; [left; exact (nil_map m n a I B)|].
    right. intros H. inversion H as [| | |? n v I B|]; subst. apply N. exists (n, v). auto.
  - left. constructor.
  - destruct IH as [B|N]; [left; constructor; exact B|]. right. intros H. inversion H; subst. contradiction.
  - rewrite Forall_forall in F. destruct (exists_decided (fun p => nil_inside (snd p)) m F) as [([n a] & I & B)|N]; [left; exact (nil_object m n a I B)|].
    right. intros H. inversion H as [| | | |? n v I B]; subst. apply N. exists (n, v). auto.
Qed.

Lemma param_panics s v : (nil_inside v -> forall st k, add_param s st k v = Panic) /\ (~ nil_inside v -> forall st k, exists st', add_param s st k v = Ok st').
Proof.
  induction v as [|z|z|x|b|t|l F|m F| |v IH|m F| |t|t] using gval_induction; try (split; [intros H; inversion H|intros _ st k; eexists; reflexivity]; fail).
  - assert (forall k, ((exists a, In a l /\ nil_inside a) -> forall st, each (fun st v => add_param s st k v) st l = Panic)
      /\ (~ (exists a, In a l /\ nil_inside a) -> forall st, exists st', each (fun st v => add_param s st k v) st l = Ok st')) as E.
    { intros k. apply each_panics; [|intros a _; apply nil_decided]. eapply Forall_impl; [|exact F]. intros a [P O]. split; [intros B st; apply P, B|intros N st; apply O, N]. }
    split.
    + intros H st k. inversion H as [| |? a I B| |]; subst. apply E. eauto.
    + intros N st k. apply E. intros (a & I & B). apply N. exact (nil_list l a I B).
  - assert (forall k, ((exists p, In p m /\ nil_inside (snd p)) -> forall st, each (fun st p => match p with (n, v) => add_param s st (member_key k n) v end) st m = Panic)
      /\ (~ (exists p, In p m /\ nil_inside (snd p)) -> forall st, exists st', each (fun st p => match p with (n, v) => add_param s st (member_key k n) v end) st m = Ok st')) as E.
    { intros k. apply (each_panics _ (fun p => nil_inside (snd p))); [|intros a _; apply nil_decided]. eapply Forall_impl; [|exact F]. intros [n a] [P O].
      split; [intros B st; apply P, B|intros N st; apply O, N]. }
    split.
    + intros H st k. inversion H as [| | |? n a I B|]; subst. apply E. exists (n, a). auto.
    + intros N st k. apply E. intros ([n a] & I & B). apply N. exact (nil_map m n a I B).
  - split; [reflexivity|]. intros N. exfalso. apply N. constructor.
  - destruct IH as [P O]. split.
    + intros H. inversion H as [|? B| | |]; subst. exact (P B).
    + intros N. apply O. intros B. apply N. constructor. exact B.
  - assert (forall k, ((exists p, In p m /\ nil_inside (snd p)) -> forall st, each (fun st p => match p with (n, v) => add_param s st (member_key k n) v end) st m = Panic)
      /\ (~ (exists p, In p m /\ nil_inside (snd p)) -> forall st, exists st', each (fun st p => match p with (n, v) => add_param s st (member_key k n) v end) st m = Ok st')) as E.
    { intros k. apply (each_panics _ (fun p => nil_inside (snd p))); [|intros a _; apply nil_decided]. eapply Forall_impl; [|exact F]. intros [n a] [P O].
      split; [intros B st; apply P, B|intros N st; apply O, N]. }
    split.
    + intros H st k. inversion H as [| | | |? n a I B]; subst. apply E. exists (n, a). auto.
    + intros N st k. apply E. intros ([n a] & I & B). apply N. exact (nil_object m n a I B).
Qed.

Lemma nil_panics s st k v : add_param s st k v = Panic <-> nil_inside v.
Proof.
  destruct (param_panics s v) as [P O]. split; [|intros H; apply P, H]. intros E. destruct (nil_decided v) as [H|N]; [exact H|].
  destruct (O N st k) as (st' & Q). congruence.
Qed.

(* lists with commas *)
Lemma csv_wrong : exists k l w, with_commas l w /\ (exists st, add_param Csv [] k (GList (map GText l)) = Ok st /\ store_get st k <> [w]).
Proof. exists (lit "k"), [[]; lit "a"], (lit ",a"). split; [exact (commas_more [] [lit "a"] (lit "a") ltac:(discriminate) (commas_one _))|]. eexists. split; [reflexivity|]. discriminate. Qed.

Lemma csv_mixed : exists k l l', l <> l' /\ add_param Csv [] k (GList (map GText l)) = add_param Csv [] k (GList (map GText l')).
Proof. exists (lit "k"), [lit "a,b"], [lit "a"; lit "b"]. split; [discriminate|reflexivity]. Qed.

(* a list in a header *)
Lemma header_wrong : exists k l l', l <> l' /\ add_param Single [] k (GList (map GText l)) = add_param Single [] k (GList (map GText l')).
Proof. exists (lit "k"), [lit "a"; lit "b"], [lit "b"]. split; [discriminate|reflexivity]. Qed.

(* numbers that are too exact *)
Lemma float_wrong : exists m e m' e', to_double 16777216 1 = Some (m, e) /\ to_double 16777217 1 = Some (m', e')
  /\ forall s st k, add_param s st k (GFloat (Finite false m e)) = add_param s st k (GFloat (Finite false m' e')).
Proof.
  do 4 eexists. split; [vm_compute; reflexivity|]. split; [vm_compute; reflexivity|]. intros s st k. cbn [add_param].
  replace (float_text (Finite false 4503599895805952 (-28))) with (float_text (Finite false 4503599627370496 (-28))); [reflexivity|]. vm_compute. reflexivity.
Qed.

(* the calls of the client *)
Lemma calls_text k t : add_param Multi [] (lit k) (GPtr (Some (GText t))) = Ok (map (fun p => (lit (fst p), [snd p])) (add_text k (Some t))).
Proof. reflexivity. Qed.
Lemma calls_bool k b : add_param Multi [] (lit k) (GPtr (Some (GBool b))) = Ok (map (fun p => (lit (fst p), [snd p])) (add_bool k (Some b))).
Proof. reflexivity. Qed.

Lemma params_case :
  let v := GMap [(lit "a", GList [GInt (-5); GPtr (Some (GText (lit "x")))]); (lit "b", GMapped [(lit "c", GBool true); (lit "d", GNil)])] in
  pieces float_text (lit "p") v [(lit "p[a]", lit "-5"); (lit "p[a]", lit "x"); (lit "p[b][c]", lit "true"); (lit "p[b][d]", lit "null")]
  /\ texts_under (lit "p[a]") [(lit "p[a]", lit "-5"); (lit "p[a]", lit "x"); (lit "p[b][c]", lit "true")] [lit "-5"; lit "x"]
  /\ add_param Multi [] (lit "p") v = Ok [(lit "p[a]", [lit "-5"; lit "x"]); (lit "p[b][c]", [lit "true"]); (lit "p[b][d]", [lit "null"])]
  /\ add_param Csv [] (lit "p") v = Ok [(lit "p[a]", [lit "-5,x"]); (lit "p[b][c]", [lit "true"]); (lit "p[b][d]", [lit "null"])]
  /\ add_param Single [] (lit "p") v = Ok [(lit "p[a]", [lit "x"]); (lit "p[b][c]", [lit "true"]); (lit "p[b][d]", [lit "null"])].
Proof.
  cbv zeta. split.
  - apply (pieces_map float_text (lit "p") _ [[(lit "p[a]", lit "-5"); (lit "p[a]", lit "x")]; [(lit "p[b][c]", lit "true"); (lit "p[b][d]", lit "null")]]).
    constructor; [|constructor; [|constructor]].
    + apply (pieces_list float_text (lit "p[a]") _ [[(lit "p[a]", lit "-5")]; [(lit "p[a]", lit "x")]]). constructor; [apply pieces_one, (text_int float_text (-5))|].
      constructor; [apply pieces_pointer, pieces_one, text_text|constructor].
    + apply (pieces_object float_text (lit "p[b]") _ [[(lit "p[b][c]", lit "true")]; [(lit "p[b][d]", lit "null")]]). constructor; [apply (pieces_one float_text (lit "p[b][c]")), text_true|].
      constructor; [apply (pieces_one float_text (lit "p[b][d]")), text_nil|constructor].
  - split; [|repeat split]. apply under_here, under_here, under_other; [discriminate|apply under_none].
Qed.
