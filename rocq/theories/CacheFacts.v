(* Until when an answer may be kept *)
From Coq Require Import ZArith NArith Bool Ascii String List Lia.
Import ListNotations.
From Verif Require Import GoBase GoTime GoLayout Client ClientCache
  SpecCodec SpecSparse SpecFormats SpecCache GoBaseFacts FieldFacts DateCases ClientFacts FormatExec FormatFacts FormatReads FormatWrong.
Local Open Scope string_scope.
Local Open Scope Z_scope.
Local Open Scope list_scope.
Local Notation length := List.length.

(* ---- dates ---- *)

Lemma layout_form zone k name l abbr t s : single l = true -> notation_ok k [chunks name] l = true ->
  kLate k = false -> kShort k = false -> text_of abbr t l s -> knows k l t ->
  (tells l is_zone = true -> In abbr (if tells l is_offset then skipn 2 zones else zones)) -> tOff t <> Some (-1) ->
  parse_layout zone name s = Some (meant zone l abbr t).
Proof.
  intros Sg Nok K1 K2 T Kn Zn Sec. destruct (text_form k l abbr t s Sg T Kn Zn) as (e & neg & parts & tenth & Et & Eok & Tx & Ft & Ag).
  set (b := first_bits l t neg parts tenth abbr) in *. pose proof (first_bits_in l t neg parts tenth abbr Zn) as Ib.
  unfold notation_ok in Nok. rewrite forallb_forall in Nok. specialize (Nok b Ib). unfold form_ok in Nok.
  rewrite K1, K2 in Nok. cbn [andb orb] in Nok.
  destruct (sym_first _ _ _ _) as [|g|] eqn:Sf; try discriminate. rewrite <- Tx. destruct T as (Cal & No & _).
  assert (first_layout zone [name] (text e (form b l)) = Some (meant zone l abbr t)) as F.
  { apply (first_sound (bMay b) k e Eok zone [name] g); [assumption|exact Sf|].
    apply (got_time zone l t abbr neg parts tenth e g); auto. intros Tz. specialize (Zn Tz).
    destruct (tells l is_offset); [|assumption]. cbn [skipn zones In] in *. tauto. }
  cbn [first_layout] in F. destruct (parse_layout zone name (text e (form b l))); [exact F|discriminate].
Qed.

Lemma http_ok : notation_ok (mkKnown false false false) [chunks rfc1123] http_notation = true.
Proof. vm_compute. reflexivity. Qed.

Lemma written_zone abbr t l s : written abbr t l s -> In Zone l -> In abbr zones.
Proof. intros W. induction W as [|p l s r P W IH]; [intros []|]. intros [->|I]; [exact (proj1 P)|exact (IH I)]. Qed.

Lemma http_read zone abbr t s : http_date abbr t s -> parse_layout zone rfc1123 s = Some (http_time zone abbr t).
Proof.
  intros T. apply (layout_form zone (mkKnown false false false) rfc1123 http_notation abbr t s).
  - reflexivity.
  - exact http_ok.
  - reflexivity.
  - reflexivity.
  - exact T.
  - split; [discriminate|split; discriminate].
  - intros _. change (tells http_notation is_offset) with false. cbv iota. destruct T as (_ & _ & W).
    apply (written_zone _ _ _ _ W). cbn. tauto.
  - destruct T as (_ & (_ & _ & _ & _ & No) & _). rewrite (No eq_refl). discriminate.
Qed.

(* ---- the header ---- *)

Lemma split_none c s : ~ In c s -> split_at c s = [s].
Proof.
  induction s as [|a s IH]; [reflexivity|]. intros N. cbn [split_at].
  destruct (byte_eqb a c) eqn:E; [apply byte_eqb_eq in E; subst; destruct N; left; reflexivity|].
  rewrite IH; [reflexivity|]. intros I. apply N. right. exact I.
Qed.
Lemma split_once c s r : ~ In c s -> split_at c (s ++ c :: r) = s :: split_at c r.
Proof.
  induction s as [|a s IH]; intros N; cbn [app split_at].
  - rewrite (proj2 (byte_eqb_eq c c) eq_refl). reflexivity.
  - destruct (byte_eqb a c) eqn:E; [apply byte_eqb_eq in E; subst; destruct N; left; reflexivity|].
    rewrite IH; [reflexivity|]. intros I. apply N. right. exact I.
Qed.

Lemma drop_none c s : ~ In c s -> drop_while (byte_eqb c) s = s.
Proof.
  destruct s as [|a s]; [reflexivity|]. intros N. cbn [drop_while].
  destruct (byte_eqb c a) eqn:E; [apply byte_eqb_eq in E; subst; destruct N; left; reflexivity|reflexivity].
Qed.
Lemma drop_front c a s : Forall (eq c) a -> s <> [] -> ~ In c s -> forall r, drop_while (byte_eqb c) (a ++ s ++ r) = s ++ r.
Proof.
  intros A Ne N r. induction A as [|x a <- A IH]; cbn [app].
  - destruct s as [|y s]; [contradiction|]. cbn [app drop_while].
    destruct (byte_eqb c y) eqn:E; [apply byte_eqb_eq in E; subst; destruct N; left; reflexivity|reflexivity].
  - cbn [drop_while]. rewrite (proj2 (byte_eqb_eq c c) eq_refl). exact IH.
Qed.
Lemma drop_all c a : Forall (eq c) a -> drop_while (byte_eqb c) a = [].
Proof.
  intros A. induction A as [|x a <- A IH]; [reflexivity|]. cbn [drop_while]. rewrite (proj2 (byte_eqb_eq c c) eq_refl). exact IH.
Qed.

Lemma trim_none c s : ~ In c s -> trim_char c s = s.
Proof.
  intros N. unfold trim_char, trim_both. rewrite (drop_none c s N), drop_none; [apply rev_involutive|].
  intros I. apply N. apply in_rev. exact I.
Qed.
Lemma trim_around c a s b : Forall (eq c) a -> Forall (eq c) b -> s <> [] -> ~ In c s -> trim_char c (a ++ s ++ b) = s.
Proof.
  intros A B Ne N. unfold trim_char, trim_both. rewrite (drop_front c a s A Ne N), rev_app_distr.
  rewrite <- (app_nil_r (rev s)), (drop_front c (rev b) (rev s)).
  - rewrite app_nil_r. apply rev_involutive.
  - apply Forall_rev. exact B.
  - intros E. apply Ne. rewrite <- (rev_involutive s), E. reflexivity.
  - intros I. apply N. apply in_rev. exact I.
Qed.
Lemma trim_all c a : Forall (eq c) a -> trim_char c a = [].
Proof. intros A. unfold trim_char, trim_both. rewrite (drop_all c a A). reflexivity. Qed.

Definition assignment (d : directive) : bytes * bytes := (fst d, match snd d with Some v => v | None => [] end).

Lemma blank_no_comma s : blank s -> ~ In ","%char s.
Proof. intros B I. apply (proj1 (Forall_forall _ _) B) in I. discriminate. Qed.

Lemma directive_no_comma d s : directive_text d s -> ~ In ","%char s.
Proof.
  intros [n a b T Ne A B|n v a b T V A B]; rewrite !in_app_iff.
  - intros [I|[I|I]]; [apply (blank_no_comma a A I)|exact (proj1 (proj2 T) I)|apply (blank_no_comma b B I)].
  - intros [I|[I|[I|[I|I]]]]; [apply (blank_no_comma a A I)|exact (proj1 (proj2 T) I)| |exact (proj1 (proj2 V) I)|apply (blank_no_comma b B I)].
    destruct I as [I|[]]. discriminate.
Qed.

Lemma has_equals n v : existsb (fun c => byte_eqb c "=") (n ++ "="%char :: v) = true.
Proof. rewrite existsb_app. cbn. apply orb_true_r. Qed.

Lemma no_equals n : ~ In "="%char n -> existsb (fun c => byte_eqb c "=") n = false.
Proof.
  intros N. destruct (existsb _ n) eqn:E; [|reflexivity]. apply existsb_exists in E as (c & I & E). apply byte_eqb_eq in E. subst. contradiction.
Qed.

Lemma part_assigns d s : directive_text d s -> cache_part s = [assignment d].
Proof.
  intros [n a b T Ne A B|n v a b T V A B]; unfold cache_part, assignment; cbn [fst snd].
  - rewrite (trim_around " " a n b A B Ne (proj1 T)). destruct n as [|c n]; [contradiction|].
    rewrite no_equals by apply T. reflexivity.
  - cbn [list_ascii_of_string].
    replace (a ++ n ++ ["="%char] ++ v ++ b) with (a ++ (n ++ "="%char :: v) ++ b) by (rewrite <- app_assoc; reflexivity).
    assert (n ++ "="%char :: v <> []) as Ne by (destruct n; discriminate).
    rewrite (trim_around " " a (n ++ "="%char :: v) b A B Ne).
    + destruct (n ++ "="%char :: v) as [|c r] eqn:E; [contradiction|]. rewrite <- E, has_equals.
      rewrite split_once by apply T. rewrite split_none by apply V.
      rewrite trim_none by apply T. rewrite trim_none by apply V. reflexivity.
    + rewrite in_app_iff. intros [I|[I|I]]; [exact (proj1 T I)|discriminate|exact (proj1 V I)].
Qed.

Lemma control_assigns l s : control_text l s -> parse_cache_control s = map assignment l.
Proof.
  unfold parse_cache_control. intros C. induction C as [s B|d s D|d l s r D C IH].
  - rewrite split_none by (apply blank_no_comma; exact B). cbn [flat_map]. unfold cache_part. rewrite (trim_all " " s B). reflexivity.
  - rewrite split_none by (apply (directive_no_comma d); exact D). cbn [flat_map map]. rewrite (part_assigns d s D). reflexivity.
  - cbn [list_ascii_of_string app]. rewrite split_once by (apply (directive_no_comma d); exact D).
    cbn [flat_map map]. rewrite (part_assigns d s D), IH. reflexivity.
Qed.

Lemma last_absent k l : ~ In k (map fst l) -> last_value k (map assignment l) = None.
Proof.
  induction l as [|d l IH]; [reflexivity|]. cbn [map In last_value assignment]. intros N.
  rewrite IH by (intros I; apply N; right; exact I).
  destruct (bytes_eqb (fst d) k) eqn:E; [|reflexivity]. apply bytes_eqb_eq in E. destruct N. left. exact E.
Qed.

Lemma last_said l v : says_max_age l v -> last_value (lit "max-age") (map assignment l) = Some (match v with Some x => x | None => [] end).
Proof.
  change (lit "max-age") with max_age_name. intros (a & b & -> & N). induction a as [|d a IH].
  - cbn [app map last_value assignment fst snd]. rewrite (last_absent _ b N). reflexivity.
  - cbn [app map]. change (assignment d) with (fst d, match snd d with Some v => v | None => [] end).
    cbn [last_value]. rewrite IH. reflexivity.
Qed.

(* ---- durations ---- *)

Section Parts.
Variable parts : Z -> Z -> Z -> Z.

Lemma dval_acc_grows s : forall x, forallb is_digit s = true -> 0 <= x -> x <= dval_acc x s.
Proof.
  induction s as [|c s IH]; intros x; cbn [forallb dval_acc]; [lia|]. intros H P. apply andb_prop in H as [Hc Hs].
  assert (0 <= digit_val c) as D by (unfold is_digit in Hc; unfold digit_val; lia).
  specialize (IH (10 * x + digit_val c) Hs). lia.
Qed.

Lemma leading_digits s : forall x, forallb is_digit s = true -> 0 <= x ->
  (leading_int x (s ++ lit "s") = Some (dval_acc x s, lit "s"))
  \/ (leading_int x (s ++ lit "s") = None /\ top / 1000000000 < dval_acc x s).
Proof.
  induction s as [|c s IH]; intros x; cbn [forallb dval_acc app]; [left; reflexivity|]. intros H P. apply andb_prop in H as [Hc Hs].
  assert (0 <= digit_val c) as D by (unfold is_digit in Hc; unfold digit_val; lia).
  pose proof (dval_acc_grows s (10 * x + digit_val c) Hs ltac:(lia)) as G.
  cbn [leading_int]. rewrite Hc. destruct (top / 10 <? x) eqn:A.
  { right. split; [reflexivity|]. apply Z.ltb_lt in A. change (top / 10) with 922337203685477580 in A. change (top / 1000000000) with 9223372036. lia. }
  cbv zeta. replace (x * 10 + digit_val c) with (10 * x + digit_val c) by ring.
  destruct (top <? 10 * x + digit_val c) eqn:B.
  { right. split; [reflexivity|]. apply Z.ltb_lt in B. change top with 9223372036854775808 in B. change (top / 1000000000) with 9223372036. lia. }
  apply IH; [exact Hs|lia].
Qed.

Lemma durations_seconds fuel d c r v : is_digit c = true -> leading_int 0 (c :: r) = Some (v, lit "s") ->
  Nat.eqb (length (lit "s")) (length (c :: r)) = false ->
  durations parts (S fuel) d (c :: r)
  = if top / 1000000000 <? v then None
    else if top <? v * 1000000000 + 0 then None
    else if top <? (d + (v * 1000000000 + 0)) mod 2 ^ 64 then None
    else durations parts fuel ((d + (v * 1000000000 + 0)) mod 2 ^ 64) [].
Proof. intros Hc E L. cbn [durations]. rewrite Hc, orb_true_r, E, L. reflexivity. Qed.

Lemma durations_long fuel d c r : is_digit c = true -> leading_int 0 (c :: r) = None -> durations parts (S fuel) d (c :: r) = None.
Proof. intros Hc E. cbn [durations]. rewrite Hc, orb_true_r, E. reflexivity. Qed.

Lemma duration_digits s : s <> [] -> forallb is_digit s = true ->
  parse_duration parts (s ++ lit "s") = if dval s <=? 9223372036 then Some (dval s * 1000000000) else None.
Proof.
  intros Ne H. destruct s as [|c s]; [contradiction|]. clear Ne. set (w := c :: s) in *.
  assert (is_digit c = true) as Hc by (cbn [w forallb] in H; apply andb_prop in H as [H _]; exact H).
  unfold parse_duration.
  assert (byte_eqb c "-" = false /\ byte_eqb c "+" = false) as [Nm Np].
  { split; (destruct (byte_eqb c _) eqn:E; [|reflexivity]); apply byte_eqb_eq in E; subst; discriminate. }
  assert (w ++ lit "s" = c :: (s ++ lit "s")) as Ew by reflexivity. rewrite Ew, Nm, Np.
  assert (bytes_eqb (c :: s ++ lit "s") (lit "0") = false) as ->.
  { apply bytes_eqb_neq. intros E. injection E as _ E. destruct s; discriminate. }
  change (length (c :: s ++ lit "s")) with (S (length (s ++ lit "s"))).
  assert (exists n, length (s ++ lit "s") = S n) as (n & En) by (rewrite app_length; exists (length s); cbn; lia). rewrite En.
  assert (0 <= dval w) as Pw by (apply (dval_acc_grows w 0 H); lia).
  destruct (leading_digits w 0 H ltac:(lia)) as [E|[E B]]; fold (dval w) in *; rewrite Ew in E.
  - rewrite (durations_seconds _ _ c (s ++ lit "s") (dval w) Hc E).
    2: { apply Nat.eqb_neq. cbn [length lit list_ascii_of_string] in *. lia. }
    rewrite Z.add_0_r. change (0 + dval w * 1000000000) with (dval w * 1000000000).
    change (top / 1000000000) with 9223372036. change top with 9223372036854775808.
    destruct (dval w <=? 9223372036) eqn:L.
    + apply Z.leb_le in L. assert (9223372036 <? dval w = false) as -> by (apply Z.ltb_ge; exact L).
      assert (9223372036854775808 <? dval w * 1000000000 = false) as -> by (apply Z.ltb_ge; lia).
      rewrite (Z.mod_small (dval w * 1000000000)) by (split; [lia|]; change (2 ^ 64) with 18446744073709551616; lia).
      assert (9223372036854775808 <? dval w * 1000000000 = false) as -> by (apply Z.ltb_ge; lia).
      cbn [durations].
      assert (9223372036854775808 - 1 <? dval w * 1000000000 = false) as -> by (apply Z.ltb_ge; lia). reflexivity.
    + apply Z.leb_gt in L. assert (9223372036 <? dval w = true) as -> by (apply Z.ltb_lt; exact L). reflexivity.
  - rewrite (durations_long _ _ c (s ++ lit "s") Hc E). change (top / 1000000000) with 9223372036 in B.
    assert (dval w <=? 9223372036 = false) as -> by (apply Z.leb_gt; exact B). reflexivity.
Qed.

Lemma duration_nothing : parse_duration parts (lit "s") = None.
Proof. reflexivity. Qed.

(* ---- CacheExpires ---- *)

Variable zone : bytes -> time -> time.
Variable header : string -> bytes.

Lemma kept_max_age abbr t l v w n : http_date abbr t (header "Date") -> control_text l (header "Cache-Control") ->
  says_max_age l (Some v) -> (0 < w)%nat -> decimal_text w n v ->
  cache_expires parts zone header
  = ExpiresAt (instant (http_time zone abbr t) + (if n <=? 9223372036 then n * 1000000000 else 0)).
Proof.
  intros D C S W V. unfold cache_expires. rewrite (http_read zone abbr t _ D), (control_assigns l _ C), (last_said l _ S).
  apply decimal_text_spec in V as (L & H & <-). rewrite duration_digits; [|intros ->; cbn in L; lia|exact H].
  destruct (dval v <=? 9223372036); [reflexivity|]. rewrite Z.add_0_r. reflexivity.
Qed.

Lemma kept_seconds abbr t l v w n : http_date abbr t (header "Date") -> control_text l (header "Cache-Control") ->
  says_max_age l (Some v) -> (0 < w)%nat -> decimal_text w n v -> n <= 9223372036 ->
  cache_expires parts zone header = ExpiresAt (instant (http_time zone abbr t) + n * 1000000000).
Proof. intros D C S W V L. rewrite (kept_max_age abbr t l v w n D C S W V). apply Z.leb_le in L. rewrite L. reflexivity. Qed.

Lemma kept_never abbr t l v w n : http_date abbr t (header "Date") -> control_text l (header "Cache-Control") ->
  says_max_age l (Some v) -> (0 < w)%nat -> decimal_text w n v -> 9223372036 < n ->
  cache_expires parts zone header = ExpiresAt (instant (http_time zone abbr t)).
Proof.
  intros D C S W V L. rewrite (kept_max_age abbr t l v w n D C S W V). apply Z.leb_gt in L. rewrite L, Z.add_0_r. reflexivity.
Qed.

Lemma kept_bare abbr t l : http_date abbr t (header "Date") -> control_text l (header "Cache-Control") ->
  says_max_age l None \/ says_max_age l (Some []) -> cache_expires parts zone header = ExpiresAt (instant (http_time zone abbr t)).
Proof.
  intros D C S. unfold cache_expires. rewrite (http_read zone abbr t _ D), (control_assigns l _ C).
  destruct S as [S|S]; rewrite (last_said l _ S); reflexivity.
Qed.

Lemma kept_expires abbr t l abbr' u : http_date abbr t (header "Date") -> control_text l (header "Cache-Control") ->
  ~ In max_age_name (map fst l) -> http_date abbr' u (header "Expires") ->
  cache_expires parts zone header = ExpiresAt (instant (http_time zone abbr' u)).
Proof.
  intros D C N E. unfold cache_expires. rewrite (http_read zone abbr t _ D), (control_assigns l _ C), (last_absent (lit "max-age") l N).
  pose proof (http_read zone abbr' u _ E) as R. destruct (header "Expires") as [|c e].
  - exfalso. vm_compute in R. discriminate.
  - rewrite R. reflexivity.
Qed.

Lemma kept_nothing abbr t l : http_date abbr t (header "Date") -> control_text l (header "Cache-Control") ->
  ~ In max_age_name (map fst l) -> header "Expires" = [] -> cache_expires parts zone header = ExpiresAt 0.
Proof.
  intros D C N E. unfold cache_expires. rewrite (http_read zone abbr t _ D), (control_assigns l _ C), (last_absent (lit "max-age") l N), E. reflexivity.
Qed.

Lemma kept_unreadable abbr t l : http_date abbr t (header "Date") -> control_text l (header "Cache-Control") ->
  ~ In max_age_name (map fst l) -> header "Expires" <> [] -> parse_layout zone rfc1123 (header "Expires") = None ->
  cache_expires parts zone header = ExpiresAt (instant (http_time zone abbr t)).
Proof.
  intros D C N Ne E. unfold cache_expires. rewrite (http_read zone abbr t _ D), (control_assigns l _ C), (last_absent (lit "max-age") l N).
  destruct (header "Expires") as [|c e]; [contradiction|]. rewrite E. reflexivity.
Qed.

Lemma kept_not abbr t l : http_date abbr t (header "Date") -> control_text l (header "Cache-Control") ->
  ~ In max_age_name (map fst l) ->
  (header "Expires" = [] -> cache_expires parts zone header = ExpiresAt 0)
  /\ (header "Expires" <> [] -> parse_layout zone rfc1123 (header "Expires") = None ->
      cache_expires parts zone header = ExpiresAt (instant (http_time zone abbr t))).
Proof. intros D C N. split; [apply (kept_nothing abbr t l D C N)|apply (kept_unreadable abbr t l D C N)]. Qed.

Lemma kept_undated : header "Date" = [] -> cache_expires parts zone header = ExpiresNow.
Proof. intros E. unfold cache_expires. rewrite E. reflexivity. Qed.
End Parts.

Lemma upper_name : exists header, header "Cache-Control" = list_ascii_of_string "Max-Age=60"
  /\ forall parts zone, cache_expires parts zone header = ExpiresAt 0.
Proof.
  exists (fun h => if String.eqb h "Date" then lit "Tue, 17 Nov 2026 16:00:00 UTC"
    else if String.eqb h "Cache-Control" then lit "Max-Age=60" else []).
  split; [reflexivity|]. intros parts zone. vm_compute. reflexivity.
Qed.

Lemma too_long : exists header, header "Cache-Control" = list_ascii_of_string "max-age=9223372037"
  /\ http_date "GMT" (mkTime 2026 11 17 16 0 0 0 None) (header "Date")
  /\ forall parts zone, cache_expires parts zone header
     <> ExpiresAt (instant (http_time zone "GMT" (mkTime 2026 11 17 16 0 0 0 None)) + 9223372037 * 1000000000).
Proof.
  exists (fun h => if String.eqb h "Date" then lit "Tue, 17 Nov 2026 16:00:00 GMT"
    else if String.eqb h "Cache-Control" then lit "max-age=9223372037" else []).
  split; [reflexivity|]. assert (D : http_date "GMT" (mkTime 2026 11 17 16 0 0 0 None) (lit "Tue, 17 Nov 2026 16:00:00 GMT"))
    by (show_text false 0 0 0).
  split; [exact D|]. intros parts zone.
  rewrite (kept_never parts zone _ "GMT" (mkTime 2026 11 17 16 0 0 0 None) [(max_age_name, Some (lit "9223372037"))] (lit "9223372037") 10%nat 9223372037).
  - intros E. injection E as E. lia.
  - exact D.
  - apply ControlLast. apply (DirectiveValue max_age_name (lit "9223372037") [] []); try (repeat constructor; fail);
      repeat split; cbn; intuition discriminate.
  - exists [], []. split; [reflexivity|intros []].
  - lia.
  - apply decimal_ok. vm_compute. reflexivity.
  - lia.
Qed.
