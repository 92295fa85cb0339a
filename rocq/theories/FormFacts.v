(* Facts about the text of the client's forms *)
From Coq Require Import ZArith NArith Bool Ascii String List Lia.
Import ListNotations.
From Verif Require Import GoBase GoTime Tables Codec Records File Reader Json JsonFile Server Client ClientHeaders
  SpecForm.
Local Open Scope string_scope.
Local Open Scope list_scope.
Local Notation length := List.length.

Definition field_of (esc : bytes -> bytes) (p : string * bytes) : part :=
  ([list_ascii_of_string "Content-Disposition: form-data; name=""" ++ esc (lit (fst p)) ++ [""""%char]], snd p).
Definition file_of (esc : bytes -> bytes) (p : string * upload) : part :=
  ([list_ascii_of_string "Content-Disposition: form-data; name=""" ++ esc (lit (fst p))
          ++ list_ascii_of_string """; filename=""" ++ esc (base_name (upName (snd p))) ++ [""""%char];
        list_ascii_of_string "Content-Type: application/octet-stream"], upBytes (snd p)).

Definition part_text (p : part) : bytes := flat_map (fun l => l ++ line_end) (fst p) ++ line_end ++ snd p.

Lemma crlf_is : crlf = line_end.
Proof. reflexivity. Qed.

Lemma field_text esc p : field_part esc p = part_text (field_of esc p).
Proof.
  unfold field_part, part_text, field_of. cbn [fst snd flat_map]. rewrite crlf_is, app_nil_r, <- !app_assoc. reflexivity.
Qed.
Lemma file_text esc p : file_part esc p = part_text (file_of esc p).
Proof.
  unfold file_part, part_text, file_of. cbn [fst snd flat_map]. rewrite crlf_is, app_nil_r, <- !app_assoc. reflexivity.
Qed.

Definition good (boundary : bytes) (p : part) : Prop :=
  Forall (fun l => l <> [] /\ one_line l) (fst p) /\ ~ occurs (delimiter boundary) (snd p).

Lemma joined boundary ps : Forall (good boundary) ps ->
  exists rest, parts_follow boundary rest ps
    /\ join_parts boundary false (map part_text ps) ++ form_end boundary = delimiter boundary ++ rest.
Proof.
  induction 1 as [|p ps [L C] _ [rest [F E]]].
  - exists (["-"; "-"]%char ++ line_end). split; [constructor|].
    cbn [map join_parts]. unfold form_end, delimiter. rewrite crlf_is, <- !app_assoc. reflexivity.
  - destruct p as [lines content]. cbn [fst snd] in L, C. eexists. split.
    + exact (one_part boundary lines content rest ps L C F).
    + cbn [map join_parts]. rewrite <- !app_assoc, E. unfold part_start, part_text, delimiter.
      cbn [fst snd]. rewrite crlf_is, <- !app_assoc. reflexivity.
Qed.

Lemma joined_all boundary ps : Forall (good boundary) ps ->
  form_says boundary (join_parts boundary true (map part_text ps) ++ form_end boundary) ps.
Proof.
  intros G. destruct ps as [|p ps].
  - destruct (joined boundary [] G) as [rest [F E]]. exists rest. split; [exact F|right; exact E].
  - inversion G as [|? ? [L C] G']; subst. destruct (joined boundary ps G') as [rest [F E]].
    destruct p as [lines content]. eexists. split.
    + exact (one_part boundary lines content rest ps L C F).
    + left. cbn [map join_parts]. rewrite <- !app_assoc, E. unfold part_start, part_text. cbn [fst snd].
      rewrite crlf_is, <- !app_assoc. reflexivity.
Qed.

Lemma one_line_app a b : one_line a -> one_line b -> one_line (a ++ b).
Proof. intros A B I. apply in_app_or in I as [I|I]; auto. Qed.

Lemma quiet s : forallb (fun c => negb (Ascii.eqb c "013")) s = true -> one_line s.
Proof.
  intros H I. rewrite forallb_forall in H. specialize (H _ I). discriminate H.
Qed.

Lemma form_is esc boundary form files :
  form_text esc boundary form files = join_parts boundary true (map part_text (map (field_of esc) form ++ map (file_of esc) files)).
Proof.
  unfold form_text. rewrite map_app, !map_map.
  rewrite (map_ext _ _ (field_text esc)), (map_ext _ _ (file_text esc)). reflexivity.
Qed.

Lemma Forall2_map_right {A B} (R : A -> B -> Prop) (f : A -> B) (l : list A) : (forall a, R a (f a)) -> Forall2 R l (map f l).
Proof. intros H. induction l; constructor; auto. Qed.

Lemma body_says esc boundary w form files : wrForm w = Some (form, files) ->
  (forall s, one_line (esc s)) ->
  Forall (fun p => ~ occurs (delimiter boundary) (snd p)) form ->
  Forall (fun p => ~ occurs (delimiter boundary) (upBytes (snd p))) files ->
  exists ps qs, form_says boundary (body_text esc boundary w) (ps ++ qs)
    /\ Forall2 (fun p => field_says (esc (list_ascii_of_string (fst p))) (snd p)) form ps
    /\ Forall2 (fun p => file_says (esc (list_ascii_of_string (fst p))) (esc (base_name (upName (snd p)))) (upBytes (snd p))) files qs.
Proof.
  intros E O F1 F2. exists (map (field_of esc) form), (map (file_of esc) files).
  split; [|split; apply Forall2_map_right; intros; reflexivity].
  unfold body_text. rewrite E, form_is. apply joined_all, Forall_app. split.
  - apply Forall_map. eapply Forall_impl; [|exact F1]. intros p C. split; [|exact C].
    constructor; [|constructor]. split; [discriminate|].
    apply one_line_app; [apply quiet; reflexivity|]. apply one_line_app; [apply O|apply quiet; reflexivity].
  - apply Forall_map. eapply Forall_impl; [|exact F2]. intros p C. split; [|exact C].
    constructor; [|constructor; [|constructor]]; (split; [discriminate|]).
    + apply one_line_app; [apply quiet; reflexivity|]. apply one_line_app; [apply O|].
      apply one_line_app; [apply quiet; reflexivity|]. apply one_line_app; [apply O|apply quiet; reflexivity].
    + apply quiet; reflexivity.
Qed.

(* ---- a body can be read in one way ---- *)

Lemma one_line_split l1 l2 r1 r2 : one_line l1 -> one_line l2 ->
  l1 ++ line_end ++ r1 = l2 ++ line_end ++ r2 -> l1 = l2 /\ r1 = r2.
Proof.
  revert l2. induction l1 as [|a l1 IH]; intros [|b l2] O1 O2 E; cbn in E.
  - injection E as E. auto.
  - injection E as E _. exfalso. apply O2. left. symmetry. exact E.
  - injection E as E _. exfalso. apply O1. left. exact E.
  - injection E as -> E. destruct (IH l2) as [-> ->]; auto.
    + intros I. apply O1. right. exact I.
    + intros I. apply O2. right. exact I.
Qed.

Lemma lines_split ls1 : forall ls2 r1 r2,
  Forall (fun l => l <> [] /\ one_line l) ls1 -> Forall (fun l => l <> [] /\ one_line l) ls2 ->
  flat_map (fun l => l ++ line_end) ls1 ++ line_end ++ r1 = flat_map (fun l => l ++ line_end) ls2 ++ line_end ++ r2 ->
  ls1 = ls2 /\ r1 = r2.
Proof.
  induction ls1 as [|l1 ls1 IH]; intros [|l2 ls2] r1 r2 F1 F2 E.
  - cbn in E. injection E as E. auto.
  - inversion F2 as [|? ? [N O] F2']; subst. cbn [flat_map] in E. rewrite <- !app_assoc in E.
    destruct (one_line_split [] l2 _ _ (fun x => x) O E) as [E' _]. symmetry in E'. contradiction.
  - inversion F1 as [|? ? [N O] F1']; subst. cbn [flat_map] in E. rewrite <- !app_assoc in E.
    destruct (one_line_split l1 [] _ _ O (fun x => x) E) as [E' _]. contradiction.
  - inversion F1 as [|? ? [N1 O1] F1']; subst. inversion F2 as [|? ? [N2 O2] F2']; subst.
    cbn [flat_map] in E. rewrite <- !app_assoc in E.
    destruct (one_line_split l1 l2 _ _ O1 O2 E) as [-> E']. destruct (IH ls2 _ _ F1' F2' E') as [-> ->]. auto.
Qed.

(* a delimiter does not overlap the delimiter behind a text *)
Lemma prefix_cases {A} (a b c d : list A) : a ++ b = c ++ d ->
  (exists x, c = a ++ x /\ b = x ++ d) \/ (exists x, a = c ++ x /\ d = x ++ b).
Proof.
  revert c. induction a as [|x a IH]; intros c E.
  - left. exists c. auto.
  - destruct c as [|y c].
    + right. exists (x :: a). auto.
    + injection E as -> E. destruct (IH c E) as [[z [-> ->]]|[z [-> ->]]]; [left|right]; exists z; auto.
Qed.

Lemma delimiter_cr boundary x y : one_line boundary -> delimiter boundary = x ++ "013"%char :: y -> x = [].
Proof.
  intros O E. destruct x as [|a x]; [reflexivity|]. exfalso. unfold delimiter in E. cbn in E. injection E as _ E.
  assert (I : In "013"%char (x ++ "013"%char :: y)) by (apply in_or_app; right; left; reflexivity).
  rewrite <- E in I. cbn in I. destruct I as [I|[I|[I|I]]]; try discriminate. contradiction.
Qed.

Lemma content_split boundary c1 : forall c2 r1 r2, one_line boundary ->
  ~ occurs (delimiter boundary) c1 -> ~ occurs (delimiter boundary) c2 ->
  c1 ++ delimiter boundary ++ r1 = c2 ++ delimiter boundary ++ r2 -> c1 = c2 /\ r1 = r2.
Proof.
  assert (W : forall c1 x r1 r2, one_line boundary -> ~ occurs (delimiter boundary) (c1 ++ x) ->
    delimiter boundary ++ r1 = x ++ delimiter boundary ++ r2 -> x = []).
  { intros c x r1 r2 O N E. destruct (prefix_cases _ _ _ _ E) as [[y [-> _]]|[y [E' _]]].
    - exfalso. apply N. exists c, y. reflexivity.
    - assert (D := E'). destruct y as [|b y].
      + exfalso. apply N. exists c, []. rewrite app_nil_r in *. subst x. reflexivity.
      + (* the rest of the delimiter starts the second one *)
        destruct (prefix_cases _ _ _ _ E) as [[z [-> _]]|[z [E1 E2]]].
        * exfalso. apply N. exists c, z. reflexivity.
        * rewrite E1 in E'. apply app_inv_head in E'. subst z.
          unfold delimiter in E2 at 1. cbn in E2. injection E2 as <- _.
          exact (delimiter_cr boundary x y O D). }
  intros c2 r1 r2 O N1 N2 E. destruct (prefix_cases _ _ _ _ E) as [[x [-> Ex]]|[x [-> Ex]]].
  - assert (x = []) as -> by exact (W c1 x r1 r2 O N2 Ex). apply (app_inv_head (delimiter boundary)) in Ex. rewrite app_nil_r. auto.
  - assert (x = []) as -> by exact (W c2 x r2 r1 O N1 Ex). apply (app_inv_head (delimiter boundary)) in Ex. rewrite app_nil_r. auto.
Qed.

Lemma follow_cases boundary t qs : parts_follow boundary t qs ->
  (t = ["-"; "-"]%char ++ line_end /\ qs = [])
  \/ exists lines content rest ps, Forall (fun l => l <> [] /\ one_line l) lines /\ ~ occurs (delimiter boundary) content
     /\ parts_follow boundary rest ps
     /\ t = line_end ++ flat_map (fun l => l ++ line_end) lines ++ line_end ++ content ++ delimiter boundary ++ rest
     /\ qs = (lines, content) :: ps.
Proof.
  intros [|lines content rest ps L C F]; [left; auto|right; exists lines, content, rest, ps; auto].
Qed.

Lemma parts_unique boundary : one_line boundary -> forall rest ps, parts_follow boundary rest ps ->
  forall qs, parts_follow boundary rest qs -> ps = qs.
Proof.
  intros O rest ps F. induction F as [|lines content rest ps L C F IH]; intros qs G.
  - destruct (follow_cases _ _ _ G) as [[_ ->]|[ls [c [r [ps' [_ [_ [_ [E _]]]]]]]]]; [reflexivity|discriminate E].
  - destruct (follow_cases _ _ _ G) as [[E _]|[lines' [content' [rest' [ps' [L' [C' [G' [E ->]]]]]]]]].
    + discriminate E.
    + apply app_inv_head in E. destruct (lines_split _ _ _ _ L' L (eq_sym E)) as [-> E'].
      destruct (content_split boundary _ _ _ _ O C' C E') as [-> ->].
      rewrite (IH _ G'). reflexivity.
Qed.

Lemma says_unique boundary body ps qs : one_line boundary ->
  form_says boundary body ps -> form_says boundary body qs -> ps = qs.
Proof.
  intros O [r1 [F1 E1]] [r2 [F2 E2]]. assert (r1 = r2) as ->; [|exact (parts_unique boundary O _ _ F1 _ F2)].
  destruct E1 as [E1|E1], E2 as [E2|E2]; rewrite E1 in E2.
  - apply app_inv_head in E2. apply app_inv_head in E2. exact E2.
  - discriminate E2.
  - discriminate E2.
  - apply app_inv_head in E2. exact E2.
Qed.

(* ---- names of files ---- *)

Lemma trimmed s : exists t, s = trim_slashes s ++ t /\ Forall (eq "/"%char) t.
Proof.
  induction s as [|c s [t [E F]]]; [exists []; split; [reflexivity|constructor]|].
  cbn [trim_slashes]. destruct (trim_slashes s) as [|d u] eqn:T.
  - cbn in E. subst t. destruct (byte_eqb c "/") eqn:B.
    + apply Ascii.eqb_eq in B. subst c. exists ("/"%char :: s). split; [reflexivity|constructor; auto].
    + exists s. auto.
  - exists t. split; [|exact F]. rewrite E. reflexivity.
Qed.

Lemma trimmed_end s : trim_slashes s = [] \/ exists t c, trim_slashes s = t ++ [c] /\ c <> "/"%char.
Proof.
  induction s as [|c s [E|[t [d [E N]]]]]; [left; reflexivity| |]; cbn [trim_slashes]; rewrite E.
  - destruct (byte_eqb c "/") eqn:B; [left; reflexivity|]. right. exists [], c. split; [reflexivity|].
    intros ->. discriminate B.
  - right. exists (c :: t), d. split; [|exact N]. destruct t; reflexivity.
Qed.

Lemma last_element_is s : forall acc, ~ In "/"%char acc -> exists dir,
  (dir = [] \/ exists d, dir = d ++ ["/"%char]) /\ rev acc ++ s = dir ++ last_element acc s /\ ~ In "/"%char (last_element acc s).
Proof.
  induction s as [|c s IH]; intros acc N; cbn [last_element].
  - exists []. split; [left; reflexivity|]. rewrite app_nil_r. split; [reflexivity|]. rewrite <- in_rev. exact N.
  - destruct (byte_eqb c "/") eqn:B.
    + apply Ascii.eqb_eq in B. subst c. destruct (IH [] (fun x => x)) as [dir [D [E M]]].
      exists ((rev acc ++ ["/"%char]) ++ dir). split; [|split; [|exact M]].
      * right. destruct D as [->|[d ->]]; [exists (rev acc); apply app_nil_r|].
        exists ((rev acc ++ ["/"%char]) ++ d). rewrite app_assoc. reflexivity.
      * cbn in E. rewrite <- (app_assoc _ dir), <- E, <- app_assoc. reflexivity.
    + destruct (IH (c :: acc)) as [dir [D [E M]]].
      * intros [I|I]; [subst c; discriminate B|contradiction].
      * exists dir. split; [exact D|]. split; [|exact M]. cbn in E. rewrite <- app_assoc in E. exact E.
Qed.

Lemma base_last path : last_of path (base_name path).
Proof.
  unfold base_name. destruct path as [|c s]; [constructor|].
  destruct (trimmed (c :: s)) as [t [E F]]. destruct (trimmed_end (c :: s)) as [T|[u [d [T N]]]].
  - rewrite T in E |- *. cbn in E. subst t. cbn [last_element rev]. apply last_root; [discriminate|exact F].
  - destruct (last_element_is (trim_slashes (c :: s)) [] (fun x => x)) as [dir [D [L M]]]. cbn [rev app] in L.
    destruct (last_element [] (trim_slashes (c :: s))) as [|b r] eqn:B.
    + exfalso. rewrite app_nil_r in L. rewrite L in T. destruct D as [->|[d' ->]].
      * destruct u; discriminate T.
      * apply app_inj_tail in T as [_ T]. apply N. symmetry. exact T.
    + rewrite E, L, <- app_assoc. apply last_some; auto. discriminate.
Qed.

(* a value with the delimiter in it makes two fields of one *)
Lemma ambiguous : exists boundary form1 form2, form1 <> form2 /\ form_text (fun s => s) boundary form1 [] = form_text (fun s => s) boundary form2 [].
Proof.
  exists [], [("a"%string, crlf ++ lit "--" ++ crlf ++ lit "Content-Disposition: form-data; name=""b""" ++ crlf ++ crlf ++ lit "1")],
    [("a"%string, []); ("b"%string, lit "1")].
  split; [discriminate|reflexivity].
Qed.
