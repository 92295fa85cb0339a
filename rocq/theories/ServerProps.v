(* The handlers and commands do what their specification says *)
From Coq Require Import ZArith NArith Bool Ascii String List Lia.
Import ListNotations.
From Verif Require Import GoBase GoTime GoLayout Tables JsonTables Codec Records File Reader Json JsonFile Server
  SpecCodec SpecLayouts SpecRecords SpecFile SpecFiles SpecReader SpecValidate SpecCounters SpecApi SpecJson SpecServer
  GoBaseFacts FieldFacts RecordFacts ParseFacts RoundTrip ValidateFacts CounterFacts CounterProps ApiFacts
  FileRoundTrip ReaderFacts JsonTextFacts JsonFacts JsonProps JsonReader ServerFacts.
Local Open Scope string_scope.
Local Open Scope Z_scope.
Local Open Scope list_scope.
Local Notation length := List.length.

(* ---- words ---- *)

(* lower case letters and other ASCII characters without case *)
Definition plain_char (c : byte) : bool := in_range 0 64 c || in_range 91 127 c.

Lemma lower_step a r : (exists t, a :: r = dotted_i ++ t /\ lower_text (a :: r) = "i"%char :: lower_text t)
  \/ (exists t, a :: r = kelvin ++ t /\ lower_text (a :: r) = "k"%char :: lower_text t)
  \/ lower_text (a :: r) = lower_char a :: lower_text r.
Proof.
  destruct r as [|b r]; [right; right; reflexivity|].
  assert (lower_text (a :: b :: r) = if bytes_eqb [a; b] (map ascii_of_N [196; 176]%N) then "i"%char :: lower_text r
    else match r with
         | c :: r2 => if bytes_eqb [a; b; c] (map ascii_of_N [226; 132; 170]%N) then "k"%char :: lower_text r2
                      else lower_char a :: lower_text (b :: r)
         | [] => lower_char a :: lower_text (b :: r)
         end) as -> by reflexivity.
  destruct (bytes_eqb [a; b] _) eqn:E.
  - apply bytes_eqb_eq in E. cbn in E. injection E as -> ->. left. exists r. split; reflexivity.
  - destruct r as [|c r]; [auto|]. destruct (bytes_eqb [a; b; c] _) eqn:E'; [|auto].
    apply bytes_eqb_eq in E'. cbn in E'. injection E' as -> -> ->. right; left. exists r. split; reflexivity.
Qed.

Lemma fold_step a r : (exists t, a :: r = long_s ++ t /\ fold_name (a :: r) = "S"%char :: fold_name t)
  \/ (exists t, a :: r = kelvin ++ t /\ fold_name (a :: r) = "K"%char :: fold_name t)
  \/ fold_name (a :: r) = upper_char a :: fold_name r.
Proof.
  destruct r as [|b r]; [right; right; reflexivity|].
  assert (fold_name (a :: b :: r) = if bytes_eqb [a; b] (map ascii_of_N [197; 191]%N) then "S"%char :: fold_name r
    else match r with
         | c :: r2 => if bytes_eqb [a; b; c] (map ascii_of_N [226; 132; 170]%N) then "K"%char :: fold_name r2
                      else upper_char a :: fold_name (b :: r)
         | [] => upper_char a :: fold_name (b :: r)
         end) as -> by reflexivity.
  destruct (bytes_eqb [a; b] _) eqn:E.
  - apply bytes_eqb_eq in E. cbn in E. injection E as -> ->. left. exists r. split; reflexivity.
  - destruct r as [|c r]; [auto|]. destruct (bytes_eqb [a; b; c] _) eqn:E'; [|auto].
    apply bytes_eqb_eq in E'. cbn in E'. injection E' as -> -> ->. right; left. exists r. split; reflexivity.
Qed.

(* all 256 characters *)
Definition all_chars : list byte := map ascii_of_nat (seq 0 256).
Lemma all_chars_In c : In c all_chars.
Proof.
  unfold all_chars. apply in_map_iff. exists (nat_of_ascii c). split; [apply ascii_nat_embedding|].
  apply in_seq. pose proof (nat_ascii_bounded c). lia.
Qed.
Lemma for_chars (P : byte -> bool) : forallb P all_chars = true -> forall c, P c = true.
Proof. intros H c. rewrite forallb_forall in H. apply H, all_chars_In. Qed.

Definition upper_of (c d : byte) : bool :=
  Nat.leb 97 (nat_of_ascii d) && Nat.leb (nat_of_ascii d) 122 && Nat.eqb (nat_of_ascii d) (nat_of_ascii c + 32).
Lemma upper_of_spec c d : upper_of c d = true ->
  (97 <= nat_of_ascii d <= 122)%nat /\ nat_of_ascii d = (nat_of_ascii c + 32)%nat.
Proof. unfold upper_of. rewrite !andb_true_iff, !Nat.leb_le, Nat.eqb_eq. tauto. Qed.

Lemma lower_char_cases c : lower_char c = c \/ upper_of c (lower_char c) = true.
Proof.
  assert (byte_eqb (lower_char c) c || upper_of c (lower_char c) = true) as H
    by (revert c; apply for_chars; vm_compute; reflexivity).
  apply orb_prop in H as [H|H]; [left; apply byte_eqb_eq; exact H|right; exact H].
Qed.
Lemma lower_char_same c : plain_char c = true -> lower_char c = c.
Proof.
  intros H. assert (implb (plain_char c) (byte_eqb (lower_char c) c) = true) as K
    by (revert c H; intros c _; revert c; apply for_chars; vm_compute; reflexivity).
  rewrite H in K. apply byte_eqb_eq. exact K.
Qed.
Lemma upper_pair c d : (97 <= nat_of_ascii d <= 122)%nat -> nat_of_ascii d = (nat_of_ascii c + 32)%nat ->
  lower_char c = d /\ upper_char c = upper_char d /\ (65 <= nat_of_ascii c <= 90)%nat.
Proof.
  intros R E. rewrite <- (ascii_nat_embedding d). rewrite E.
  assert (65 <= nat_of_ascii c <= 90)%nat as Rc by lia. rewrite <- (ascii_nat_embedding c) at 1 3.
  split; [|split; [|exact Rc]].
  - assert (Forall (fun n => lower_char (ascii_of_nat n) = ascii_of_nat (n + 32)) (seq 65 26)) as F by (vm_compute; repeat constructor).
    rewrite Forall_forall in F. apply F, in_seq. lia.
  - assert (Forall (fun n => upper_char (ascii_of_nat n) = upper_char (ascii_of_nat (n + 32))) (seq 65 26)) as F by (vm_compute; repeat constructor).
    rewrite Forall_forall in F. rewrite F; [reflexivity|]. apply in_seq. lia.
Qed.

(* a first byte that starts none of the special forms *)
Lemma lower_ascii c s : (nat_of_ascii c < 128)%nat -> lower_text (c :: s) = lower_char c :: lower_text s.
Proof.
  intros L. destruct (lower_step c s) as [(t & E & _)|[(t & E & _)|E]]; [exfalso..|exact E].
  all: injection E as -> _; revert L; vm_compute; lia.
Qed.
Lemma fold_ascii c s : (nat_of_ascii c < 128)%nat -> fold_name (c :: s) = upper_char c :: fold_name s.
Proof.
  intros L. destruct (fold_step c s) as [(t & E & _)|[(t & E & _)|E]]; [exfalso..|exact E].
  all: injection E as -> _; revert L; vm_compute; lia.
Qed.
Lemma plain_ascii c : plain_char c = true -> (nat_of_ascii c < 128)%nat.
Proof.
  intros H. assert (implb (plain_char c) (Nat.ltb (nat_of_ascii c) 128) = true) as K
    by (revert c H; intros c _; revert c; apply for_chars; vm_compute; reflexivity).
  rewrite H in K. apply Nat.ltb_lt. exact K.
Qed.

Lemma prefix_spec p : forallb plain_char p = true -> forall s, has_prefix (lower_text s) p = true <->
  exists a r, s = a ++ r /\ spelled [("i"%char, dotted_i); ("k"%char, kelvin)] a p.
Proof.
  induction p as [|d p IH]; intros Pl s.
  - split; [intros _; exists [], s; split; [reflexivity|constructor]|]. intros _. destruct (lower_text s); reflexivity.
  - cbn [forallb] in Pl. apply andb_prop in Pl as [Pd Pl]. specialize (IH Pl). split.
    + destruct s as [|c s]; [discriminate|].
      destruct (lower_step c s) as [(t & -> & ->)|[(t & -> & ->)| ->]]; cbn [has_prefix]; intros H;
        apply andb_prop in H as [Hd H]; apply byte_eqb_eq in Hd; apply IH in H as (a & r & -> & Sp).
      * subst d. exists (dotted_i ++ a), r. split; [now rewrite app_assoc|]. apply spelled_special; [left; reflexivity|exact Sp].
      * subst d. exists (kelvin ++ a), r. split; [now rewrite app_assoc|]. apply spelled_special; [right; left; reflexivity|exact Sp].
      * exists (c :: a), r. split; [reflexivity|]. destruct (lower_char_cases c) as [E|E].
        -- rewrite E in Hd. subst d. apply spelled_same. exact Sp.
        -- rewrite <- Hd in E. apply upper_of_spec in E as [R E]. apply spelled_upper; assumption.
    + intros (a & r & -> & Sp). inversion Sp as [|c s w Sp'|c d' s w R E Sp'|x d' s w I Sp']; subst.
      * cbn [app]. rewrite lower_ascii by (apply plain_ascii; exact Pd). rewrite lower_char_same by exact Pd.
        cbn [has_prefix]. rewrite (proj2 (byte_eqb_eq _ _) eq_refl). apply IH. eauto.
      * destruct (upper_pair c d R E) as (L & _ & Rc). cbn [app]. rewrite lower_ascii by lia. rewrite L. cbn [has_prefix].
        rewrite (proj2 (byte_eqb_eq _ _) eq_refl). apply IH. eauto.
      * destruct I as [[= <- <-]|[[= <- <-]|[]]].
        -- change (lower_text ((dotted_i ++ s) ++ r)) with ("i"%char :: lower_text (s ++ r)). cbn [has_prefix]. apply IH. eauto.
        -- change (lower_text ((kelvin ++ s) ++ r)) with ("k"%char :: lower_text (s ++ r)). cbn [has_prefix]. apply IH. eauto.
Qed.

Lemma multipart_spec t : has_prefix (lower_text t) (lit "multipart/") = true <-> multipart t.
Proof. apply prefix_spec. vm_compute. reflexivity. Qed.

Lemma upper_char_cases c d : plain_char d = true -> upper_char c = upper_char d -> c = d \/ upper_of c d = true.
Proof.
  intros P E. assert (forallb (fun d => implb (plain_char d) (forallb (fun c => implb (byte_eqb (upper_char c) (upper_char d))
    (byte_eqb c d || upper_of c d)) all_chars)) all_chars = true) as H by (vm_compute; reflexivity).
  rewrite forallb_forall in H. specialize (H d (all_chars_In d)). rewrite P in H. cbn [implb] in H.
  rewrite forallb_forall in H. specialize (H c (all_chars_In c)). rewrite E, (proj2 (byte_eqb_eq _ _) eq_refl) in H.
  apply orb_prop in H as [H|H]; [left; apply byte_eqb_eq; exact H|right; exact H].
Qed.

Lemma fold_spec w : forallb plain_char w = true -> forall s, equal_fold s w = true <->
  spelled [("s"%char, long_s); ("k"%char, kelvin)] s w.
Proof.
  unfold equal_fold. induction w as [|d w IH]; intros Pl s; rewrite bytes_eqb_eq.
  - split; [|intros Sp; inversion Sp; reflexivity]. destruct s as [|c s]; [constructor|].
    destruct (fold_step c s) as [(t & _ & ->)|[(t & _ & ->)| ->]]; discriminate.
  - cbn [forallb] in Pl. apply andb_prop in Pl as [Pd Pl]. specialize (IH Pl).
    rewrite (fold_ascii d w) by (apply plain_ascii; exact Pd). split.
    + destruct s as [|c s]; [discriminate|].
      destruct (fold_step c s) as [(t & -> & ->)|[(t & -> & ->)| ->]]; intros [= Hd H]; apply bytes_eqb_eq in H; apply IH in H.
      * apply spelled_special; [|exact H]. left. f_equal. change "S"%char with (upper_char "s") in Hd.
        destruct (upper_char_cases _ _ Pd Hd) as [E|E]; [exact E|]. apply upper_of_spec in E as [R E]. cbn in E. lia.
      * apply spelled_special; [|exact H]. right; left. f_equal. change "K"%char with (upper_char "k") in Hd.
        destruct (upper_char_cases _ _ Pd Hd) as [E|E]; [exact E|]. apply upper_of_spec in E as [R E]. cbn in E. lia.
      * destruct (upper_char_cases _ _ Pd Hd) as [E|E]; [subst d; apply spelled_same; exact H|].
        apply upper_of_spec in E as [R E]. apply spelled_upper; assumption.
    + intros Sp. inversion Sp as [|c s' w' Sp'|c d' s' w' R E Sp'|x d' s' w' I Sp']; subst;
        apply IH in Sp'; apply bytes_eqb_eq in Sp'.
      * rewrite fold_ascii by (apply plain_ascii; exact Pd). now rewrite Sp'.
      * destruct (upper_pair c d R E) as (_ & U & Rc). rewrite fold_ascii by lia. now rewrite U, Sp'.
      * destruct I as [[= <- <-]|[[= <- <-]|[]]].
        -- change (fold_name (long_s ++ s')) with ("S"%char :: fold_name s'). now rewrite Sp'.
        -- change (fold_name (kelvin ++ s')) with ("K"%char :: fold_name s'). now rewrite Sp'.
Qed.

Lemma true_spec rq : equal_fold (rqForm rq "generate") (lit "true") = true <-> asks_trailer rq.
Proof. apply fold_spec. vm_compute. reflexivity. Qed.
Lemma breaks_spec rq : asks_breaks rq (get_is_newline rq).
Proof.
  unfold asks_breaks, get_is_newline. rewrite negb_false_iff. apply fold_spec. vm_compute. reflexivity.
Qed.

(* ---- the file of a request ---- *)

Lemma parse_input_spec rt rq : 
  (exists src, sent rq src /\ parse_input rt rq = new_file_from_reader rt (srReads src) (srInput src)
     /\ forall src', sent rq src' -> src' = src)
  \/ ((forall src, ~ sent rq src) /\ exists e, parse_input rt rq = Some (Err e)).
Proof.
  unfold parse_input. pose proof (multipart_spec (rqType rq)) as M.
  destruct (has_prefix (lower_text (rqType rq)) (lit "multipart/")).
  - assert (multipart (rqType rq)) as M' by (apply M; reflexivity).
    destruct (rqFile rq) as [src|] eqn:F.
    + left. exists src. split; [apply sent_form; assumption|]. split; [reflexivity|].
      intros src' [s' _ F'|N]; [congruence|contradiction].
    + right. split; [|eexists; reflexivity]. intros src [s' _ F'|N]; [congruence|contradiction].
  - left. assert (~ multipart (rqType rq)) as M' by (intros H; apply M in H; discriminate).
    exists (rqBody rq). split; [apply sent_body; exact M'|]. split; [reflexivity|].
    intros src' [s' H _|N]; [contradiction|reflexivity].
Qed.

Lemma reads_parse rt rq f : reads rt rq f <-> parse_input rt rq = Some (Ok f).
Proof.
  destruct (parse_input_spec rt rq) as [(src & S & -> & U)|(N & e & ->)].
  - split; [intros (src' & S' & E); rewrite (U src' S') in E; exact E|]. intros E. exists src. auto.
  - split; [|discriminate]. intros (src & S & _). destruct (N _ S).
Qed.

Lemma reads_one rt rq f g : reads rt rq f -> reads rt rq g -> f = g.
Proof. rewrite !reads_parse. congruence. Qed.

Lemma reads_sound rt rq f : reads rt rq f -> sound_file f.
Proof. intros (src & _ & E). apply new_file_sound in E. destruct E as [_ E]. apply E. reflexivity. Qed.

Lemma parse_no_panic rt rq : parse_input rt rq <> Some Panic.
Proof.
  destruct (parse_input_spec rt rq) as [(src & _ & -> & _)|(_ & e & ->)]; [|discriminate].
  intros E. apply new_file_sound in E. destruct E as [E _]. contradiction.
Qed.

(* every handler: 400 when there is no file, else what it makes of the file *)
Lemma with_file_spec rt rq k rp : with_file rt rq k = Some rp ->
  (exists f, reads rt rq f /\ rp = k f) \/ ((forall f, ~ reads rt rq f) /\ exists e, rp = http_error e 400).
Proof.
  unfold with_file. pose proof (reads_parse rt rq) as R. pose proof (parse_no_panic rt rq) as N.
  destruct (parse_input rt rq) as [[f|e|]|]; [| |contradiction|discriminate]; intros [= <-].
  - left. exists f. split; [apply R; reflexivity|reflexivity].
  - right. split; [|exists e; reflexivity]. intros f H. apply R in H. discriminate.
Qed.

Lemma with_file_reads rt rq k f : reads rt rq f -> with_file rt rq k = Some (k f).
Proof. intros R. apply reads_parse in R. unfold with_file. rewrite R. reflexivity. Qed.

(* ---- formats ---- *)

Lemma names_spec t : (match (match t with [] => MessageJsonFormat | _ => t end) with
    | format => negb (bytes_eqb format MessageMetroFormat) && negb (bytes_eqb format MessageJsonFormat) end = true
    /\ forall o, ~ names_form t o)
  \/ exists o, names_form t o /\ (match t with [] => MessageJsonFormat | _ => t end) = form_word o.
Proof.
  destruct t as [|c t]; [right; exists JsonOutput; split; [constructor|reflexivity]|].
  destruct (bytes_eqb (c :: t) MessageMetroFormat) eqn:A.
  { right. apply bytes_eqb_eq in A. exists MetroOutput. rewrite A. split; [apply (names_word MetroOutput)|reflexivity]. }
  destruct (bytes_eqb (c :: t) MessageJsonFormat) eqn:B.
  { right. apply bytes_eqb_eq in B. exists JsonOutput. rewrite B. split; [apply (names_word JsonOutput)|reflexivity]. }
  left. split; [reflexivity|]. intros o H. inversion H as [|o' E]. destruct o'; cbn [form_word] in E; subst.
  - rewrite <- E in B. discriminate.
  - rewrite <- E in A. discriminate.
Qed.

Lemma names_unique t o o' : names_form t o -> names_form t o' -> o = o'.
Proof.
  intros H H'. inversion H as [E|o1 E]; inversion H' as [E'|o2 E']; subst; try reflexivity.
  - destruct o'; discriminate.
  - destruct o; discriminate.
  - destruct o, o'; try reflexivity; discriminate.
Qed.

Lemma get_format_spec rq :
  (exists e, get_format rq = Err e /\ forall o, ~ asks_form rq o)
  \/ exists o, get_format rq = Ok (form_word o) /\ asks_form rq o /\ forall o', asks_form rq o' -> o' = o.
Proof.
  unfold get_format. destruct (bytes_eqb (rqType rq) (lit "application/json")) eqn:T.
  - apply bytes_eqb_eq in T. destruct (names_spec (rqQuery rq "format")) as [[E N]|(o & N & E)].
    + left. cbv zeta in E. rewrite E. eexists. split; [reflexivity|]. intros o [o' _ H|o' H _]; [apply (N _ H)|contradiction].
    + right. exists o. rewrite E. split; [destruct o; reflexivity|]. split; [apply asks_query; assumption|].
      intros o' [o2 _ H|o2 H _]; [apply (names_unique _ _ _ H N)|contradiction].
  - apply bytes_eqb_neq in T. destruct (names_spec (rqForm rq "format")) as [[E N]|(o & N & E)].
    + left. cbv zeta in E. rewrite E. eexists. split; [reflexivity|]. intros o [o' H _|o' _ H]; [contradiction|apply (N _ H)].
    + right. exists o. rewrite E. split; [destruct o; reflexivity|]. split; [apply asks_value; assumption|].
      intros o' [o2 H _|o2 _ H]; [contradiction|apply (names_unique _ _ _ H N)].
Qed.

(* ---- generated trailers, whatever the dates in the file ---- *)

Lemma trailer_any f : file_ok f -> exists t, file_generate_trailer f = Ok (RTrailer (flPacked f) t)
  /\ has_type trailer_struct t
  /\ holds t "TotalBaseRecords" (VInt (Z.of_nat (length (flBases f))))
  /\ holds t "BlockCount" (VInt (Z.of_nat (length (flBases f)) + 2))
  /\ holds t "RecordDescriptorWord" (VInt (Z.of_nat (record_size (flPacked f))))
  /\ holds t "RecordIdentifier" (VStr (list_ascii_of_string "TRAILER"))
  /\ exists info, generate_information (flPacked f) (flBases f) = Ok info /\ compare_information info t = None.
Proof.
  intros (_ & _ & B & _). unfold file_generate_trailer.
  assert (generate_information (flPacked f) (flBases f)
    = Ok (fold_left incr (flat_map part_counters (parts (flBases f))) (start (Z.of_nat (length (flBases f)))))) as Eg
    by (apply (fold_steps_any (flPacked f) (flBases f) B)).
  rewrite Eg.
  set (info := fold_left incr _ _).
  assert (has_type trailer_struct info) as Ti by apply information_types.
  set (size := Z.of_nat (if flPacked f then PackedRecordLength else UnpackedRecordLength)).
  pose proof (trailer_nodup _ Ti) as ND.
  set (t := set_field "RecordIdentifier" (VStr (lit "TRAILER")) (set_field "RecordDescriptorWord" (VInt size) info)).
  assert (has_type trailer_struct t) as Tt.
  { apply set_typed; [apply set_typed; [exact Ti|exact trailer_names_nodup|cbn [kind_of]; field]|exact trailer_names_nodup|cbn [kind_of]; field]. }
  assert (forall n v, lookup n info = Some v -> mentions n skipped = false -> holds t n v) as Keep.
  { intros n v L S. apply lookup_In. unfold t. rewrite !lookup_set_field.
    cbn [mentions existsb skipped] in S. rewrite !orb_false_iff in S. destruct S as (_ & S1 & S2 & _). rewrite S1, S2. exact L. }
  assert (forall n z, mentions n counter_names = false -> In (n, KInt) trailer_struct -> get_int n (start (Z.of_nat (length (flBases f)))) = z ->
    lookup n info = Some (VInt z)) as Num.
  { intros n z M I E. assert (In n (map fst info)) as I' by (rewrite (has_type_names _ _ Ti); apply (in_map fst _ _ I)).
    apply In_fst_lookup in I' as (v & L).
    assert (kind_of v = KInt) as K.
    { apply lookup_In in L. apply (typed_in _ _ _ _ Ti) in L. pose proof trailer_names_nodup as Nt.
      apply (In_lookup _ _ _ Nt) in L, I. congruence. }
    destruct v as [z'| |]; try discriminate K. rewrite L. f_equal. f_equal.
    assert (get_int n info = z') as <- by (unfold get_int; rewrite L; reflexivity). unfold info.
    rewrite incr_all.
    - rewrite E, occurrences_absent; [lia|]. destruct (mentions n (flat_map _ _)) eqn:Mm; [|reflexivity].
      apply mentions_In in Mm. apply in_flat_map in Mm as (p & _ & Mm). apply part_counters_names in Mm.
      apply mentions_In in Mm. congruence.
    - rewrite <- types_names, start_types. apply (in_map fst _ _ I). }
  exists t. split; [reflexivity|]. split; [exact Tt|].
  split; [apply Keep; [apply Num; [vm_compute; reflexivity|field|reflexivity]|reflexivity]|].
  split; [apply Keep; [apply Num; [vm_compute; reflexivity|field|reflexivity]|reflexivity]|].
  split; [|split].
  - apply lookup_In. unfold t. rewrite !lookup_set_field. change (String.eqb "RecordDescriptorWord" "RecordIdentifier") with false.
    rewrite String.eqb_refl. cbv iota.
    assert (exists w, lookup "RecordDescriptorWord" info = Some w) as [w L].
    { apply In_fst_lookup. rewrite (has_type_names _ _ Ti). apply existsb_string_In. vm_compute. reflexivity. }
    rewrite L. unfold size, record_size. destruct (flPacked f); reflexivity.
  - apply lookup_In. unfold t. rewrite !lookup_set_field. rewrite String.eqb_refl.
    assert (exists w, lookup "RecordIdentifier" info = Some w) as [w L].
    { apply In_fst_lookup. rewrite (has_type_names _ _ Ti). apply existsb_string_In. vm_compute. reflexivity. }
    change (String.eqb "RecordIdentifier" "RecordDescriptorWord") with false. cbv iota. rewrite L. reflexivity.
  - exists info. split; [reflexivity|]. apply compare_information_spec; [exact (trailer_nodup _ Tt)|..].
    + intros n x I S. pose proof (typed_in _ _ _ _ Ti I) as F.
      destruct x as [z|s|u]; [eauto|exfalso..]; cbn [kind_of] in F;
        repeat (destruct F as [F|F]; [try discriminate; injection F as <-; vm_compute in S; discriminate|]); destruct F.
    + intros n x I S. apply Keep; [apply (In_lookup _ _ _ ND I)|exact S].
Qed.

(* a generated trailer is accepted unless there are no data records *)
Lemma generate_into_spec f : file_ok f ->
  (flBases f = [] /\ exists e, generate_into f = Err e)
  \/ (flBases f <> [] /\ exists f', generate_into f = Ok f' /\ with_trailer f f' /\ file_ok f').
Proof.
  intros O. destruct (trailer_any f O) as (t & E & T & H1 & H2 & H3 & H4 & _). unfold generate_into. rewrite E.
  destruct (flBases f) as [|b l] eqn:B.
  - left. split; [reflexivity|]. unfold file_set_record. cbn [record_validate].
    destruct (trailer_validate (flPacked f) t) as [e|] eqn:V; [exists e; reflexivity|exfalso].
    apply trailer_validate_spec in V; [|exact T].
    assert (exists d, In d (trailer_doc (flPacked f)) /\ dMust d = true /\ dName d = "TotalBaseRecords") as (d & I & M & N).
    { assert (existsb (fun d => dMust d && String.eqb (dName d) "TotalBaseRecords") (trailer_doc (flPacked f)) = true) as X
        by (destruct (flPacked f); vm_compute; reflexivity).
      apply existsb_exists in X as (d & I & X). apply andb_prop in X as [X Y]. apply String.eqb_eq in Y. eauto. }
    specialize (V d (VInt 0) I M). rewrite N in V. specialize (V H1). cbn in V. congruence.
  - right. split; [discriminate|]. assert (trailer_validate (flPacked f) t = None) as V.
    { apply trailer_validate_spec; [exact T|]. apply (trailer_complete _ (length (b :: l))); auto. cbn; lia. }
    rewrite (set_trailer_spec f t V). eexists. split; [reflexivity|].
    split; [exists (RTrailer (flPacked f) t); auto|].
    destruct O as (O1 & O2 & O3 & O4 & O5). repeat split; auto. exists t. reflexivity.
Qed.

Lemma with_trailer_valid f f' : file_ok f -> record_validate (flHeader f) = None ->
  Forall (fun r => record_validate r = None) (flBases f) -> with_trailer f f' -> file_validate f' = Ok tt.
Proof.
  intros O Vh Vb (r & E & V & ->). destruct (trailer_any f O) as (t & E' & _ & _ & _ & _ & _ & info & I & C).
  rewrite E in E'. injection E' as ->. unfold file_validate. cbn [set_trailer flHeader flTrailer flBases flPacked].
  rewrite Vh, V. rewrite (proj2 (first_error_none _ _) Vb), I. cbn [record_fields]. rewrite C. reflexivity.
Qed.

(* ---- types ---- *)

Lemma change_type_spec n f : file_ok f -> retyped n f (change_type n f) /\ file_ok (change_type n f).
Proof.
  intros O. unfold change_type. destruct (bytes_dec n (type_name true)) as [->|A]; [|destruct (bytes_dec n (type_name false)) as [->|B]].
  - destruct (set_type_same f true O) as (g & E & P & S & O').
    change (bytes_eqb (type_name true) (lit "character") || bytes_eqb (type_name true) (lit "packed")) with true.
    rewrite E. split; [apply retyped_to; assumption|exact O'].
  - destruct (set_type_same f false O) as (g & E & P & S & O').
    change (bytes_eqb (type_name false) (lit "character") || bytes_eqb (type_name false) (lit "packed")) with true.
    rewrite E. split; [apply retyped_to; assumption|exact O'].
  - pose proof A as A'. pose proof B as B'. apply bytes_eqb_neq in A', B'. unfold type_name in A', B'. unfold lit. rewrite A', B'.
    split; [apply retyped_none; assumption|exact O].
Qed.

Lemma retyped_unique n f g g' : retyped n f g -> retyped n f g' -> g = g'.
Proof.
  intros H H'. inversion H as [p ? ? S P O|? ? A B]; subst.
  - inversion H' as [q ? ? S' P' O' E|? ? A' B']; subst; [|destruct (flPacked g); contradiction].
    apply (same_unique f); auto. destruct (flPacked g), (flPacked g'); try reflexivity; discriminate.
  - inversion H' as [q ? ? S' P' O' E|]; subst; [destruct (flPacked g'); contradiction|reflexivity].
Qed.

Lemma retyped_valid n f g : file_ok f -> file_times f -> file_validate f = Ok tt ->
  (n = type_name true -> flPacked f = false -> no_new_accounts f) -> retyped n f g -> file_validate g = Ok tt.
Proof.
  intros O G V Z R. destruct R as [p f f' S P O'|n f A B]; [|exact V].
  destruct (set_type_same f p O) as (g & E & P2 & S2 & O2).
  assert (f' = g) as <- by (apply (same_unique f); auto; congruence).
  apply (set_type_valid f p f'); auto. intros ->. apply Z. reflexivity.
Qed.

Lemma retyped_same n f g : file_ok f -> n <> type_name (negb (flPacked f)) -> retyped n f g -> g = f.
Proof.
  intros O N R. destruct R as [p f f' S P O'|n f A B]; [|reflexivity].
  assert (p = flPacked f) as Ep by (destruct p, (flPacked f); try reflexivity; contradiction).
  destruct (set_type_same f p O) as (g & E & P2 & S2 & O2).
  assert (f' = g) as -> by (apply (same_unique f); auto; congruence).
  assert (file_set_type f (type_name p) = (f, None)) as E'.
  { unfold file_set_type. rewrite Ep. destruct (flPacked f); reflexivity. }
  congruence.
Qed.

(* ---- outputs ---- *)

Lemma nil_null input f g : null_data input f g (read_nil input f || negb (Bool.eqb (flPacked f) (flPacked g))).
Proof.
  unfold null_data, read_nil. rewrite !orb_true_iff, negb_true_iff, eqb_false_iff. split.
  - intros [[J|P]|N]; [left; apply existsb_exists in J as (c & I & B); apply Ascii.eqb_eq in B; subst c; exact I|auto|].
    right. right. congruence.
  - intros [I|[P|N]]; [left; left; apply brace; exact I|auto|]. right. congruence.
Qed.

Lemma null_one input f g n m : null_data input f g n -> null_data input f g m -> n = m.
Proof. unfold null_data. intros A B. destruct n, m; try reflexivity; [symmetry; apply B, A|apply A, B]; reflexivity. Qed.

Lemma request_sent rq src : sent rq src -> request_input rq = srInput src.
Proof.
  unfold request_input. pose proof (multipart_spec (rqType rq)) as M. intros [s' H F|N].
  - apply M in H. rewrite H, F. reflexivity.
  - destruct (has_prefix _ _); [destruct N; apply M; reflexivity|reflexivity].
Qed.

Lemma null_asked rt rq f g : reads rt rq f -> asks_null rq f g (read_nil (request_input rq) f || negb (Bool.eqb (flPacked f) (flPacked g))).
Proof. intros (src & S & _). exists src. split; [exact S|]. rewrite (request_sent _ _ S). apply nil_null. Qed.

Lemma null_asked_print rt rq f : reads rt rq f -> asks_null rq f f (read_nil (request_input rq) f).
Proof. intros R. apply (null_asked _ _ f f) in R. rewrite Bool.eqb_reflx, orb_false_r in R. exact R. Qed.

Lemma asks_null_one rq f g n m : asks_null rq f g n -> asks_null rq f g m -> n = m.
Proof.
  intros (src & S & N) (src' & S' & N'). apply (null_one (srInput src) f g); [exact N|].
  rewrite <- (request_sent _ _ S), (request_sent _ _ S'). exact N'.
Qed.

Lemma message_spec cpus n o f nl : message_to_buf cpus n (form_word o) f nl = Ok (convert_text n tab o f nl).
Proof. destruct o; [reflexivity|]. cbn. unfold file_string. rewrite concurrent_text. reflexivity. Qed.
Lemma buffer_spec cpus n o f nl : output_buffer cpus n f (form_word o) nl = Reply 200 [] (BodyText (print_text n o f nl)).
Proof. destruct o; [reflexivity|]. cbn. unfold file_string. rewrite concurrent_text. reflexivity. Qed.
Lemma cli_spec cpus n o f nl : cli_output cpus n (form_word o) f nl = convert_text n (lit "  ") o f nl.
Proof. destruct o; [reflexivity|]. cbn. unfold file_string. rewrite concurrent_text. reflexivity. Qed.

(* ---- handlers ---- *)

Lemma validator_cases rt rq rp : serve_validator rt rq = Some rp ->
  ((forall f, ~ reads rt rq f) /\ exists e, rp = http_error e 400)
  \/ exists f, reads rt rq f /\
     ((file_validate f = Ok tt /\ rp = output_success "valid file")
      \/ (file_validate f <> Ok tt /\ exists e, rp = http_error e 501)).
Proof.
  intros H. apply with_file_spec in H as [(f & R & ->)|H]; [right; exists f; split; [exact R|]|left; exact H].
  pose proof (validate_any f (sound_file_ok f (reads_sound _ _ _ R))) as N.
  destruct (file_validate f) as [[]|e|]; [left; auto|right; split; [discriminate|eauto]|contradiction].
Qed.

Lemma validator_status rt rq rp : serve_validator rt rq = Some rp ->
  exists status h b, rp = Reply status h b
  /\ (status = 400 <-> ~ exists f, reads rt rq f)
  /\ (status = 501 <-> exists f, reads rt rq f /\ file_validate f <> Ok tt)
  /\ (status = 200 <-> exists f, reads rt rq f /\ file_validate f = Ok tt).
Proof.
  intros H. apply validator_cases in H as [[N [e ->]]|(f & R & [[V ->]|[V [e ->]]])];
    do 3 eexists; (split; [reflexivity|]).
  - split; [split; [intros _ [f R]; apply (N _ R)|reflexivity]|].
    split; (split; [discriminate|]); intros (f & R & _); destruct (N _ R).
  - split; [split; [discriminate|intros X; destruct X; eauto]|].
    split; [split; [discriminate|]|split; [eauto|reflexivity]]. intros (g & R' & V').
    rewrite (reads_one _ _ _ _ R' R) in V'. contradiction.
  - split; [split; [discriminate|intros X; destruct X; eauto]|].
    split; [split; [eauto|reflexivity]|split; [discriminate|]]. intros (g & R' & V').
    rewrite (reads_one _ _ _ _ R' R) in V'. contradiction.
Qed.

Lemma print_cases cpus rt rq rp : serve_print cpus rt rq = Some rp ->
  ((forall f, ~ reads rt rq f) /\ exists e, rp = http_error e 400)
  \/ exists f, reads rt rq f /\
     (((forall o, ~ asks_form rq o) /\ exists e, rp = output_error 501 e)
      \/ exists n o, asks_null rq f f n /\ asks_form rq o /\ rp = Reply 200 [] (BodyText (print_text n o f (get_is_newline rq)))).
Proof.
  intros H. apply with_file_spec in H as [(f & R & ->)|H]; [right; exists f; split; [exact R|]|left; exact H].
  destruct (get_format_spec rq) as [(e & E & N)|(o & E & A & _)]; rewrite E.
  - left. eauto.
  - right. exists (read_nil (request_input rq) f), o. split; [apply (null_asked_print rt); exact R|]. split; [exact A|].
    cbv beta iota zeta. rewrite message_spec. apply buffer_spec.
Qed.

Lemma print_status cpus rt rq rp : serve_print cpus rt rq = Some rp ->
  exists status h b, rp = Reply status h b
  /\ (status = 400 <-> ~ exists f, reads rt rq f)
  /\ (status = 501 <-> (exists f, reads rt rq f) /\ ~ exists o, asks_form rq o)
  /\ (status = 200 <-> (exists f, reads rt rq f) /\ exists o, asks_form rq o).
Proof.
  intros H. apply print_cases in H as [[N [e ->]]|(f & R & [[V [e ->]]|(n & o & _ & V & ->)])];
    do 3 eexists; (split; [reflexivity|]).
  - split; [split; [intros _ [f R]; apply (N _ R)|reflexivity]|].
    split; (split; [discriminate|]); intros ((f & R) & _); destruct (N _ R).
  - split; [split; [discriminate|intros X; destruct X; eauto]|].
    split; [split; [|reflexivity]|split; [discriminate|]].
    + intros _. split; [eauto|]. intros [o A]. apply (V _ A).
    + intros (_ & o & A). destruct (V _ A).
  - split; [split; [discriminate|intros X; destruct X; eauto]|].
    split; [split; [discriminate|]|split; [eauto|reflexivity]]. intros (_ & A). destruct A; eauto.
Qed.

(* what convert makes of the file before it is written *)
Lemma generate_asked rq f : file_ok f ->
  (asks_trailer rq /\ flBases f = [] /\ exists e,
     (if equal_fold (rqForm rq "generate") (lit "true") then generate_into f else Ok f) = Err e)
  \/ exists f1, (if equal_fold (rqForm rq "generate") (lit "true") then generate_into f else Ok f) = Ok f1
     /\ (asks_trailer rq -> flBases f <> [] /\ with_trailer f f1) /\ (~ asks_trailer rq -> f1 = f) /\ file_ok f1.
Proof.
  intros O. pose proof (true_spec rq) as T. destruct (equal_fold _ _).
  - destruct (generate_into_spec f O) as [[N [e E]]|(N & f' & E & W & O')].
    + left. split; [apply T; reflexivity|]. eauto.
    + right. exists f'. split; [exact E|]. split; [auto|]. split; [|exact O']. intros X. destruct X. apply T. reflexivity.
  - right. exists f. split; [reflexivity|]. split; [|split; [auto|exact O]]. intros X. apply T in X. discriminate.
Qed.

Lemma convert_cases cpus rt rq rp : serve_convert cpus rt rq = Some rp ->
  ((forall f, ~ reads rt rq f) /\ exists e, rp = http_error e 400)
  \/ exists f, reads rt rq f /\
     ((asks_trailer rq /\ flBases f = [] /\ exists e, rp = http_error e 501)
      \/ ((asks_trailer rq -> flBases f <> []) /\ (forall o, ~ asks_form rq o) /\ exists e, rp = output_error 501 e)
      \/ exists o g, (asks_trailer rq -> flBases f <> []) /\ asks_form rq o /\ converted (asks_trailer rq) (rqForm rq "type") f g
           /\ file_ok g /\ exists n, asks_null rq f g n /\ rp = Reply 200 attachment (BodyText (convert_text n tab o g (get_is_newline rq)))).
Proof.
  intros H. apply with_file_spec in H as [(f & R & ->)|H]; [right; exists f; split; [exact R|]|left; exact H].
  pose proof (sound_file_ok f (reads_sound _ _ _ R)) as O.
  destruct (generate_asked rq f O) as [(T & N & e & ->)|(f1 & -> & W & K & O1)]; [left; eauto|right].
  destruct (get_format_spec rq) as [(e & E & N)|(o & E & A & _)]; rewrite E.
  - left. split; [intros T; apply W; exact T|]. eauto.
  - right. destruct (change_type_spec (rqForm rq "type") f1 O1) as [Rt O2].
    exists o, (change_type (rqForm rq "type") f1). split; [intros T; apply W; exact T|]. split; [exact A|].
    split; [exists f1; split; [intros T; apply W; exact T|auto]|]. split; [exact O2|].
    exists (read_nil (request_input rq) f || negb (Bool.eqb (flPacked f) (flPacked (change_type (rqForm rq "type") f1)))).
    split; [apply (null_asked rt); exact R|]. cbv beta iota zeta. rewrite message_spec.
    assert (flPacked f1 = flPacked f) as P1.
    { pose proof (true_spec rq) as T. destruct (equal_fold _ _).
      - destruct (proj2 (W (proj1 T eq_refl))) as (t & _ & _ & ->). reflexivity.
      - rewrite K; [reflexivity|]. intros X. apply T in X. discriminate. }
    unfold retyped_nil. rewrite P1. reflexivity.
Qed.

Lemma convert_status cpus rt rq rp : serve_convert cpus rt rq = Some rp ->
  exists status h b, rp = Reply status h b
  /\ (status = 400 <-> ~ exists f, reads rt rq f)
  /\ (status = 501 <-> exists f, reads rt rq f /\ (~ (exists o, asks_form rq o) \/ (asks_trailer rq /\ flBases f = [])))
  /\ (status = 200 <-> exists f, reads rt rq f /\ (exists o, asks_form rq o) /\ (asks_trailer rq -> flBases f <> [])).
Proof.
  intros H. apply convert_cases in H as [[N [e ->]]|(f & R & [(T & B & e & ->)|[(B & N & e & ->)|(o & g & B & A & C & _ & n & _ & ->)]])];
    do 3 eexists; (split; [reflexivity|]).
  - split; [split; [intros _ [f R]; apply (N _ R)|reflexivity]|].
    split; (split; [discriminate|]); intros (f & R & _); destruct (N _ R).
  - split; [split; [discriminate|intros X; destruct X; eauto]|].
    split; [split; [eauto 6|reflexivity]|split; [discriminate|]].
    intros (g & R' & _ & X). rewrite (reads_one _ _ _ _ R' R) in X. destruct (X T B).
  - split; [split; [discriminate|intros X; destruct X; eauto]|].
    split; [split; [|reflexivity]|split; [discriminate|]].
    + intros _. exists f. split; [exact R|]. left. intros [o A]. apply (N _ A).
    + intros (g & _ & (o & A) & _). destruct (N _ A).
  - split; [split; [discriminate|intros X; destruct X; eauto]|].
    split; [split; [discriminate|]|split; [eauto 6|reflexivity]].
    intros (h & R' & [X|[T X]]); [destruct X; eauto|]. rewrite (reads_one _ _ _ _ R' R) in X. destruct (B T X).
Qed.

(* ---- every request is answered if reading comes to an end ---- *)

Lemma reading_ends rt src : patient (srReads src) -> (length (srInput src) < useful (srReads src))%nat ->
  exists r, new_file_from_reader rt (srReads src) (srInput src) = Some r.
Proof.
  intros P U. unfold new_file_from_reader. destruct (srInput src) as [|c s] eqn:E; [eauto|].
  destruct (looks_like_json _); [eauto|]. rewrite (read_from_some _ _ P U). eauto.
Qed.

Lemma answered rt rq k : (forall src, sent rq src -> patient (srReads src) /\ (length (srInput src) < useful (srReads src))%nat) ->
  exists rp, with_file rt rq k = Some rp.
Proof.
  intros H. unfold with_file. destruct (parse_input_spec rt rq) as [(src & S & -> & _)|(_ & e & ->)]; [|eauto].
  destruct (H src S) as [P U]. destruct (reading_ends rt src P U) as (r & ->). destruct r; eauto.
Qed.

(* ---- a generated trailer ---- *)

Lemma convert_generates cpus rt rq f o : reads rt rq f -> asks_form rq o -> asks_trailer rq -> flBases f <> [] ->
  record_validate (flHeader f) = None -> Forall (fun r => record_validate r = None) (flBases f) ->
  exists f1 g, with_trailer f f1 /\ file_validate f1 = Ok tt /\ retyped (rqForm rq "type") f1 g
    /\ (exists n, asks_null rq f g n
         /\ serve_convert cpus rt rq = Some (Reply 200 attachment (BodyText (convert_text n tab o g (get_is_newline rq)))))
    /\ (rqForm rq "type" <> type_name (negb (flPacked f)) -> g = f1).
Proof.
  intros R A T N Vh Vb.
  assert (exists rp, serve_convert cpus rt rq = Some rp) as [rp E] by (eexists; apply (with_file_reads _ _ _ _ R)).
  pose proof E as C. apply convert_cases in C as [[X _]|(f' & R' & [(_ & X & _)|[(_ & X & _)|(o' & g & _ & A' & (f1 & W & _ & Rt) & _ & n & Nu & ->)]])].
  - destruct (X _ R).
  - rewrite (reads_one _ _ _ _ R' R) in X. contradiction.
  - destruct (X _ A).
  - rewrite (reads_one _ _ _ _ R' R) in *. specialize (W T).
    assert (o' = o) as -> by (destruct (get_format_spec rq) as [(e & _ & X)|(o2 & _ & _ & U)]; [destruct (X _ A)|rewrite (U _ A), (U _ A'); reflexivity]).
    pose proof (sound_file_ok f (reads_sound _ _ _ R)) as O.
    exists f1, g. split; [exact W|]. split; [apply (with_trailer_valid f); assumption|]. split; [exact Rt|]. split; [exists n; split; [exact Nu|exact E]|].
    intros X. assert (file_ok f1 /\ flPacked f1 = flPacked f) as [O1 P1].
    { destruct (generate_into_spec f O) as [[B _]|(_ & f2 & _ & W2 & O2)]; [contradiction|].
      destruct W as (t & G & _ & ->), W2 as (t2 & G2 & _ & ->). assert (t = t2) as -> by congruence. auto. }
    apply (retyped_same (rqForm rq "type") f1 g O1); [|exact Rt]. rewrite P1. exact X.
Qed.

(* ---- the command line ---- *)

Lemma flag_format_spec t :
  (exists e, flag_format t = Err e /\ forall o, ~ names_form t o)
  \/ exists o, flag_format t = Ok (form_word o) /\ names_form t o /\ forall o', names_form t o' -> o' = o.
Proof.
  unfold flag_format. rewrite andb_comm.
  destruct (names_spec t) as [[E N]|(o & N & E)].
  - left. destruct t as [|c t]; [destruct (N JsonOutput); constructor|]. rewrite E. eauto.
  - right. exists o. split; [|split; [exact N|intros o' H; apply (names_unique _ _ _ H N)]].
    destruct t as [|c t]; [destruct o; [reflexivity|discriminate E]|].
    rewrite E. destruct o; reflexivity.
Qed.

Lemma cli_print_spec cpus rt fg d : cli_print cpus rt fg = Some d ->
  (exists src f o, fgInput fg = Some src /\ new_file_from_reader rt (srReads src) (srInput src) = Some (Ok f)
     /\ names_form (fgFormat fg) o
     /\ exists n, null_data (srInput src) f f n /\ d = Wrote (convert_text n (lit "  ") o f (fgNewline fg)))
  \/ (exists e, d = Failed e) /\
     (fgInput fg = None \/ (forall o, ~ names_form (fgFormat fg) o)
      \/ exists src e, fgInput fg = Some src /\ new_file_from_reader rt (srReads src) (srInput src) = Some (Err e)).
Proof.
  unfold cli_print. destruct (fgInput fg) as [src|]; [|intros [= <-]; right; eauto].
  destruct (flag_format_spec (fgFormat fg)) as [(e & -> & N)|(o & -> & A & _)]; [intros [= <-]; right; eauto|].
  destruct (new_file_from_reader rt _ _) as [[f|e|]|] eqn:R; [| | |discriminate]; intros [= <-].
  - left. exists src, f, o. repeat (split; [solve [auto]|]). exists (read_nil (srInput src) f). rewrite cli_spec. split; [|reflexivity].
    pose proof (nil_null (srInput src) f f) as X. rewrite Bool.eqb_reflx, orb_false_r in X. exact X.
  - right. split; [eauto|]. right. right. exists src, e. auto.
  - apply new_file_sound in R. destruct R as [R _]. contradiction.
Qed.

Lemma cli_convert_spec cpus rt fg d : cli_convert cpus rt fg = Some d ->
  (exists src f g o, fgInput fg = Some src /\ new_file_from_reader rt (srReads src) (srInput src) = Some (Ok f)
     /\ names_form (fgFormat fg) o /\ converted (fgGenerate fg = true) (fgType fg) f g
     /\ exists n, null_data (srInput src) f g n /\ d = Wrote (convert_text n (lit "  ") o g (fgNewline fg)))
  \/ (exists e, d = Failed e) /\
     (fgInput fg = None \/ (forall o, ~ names_form (fgFormat fg) o) \/ fgCreates fg = false
      \/ (exists src e, fgInput fg = Some src /\ new_file_from_reader rt (srReads src) (srInput src) = Some (Err e))
      \/ exists src f, fgInput fg = Some src /\ new_file_from_reader rt (srReads src) (srInput src) = Some (Ok f)
           /\ fgGenerate fg = true /\ flBases f = []).
Proof.
  unfold cli_convert. destruct (fgInput fg) as [src|]; [|intros [= <-]; right; eauto].
  destruct (flag_format_spec (fgFormat fg)) as [(e & -> & N)|(o & -> & A & _)]; [intros [= <-]; right; eauto|].
  destruct (new_file_from_reader rt _ _) as [[f|e|]|] eqn:R; [| | |discriminate].
  - pose proof (proj2 (new_file_sound _ _ _ _ R) f eq_refl) as S. apply sound_file_ok in S.
    destruct (fgGenerate fg) eqn:G.
    + destruct (generate_into_spec f S) as [[B [e ->]]|(B & f1 & -> & W & O1)].
      * intros [= <-]. right. split; [eauto|]. do 4 right. exists src, f. auto.
      * destruct (change_type_spec (fgType fg) f1 O1) as [Rt _]. destruct (fgCreates fg); intros [= <-]; [left|right; eauto 6].
        exists src, f, (change_type (fgType fg) f1), o. rewrite cli_spec. repeat (split; [solve [auto]|]). split.
        { exists f1. split; [auto|]. split; [intros X; destruct X; reflexivity|exact Rt]. }
        eexists. split; [apply nil_null|]. destruct W as (t & _ & _ & ->). reflexivity.
    + destruct (change_type_spec (fgType fg) f S) as [Rt _]. destruct (fgCreates fg); intros [= <-]; [left|right; eauto 6].
      exists src, f, (change_type (fgType fg) f), o. rewrite cli_spec. repeat (split; [solve [auto]|]). split.
      { exists f. split; [discriminate|]. split; [auto|exact Rt]. }
      eexists. split; [apply nil_null|]. reflexivity.
  - intros [= <-]. right. split; [eauto|]. do 3 right. left. exists src, e. auto.
  - apply new_file_sound in R. destruct R as [R _]. contradiction.
Qed.

Lemma cli_validate_spec rt fg d : cli_validate rt fg = Some d ->
  (exists src f, fgInput fg = Some src /\ new_file_from_reader rt (srReads src) (srInput src) = Some (Ok f)
     /\ file_validate f = Ok tt /\ d = Wrote (lit "the file is valid " ++ [lf_char]))
  \/ (exists e, d = Failed e) /\
     (fgInput fg = None \/ exists src, fgInput fg = Some src /\
       forall f, new_file_from_reader rt (srReads src) (srInput src) = Some (Ok f) -> file_validate f <> Ok tt).
Proof.
  unfold cli_validate. destruct (fgInput fg) as [src|]; [|intros [= <-]; right; eauto].
  destruct (new_file_from_reader rt _ _) as [[f|e|]|] eqn:R; [| | |discriminate].
  - pose proof (proj2 (new_file_sound _ _ _ _ R) f eq_refl) as S. apply sound_file_ok in S.
    pose proof (validate_any f S) as N.
    destruct (file_validate f) as [[]|e|] eqn:V; [| |contradiction]; intros [= <-].
    + left. exists src, f. auto.
    + right. split; [eauto|]. right. exists src. split; [reflexivity|]. intros g E. rewrite R in E. injection E as <-. congruence.
  - intros [= <-]. right. split; [eauto|]. right. exists src. split; [reflexivity|]. intros g E. rewrite R in E. discriminate.
  - apply new_file_sound in R. destruct R as [R _]. contradiction.
Qed.

(* ---- what is delivered can be read again ---- *)

Lemma json_text_back rt n f s w src : orders rt -> json_file f -> format_kept f -> spells (encode_file n f) s ->
  delivers src (s ++ w) -> new_file_from_reader rt (srReads src) (srInput src) = Some (Ok f).
Proof.
  intros Or J K Sp (E & _). rewrite E.
  assert (exists l, encode_file n f = JObj l) as [l El] by (eexists; reflexivity).
  pose proof (new_file_text rt (srReads src) [] s w l) as H. cbn [app] in H. rewrite H.
  - f_equal. apply (file_text_round_trip rt n (encode_file n f) s [] w f Or J K); [|constructor|exact Sp].
    apply plain_same. apply file_plain. exact J.
  - rewrite <- El. exact Sp.
  - cbn. lia.
Qed.

Lemma metro_text_back rt f nl src : comes_back MetroOutput f nl -> delivers src (file_text nl f) ->
  new_file_from_reader rt (srReads src) (srInput src) = Some (Ok f).
Proof.
  intros (k & S & N) (E & P & U). rewrite E in *. rewrite <- (concurrent_text f nl 1) in *.
  apply (raw_read rt k); assumption.
Qed.

Lemma print_text_back rt n o f nl src : orders rt -> comes_back o f nl -> delivers src (print_text n o f nl) ->
  new_file_from_reader rt (srReads src) (srInput src) = Some (Ok f).
Proof.
  intros Or C D. destruct o; [destruct C as [J K]|apply (metro_text_back rt f nl); assumption].
  apply (json_text_back rt n f (print (encode_file n f)) [ascii_of_nat 10]); auto. apply print_spells, file_plain, J.
Qed.

Lemma convert_text_back rt n indent o f nl src : Forall white indent -> orders rt -> comes_back o f nl ->
  delivers src (convert_text n indent o f nl) -> new_file_from_reader rt (srReads src) (srInput src) = Some (Ok f).
Proof.
  intros W Or C D. destruct o; [destruct C as [J K]|apply (metro_text_back rt f nl); assumption].
  apply (json_text_back rt n f (print_indent indent 0 (encode_file n f)) []); auto; [|rewrite app_nil_r; exact D].
  apply print_indent_spells; [exact W|]. apply file_plain, J.
Qed.

Lemma tab_white : Forall white tab.
Proof. constructor; [right; left; reflexivity|constructor]. Qed.

(* an answer sent again *)
Lemma print_again cpus rt rq f o rt' rq' src : reads rt rq f -> asks_form rq o -> comes_back o f (get_is_newline rq) ->
  orders rt' -> sent rq' src ->
  (forall h t, serve_print cpus rt rq = Some (Reply 200 h (BodyText t)) -> delivers src t) -> reads rt' rq' f.
Proof.
  intros R A C Or S D. exists src. split; [exact S|].
  apply (print_text_back rt' (read_nil (request_input rq) f) o f (get_is_newline rq)); auto.
  assert (exists rp, serve_print cpus rt rq = Some rp) as [rp E] by (eexists; apply (with_file_reads _ _ _ _ R)).
  pose proof E as X. apply print_cases in X as [[N _]|(f' & R' & [[N _]|(n & o' & Nu & A' & ->)])];
    [destruct (N _ R)|destruct (N _ A)|].
  rewrite (reads_one _ _ _ _ R' R) in E, Nu.
  assert (o' = o) as -> by (destruct (get_format_spec rq) as [(e & _ & X)|(o2 & _ & _ & U)]; [destruct (X _ A)|rewrite (U _ A), (U _ A'); reflexivity]).
  rewrite (asks_null_one _ _ _ _ _ Nu (null_asked_print rt rq f R)) in E. apply (D [] _ E).
Qed.

Lemma convert_again cpus rt rq o f g rt' rq' src : reads rt rq f -> asks_form rq o ->
  converted (asks_trailer rq) (rqForm rq "type") f g -> comes_back o g (get_is_newline rq) ->
  orders rt' -> sent rq' src ->
  (forall h t, serve_convert cpus rt rq = Some (Reply 200 h (BodyText t)) -> delivers src t) -> reads rt' rq' g.
Proof.
  intros R A Cv C Or S D. exists src. split; [exact S|].
  apply (convert_text_back rt' (read_nil (request_input rq) f || negb (Bool.eqb (flPacked f) (flPacked g))) tab o g (get_is_newline rq)); auto; [apply tab_white|].
  assert (exists rp, serve_convert cpus rt rq = Some rp) as [rp E] by (eexists; apply (with_file_reads _ _ _ _ R)).
  pose proof (sound_file_ok f (reads_sound _ _ _ R)) as O.
  pose proof E as X. apply convert_cases in X as [[N _]|(f' & R' & [(T & B & _)|[(_ & N & _)|(o' & g' & _ & A' & Cv' & _ & n' & Nu & ->)]])].
  - destruct (N _ R).
  - rewrite (reads_one _ _ _ _ R' R) in B. destruct Cv as (f1 & W & _). destruct (W T) as (t & G & V & _).
    destruct (generate_into_spec f O) as [[_ [e Ge]]|(N & _)]; [|contradiction].
    unfold generate_into in Ge. rewrite G in Ge. unfold file_set_record in Ge. rewrite V in Ge.
    destruct (trailer_any f O) as (t' & G' & _). rewrite G in G'. injection G' as ->.
    destruct f as [[] ? ? ?]; discriminate.
  - destruct (N _ A).
  - rewrite (reads_one _ _ _ _ R' R) in Cv'.
    assert (o' = o) as -> by (destruct (get_format_spec rq) as [(e & _ & X)|(o2 & _ & _ & U)]; [destruct (X _ A)|rewrite (U _ A), (U _ A'); reflexivity]).
    rewrite (reads_one _ _ _ _ R' R) in Nu.
    assert (g' = g) as ->; [|rewrite (asks_null_one _ _ _ _ _ Nu (null_asked rt rq f g R)) in E; apply (D attachment _ E)].
    destruct Cv as (f1 & W1 & N1 & Rt1), Cv' as (f2 & W2 & N2 & Rt2).
    assert (f1 = f2) as <-; [|apply (retyped_unique (rqForm rq "type") f1); assumption].
    pose proof (true_spec rq) as T. destruct (equal_fold _ _).
    + assert (asks_trailer rq) as T' by (apply T; reflexivity).
      destruct (W1 T') as (t & G & _ & ->), (W2 T') as (t' & G' & _ & ->). congruence.
    + assert (~ asks_trailer rq) as T' by (intros H; apply T in H; discriminate). rewrite (N1 T'), (N2 T'). reflexivity.
Qed.

Lemma validator_200 rt rq f : reads rt rq f -> file_validate f = Ok tt ->
  serve_validator rt rq = Some (output_success "valid file").
Proof. intros R V. unfold serve_validator. rewrite (with_file_reads _ _ _ _ R), V. reflexivity. Qed.

(* ---- with the line breaks asked for ---- *)

Lemma breaks_one rq b : asks_breaks rq b -> b = get_is_newline rq.
Proof.
  intros H. pose proof (breaks_spec rq) as H'. unfold asks_breaks in *.
  destruct b, (get_is_newline rq); try reflexivity; destruct H as [H1 H2], H' as [H3 H4].
  - apply H2, H3. reflexivity.
  - symmetry. apply H4, H1. reflexivity.
Qed.

Lemma print_delivers cpus rt rq f o b n : reads rt rq f -> asks_form rq o -> asks_breaks rq b -> asks_null rq f f n ->
  serve_print cpus rt rq = Some (Reply 200 [] (BodyText (print_text n o f b))).
Proof.
  intros R A B Nn. rewrite (breaks_one _ _ B).
  assert (exists rp, serve_print cpus rt rq = Some rp) as [rp E] by (eexists; apply (with_file_reads _ _ _ _ R)).
  pose proof E as X. apply print_cases in X as [[N _]|(f' & R' & [[N _]|(n' & o' & Nu & A' & ->)])];
    [destruct (N _ R)|destruct (N _ A)|].
  rewrite (reads_one _ _ _ _ R' R) in E, Nu.
  assert (o' = o) as -> by (destruct (get_format_spec rq) as [(e & _ & X)|(o2 & _ & _ & U)]; [destruct (X _ A)|rewrite (U _ A), (U _ A'); reflexivity]).
  rewrite (asks_null_one _ _ _ _ _ Nu Nn) in E. exact E.
Qed.

Lemma converted_one rq f g g' : converted (asks_trailer rq) (rqForm rq "type") f g ->
  converted (asks_trailer rq) (rqForm rq "type") f g' -> g' = g.
Proof.
  intros (f1 & W1 & N1 & Rt1) (f2 & W2 & N2 & Rt2).
  assert (f1 = f2) as <-; [|apply (retyped_unique (rqForm rq "type") f1); assumption].
  pose proof (true_spec rq) as T. destruct (equal_fold _ _).
  - assert (asks_trailer rq) as T' by (apply T; reflexivity).
    destruct (W1 T') as (t & G & _ & ->), (W2 T') as (t' & G' & _ & ->). congruence.
  - assert (~ asks_trailer rq) as T' by (intros H; apply T in H; discriminate). rewrite (N1 T'), (N2 T'). reflexivity.
Qed.

Lemma convert_delivers cpus rt rq f g o b n : reads rt rq f -> asks_form rq o -> asks_breaks rq b ->
  converted (asks_trailer rq) (rqForm rq "type") f g -> asks_null rq f g n ->
  serve_convert cpus rt rq = Some (Reply 200 attachment (BodyText (convert_text n tab o g b))).
Proof.
  intros R A B Cv Nn. rewrite (breaks_one _ _ B).
  assert (exists rp, serve_convert cpus rt rq = Some rp) as [rp E] by (eexists; apply (with_file_reads _ _ _ _ R)).
  pose proof (sound_file_ok f (reads_sound _ _ _ R)) as O.
  pose proof E as X. apply convert_cases in X as [[N _]|(f' & R' & [(T & Bn & _)|[(_ & N & _)|(o' & g' & _ & A' & Cv' & _ & n' & Nu & ->)]])].
  - destruct (N _ R).
  - rewrite (reads_one _ _ _ _ R' R) in Bn. destruct Cv as (f1 & W & _). destruct (W T) as (t & G & V & _).
    destruct (generate_into_spec f O) as [[_ [e Ge]]|(N & _)]; [|contradiction].
    unfold generate_into in Ge. rewrite G in Ge. unfold file_set_record in Ge. rewrite V in Ge.
    destruct (trailer_any f O) as (t' & G' & _). rewrite G in G'. injection G' as ->.
    destruct f as [[] ? ? ?]; discriminate.
  - destruct (N _ A).
  - rewrite (reads_one _ _ _ _ R' R) in Cv'.
    assert (o' = o) as -> by (destruct (get_format_spec rq) as [(e & _ & X)|(o2 & _ & _ & U)]; [destruct (X _ A)|rewrite (U _ A), (U _ A'); reflexivity]).
    rewrite (reads_one _ _ _ _ R' R), (converted_one _ _ _ _ Cv Cv') in Nu. rewrite (converted_one _ _ _ _ Cv Cv') in E.
    rewrite (asks_null_one _ _ _ _ _ Nn Nu). exact E.
Qed.

(* there is something to deliver unless a trailer is wanted of a file without data records *)
Lemma converted_exists rt rq f : reads rt rq f -> (asks_trailer rq -> flBases f <> []) ->
  exists g, converted (asks_trailer rq) (rqForm rq "type") f g.
Proof.
  intros R N. pose proof (sound_file_ok f (reads_sound _ _ _ R)) as O.
  destruct (generate_asked rq f O) as [(T & B & _)|(f1 & _ & W & K & O1)]; [destruct (N T B)|].
  destruct (change_type_spec (rqForm rq "type") f1 O1) as [Rt _].
  exists (change_type (rqForm rq "type") f1), f1. split; [intros T; apply W; exact T|]. split; [exact K|exact Rt].
Qed.

Lemma convert_generated cpus rt rq f o b : reads rt rq f -> asks_form rq o -> asks_breaks rq b -> asks_trailer rq ->
  flBases f <> [] -> record_validate (flHeader f) = None -> Forall (fun r => record_validate r = None) (flBases f) ->
  (rqForm rq "type" = type_name (negb (flPacked f)) -> file_times f) ->
  (rqForm rq "type" = type_name true -> flPacked f = false -> no_new_accounts f) ->
  exists g n, converted (asks_trailer rq) (rqForm rq "type") f g /\ file_validate g = Ok tt /\ asks_null rq f g n
    /\ serve_convert cpus rt rq = Some (Reply 200 attachment (BodyText (convert_text n tab o g b))).
Proof.
  intros R A B T N Vh Vb Gt Nn. destruct (convert_generates cpus rt rq f o R A T N Vh Vb) as (f1 & g & W & V & Rt & (n & Nu & E) & Same).
  rewrite (breaks_one _ _ B). exists g, n.
  assert (converted (asks_trailer rq) (rqForm rq "type") f g) as Cv by (exists f1; split; [auto|split; [contradiction|exact Rt]]).
  split; [exact Cv|]. split; [|split; [exact Nu|exact E]].
  destruct (bytes_dec (rqForm rq "type") (type_name (negb (flPacked f)))) as [Y|Y]; [|rewrite (Same Y); exact V].
  pose proof (sound_file_ok f (reads_sound _ _ _ R)) as O. specialize (Gt Y).
  destruct (generate_into_spec f O) as [[X _]|(_ & f2 & _ & W2 & O2)]; [contradiction|].
  assert (f2 = f1) as -> by (destruct W as (t & G & _ & ->), W2 as (t2 & G2 & _ & ->); congruence).
  apply (retyped_valid (rqForm rq "type") f1 g O2); auto.
  - destruct (trailer_any f O) as (t' & G' & _). destruct W as (t & G & _ & ->). rewrite G in G'. injection G' as ->.
    destruct f as [[] ? ? ?]; cbn; destruct Gt as (G1 & G2 & G3); repeat split; auto; exact I.
  - destruct W as (t & G & _ & ->). exact Nn.
Qed.

Lemma print_returns cpus rt rq f o b rt' rq' src : reads rt rq f -> asks_form rq o -> asks_breaks rq b -> comes_back o f b ->
  orders rt' -> sent rq' src ->
  (forall h t, serve_print cpus rt rq = Some (Reply 200 h (BodyText t)) -> delivers src t) -> reads rt' rq' f.
Proof. intros R A B. rewrite (breaks_one _ _ B). apply (print_again cpus rt rq f o); assumption. Qed.

Lemma convert_returns cpus rt rq f g o b rt' rq' src : reads rt rq f -> asks_form rq o -> asks_breaks rq b ->
  converted (asks_trailer rq) (rqForm rq "type") f g -> comes_back o g b -> orders rt' -> sent rq' src ->
  (forall h t, serve_convert cpus rt rq = Some (Reply 200 h (BodyText t)) -> delivers src t) -> reads rt' rq' g.
Proof. intros R A B C. rewrite (breaks_one _ _ B). apply (convert_again cpus rt rq o f g); assumption. Qed.

(* converting, then validating the answer *)
Lemma convert_then_validate cpus rt rq f o b rt' rq' src : reads rt rq f -> asks_form rq o -> asks_breaks rq b -> asks_trailer rq ->
  flBases f <> [] -> record_validate (flHeader f) = None -> Forall (fun r => record_validate r = None) (flBases f) ->
  (rqForm rq "type" = type_name (negb (flPacked f)) -> file_times f) ->
  (rqForm rq "type" = type_name true -> flPacked f = false -> no_new_accounts f) ->
  (forall g, converted (asks_trailer rq) (rqForm rq "type") f g -> comes_back o g b) -> orders rt' -> sent rq' src ->
  (forall h t, serve_convert cpus rt rq = Some (Reply 200 h (BodyText t)) -> delivers src t) ->
  exists h t, serve_validator rt' rq' = Some (Reply 200 h t).
Proof.
  intros R A B T N Vh Vb Gt Nn Cb Or S D.
  destruct (convert_generated cpus rt rq f o b R A B T N Vh Vb Gt Nn) as (g & n & Cv & V & _).
  pose proof (convert_returns cpus rt rq f g o b rt' rq' src R A B Cv (Cb g Cv) Or S D) as R'.
  exists [], (BodyText (print (JObj [(lit "status", JStr (lit "valid file"))]) ++ [lf_char])).
  exact (validator_200 rt' rq' g R' V).
Qed.

(* every segment of a file that was read is valid *)
Lemma read_segments rt evs input f : new_file_from_reader rt evs input = Some (Ok f) -> segments_valid f.
Proof. intros R. apply sound_segments. apply (proj2 (new_file_sound _ _ _ _ R)). reflexivity. Qed.
