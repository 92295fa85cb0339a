(* Properties of the streaming reader *)
From Coq Require Import ZArith NArith Bool Ascii String List Lia.
Import ListNotations.
From Verif Require Import GoBase GoTime Tables Codec Records File GoBaseFacts SpecCodec SpecLayouts
  SpecRecords FieldFacts RecordFacts RoundTrip Layout SpecFile ParseFacts ParseProps SpecFiles FileFacts BreakFacts
  FileRoundTrip Reader SpecReader ReaderFacts.
Local Open Scope string_scope.
Local Open Scope Z_scope.
Local Open Scope list_scope.
Local Notation length := List.length.
Local Opaque window.

(* ---- records and tokens ---- *)

Lemma good_sized t : good_token t <-> sized_record t.
Proof.
  split.
  - intros [L A]. exists (firstn 4 t), (skipn 4 t). split; [symmetry; apply firstn_skipn|].
    assert (length (firstn 4 t) = 4%nat) as L4 by (rewrite firstn_length; lia).
    split; [exact L4|]. apply announced_says; assumption.
  - intros (w & rest & E & L & W). split; [rewrite E, app_length; lia|].
    assert (firstn 4 t = w) as ->.
    { rewrite E, firstn_app, <- L, firstn_all, Nat.sub_diag. cbn [firstn]. apply app_nil_r. }
    apply announced_says; assumption.
Qed.

Lemma raw_record_spec raw r : raw_record raw r <-> r = strip raw /\ ends_plain raw.
Proof.
  unfold raw_record. rewrite strip_unbroken. unfold ends_plain, plain.
  split; intros [H (s' & c & E & P)]; (split; [exact H|]); exists s', c; tauto.
Qed.

Lemma next_spec s t s' : next s = Some (t, s') <->
  exists raw, s = raw ++ s' /\ raw_record raw t /\ sized_record t /\ Z.of_nat (length raw) <= scanner_limit.
Proof.
  split.
  - unfold next. destruct (scan_record (firstn window s) true) as [a t'| |] eqn:E; try discriminate.
    intros H. injection H as <- <-. apply scan_token in E as (raw & rest & E & P & -> & -> & G).
    exists raw. assert (length raw <= window)%nat as Lw.
    { apply (f_equal (@List.length _)) in E. rewrite firstn_length, app_length in E. lia. }
    assert (s = raw ++ skipn (length raw) s) as Es.
    { pose proof (firstn_skipn window s) as E0. rewrite E in E0. clear E. revert E0.
      generalize (skipn window s). intros u <-. rewrite <- app_assoc, skipn_app, skipn_all, Nat.sub_diag. reflexivity. }
    split; [exact Es|]. split; [apply raw_record_spec; auto|]. split; [apply good_sized, G|].
    apply window_spec. exact Lw.
  - intros (raw & -> & R & G & L). apply raw_record_spec in R as [-> P]. apply good_sized in G.
    assert (length raw <= window)%nat as Lw by (apply window_spec; exact L).
    assert (scan_record raw true = SToken (length raw) (strip raw)) as E.
    { apply scan_token. exists raw, []. rewrite app_nil_r. auto. }
    rewrite (next_of_prefix raw s' _ _ true Lw E). rewrite skipn_all. reflexivity.
Qed.

(* ---- the records when there is no limit ---- *)

Definition next_free (s : bytes) : option (bytes * bytes) :=
  if Nat.ltb (length s) 4 then None
  else match announced_size (firstn 4 s) with
       | Some n => if n <=? Z.of_nat (length s) then Some (firstn (Z.to_nat n) s, skipn (Z.to_nat n) s) else None
       | None => None
       end.

Fixpoint tokens_free (fuel : nat) (s : bytes) : list bytes :=
  match fuel with
  | O => []
  | S fuel' => match next_free s with Some (t, s') => t :: tokens_free fuel' s' | None => [] end
  end.

Lemma next_free_spec s t s' : next_free s = Some (t, s') <-> s = t ++ s' /\ good_token t.
Proof.
  unfold next_free, good_token. split.
  - destruct (Nat.ltb_spec (length s) 4); [discriminate|].
    destruct (announced_size (firstn 4 s)) as [n|] eqn:A; [|discriminate].
    destruct (Z.leb_spec n (Z.of_nat (length s))); [|discriminate]. intros E. injection E as <- <-.
    assert (length (firstn 4 s) = 4%nat) as L4 by (rewrite firstn_length; lia).
    pose proof (announced_min _ _ L4 A) as M.
    split; [symmetry; apply firstn_skipn|]. rewrite firstn_length. split; [lia|].
    rewrite firstn_firstn, Nat.min_l by lia. rewrite A. f_equal. lia.
  - intros (-> & L & A). rewrite app_length. destruct (Nat.ltb_spec (length t + length s') 4); [lia|].
    rewrite firstn_4_app, A by exact L. destruct (Z.leb_spec (Z.of_nat (length t)) (Z.of_nat (length t + length s'))); [|lia].
    rewrite Nat2Z.id. rewrite firstn_app, skipn_app, Nat.sub_diag, firstn_all, skipn_all. cbn [firstn skipn app].
    rewrite app_nil_r. reflexivity.
Qed.

Lemma next_free_shorter s t s' : next_free s = Some (t, s') -> (length s' < length s)%nat.
Proof. intros H. apply next_free_spec in H as (-> & L & _). rewrite app_length. lia. Qed.

Lemma tokens_free_fuel : forall fuel fuel' s, (length s < fuel)%nat -> (length s < fuel')%nat -> tokens_free fuel s = tokens_free fuel' s.
Proof.
  induction fuel as [|fuel IH]; intros fuel' s L L'; [lia|]. destruct fuel' as [|fuel']; [lia|]. cbn [tokens_free].
  destruct (next_free s) as [[t s']|] eqn:E; [|reflexivity]. apply next_free_shorter in E. f_equal. apply IH; lia.
Qed.

Lemma next_to_free s t s' : next s = Some (t, s') -> next_free (strip s) = Some (t, strip s').
Proof.
  intros H. apply next_spec in H as (raw & -> & R & G & _). apply raw_record_spec in R as [-> _].
  apply next_free_spec. rewrite strip_app. split; [reflexivity|]. apply good_sized, G.
Qed.

Lemma free_to_next s t u : Z.of_nat (length s) <= scanner_limit -> next_free (strip s) = Some (t, u) ->
  exists s', next s = Some (t, s').
Proof.
  intros L H. apply next_free_spec in H as (E & G).
  destruct (striped_cut (length t) ltac:(destruct G; lia) s) as (raw & rest & -> & P & Lr).
  { rewrite E, app_length. lia. }
  exists rest. apply next_spec. exists raw. split; [reflexivity|].
  assert (strip raw = t) as Er.
  { rewrite strip_app in E. apply (f_equal (firstn (length t))) in E.
    rewrite !firstn_app, <- Lr, !Nat.sub_diag, firstn_all, Lr, firstn_all in E. cbn [firstn] in E.
    rewrite !app_nil_r in E. exact E. }
  split; [apply raw_record_spec; auto|]. split; [apply good_sized, G|]. rewrite app_length in L. lia.
Qed.

Lemma tokens_within : forall fuel s, within_buffer s -> tokens fuel s = tokens_free fuel (strip s).
Proof.
  induction fuel as [|fuel IH]; intros s W; [reflexivity|]. cbn [tokens tokens_free].
  destruct W as [s L|raw rest r R G L W|raw rest w U Lw No L].
  - destruct (next s) as [[t s']|] eqn:E.
    + rewrite (next_to_free _ _ _ E). f_equal. apply IH, within_end. apply next_shorter in E. lia.
    + destruct (next_free (strip s)) as [[t u]|] eqn:F; [|reflexivity].
      destruct (free_to_next s t u L F) as (s' & X). congruence.
  - assert (next (raw ++ rest) = Some (r, rest)) as E by (apply next_spec; exists raw; auto).
    rewrite E, (next_to_free _ _ _ E). f_equal. apply IH, W.
  - apply strip_unbroken in U. subst w.
    assert (announced_size (strip raw) = None) as A.
    { destruct (announced_size (strip raw)) as [n|] eqn:A; [|reflexivity]. exfalso. apply (No n), announced_says; assumption. }
    assert (next_free (strip (raw ++ rest)) = None) as F.
    { destruct (next_free (strip (raw ++ rest))) as [[t u]|] eqn:F; [|reflexivity]. exfalso.
      apply next_free_spec in F as (E & Lt & At). rewrite strip_app in E.
      apply (f_equal (firstn 4)) in E. rewrite !firstn_4_app in E by lia.
      rewrite <- Lw, firstn_all in E. rewrite Lw in E. congruence. }
    rewrite F. destruct (next (raw ++ rest)) as [[t u]|] eqn:E; [|reflexivity].
    rewrite (next_to_free _ _ _ E) in F. discriminate.
Qed.

Lemma outcome_free s : within_buffer s -> outcome s = read_tokens (new_file_p false) (tokens_free (S (length (strip s))) (strip s)).
Proof.
  intros W. unfold outcome. rewrite (tokens_within _ _ W). f_equal. apply tokens_free_fuel; [|lia].
  pose proof (strip_le s). lia.
Qed.

(* C41 *)
Lemma breaks_ignored s s' evs evs' r r' : broken_up s s' -> within_buffer s -> within_buffer s' ->
  patient evs -> patient evs' -> read_from evs s = Some r -> read_from evs' s' = Some r' -> r = r'.
Proof.
  intros B W W' P P' H H'. rewrite (read_from_outcome _ _ _ P H), (read_from_outcome _ _ _ P' H').
  rewrite (outcome_free s W), (outcome_free s' W'), (strip_broken_up _ _ B). reflexivity.
Qed.

(* C40 *)
Lemma chunks_ignored evs evs' s r r' : patient evs -> patient evs' ->
  read_from evs s = Some r -> read_from evs' s = Some r' -> r = r'.
Proof.
  intros P P' H H'. rewrite (read_from_outcome _ _ _ P H), (read_from_outcome _ _ _ P' H'). reflexivity.
Qed.

Lemma enough_reads evs s : patient evs -> (length s < useful evs)%nat -> exists r, read_from evs s = Some r.
Proof. intros P U. exists (outcome s). apply read_from_some; assumption. Qed.

(* ---- what the reader accepts ---- *)

Lemma tokens_cut : forall fuel s t ts, tokens fuel s = t :: ts ->
  exists raw rest fuel', s = raw ++ rest /\ raw_record raw t /\ sized_record t /\ tokens fuel' rest = ts.
Proof.
  intros fuel s t ts H. destruct fuel as [|fuel]; [discriminate|]. cbn [tokens] in H.
  destruct (next s) as [[t' s']|] eqn:E; [|discriminate]. injection H as <- <-.
  apply next_spec in E as (raw & -> & R & G & _). exists raw, s', fuel. auto.
Qed.

Lemma bases_of_success p iv : forall fuel s acc bs line, bases_of p iv (tokens fuel s) acc = inl (Some (bs, line)) ->
  exists ds more new, unbroken s (List.concat ds ++ line ++ more) /\ Forall sized_record ds /\ sized_record line
    /\ bs = acc ++ new
    /\ Forall2 (fun d b => exists n, record_parse (RBase p new_base) d iv = (b, Ok n)) ds new.
Proof.
  intros fuel s acc bs line H. remember (tokens fuel s) as toks eqn:E. symmetry in E.
  revert fuel s E acc H. induction toks as [|t toks IH]; intros fuel s E acc H; [discriminate|].
  destruct (tokens_cut _ _ _ _ E) as (raw & rest & fuel' & -> & R & G & E').
  apply raw_record_spec in R as [Rt _]. cbn [bases_of] in H.
  destruct (record_parse (new_data_record p) t iv) as [b [n|e|]] eqn:P; [| |discriminate].
  - destruct (IH _ _ E' _ H) as (ds & more & new & U & Fd & Gl & -> & F2).
    exists (t :: ds), more, (b :: new). apply strip_unbroken in U. split.
    + apply strip_unbroken. rewrite strip_app, <- U, <- Rt. cbn [List.concat]. rewrite <- app_assoc. reflexivity.
    + split; [constructor; assumption|]. split; [exact Gl|]. split; [rewrite <- app_assoc; reflexivity|].
      constructor; [exists n; exact P|exact F2].
  - injection H as <- <-. exists [], (strip rest), []. split.
    + apply strip_unbroken. rewrite strip_app, <- Rt. reflexivity.
    + split; [constructor|]. split; [exact G|]. split; [rewrite app_nil_r; reflexivity|constructor].
Qed.

Lemma set_type_new line : fst (file_set_type (new_file_p false) (if is_packed line then lit "packed" else lit "metro"))
  = new_file_p (is_packed line).
Proof. destruct (is_packed line); reflexivity. Qed.

Lemma read_header_new line : read_header (new_file_p false) line =
  if negb (is_metro_file line) then Err ErrInvalidMetroFile
  else match record_parse (RHeader (is_packed line) new_header) line (is_variable_length line) with
       | (_, Err e) => Err e
       | (_, Panic) => Panic
       | (h, Ok _) => Ok (set_header (new_file_p (is_packed line)) h)
       end.
Proof. unfold read_header. rewrite set_type_new. reflexivity. Qed.

Lemma metro_file_marked line : is_metro_file line = true ->
  exists a b, line = a ++ lit "HEADER" ++ b /\ (length a = 4%nat \/ length a = 8%nat).
Proof.
  unfold is_metro_file. intros H. apply andb_prop in H as [L H]. apply negb_true_iff, Nat.ltb_ge in L.
  unfold PackedRecordLength in L. apply orb_prop in H as [H|H]; apply bytes_eqb_eq in H.
  - exists (firstn 4 line), (skipn 6 (skipn 4 line)). split; [|left; rewrite firstn_length; lia].
    rewrite <- H, firstn_skipn, firstn_skipn. reflexivity.
  - exists (firstn 8 line), (skipn 6 (skipn 8 line)). split; [|right; rewrite firstn_length; lia].
    rewrite <- H, firstn_skipn, firstn_skipn. reflexivity.
Qed.

Lemma reader_accepts evs s f : patient evs -> read_from evs s = Some (Ok f) ->
  exists h ds t more, unbroken s (h ++ List.concat ds ++ t ++ more)
    /\ sized_record h /\ Forall sized_record ds /\ sized_record t
    /\ (exists a b, h = a ++ lit "HEADER" ++ b /\ (length a = 4%nat \/ length a = 8%nat))
    /\ (exists n, record_parse (RHeader (flPacked f) new_header) h (is_variable_length h) = (flHeader f, Ok n))
    /\ Forall2 (fun d b => exists n, record_parse (RBase (flPacked f) new_base) d (is_variable_length h) = (b, Ok n))
         ds (flBases f)
    /\ (exists n, record_parse (RTrailer (flPacked f) new_trailer) t (is_variable_length h) = (flTrailer f, Ok n)).
Proof.
  intros P H. apply (read_from_outcome _ _ _ P) in H. unfold outcome in H.
  destruct (tokens (S (length s)) s) as [|line toks] eqn:E; [discriminate|].
  destruct (tokens_cut _ _ _ _ E) as (raw & rest & fuel & -> & R & G & E'). apply raw_record_spec in R as [Rt _].
  cbn [read_tokens] in H. rewrite read_header_new in H. destruct (is_metro_file line) eqn:Mf; [cbn [negb] in H|discriminate].
  apply metro_file_marked in Mf.
  destruct (record_parse (RHeader (is_packed line) new_header) line (is_variable_length line)) as [h [n|e|]] eqn:Ph; [|discriminate..].
  cbn [set_header flPacked new_file_p] in H.
  destruct (bases_of (is_packed line) (is_variable_length line) toks []) as [[[bs lt]|]|] eqn:B; [|discriminate..].
  rewrite <- E' in B. destruct (bases_of_success _ _ _ _ _ _ _ B) as (ds & more & new & U & Fd & Gl & -> & F2).
  unfold read_trailer in H. cbn [set_bases set_header new_file_p flPacked flHeader flBases flTrailer] in H.
  destruct (record_parse (RTrailer (is_packed line) new_trailer) lt (is_variable_length line)) as [t [m|e|]] eqn:Pt; [|discriminate..].
  injection H as ->. cbn [set_trailer set_bases set_header flPacked flHeader flBases flTrailer new_file_p app].
  apply strip_unbroken in U. exists line, ds, lt, more. split.
  { apply strip_unbroken. rewrite strip_app, <- Rt, <- U. reflexivity. }
  split; [exact G|]. split; [exact Fd|]. split; [exact Gl|]. split; [exact Mf|].
  split; [exists n; exact Ph|]. split; [exact F2|]. exists m. exact Pt.
Qed.

(* what follows the trailer makes no difference *)
Lemma tokens_more : forall fuel s more, (length s < fuel)%nat -> forall ts, tokens fuel s = ts ->
  exists ts', tokens (fuel + length more) (s ++ more) = ts ++ ts'.
Proof.
  induction fuel as [|fuel IH]; intros s more L ts H; [lia|]. cbn [tokens] in H.
  destruct (next s) as [[t s']|] eqn:E; [|subst ts; eexists; cbn [app]; reflexivity].
  pose proof (next_shorter _ _ _ E) as Ls. apply next_spec in E as (raw & -> & R & G & Lr).
  destruct ts as [|t' ts]; [discriminate|]. injection H as <- H.
  destruct (IH s' more ltac:(lia) ts H) as (ts' & E'). exists ts'. cbn [Nat.add tokens].
  assert (next ((raw ++ s') ++ more) = Some (t, s' ++ more)) as ->.
  { apply next_spec. exists raw. rewrite app_assoc. auto. }
  cbn [app]. f_equal. exact E'.
Qed.

Lemma bases_of_more p iv ts' : forall ts acc x, bases_of p iv ts acc = inl (Some x) -> bases_of p iv (ts ++ ts') acc = inl (Some x).
Proof.
  induction ts as [|t ts IH]; intros acc x H; [discriminate|]. cbn [bases_of app] in *.
  destruct (record_parse (new_data_record p) t iv) as [b [n|e|]]; auto.
Qed.

Lemma outcome_more s more f : outcome s = Ok f -> outcome (s ++ more) = Ok f.
Proof.
  unfold outcome. intros H.
  destruct (tokens_more (S (length s)) s more ltac:(lia) _ eq_refl) as (ts' & E).
  replace (S (length (s ++ more))) with (S (length s) + length more)%nat by (rewrite app_length; lia).
  rewrite E. destruct (tokens (S (length s)) s) as [|line toks]; [discriminate|]. cbn [read_tokens app] in *.
  destruct (read_header (new_file_p false) line) as [f1|e|]; [|discriminate..].
  destruct (bases_of (flPacked f1) (is_variable_length line) toks []) as [[[bs lt]|]|] eqn:B; [|discriminate..].
  rewrite (bases_of_more _ _ ts' _ _ _ B). exact H.
Qed.

(* ---- layout detection ---- *)

Lemma header_head (p : bool) h bdw rdw : header_fits p h -> holds h BDW (VInt bdw) ->
  holds h "RecordDescriptorWord" (VInt rdw) -> holds h "RecordIdentifier" (VStr (lit "HEADER")) ->
  exists w more, header_string p h = bdw_text p bdw ++ w ++ lit "HEADER" ++ more /\ length w = 4%nat
    /\ written (Doc "RecordDescriptorWord" 4 (if p then FWord else FNumber) true) (VInt rdw) w.
Proof.
  intros [T R] Hb Hr Hi. pose proof (header_nodup h T) as ND.
  destruct (R (Doc "RecordDescriptorWord" 4 (if p then FWord else FNumber) true)) as (v & Hv & F);
    [destruct p; left; reflexivity|destruct p; discriminate|].
  cbn in Hv. apply (In_lookup _ _ _ ND) in Hv. pose proof (In_lookup _ _ _ ND Hr) as Lr. rewrite Lr in Hv.
  injection Hv as <-.
  set (f := mkField 0 4 (if p then descriptor else numeric) required).
  destruct (field_written (Doc "RecordDescriptorWord" 4 (if p then FWord else FNumber) true) f (VInt rdw))
    as (L & W & _); [destruct p; reflexivity|destruct p; discriminate|exact F|].
  assert (exists sp, to_specifications (header_layout p) = (BDW, bdw_field p) ::
    ("RecordDescriptorWord", f) :: ("RecordIdentifier", mkField 4 6 alphanumeric required) :: sp) as [sp Sp].
  { destruct p; eexists; vm_compute; reflexivity. }
  exists (to_string f (Some (VInt rdw))).
  eexists. split; [|split; [exact L|exact W]].
  unfold header_string, pad_block, write_fields. rewrite Sp. cbn [flat_map fst snd].
  rewrite Lr, (In_lookup _ _ _ ND Hi), (In_lookup _ _ _ ND Hb). unfold bdw_text. rewrite <- !app_assoc.
  do 2 f_equal.
Qed.

Lemma written_number_not_nul must z w : written (Doc "RecordDescriptorWord" 4 FNumber must) (VInt z) w -> forall i, is_nul w i = false.
Proof.
  intros (_ & F & _) i. unfold is_nul. destruct (nth_error w i) as [c|] eqn:E; [|reflexivity].
  apply nth_error_In in E. rewrite Forall_forall in F. apply F, digits_spec, is_digit_spec in E.
  apply Z.eqb_neq. lia.
Qed.

Lemma word_bdw (p : bool) z : 0 < z < (if p then 65536 else 10000) -> length (bdw_text p z) = 4%nat
  /\ written (Doc "RecordDescriptorWord" 4 (if p then FWord else FNumber) false) (VInt z) (bdw_text p z).
Proof.
  intros H. destruct (bdw_text_written p z) as (L & W & _); [lia|unfold fits, bdw_doc; destruct p; cbn; lia|]. auto.
Qed.

Lemma header_detected k h rest : header_in k h -> holds h "RecordIdentifier" (VStr (lit "HEADER")) ->
  is_variable_length (header_string (packed_of k) h ++ rest) = blocked k
  /\ is_packed (header_string (packed_of k) h ++ rest) = packed_of k
  /\ is_metro_file (header_string (packed_of k) h ++ rest) = true.
Proof.
  intros Hin Hi. destruct (header_in_reads k h rest Hin) as (n & An & Pn & Ln & _).
  destruct Hin as (F & bdw & rdw & Hb & Hr & D).
  destruct (header_head _ h bdw rdw F Hb Hr Hi) as (w & more & E & Lw & W).
  assert (366 <= length (header_string (packed_of k) h))%nat as L.
  { destruct An as (bdw' & rdw' & Hb' & Hr' & N1' & N2').
    pose proof F as [T R]. pose proof (header_nodup h T) as ND.
    assert (bdw' = bdw) as -> by (eapply holds_inj; [exact ND|exact Hb'|exact Hb]).
    assert (rdw' = rdw) as -> by (eapply holds_inj; [exact ND|exact Hr'|exact Hr]).
    destruct k; [destruct D as [-> D]; rewrite N2' in Ln by lia; lia| |]; rewrite N1' in Ln by lia; lia. }
  assert (forall s, negb (Nat.ltb (length (header_string (packed_of k) h ++ s)) PackedRecordLength) = true) as Len1.
  { intros s. apply negb_true_iff, Nat.ltb_ge. rewrite app_length. unfold PackedRecordLength. lia. }
  assert (forall s, Nat.ltb 15 (length (header_string (packed_of k) h ++ s)) = true) as Len2.
  { intros s. apply Nat.ltb_lt. rewrite app_length. lia. }
  unfold is_variable_length, is_metro_file. rewrite Len1, Len2. cbn [andb]. rewrite E. clear E Len1 Len2.
  destruct k; cbn [packed_of blocked] in *.
  - destruct D as [-> D]. rewrite bdw_text_zero. cbn [app]. pose proof (written_number_not_nul _ _ _ W) as Nn.
    destruct w as [|a [|b [|c [|d [|]]]]]; try discriminate.
    pose proof (Nn 2%nat) as N2. unfold is_nul in N2. cbn [nth_error] in N2.
    split; [reflexivity|]. split; [|reflexivity]. unfold is_packed, is_nul. cbn [nth_error app lit list_ascii_of_string].
    rewrite N2. reflexivity.
  - destruct (word_bdw false bdw ltac:(cbn; lia)) as [Lb Wb]. pose proof (written_number_not_nul _ _ _ W) as Nn.
    pose proof (written_number_not_nul _ _ _ Wb) as Nb.
    destruct w as [|a [|b [|c [|d [|]]]]]; try discriminate.
    destruct (bdw_text false bdw) as [|a' [|b' [|c' [|d' [|]]]]]; try discriminate.
    pose proof (Nn 2%nat) as N2. pose proof (Nb 2%nat) as N3. unfold is_nul in N2, N3. cbn [nth_error] in N2, N3.
    cbn [app]. split; [reflexivity|]. split.
    + unfold is_packed, is_nul. cbn [nth_error]. rewrite N2, N3. reflexivity.
    + cbn [skipn]. apply orb_true_r.
  - destruct (word_bdw true bdw ltac:(cbn; lia)) as [Lb Wb]. revert Lb Wb. generalize (bdw_text true bdw).
    intros bt Lb Wb. cbn in Wb. destruct Wb as (x & -> & Lx & _). destruct x as [|a' [|b' [|]]]; try discriminate.
    destruct w as [|a [|b [|c [|d [|]]]]]; try discriminate.
    cbn [app]. split; [reflexivity|]. split.
    + unfold is_packed, is_nul. cbn [nth_error]. reflexivity.
    + cbn [skipn]. apply orb_true_r.
Qed.

(* ---- files survive the streaming reader ---- *)

Lemma begins_sized (p : bool) z s : begins_with_word p z s -> Z.of_nat (length s) = z ->
  Z.of_nat (record_size p) <= z -> sized_record s.
Proof.
  intros (w & rest & m & -> & L & W) Ln Lz. exists w, rest. split; [reflexivity|]. split; [exact L|]. rewrite Ln.
  destruct p; cbn in W, Lz.
  - destruct W as (b & -> & Lb & Eb). destruct b as [|x [|y [|]]]; try discriminate. right.
    assert (~ In (ascii_of_N 0) digits) as Nd by (intros X; apply digits_spec in X; discriminate).
    split; [|split].
    + intros m' (ds & [E|E] & _ & F & _).
      * subst ds. rewrite Forall_forall in F. apply Nd, F. cbn. auto.
      * destruct ds as [|d0 ds]; [discriminate|]. injection E as _ _ <-. rewrite Forall_forall in F. apply Nd, F. cbn. auto.
    + intros (ds & E & _ & F). destruct ds as [|d0 ds]; [discriminate|]. injection E as _ _ <-.
      rewrite Forall_forall in F. apply Nd, F. cbn. auto.
    + exists x, y, (ascii_of_N 0), (ascii_of_N 0). split; [reflexivity|]. split; [|lia].
      rewrite <- Eb. cbn [binary length]. change (256 ^ Z.of_nat 1) with 256. change (256 ^ Z.of_nat 0) with 1. lia.
  - destruct W as (_ & F & Ed). left. split; [|lia]. exists w. split; [auto|]. split; [intros ->; discriminate|]. auto.
Qed.

(* lines, each but the last followed by a line break *)
Lemma next_line nl x rest : no_breaks x -> sized_record x -> Z.of_nat (length x) < scanner_limit ->
  next (line_break nl ++ x ++ rest) = Some (x, rest).
Proof.
  intros N G L. apply next_spec. exists (line_break nl ++ x). split; [apply app_assoc|]. split; [|split; [exact G|]].
  - apply raw_record_spec. split.
    + rewrite strip_app, (strip_plain x N). destruct nl; reflexivity.
    + destruct G as (w & r & -> & Lw & _). destruct (exists_last (l := w ++ r)) as (x' & c & E).
      { intros X. apply app_eq_nil in X as [-> _]. discriminate. }
      exists (line_break nl ++ x'), c. rewrite E, app_assoc. split; [reflexivity|].
      apply no_breaks_plain in N. rewrite E in N. apply Forall_app in N as [_ N]. apply (Forall_inv N).
  - rewrite app_length. destruct nl; cbn [line_break length]; lia.
Qed.

Lemma tokens_lines nl t : no_breaks t -> sized_record t -> Z.of_nat (length t) < scanner_limit ->
  forall xs x fuel, Forall (fun x => no_breaks x /\ sized_record x /\ Z.of_nat (length x) < scanner_limit) (x :: xs) ->
  let s := x ++ line_break nl ++ List.concat (map (fun y => y ++ line_break nl) xs) ++ t in
  (length s < fuel)%nat -> forall b, tokens (S fuel) (line_break b ++ s) = x :: xs ++ [t].
Proof.
  intros Nt Gt Lt. induction xs as [|y xs IH]; intros x fuel F s L b.
  - pose proof (Forall_inv F) as (Nx & Gx & Lx). unfold s. cbn [map List.concat app tokens].
    rewrite next_line by assumption. f_equal.
    destruct fuel as [|fuel]; [lia|]. cbn [tokens].
    replace (line_break nl ++ t) with (line_break nl ++ t ++ []) by (rewrite app_nil_r; reflexivity).
    rewrite next_line by assumption. destruct fuel; [reflexivity|]. reflexivity.
  - inversion F as [|? ? (Nx & Gx & Lx) F']; subst. cbn [tokens]. unfold s. rewrite next_line by assumption. f_equal.
    destruct fuel as [|fuel]; [lia|].
    assert (1 <= length x)%nat as L1 by (destruct Gx as (w & r & -> & Lw & _); rewrite app_length; lia).
    cbn [map List.concat]. rewrite <- !app_assoc. apply IH; [exact F'|].
    unfold s in L. cbn [map List.concat] in L. repeat rewrite app_length in L. rewrite !app_length. lia.
Qed.

Lemma no_segment_nil : no_segment [].
Proof. left. cbn. lia. Qed.

Lemma bases_of_read k t : trailer_in k t -> forall bs acc, Forall (base_in k) bs ->
  bases_of (packed_of k) (blocked k) (map (base_text k) bs ++ [trailer_string (packed_of k) t]) acc
  = inl (Some (acc ++ map (RBase (packed_of k)) bs, trailer_string (packed_of k) t)).
Proof.
  intros Ht. induction bs as [|b bs IH]; intros acc F.
  - cbn [map app bases_of]. destruct (trailer_not_base k t [] Ht) as (b & e & E). rewrite app_nil_r in E.
    unfold new_data_record. cbn [record_parse]. rewrite E, app_nil_r. reflexivity.
  - inversion F as [|? ? Hb F']; subst. cbn [map app bases_of].
    destruct (base_in_reads k b [] Hb (or_introl no_segment_nil)) as (n & _ & _ & _ & Pr). rewrite app_nil_r in Pr.
    unfold new_data_record. cbn [record_parse]. fold (base_text k b) in Pr. rewrite Pr. rewrite IH by exact F'.
    rewrite <- app_assoc. reflexivity.
Qed.

Lemma base_in_sized k b : base_in k b -> sized_record (base_text k b) /\ Z.of_nat (length (base_text k b)) < scanner_limit.
Proof.
  intros Hb. destruct (base_in_reads k b [] Hb (or_introl no_segment_nil)) as (n & An & Pn & Ln & _).
  pose proof Hb as (F & bdw & rdw & Hbd & Hr & D). pose proof F as ([T P] & R & _). pose proof (base_nodup _ T) as ND.
  pose proof (word_range _ _ _ _ R (doc_word_base _) ND Hr) as Rg.
  pose proof (base_in_begins k b bdw rdw Hb Hbd Hr) as B. fold (base_text k b) in *.
  assert (n = if 0 <? bdw then bdw else rdw) as En.
  { destruct b as [st j1 j2 xk1 xk2 xk3 xk4 xl1 xn1]. cbn [announces] in An.
    destruct An as (bdw' & rdw' & Hb' & Hr' & N1' & N2').
    assert (bdw' = bdw) as -> by (eapply holds_inj; [exact ND|exact Hb'|exact Hbd]).
    assert (rdw' = rdw) as -> by (eapply holds_inj; [exact ND|exact Hr'|exact Hr]).
    destruct (Z.ltb_spec 0 bdw); [apply N1'|apply N2']; lia. }
  assert (Z.of_nat (record_size (packed_of k)) <= n < 65536) as Bn.
  { rewrite En. unfold base_size in D. destruct k; cbn [packed_of record_size] in *.
    - destruct D as [-> D]. change (0 <? 0) with false. cbv iota. lia.
    - destruct (Z.ltb_spec 0 bdw); lia.
    - destruct (Z.ltb_spec 0 bdw); lia. }
  split; [|unfold scanner_limit; lia]. apply (begins_sized (packed_of k) n); [rewrite En; exact B|exact Ln|lia].
Qed.

Lemma header_in_sized k h : header_in k h ->
  sized_record (header_string (packed_of k) h) /\ Z.of_nat (length (header_string (packed_of k) h)) < scanner_limit.
Proof.
  intros Hh. destruct (header_in_reads k h [] Hh) as (n & An & Pn & Ln & _).
  pose proof (header_in_begins k h n Hh An) as B.
  destruct Hh as (F & bdw & rdw & Hb & Hr & D). pose proof F as [T R]. pose proof (header_nodup h T) as ND.
  pose proof (word_range _ _ _ _ R (doc_word_header _) ND Hr) as Rg.
  assert (Z.of_nat (record_size (packed_of k)) <= n < 65536) as Bn.
  { destruct An as (bdw' & rdw' & Hb' & Hr' & N1' & N2').
    assert (bdw' = bdw) as -> by (eapply holds_inj; [exact ND|exact Hb'|exact Hb]).
    assert (rdw' = rdw) as -> by (eapply holds_inj; [exact ND|exact Hr'|exact Hr]).
    destruct k; cbn [packed_of record_size] in *; [rewrite N2'; lia|rewrite N1'; lia|rewrite N1'; lia]. }
  split; [|unfold scanner_limit; lia]. apply (begins_sized (packed_of k) n); [exact B|exact Ln|lia].
Qed.

Lemma trailer_in_sized k t : trailer_in k t ->
  sized_record (trailer_string (packed_of k) t) /\ Z.of_nat (length (trailer_string (packed_of k) t)) < scanner_limit.
Proof.
  intros Ht. destruct (trailer_in_reads k t new_trailer [] Ht new_trailer_typed) as (n & An & Pn & Ln & _).
  pose proof (trailer_in_begins k t n Ht An) as B.
  destruct Ht as (F & Hi & rdw & Hr & D). pose proof F as [T R]. pose proof (trailer_nodup t T) as ND.
  cbn in An. assert (rdw = n) as -> by (eapply holds_inj; [exact ND|exact Hr|exact An]).
  assert (0 <= n < 65536) as Rg.
  { pose proof (word_range (packed_of k) t (trailer_doc (packed_of k)) n R) as W.
    assert (0 <= n < (if packed_of k then 65536 else 10000)) as Q.
    { apply W; auto. destruct k; eexists; reflexivity. }
    destruct (packed_of k); lia. }
  split; [|unfold scanner_limit; lia]. apply (begins_sized (packed_of k) n); [exact B|exact Ln|exact D].
Qed.

Lemma file_streams_breaks k h bs t : header_in k h -> Forall (base_in k) bs -> trailer_in k t ->
  match k with
  | PackedFile => no_breaks (header_string true h) /\ no_breaks (trailer_string true t)
      /\ Forall (fun b => no_breaks (base_string_packed b)) bs
  | _ => True
  end ->
  no_breaks (header_string (packed_of k) h) /\ no_breaks (trailer_string (packed_of k) t)
  /\ Forall (fun b => no_breaks (base_text k b)) bs.
Proof.
  intros Hh Hb Ht Hp. unfold base_text. destruct k; cbn [packed_of] in *; [| |exact Hp].
  - split; [apply (record_plain (RHeader false h)); [reflexivity|]; eapply header_fits_breakless; apply Hh|].
    split; [apply (record_plain (RTrailer false t)); [reflexivity|]; eapply trailer_fits_breakless; apply Ht|].
    eapply Forall_impl; [|exact Hb]. intros b (Fb & _).
    apply (record_plain (RBase false b)); [reflexivity|]. eapply base_fits_breakless, Fb.
  - split; [apply (record_plain (RHeader false h)); [reflexivity|]; eapply header_fits_breakless; apply Hh|].
    split; [apply (record_plain (RTrailer false t)); [reflexivity|]; eapply trailer_fits_breakless; apply Ht|].
    eapply Forall_impl; [|exact Hb]. intros b (Fb & _).
    apply (record_plain (RBase false b)); [reflexivity|]. eapply base_fits_breakless, Fb.
Qed.

Lemma stream_outcome k f nl : file_streams k f -> outcome (file_text nl f) = Ok f.
Proof.
  intros (h & bs & t & -> & Hh & Hb & Ht & (p & h' & Eh & Hi) & Hp). injection Eh as _ <-.
  cbn [flHeader flBases flTrailer file_of record_string] in Hp.
  destruct (file_streams_breaks k h bs t Hh Hb Ht) as (Nh & Nt & Nb).
  { destruct k; auto. cbn [packed_of] in Hp. rewrite Forall_map in Hp. exact Hp. }
  destruct (header_in_sized k h Hh) as [Gh Lh]. destruct (trailer_in_sized k t Ht) as [Gt Lt].
  unfold outcome. assert (file_text nl (file_of k h bs t) = header_string (packed_of k) h ++ line_break nl
    ++ List.concat (map (fun y => y ++ line_break nl) (map (base_text k) bs)) ++ trailer_string (packed_of k) t) as Et.
  { unfold file_text. cbn [flHeader flBases flTrailer file_of record_string]. rewrite !map_map. reflexivity. }
  rewrite Et. set (s := header_string _ _ ++ _).
  assert (tokens (S (length s)) s = header_string (packed_of k) h :: map (base_text k) bs ++ [trailer_string (packed_of k) t]) as ->.
  { rewrite (tokens_fuel _ (S (S (length s)))) by lia.
    apply (tokens_lines nl _ Nt Gt Lt (map (base_text k) bs) (header_string (packed_of k) h) (S (length s))) with (b := false).
    - constructor; [auto|]. rewrite Forall_map. rewrite Forall_forall in *. intros b I.
      destruct (base_in_sized k b (Hb b I)). auto.
    - unfold s. lia. }
  cbn [read_tokens]. rewrite read_header_new.
  destruct (header_detected k h [] Hh Hi) as (Dv & Dp & Dm). rewrite app_nil_r in Dv, Dp, Dm. rewrite Dv, Dp, Dm.
  cbn [negb]. destruct (header_in_reads k h [] Hh) as (n & _ & _ & _ & Pr). rewrite app_nil_r in Pr.
  cbn [record_parse]. rewrite Pr. cbn [set_header flPacked new_file_p].
  rewrite (bases_of_read k t Ht bs [] Hb). cbn [app]. unfold read_trailer. cbn [set_bases set_header new_file_p flPacked flHeader flBases flTrailer].
  destruct (trailer_in_reads k t new_trailer [] Ht new_trailer_typed) as (m & _ & _ & _ & Pt). rewrite app_nil_r in Pt.
  cbn [record_parse]. rewrite Pt. reflexivity.
Qed.

(* C10 *)
Lemma stream_round_trip k f nl g evs : file_streams k f -> patient evs ->
  (length (concurrent_string f nl g) < useful evs)%nat -> read_from evs (concurrent_string f nl g) = Some (Ok f).
Proof.
  intros Hf P U. rewrite (read_from_some evs _ P U). rewrite concurrent_text, (stream_outcome k f nl Hf). reflexivity.
Qed.

(* C43: whatever follows a file is ignored *)
Lemma trailing_ignored k f nl more evs : file_streams k f -> patient evs ->
  (length (file_text nl f ++ more) < useful evs)%nat -> read_from evs (file_text nl f ++ more) = Some (Ok f).
Proof.
  intros Hf P U. rewrite (read_from_some evs _ P U), (outcome_more _ _ f); [reflexivity|]. apply (stream_outcome k f nl Hf).
Qed.

(* ---- the limits of C40 and C41 ---- *)

Lemma strip_repeat_lf n : strip (repeat lf_char n) = [].
Proof. induction n as [|n IH]; [reflexivity|]. cbn [repeat]. rewrite strip_crlf by reflexivity. exact IH. Qed.

(* a buffer full of line breaks makes the scanner stop *)
Lemma breaks_fill_buffer n s evs : patient evs -> scanner_limit <= Z.of_nat n -> forall r,
  read_from evs (repeat lf_char n ++ s) = Some r -> r = Err (ErrInvalidSegment (lit "header")).
Proof.
  intros P L r H. rewrite (read_from_outcome _ _ _ P H). unfold outcome. cbn [tokens].
  assert (next (repeat lf_char n ++ s) = None) as ->; [|reflexivity].
  unfold next. rewrite firstn_app. pose proof (window_le n L) as Lw.
  replace (window - length (repeat lf_char n))%nat with 0%nat by (rewrite repeat_length; lia). cbn [firstn]. rewrite app_nil_r.
  unfold scan_record.
  assert (strip (firstn window (repeat lf_char n)) = []) as ->.
  { pose proof (strip_repeat_lf n) as E. rewrite <- (firstn_skipn window (repeat lf_char n)), strip_app in E.
    apply app_eq_nil in E. apply E. }
  reflexivity.
Qed.

Lemma all_useful_patient evs : Forall (fun e => evMax e <> 0%nat) evs -> patient evs.
Proof.
  intros F a b c -> L. destruct b as [|e b]; [discriminate|]. exists e. split; [left; reflexivity|].
  rewrite Forall_forall in F. apply F. apply in_or_app. right. left. reflexivity.
Qed.

Lemma broken_up_breaks n s : broken_up s (repeat lf_char n ++ s).
Proof.
  induction n as [|n IH].
  - cbn [repeat app]. induction s as [|c s IHs]; [constructor|]. apply broken_byte, IHs.
  - cbn [repeat app]. apply broken_break; [right; reflexivity|exact IH].
Qed.

(* the text of a file stays within the buffer *)
Lemma within_line nl x rest : no_breaks x -> sized_record x -> Z.of_nat (length x) < scanner_limit ->
  within_buffer rest -> within_buffer (line_break nl ++ x ++ rest).
Proof.
  intros N G L W. pose proof (next_line nl x rest N G L) as E.
  apply next_spec in E as (raw & E & R & _ & Lr). rewrite E. apply within_record with (r := x); assumption.
Qed.

Lemma within_lines nl t : no_breaks t -> sized_record t -> Z.of_nat (length t) < scanner_limit ->
  forall xs x, Forall (fun x => no_breaks x /\ sized_record x /\ Z.of_nat (length x) < scanner_limit) (x :: xs) ->
  forall b, within_buffer (line_break b ++ x ++ line_break nl ++ List.concat (map (fun y => y ++ line_break nl) xs) ++ t).
Proof.
  intros Nt Gt Lt. induction xs as [|y xs IH]; intros x F b.
  - pose proof (Forall_inv F) as (Nx & Gx & Lx). cbn [map List.concat app]. apply within_line; auto.
    replace t with (t ++ []) by apply app_nil_r. apply within_line; auto. apply within_end. unfold scanner_limit. cbn. lia.
  - inversion F as [|? ? (Nx & Gx & Lx) F']; subst. apply within_line; auto.
    cbn [map List.concat]. rewrite <- !app_assoc. apply IH. exact F'.
Qed.

Lemma written_within k f nl : file_streams k f -> within_buffer (file_text nl f).
Proof.
  intros (h & bs & t & -> & Hh & Hb & Ht & _ & Hp).
  cbn [flHeader flBases flTrailer file_of record_string] in Hp.
  destruct (file_streams_breaks k h bs t Hh Hb Ht) as (Nh & Nt & Nb).
  { destruct k; auto. cbn [packed_of] in Hp. rewrite Forall_map in Hp. exact Hp. }
  destruct (header_in_sized k h Hh) as [Gh Lh]. destruct (trailer_in_sized k t Ht) as [Gt Lt].
  assert (file_text nl (file_of k h bs t) = header_string (packed_of k) h ++ line_break nl
    ++ List.concat (map (fun y => y ++ line_break nl) (map (base_text k) bs)) ++ trailer_string (packed_of k) t) as ->.
  { unfold file_text. cbn [flHeader flBases flTrailer file_of record_string]. rewrite !map_map. reflexivity. }
  apply (within_lines nl _ Nt Gt Lt (map (base_text k) bs) (header_string (packed_of k) h)) with (b := false).
  constructor; [auto|]. rewrite Forall_map. rewrite Forall_forall in *. intros b I.
  destruct (base_in_sized k b (Hb b I)). auto.
Qed.
