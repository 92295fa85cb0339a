(* Facts about a Reader that is read from repeatedly *)
From Coq Require Import ZArith NArith Bool Ascii String List Lia.
Import ListNotations.
From Verif Require Import GoBase GoTime Tables Codec Records File Reader Stream
  SpecCodec SpecLayouts SpecRecords SpecFile SpecFiles SpecReader SpecStream Check Samples
  GoBaseFacts FieldFacts RecordFacts RoundTrip Layout ParseFacts ParseProps FileFacts FileProps BreakFacts FileRoundTrip ReaderFacts ReaderProps.
Local Open Scope string_scope.
Local Open Scope Z_scope.
Local Open Scope list_scope.
Local Notation length := List.length.
Local Opaque window.

(* ---- one call: the model of Reader.v ---- *)

Definition forget (r : loop_result) : bases_result :=
  match r with
  | LEnd bs None s evs => BEnd bs s evs
  | LEnd bs (Some line) _ _ => BFailed bs line
  | LPanic => BPanic
  end.

Lemma next_bases_forget p iv : forall fuel evs s acc,
  read_bases fuel p iv evs s acc = option_map forget (next_bases fuel p iv evs s acc).
Proof.
  induction fuel as [|fuel IH]; intros evs s acc; [reflexivity|]. cbn [read_bases next_bases].
  destruct (scan evs s) as [[[[line|] s'] evs']|]; [|reflexivity|reflexivity].
  destruct (record_parse (new_data_record p) line iv) as [b [n|e|]]; [apply IH|reflexivity|reflexivity].
Qed.

Lemma next_trailer_forget f line iv r : let '(f3, y) := next_trailer f line iv in
  returned (mkReader f3 r []) y = read_trailer f line iv.
Proof.
  unfold next_trailer, read_trailer. destruct (record_parse (flTrailer f) line iv) as [t [n|e|]]; reflexivity.
Qed.

Lemma returned_file r r' x : rdFile r = rdFile r' -> returned r x = returned r' x.
Proof. unfold returned. intros ->. reflexivity. Qed.

Lemma read_next_forget fuel r :
  reader_read fuel (rdEvents r) (rdFile r) (rdScanner r)
  = option_map (fun p => returned (fst p) (snd p)) (read_next fuel r).
Proof.
  unfold reader_read, read_next. destruct (scan (rdEvents r) (rdScanner r)) as [[[[line|] s1] evs1]|]; [|reflexivity|reflexivity].
  unfold read_header. destruct (negb (is_metro_file line)); [reflexivity|].
  set (f1 := fst (file_set_type _ _)). destruct (record_parse (flHeader f1) line (is_variable_length line)) as [h [n|e|]];
    [|reflexivity|reflexivity].
  rewrite next_bases_forget. cbn [set_header flPacked].
  destruct (next_bases fuel (flPacked f1) (is_variable_length line) evs1 s1 []) as [[bs [line'|] s2 evs2|]|]; cbn [option_map forget];
    [| |reflexivity|reflexivity].
  - pose proof (next_trailer_forget (set_bases (set_header f1 h) bs) line' (is_variable_length line) s2) as T.
    destruct (next_trailer _ _ _) as [f3 y]. cbn [option_map fst snd]. rewrite <- T. reflexivity.
  - destruct (scan evs2 s2) as [[[[line'|] s3] evs3]|]; [|reflexivity|reflexivity].
    pose proof (next_trailer_forget (set_bases (set_header f1 h) bs) line' (is_variable_length line) s2) as T.
    destruct (next_trailer _ _ _) as [f3 y]. cbn [option_map fst snd]. rewrite <- T. reflexivity.
Qed.

Lemma first_read evs input :
  read_from evs input = option_map (fun p => returned (fst p) (snd p)) (read_next (S (length input)) (new_reader evs input)).
Proof. apply (read_next_forget _ (new_reader evs input)). Qed.

(* ---- the scanner on a stream of records ---- *)

(* the scanner stands before [s], and there are reads enough to deliver the rest *)
Definition at_rest (r : reader) (s : bytes) : Prop :=
  calm 0 (rdEvents r) /\ stands (rdScanner r) s
  /\ (scErr (rdScanner r) = true \/ (length (scRest (rdScanner r)) < useful (rdEvents r))%nat).

Lemma scan_at evs sc s f : at_rest (mkReader f sc evs) s ->
  exists sc' evs', scan evs sc = Some (option_map fst (next s), sc', evs')
    /\ at_rest (mkReader f sc' evs') (match next s with Some (_, s') => s' | None => s end).
Proof.
  intros (Cm & St & Us). cbn in *. destruct (scan_some evs sc s St Us) as (tok & sc' & evs' & Sc & Us').
  destruct (scan_spec _ _ _ _ _ _ Cm St Sc) as [Cm' Sp]. exists sc', evs'.
  destruct (next s) as [[t s']|]; destruct Sp as [-> St']; (split; [exact Sc|]); split; auto.
Qed.

Lemma strip_breaks g : breaks_only g -> strip g = [].
Proof.
  induction 1 as [|c g H _ IH]; [reflexivity|]. rewrite strip_crlf; [exact IH|]. destruct H as [-> | ->]; reflexivity.
Qed.

Lemma next_gap g x rest : breaks_only g -> no_breaks x -> sized_record x ->
  Z.of_nat (length g) + Z.of_nat (length x) <= scanner_limit -> next (g ++ x ++ rest) = Some (x, rest).
Proof.
  intros B N G L. apply next_spec. exists (g ++ x). split; [apply app_assoc|]. split; [|split; [exact G|]].
  - apply raw_record_spec. split.
    + rewrite strip_app, (strip_plain x N), (strip_breaks g B). reflexivity.
    + destruct G as (w & r & -> & Lw & _). destruct (exists_last (l := w ++ r)) as (x' & c & E).
      { intros X. apply app_eq_nil in X as [-> _]. discriminate. }
      exists (g ++ x'), c. rewrite E, app_assoc. split; [reflexivity|].
      apply no_breaks_plain in N. rewrite E in N. apply Forall_app in N as [_ N]. apply (Forall_inv N).
  - rewrite app_length, Nat2Z.inj_add. exact L.
Qed.

Lemma next_breaks g : breaks_only g -> next g = None.
Proof.
  intros B. destruct (next g) as [[t s']|] eqn:E; [|reflexivity]. exfalso. apply next_spec in E as (raw & -> & Rr & G & _).
  apply raw_record_spec in Rr as [-> (raw' & c & -> & Pc)]. unfold breaks_only in B. rewrite !Forall_app in B.
  destruct B as [[_ B] _]. pose proof (Forall_inv B) as Bc. destruct Pc as [P1 P2]. destruct Bc; contradiction.
Qed.

(* ---- the loop over the data records ---- *)

Lemma next_bases_reads k t nl : trailer_in k t -> no_breaks (trailer_string (packed_of k) t) ->
  forall bs fuel evs sc acc rest f,
  Forall (base_in k) bs -> Forall (fun b => no_breaks (base_text k b)) bs -> (length bs < fuel)%nat ->
  at_rest (mkReader f sc evs) (line_break nl ++ List.concat (map (fun b => base_text k b ++ line_break nl) bs)
    ++ trailer_string (packed_of k) t ++ rest) ->
  exists sc' evs', next_bases fuel (packed_of k) (blocked k) evs sc acc
      = Some (LEnd (acc ++ map (RBase (packed_of k)) bs) (Some (trailer_string (packed_of k) t)) sc' evs')
    /\ at_rest (mkReader f sc' evs') rest.
Proof.
  intros Ht Nt. destruct (trailer_in_sized k t Ht) as [Gt Lt].
  induction bs as [|b bs IH]; intros fuel evs sc acc rest f Hb Nb L A; (destruct fuel as [|fuel]; [cbn in L; lia|]); cbn [next_bases].
  - cbn [map List.concat app] in A. destruct (scan_at _ _ _ _ A) as (sc' & evs' & Sc & A').
    rewrite next_line in Sc, A' by assumption. cbn [option_map fst] in Sc. rewrite Sc.
    destruct (trailer_not_base k t [] Ht) as (b & e & E). rewrite app_nil_r in E.
    unfold new_data_record. cbn [record_parse]. rewrite E. cbn [map]. rewrite app_nil_r. eauto.
  - inversion Hb as [|? ? Hb1 Hb2]; subst. inversion Nb as [|? ? Nb1 Nb2]; subst. destruct (base_in_sized k b Hb1) as [Gb Lb].
    cbn [map List.concat] in A. rewrite <- !app_assoc in A. destruct (scan_at _ _ _ _ A) as (sc' & evs' & Sc & A').
    rewrite next_line in Sc, A' by assumption. cbn [option_map fst] in Sc. rewrite Sc.
    destruct (base_in_reads k b [] Hb1 (or_introl no_segment_nil)) as (n & _ & _ & _ & Pr). rewrite app_nil_r in Pr.
    fold (base_text k b) in Pr. unfold new_data_record. cbn [record_parse]. rewrite Pr.
    destruct (IH fuel evs' sc' (acc ++ [RBase (packed_of k) b]) rest f Hb2 Nb2 ltac:(cbn in L; lia)) as (sc2 & evs2 & E & A2).
    { rewrite <- ?app_assoc. exact A'. }
    exists sc2, evs2. split; [|exact A2]. rewrite E. cbn [map]. rewrite <- app_assoc. reflexivity.
Qed.

(* ---- what the File of the reader must be like for the next read ---- *)

Definition ready (g : file) (k : blocking) : Prop :=
  exists h t, flHeader g = RHeader (flPacked g) h /\ flTrailer g = RTrailer (flPacked g) t
    /\ has_type header_struct h /\ has_type trailer_struct t
    /\ (flPacked g = true -> k = PackedFile) /\ (k = FixedFile -> lookup BDW h = lookup BDW new_header).

Lemma new_ready k : ready (new_file_p false) k.
Proof.
  exists new_header, new_trailer. repeat split; try reflexivity; try exact new_header_typed; try exact new_trailer_typed. discriminate.
Qed.

Lemma read_ready k f k' : file_streams k f -> (rank k <= rank k')%nat -> ready f k'.
Proof.
  intros (h & bs & t & -> & Hh & _ & Ht & _) R. exists h, t. cbn [file_of flHeader flTrailer flPacked].
  split; [reflexivity|]. split; [reflexivity|]. destruct Hh as ([Th Rh] & bdw & rdw & Hb & _ & D). split; [exact Th|].
  destruct Ht as ([Tt _] & _). split; [exact Tt|]. split.
  - destruct k, k'; cbn in *; intros; try discriminate; try reflexivity; lia.
  - intros ->. destruct k; cbn in R; try lia. destruct D as [-> _]. unfold holds in Hb.
    rewrite (In_lookup _ _ _ (header_nodup h Th) Hb). reflexivity.
Qed.

Lemma ready_set_type g k : ready g k -> exists h t,
  fst (file_set_type (set_bases g []) (if packed_of k then lit "packed" else lit "metro"))
    = mkFile (packed_of k) (RHeader (packed_of k) h) [] (RTrailer (packed_of k) t)
  /\ has_type header_struct h /\ has_type trailer_struct t /\ (k = FixedFile -> lookup BDW h = lookup BDW new_header).
Proof.
  intros (h & t & Eh & Et & Th & Tt & Hp & Hb). destruct g as [p gh gb gt]. cbn [flHeader flTrailer flPacked] in *. subst gh gt.
  exists h, t. split; [|auto]. destruct p.
  - rewrite (Hp eq_refl). reflexivity.
  - destruct k; reflexivity.
Qed.

Lemma at_rest_file f g sc evs s : at_rest (mkReader f sc evs) s -> at_rest (mkReader g sc evs) s.
Proof. exact (fun A => A). Qed.

Lemma concat_records_lines k nl bs :
  List.concat (map (fun r => record_string r ++ line_break nl) (map (RBase (packed_of k)) bs))
  = List.concat (map (fun b => base_text k b ++ line_break nl) bs).
Proof. rewrite map_map. reflexivity. Qed.

(* ---- one read ---- *)

Lemma read_part p rest r fuel : part_ok p -> ready (rdFile r) (pcKind p) ->
  at_rest r (part_text p ++ rest) -> (length (flBases (pcFile p)) < fuel)%nat ->
  exists r', read_next fuel r = Some (r', Ok tt) /\ rdFile r' = pcFile p /\ at_rest r' rest.
Proof.
  destruct p as [gap k nl f]. unfold part_ok, part_text. cbn [pcGap pcKind pcBreaks pcFile].
  intros ((h & bs & t & -> & Hh & Hb & Ht & (p & h' & Eh & Hi) & Hp) & Bg & Lg) Rd A Fu. injection Eh as _ <-.
  cbn [flHeader flBases flTrailer file_of record_string] in Hp, Lg, Fu.
  destruct (file_streams_breaks k h bs t Hh Hb Ht) as (Nh & Nt & Nb).
  { destruct k; auto. cbn [packed_of] in Hp. rewrite Forall_map in Hp. exact Hp. }
  destruct (header_in_sized k h Hh) as [Gh Lh].
  assert ((gap ++ file_text nl (file_of k h bs t)) ++ rest = gap ++ header_string (packed_of k) h ++
    (line_break nl ++ List.concat (map (fun b => base_text k b ++ line_break nl) bs) ++ trailer_string (packed_of k) t ++ rest)) as E.
  { unfold file_text. cbn [flHeader flBases flTrailer file_of record_string]. rewrite concat_records_lines, <- !app_assoc. reflexivity. }
  rewrite E in A. clear E. destruct r as [g sc evs]. unfold read_next. cbn [rdFile rdScanner rdEvents] in *.
  destruct (scan_at _ _ _ _ A) as (sc1 & evs1 & Sc & A1). rewrite next_gap in Sc, A1 by assumption. cbn [option_map fst] in Sc. rewrite Sc.
  destruct (header_detected k h [] Hh Hi) as (Dv & Dp & Dm). rewrite app_nil_r in Dv, Dp, Dm. rewrite Dv, Dp, Dm. cbn [negb].
  destruct (ready_set_type g k Rd) as (h0 & t0 & Es & Th0 & Tt0 & Hb0). rewrite Es. cbn [flHeader].
  destruct (header_in_reads k h [] Hh) as (n & _ & _ & _ & Pr). rewrite app_nil_r in Pr.
  assert ((if packed_of k then header_parse_packed else header_parse_char) h0 (header_string (packed_of k) h) (blocked k) = (h, Ok n)) as Pr0.
  { destruct (header_parse_same (packed_of k) new_header h0 (header_string (packed_of k) h) (blocked k) new_header_typed Th0) as [_ K].
    - destruct k; cbn; auto. right. right. symmetry. auto.
    - rewrite Pr in K. symmetry. exact (K n eq_refl). }
  cbn [record_parse]. rewrite Pr0. cbn [set_header flPacked].
  destruct (next_bases_reads k t nl Ht Nt bs fuel evs1 sc1 [] rest g Hb Nb ltac:(rewrite map_length in Fu; exact Fu) A1) as (sc2 & evs2 & Eb & A2).
  rewrite Eb. cbn [app]. unfold next_trailer. cbn [set_bases set_header flTrailer flHeader flPacked flBases].
  destruct (trailer_in_reads k t t0 [] Ht Tt0) as (m & _ & _ & _ & Pt). rewrite app_nil_r in Pt. cbn [record_parse]. rewrite Pt.
  eexists. split; [reflexivity|]. split; [reflexivity|exact A2].
Qed.

(* ---- all reads ---- *)

Lemma text_bases f nl : (length (flBases f) <= length (file_text nl f))%nat \/ exists r, In r (flBases f) /\ record_string r = [].
Proof.
  unfold file_text. rewrite !app_length.
  enough ((length (flBases f) <= length (List.concat (map (fun r => record_string r ++ line_break nl) (flBases f))))%nat
    \/ exists r, In r (flBases f) /\ record_string r = []) as [H|H]; [left; lia|right; exact H|].
  induction (flBases f) as [|r l IH]; [left; cbn; lia|]. cbn [map List.concat]. rewrite !app_length. cbn [List.length].
  destruct (record_string r) as [|c s] eqn:E; [right; exists r; split; [left; reflexivity|exact E]|].
  destruct IH as [IH|(r' & I & E')]; [left; cbn [List.length]; lia|right; exists r'; split; [right; exact I|exact E']].
Qed.

Lemma part_bases p : part_ok p -> (length (flBases (pcFile p)) <= length (part_text p))%nat.
Proof.
  intros (S & _). unfold part_text. rewrite app_length.
  destruct (text_bases (pcFile p) (pcBreaks p)) as [L|(r & I & E)]; [lia|]. exfalso.
  destruct S as (h & bs & t & Ef & _ & Hb & _). rewrite Ef in I. cbn [file_of flBases] in I. apply in_map_iff in I as (b & <- & Ib).
  rewrite Forall_forall in Hb. destruct (base_in_sized _ b (Hb b Ib)) as [(w & s & Es & Lw & _) _].
  assert (record_string (RBase (packed_of (pcKind p)) b) = base_text (pcKind p) b) as Eb by reflexivity.
  rewrite Eb, Es in E. destruct w; discriminate.
Qed.

Lemma read_parts fuel g : breaks_only g -> forall ps r k0, Forall part_ok ps -> ascending (map pcKind ps) ->
  match ps with [] => True | p :: _ => ready (rdFile r) (pcKind p) end ->
  at_rest r (List.concat (map part_text ps) ++ g) ->
  (length (List.concat (map part_text ps)) < fuel)%nat -> k0 = length ps ->
  exists r', read_many k0 fuel r = Some (r', map (fun p => Ok (pcFile p)) ps) /\ at_rest r' g
    /\ rdFile r' = last (map pcFile ps) (rdFile r).
Proof.
  intros Bg. induction ps as [|p ps IH]; intros r k0 Hp As Rd A Fu ->; cbn [length read_many].
  - exists r. cbn in *. auto.
  - inversion Hp as [|? ? Hp1 Hp2]; subst. cbn [map List.concat] in A, Fu, As. rewrite <- app_assoc in A. rewrite app_length in Fu.
    destruct (read_part p _ r fuel Hp1 Rd A) as (r1 & E1 & F1 & A1). { pose proof (part_bases p Hp1). lia. }
    rewrite E1. destruct (IH r1 (length ps) Hp2) as (r2 & E2 & A2 & F2); auto.
    + destruct ps; [exact I|]. apply As.
    + destruct ps as [|q ps]; [exact I|]. rewrite F1. apply (read_ready (pcKind p)); [apply Hp1|]. apply As.
    + lia.
    + rewrite E2. exists r2. split; [cbn [map returned]; rewrite F1; reflexivity|]. split; [exact A2|].
      rewrite F2. cbn [map]. destruct ps as [|q ps]; [cbn; exact F1|]. cbn [map]. rewrite F1. generalize (pcFile q), (map pcFile ps).
      intros x l. revert x. induction l as [|y l IHl]; intros x; [reflexivity|]. cbn [last] in *. apply IHl.
Qed.

Lemma new_reader_rest evs s : patient evs -> (length s < useful evs)%nat -> at_rest (new_reader evs s) s.
Proof. intros P U. split; [apply patient_calm, P|]. split; [apply new_scanner_stands|]. right. exact U. Qed.

Lemma next_at_end fuel r g : breaks_only g -> at_rest r g ->
  exists r', read_next fuel r = Some (r', Err (ErrInvalidSegment (lit "header"))) /\ rdFile r' = set_bases (rdFile r) []
    /\ at_rest r' g.
Proof.
  intros Bg A. destruct r as [f sc evs]. destruct (scan_at _ _ _ _ A) as (sc' & evs' & Sc & A'). rewrite next_breaks in Sc, A' by exact Bg.
  unfold read_next. cbn [rdEvents rdScanner rdFile]. cbn [option_map] in Sc. rewrite Sc. eexists. split; [reflexivity|]. split; [reflexivity|exact A'].
Qed.

Lemma read_many_snoc : forall n fuel r r' l r'' x, read_many n fuel r = Some (r', l) -> read_next fuel r' = Some (r'', x) ->
  read_many (S n) fuel r = Some (r'', l ++ [returned r'' x]).
Proof.
  induction n as [|n IH]; intros fuel r r' l r'' x H N.
  - injection H as <- <-. cbn [read_many]. rewrite N. reflexivity.
  - cbn [read_many] in H. change (read_many (S (S n)) fuel r) with
      (match read_next fuel r with None => None | Some (r', x) =>
         match read_many (S n) fuel r' with None => None | Some (r'', l) => Some (r'', returned r' x :: l) end end).
    destruct (read_next fuel r) as [[r1 x1]|]; [|discriminate].
    destruct (read_many n fuel r1) as [[r2 l2]|] eqn:E; [|discriminate]. injection H as <- <-.
    rewrite (IH _ _ _ _ _ _ E N). reflexivity.
Qed.

(* C86: files in ascending order of layout are read one after another *)
Lemma sequence_read ps g evs : Forall part_ok ps -> ascending (map pcKind ps) -> breaks_only g -> patient evs ->
  let input := List.concat (map part_text ps) ++ g in (length input < useful evs)%nat ->
  exists r, read_many (S (length ps)) (S (length input)) (new_reader evs input)
    = Some (r, map (fun p => Ok (pcFile p)) ps ++ [Err (ErrInvalidSegment (lit "header"))]).
Proof.
  intros Hp As Bg Pa input U.
  destruct (read_parts (S (length input)) g Bg ps (new_reader evs input) (length ps) Hp As) as (r & E & A & _); auto.
  - destruct ps; [exact I|]. apply new_ready.
  - apply new_reader_rest; assumption.
  - unfold input. rewrite app_length. lia.
  - destruct (next_at_end (S (length input)) r g Bg A) as (r' & E' & _). exists r'. exact (read_many_snoc _ _ _ _ _ _ _ E E').
Qed.

(* C87: the file returned by a read becomes the file of the next one *)
Lemma overwritten p q g evs : part_ok p -> part_ok q -> (rank (pcKind p) <= rank (pcKind q))%nat -> breaks_only g -> patient evs ->
  let input := part_text p ++ part_text q ++ g in (length input < useful evs)%nat ->
  exists r1 r2 r3, read_next (S (length input)) (new_reader evs input) = Some (r1, Ok tt) /\ rdFile r1 = pcFile p
    /\ read_next (S (length input)) r1 = Some (r2, Ok tt) /\ rdFile r2 = pcFile q
    /\ read_next (S (length input)) r2 = Some (r3, Err (ErrInvalidSegment (lit "header")))
    /\ rdFile r3 = set_bases (pcFile q) [].
Proof.
  intros Hp Hq R Bg Pa input U. pose proof (part_bases p Hp) as Bp. pose proof (part_bases q Hq) as Bq.
  destruct (read_part p (part_text q ++ g) (new_reader evs input) (S (length input)) Hp (new_ready _)) as (r1 & E1 & F1 & A1).
  - apply new_reader_rest; assumption.
  - unfold input. rewrite !app_length. lia.
  - destruct (read_part q g r1 (S (length input)) Hq) as (r2 & E2 & F2 & A2); auto.
    + rewrite F1. apply (read_ready (pcKind p)); [apply Hp|exact R].
    + unfold input. rewrite !app_length. lia.
    + destruct (next_at_end (S (length input)) r2 g Bg A2) as (r3 & E3 & F3 & _). rewrite F2 in F3.
      exists r1, r2, r3. auto 10.
Qed.

(* whatever is read, a packed File stays packed *)
Lemma packed_stays fuel r r' x : flPacked (rdFile r) = true -> read_next fuel r = Some (r', x) -> flPacked (rdFile r') = true.
Proof.
  intros P H. unfold read_next in H.
  assert (forall line, flPacked (fst (file_set_type (set_bases (rdFile r) []) (if is_packed line then lit "packed" else lit "metro"))) = true) as K.
  { intros line. unfold file_set_type. cbn [set_bases flPacked]. rewrite P. destruct (is_packed line); cbn [fst flPacked]; exact P. }
  destruct (scan (rdEvents r) (rdScanner r)) as [[[[line|] s1] evs1]|]; [|injection H as <- <-; exact P|discriminate].
  destruct (negb (is_metro_file line)); [injection H as <- <-; exact P|]. specialize (K line).
  set (f1 := fst (file_set_type _ _)) in *. destruct (record_parse (flHeader f1) line (is_variable_length line)) as [h [n|e|]];
    [|injection H as <- <-; exact K|injection H as <- <-; exact K].
  assert (forall f2 l iv, flPacked f2 = true -> flPacked (fst (next_trailer f2 l iv)) = true) as Kt.
  { intros f2 l iv Hf. unfold next_trailer. destruct (record_parse (flTrailer f2) l iv). exact Hf. }
  destruct (next_bases fuel (flPacked (set_header f1 h)) (is_variable_length line) evs1 s1 []) as [[bs [line'|] s2 evs2|]|]; try discriminate.
  - specialize (Kt (set_bases (set_header f1 h) bs) line' (is_variable_length line) K).
    destruct (next_trailer _ _ _) as [f3 y]. injection H as <- <-. exact Kt.
  - destruct (scan evs2 s2) as [[[[line'|] s3] evs3]|]; [|injection H as <- <-; exact K|discriminate].
    specialize (Kt (set_bases (set_header f1 h) bs) line' (is_variable_length line) K).
    destruct (next_trailer _ _ _) as [f3 y]. injection H as <- <-. exact Kt.
  - injection H as <- <-. exact K.
Qed.

Lemma packed_many : forall n fuel r r' l, flPacked (rdFile r) = true -> read_many n fuel r = Some (r', l) ->
  flPacked (rdFile r') = true /\ forall f, In (Ok f) l -> flPacked f = true.
Proof.
  induction n as [|n IH]; intros fuel r r' l P H.
  - injection H as <- <-. split; [exact P|]. intros f [].
  - cbn [read_many] in H. destruct (read_next fuel r) as [[r1 x1]|] eqn:N; [|discriminate].
    destruct (read_many n fuel r1) as [[r2 l2]|] eqn:E; [|discriminate]. injection H as <- <-.
    pose proof (packed_stays _ _ _ _ P N) as P1. destruct (IH _ _ _ _ P1 E) as [P2 L2]. split; [exact P2|].
    intros f [I|I]; [|apply L2, I]. destruct x1; try discriminate. injection I as <-. exact P1.
Qed.

Lemma end_of_stream fuel evs g : breaks_only g -> patient evs -> (length g < useful evs)%nat ->
  forall f, exists r', read_next fuel (mkReader f (new_scanner g) evs) = Some (r', Err (ErrInvalidSegment (lit "header")))
    /\ rdFile r' = set_bases f [].
Proof.
  intros Bg Pa U f. destruct (next_at_end fuel (mkReader f (new_scanner g) evs) g Bg) as (r' & E & F & _); [|eauto].
  exact (new_reader_rest evs g Pa U).
Qed.
