(* Writing a file and reading it back with File.Parse *)
From Coq Require Import ZArith NArith Bool Ascii String List Lia.
Import ListNotations.
From Verif Require Import GoBase GoTime Tables Codec Records File GoBaseFacts SpecCodec SpecLayouts
  SpecRecords FieldFacts RecordFacts RoundTrip Layout SpecFile ParseFacts ParseProps SpecFiles FileFacts BreakFacts.
Local Open Scope string_scope.
Local Open Scope Z_scope.
Local Open Scope list_scope.
Local Notation length := List.length.

(* ---- the pages of ConcurrentString ---- *)

Lemma pages_concat n : (0 < n)%nat -> forall fuel l, (length l <= fuel)%nat -> List.concat (pages fuel n l) = l.
Proof.
  intros Hn. induction fuel as [|fuel IH]; intros l L.
  - destruct l; [reflexivity|cbn in L; lia].
  - cbn [pages]. destruct l as [|r l]; [reflexivity|]. set (x := r :: l) in *. cbn [List.concat].
    rewrite IH; [apply firstn_skipn|]. rewrite skipn_length. unfold x in *. cbn [length] in *. lia.
Qed.

Lemma page_size_pos n g : (0 < n)%nat -> 0 < g -> (0 < page_size n g)%nat.
Proof.
  intros Hn Hg. unfold page_size.
  assert (1 <= (Z.of_nat n + g - 1) / g) by (apply Z.div_le_lower_bound; lia). lia.
Qed.

Lemma page_texts nl (ps : list (list record)) :
  List.concat (map (page_text nl) ps) = List.concat (map (fun r => record_string r ++ line_break nl) (List.concat ps)).
Proof.
  induction ps as [|p ps IH]; [reflexivity|]. cbn [map List.concat]. rewrite map_app, concat_app, <- IH. f_equal.
  unfold page_text. rewrite flat_map_concat_map. reflexivity.
Qed.

Lemma concurrent_text f nl g : concurrent_string f nl g = file_text nl f.
Proof.
  unfold concurrent_string, file_text. rewrite page_texts, <- app_assoc. do 2 f_equal.
  destruct (flBases f) as [|r l] eqn:E; [reflexivity|]. rewrite pages_concat; [reflexivity| |lia].
  apply page_size_pos; [cbn; lia|]. destruct (Z.ltb_spec g 1); lia.
Qed.

(* ---- reading the data records ---- *)

Definition base_text (k : blocking) (b : base) : bytes :=
  (if packed_of k then base_string_packed else base_string_char) b.

Definition after_text (k : blocking) (bs : list base) (t : fields) : bytes :=
  List.concat (map (base_text k) bs) ++ trailer_string (packed_of k) t.

Lemma after_no_segment k bs t : Forall (base_in k) bs -> trailer_in k t ->
  (k = PackedFile -> forall z, word_after bs t z -> ~ spells_mark z) -> no_segment (after_text k bs t).
Proof.
  intros F Ht H. unfold after_text. destruct F as [|b bs Hb F]; cbn [map List.concat app].
  - destruct Ht as (A & B & rdw & Hr & D).
    apply (begins_no_segment (packed_of k) rdw).
    + apply trailer_in_begins; [split; [exact A|split; [exact B|exists rdw; auto]]|exact Hr].
    + intros Ep. destruct k; try discriminate. apply (H eq_refl). exact Hr.
  - pose proof Hb as (A & bdw & rdw & Hbd & Hr & D).
    apply (begins_no_segment (packed_of k) (if 0 <? bdw then bdw else rdw)).
    + rewrite <- app_assoc. apply begins_app. apply base_in_begins; assumption.
    + intros Ep. destruct k; try discriminate.
      assert (0 < bdw) as Pos by (unfold base_size in D; cbn [record_size] in D; lia).
      destruct (Z.ltb_spec 0 bdw); [|lia]. apply (H eq_refl). exact Hbd.
Qed.

Lemma parse_loop_reads k t : trailer_in k t -> forall bs acc pre fuel, Forall (base_in k) bs ->
  (k = PackedFile -> separated bs t) -> (0 < length pre)%nat -> (length bs < fuel)%nat ->
  parse_loop fuel (packed_of k) (pre ++ after_text k bs t) (blocked k) (Z.of_nat (length pre)) acc
  = LBreak (acc ++ map (RBase (packed_of k)) bs) (Z.of_nat (length pre + length (List.concat (map (base_text k) bs)))).
Proof.
  intros Ht. induction bs as [|b bs IH]; intros acc pre fuel F Sp Lp Lf; (destruct fuel as [|fuel]; [lia|]).
  - cbn [map List.concat length]. rewrite app_nil_r, Nat.add_0_r. cbn [parse_loop].
    destruct (trailer_in_reads k t new_trailer [] Ht new_trailer_typed) as (n & _ & Pos & Ln & _).
    unfold after_text. cbn [map List.concat app].
    assert ((Z.of_nat (length pre) <=? 0) || (Z.of_nat (length (pre ++ trailer_string (packed_of k) t)) <=? Z.of_nat (length pre)) = false) as ->.
    { rewrite app_length. apply orb_false_iff. split; apply Z.leb_gt; lia. }
    rewrite Nat2Z.id, skipn_app, skipn_all, Nat.sub_diag. cbn [skipn app].
    destruct (trailer_not_base k t [] Ht) as (b & e & E). rewrite app_nil_r in E.
    unfold new_data_record. cbn [record_parse]. rewrite E. reflexivity.
  - inversion F as [|? ? Hb Fb]; subst.
    assert (no_segment (after_text k bs t) \/ (k = PackedFile /\ padded true b)) as N.
    { destruct (blocked k && packed_of k) eqn:Ek.
      - assert (k = PackedFile) as -> by (destruct k; auto; discriminate).
        destruct Hb as (_ & bdw & rdw & _ & Hr & _).
        assert (padded true b \/ (forall z, word_after bs t z -> ~ spells_mark z)) as [P|P].
        { destruct (Z_lt_dec (base_size true b) rdw) as [L|L]; [left; exists rdw; auto|right].
          intros z W. destruct (Sp eq_refl [] b bs z eq_refl) as [(r & Hr' & L')|Q]; [|auto].
          exfalso. apply L. replace rdw with r; [exact L'|].
          pose proof (Forall_inv F) as (([T _] & _) & _). eapply holds_inj; [apply (base_nodup _ T)|exact Hr'|exact Hr]. }
        + auto.
        + left. apply after_no_segment; auto.
      - left. apply after_no_segment; auto. intros ->. discriminate. }
    destruct (base_in_reads k b (after_text k bs t) Hb N) as (n & _ & Pos & Ln & Pr).
    cbn [parse_loop]. assert (after_text k (b :: bs) t = base_text k b ++ after_text k bs t) as Ea.
    { unfold after_text. cbn [map List.concat]. rewrite app_assoc. reflexivity. }
    rewrite Ea.
    assert ((Z.of_nat (length pre) <=? 0) || (Z.of_nat (length (pre ++ base_text k b ++ after_text k bs t)) <=? Z.of_nat (length pre)) = false) as ->.
    { rewrite !app_length. unfold base_text at 1. apply orb_false_iff. split; apply Z.leb_gt; lia. }
    rewrite Nat2Z.id, skipn_app, skipn_all, Nat.sub_diag. cbn [skipn app].
    unfold new_data_record. cbn [record_parse]. fold (base_text k b) in Pr. rewrite Pr.
    replace (Z.of_nat (length pre) + n) with (Z.of_nat (length (pre ++ base_text k b)))
      by (rewrite app_length; unfold base_text at 1; lia).
    rewrite app_assoc. rewrite IH; [|assumption| |rewrite app_length; lia|cbn in Lf; lia].
    + cbn [map List.concat]. rewrite <- app_assoc. cbn [app]. f_equal. rewrite !app_length. lia.
    + intros Ek l1 b' l2 z E. apply (Sp Ek (b :: l1)). rewrite E. reflexivity.
Qed.

Lemma file_in_text k h bs t nl : file_in k (file_of k h bs t) ->
  strip (file_text nl (file_of k h bs t)) = header_string (packed_of k) h ++ after_text k bs t.
Proof.
  intros (h' & bs' & t' & E & Hh & Hb & Ht & Hp). injection E as <- Eb <-.
  assert (bs' = bs) as ->.
  { clear - Eb. revert bs' Eb. induction bs as [|b bs IH]; intros [|b' bs'] E; try discriminate; [reflexivity|].
    injection E as <- E. f_equal. auto. }
  rewrite strip_file_text.
  - unfold file_text, file_of. cbn [flHeader flBases flTrailer line_break app]. unfold after_text.
    rewrite map_map. cbn [record_string]. do 3 f_equal. apply map_ext. intros b. rewrite app_nil_r. reflexivity.
  - destruct k; cbn [packed_of] in *; [| |apply Hp]; apply record_plain; try reflexivity;
      eapply header_fits_breakless; apply Hh.
  - destruct k; cbn [packed_of] in *; [| |apply Hp]; apply record_plain; try reflexivity;
      eapply trailer_fits_breakless; apply Ht.
  - destruct k; cbn [packed_of] in *; [| |apply Hp]; cbn [flBases file_of];
      rewrite Forall_map; eapply Forall_impl; [|exact Hb| |exact Hb]; intros b (Fb & _);
      apply record_plain; try reflexivity; eapply base_fits_breakless, Fb.
Qed.

Lemma file_round_trip k f nl g fuel : file_in k f -> (length (flBases f) < fuel)%nat ->
  file_parse fuel (new_file_p (packed_of k)) (concurrent_string f nl g) (blocked k) = Some (f, Ok tt).
Proof.
  intros Hf Lf. pose proof Hf as (h & bs & t & -> & Hh & Hb & Ht & Hp).
  rewrite concurrent_text. unfold file_parse. rewrite (file_in_text k h bs t nl Hf).
  cbn [flBases file_of] in Lf. rewrite map_length in Lf.
  cbn [new_file_p set_bases flHeader flPacked flTrailer record_parse].
  destruct (header_in_reads k h (after_text k bs t) Hh) as (n & _ & Pn & Ln & ->).
  rewrite <- Ln. rewrite (parse_loop_reads k t Ht bs [] (header_string (packed_of k) h) fuel Hb); [|destruct k; try discriminate; tauto|lia|exact Lf].
  cbn [app].
  destruct (trailer_in_reads k t new_trailer [] Ht new_trailer_typed) as (m & _ & Pm & Lm & Pt).
  rewrite app_nil_r in Pt. unfold after_text. rewrite !app_length.
  assert ((Z.of_nat (length (header_string (packed_of k) h) + length (List.concat (map (base_text k) bs))) <=? 0) ||
    (Z.of_nat (length (header_string (packed_of k) h) + (length (List.concat (map (base_text k) bs)) + length (trailer_string (packed_of k) t)))
       <=? Z.of_nat (length (header_string (packed_of k) h) + length (List.concat (map (base_text k) bs)))) = false) as ->.
  { apply orb_false_iff. split; apply Z.leb_gt; lia. }
  rewrite Nat2Z.id, app_assoc, skipn_app, skipn_all2, <- app_length, Nat.sub_diag by (rewrite app_length; lia).
  cbn [skipn app set_header flTrailer set_bases new_file_p record_parse]. rewrite Pt.
  destruct (Z.eqb_spec (Z.of_nat (length (header_string (packed_of k) h ++ List.concat (map (base_text k) bs))) + m)
    (Z.of_nat (length (header_string (packed_of k) h) + (length (List.concat (map (base_text k) bs)) + length (trailer_string (packed_of k) t)))))
    as [_|N]; [|exfalso; rewrite app_length in N; lia].
  reflexivity.
Qed.
