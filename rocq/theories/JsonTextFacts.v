(* Facts about Json.v: what has been written is read back *)
From Coq Require Import ZArith NArith Bool Ascii String List Lia Permutation.
Import ListNotations.
From Verif Require Import GoBase GoBaseFacts GoTime TimeFacts GoLayout Json Tables Codec Records File SpecCodec SpecJson.
Local Open Scope string_scope.
Local Open Scope Z_scope.
Local Open Scope list_scope.
Local Notation length := List.length.

(* ---- characters ---- *)

Lemma chr_val z : 0 <= z < 256 -> bval (chr z) = z.
Proof. intros H. unfold chr, bval. rewrite N_ascii_embedding; lia. Qed.

Lemma utf8_char_pos r : utf8_char r -> (0 < length r)%nat.
Proof. intros (z & []); cbn; lia. Qed.

Ltac ranges := unfold in_range; rewrite !chr_val by euclid;
  repeat match goal with
  | |- context [?a <=? ?b] => destruct (Z.leb_spec a b); try (exfalso; euclid)
  | |- context [?a =? ?b] => destruct (Z.eqb_spec a b); try (exfalso; euclid)
  end; try reflexivity; try (exfalso; euclid).

Lemma in_range_chr lo hi z : 0 <= z < 256 -> in_range lo hi (chr z) = (lo <=? z) && (z <=? hi).
Proof. intros H. unfold in_range. rewrite chr_val by assumption. reflexivity. Qed.

Lemma in_true lo hi z : 0 <= z < 256 -> lo <= z <= hi -> in_range lo hi (chr z) = true.
Proof. intros H H'. rewrite in_range_chr by assumption. apply andb_true_intro. split; apply Z.leb_le; lia. Qed.
Lemma in_false lo hi z : 0 <= z < 256 -> z < lo \/ hi < z -> in_range lo hi (chr z) = false.
Proof.
  intros H H'. rewrite in_range_chr by assumption. destruct (Z.leb_spec lo z), (Z.leb_spec z hi); cbn; try reflexivity; lia.
Qed.

Lemma utf8_char_width r s : utf8_char r -> rune_width (r ++ s) = length r.
Proof.
  intros (? & [z H|z H|z H N|z H]); cbn [app length rune_width].
  - rewrite in_true; [reflexivity|lia|lia].
  - rewrite in_false, in_true, in_true; try reflexivity; euclid.
  - rewrite in_false, in_false, in_true by euclid. rewrite chr_val by euclid.
    rewrite (in_true 128 191 (128 + z mod 64)) by euclid.
    rewrite in_true; [reflexivity|euclid|].
    destruct (Z.eqb_spec (224 + z / 4096) 224), (Z.eqb_spec (224 + z / 4096) 237); euclid.
  - rewrite in_false, in_false, in_false, in_true by euclid. rewrite chr_val by euclid.
    rewrite (in_true 128 191 (128 + z mod 64)), (in_true 128 191 (128 + z / 64 mod 64)) by euclid.
    rewrite in_true; [reflexivity|euclid|].
    destruct (Z.eqb_spec (240 + z / 262144) 240), (Z.eqb_spec (240 + z / 262144) 244); euclid.
Qed.

Lemma rune_width_pos s : s <> [] -> (1 <= rune_width s)%nat.
Proof.
  destruct s as [|c s]; [congruence|]. intros _. unfold rune_width.
  repeat match goal with |- context [if ?b then _ else _] => destruct b | |- context [match ?l with [] => _ | _ :: _ => _ end] => destruct l end; lia.
Qed.

Lemma runes_fuel_enough n : forall m s, (length s <= n)%nat -> (length s <= m)%nat -> runes_fuel n s = runes_fuel m s.
Proof.
  induction n as [|n IH]; intros m s Hn Hm.
  - destruct s; [|cbn in Hn; lia]. destruct m; reflexivity.
  - destruct s as [|c s]; [destruct m; reflexivity|]. destruct m as [|m]; [cbn in Hm; lia|].
    cbn [runes_fuel]. f_equal. pose proof (rune_width_pos (c :: s) ltac:(discriminate)).
    apply IH; rewrite skipn_length; cbn [length] in *; lia.
Qed.

Lemma runes_cons r s : utf8_char r -> runes (r ++ s) = r :: runes s.
Proof.
  intros H. pose proof (utf8_char_pos r H) as P. unfold runes at 1. rewrite app_length.
  destruct (length r + length s)%nat as [|n] eqn:E; [lia|]. cbn [runes_fuel].
  destruct (r ++ s) as [|c t] eqn:E2; [destruct r; [cbn in P; lia|discriminate]|]. rewrite <- E2.
  rewrite (utf8_char_width r s H), firstn_app_exact, skipn_app_exact by reflexivity. f_equal.
  apply runes_fuel_enough; lia.
Qed.

Lemma runes_concat l : Forall utf8_char l -> runes (List.concat l) = l.
Proof. induction 1 as [|r l H _ IH]; [reflexivity|]. cbn [List.concat]. rewrite runes_cons by assumption. now rewrite IH. Qed.

Lemma utf8_char_clean r : utf8_char r -> clean_rune r = r.
Proof. intros (? & [z H|z H|z H N|z H]); try reflexivity. cbn [clean_rune]. rewrite in_true by lia. reflexivity. Qed.

Lemma utf8_text_clean s : utf8_text s -> clean s = s.
Proof.
  intros (l & F & ->). unfold clean. rewrite runes_concat by assumption. f_equal.
  induction F as [|r l H _ IH]; [reflexivity|]. cbn [map]. rewrite utf8_char_clean by assumption. now rewrite IH.
Qed.

Lemma utf8_text_nil : utf8_text [].
Proof. exists []. split; [constructor|reflexivity]. Qed.
Lemma utf8_text_ascii s : forallb is_ascii s = true -> utf8_text s.
Proof.
  intros H. exists (map (fun c => [c]) s). split; [|symmetry; apply concat_singletons].
  apply Forall_forall. intros r I. apply in_map_iff in I as (c & <- & I).
  rewrite forallb_forall in H. specialize (H _ I). unfold is_ascii in H.
  replace c with (chr (bval c)). exists (bval c). constructor.
  - unfold is_ascii in H. pose proof (bval_range c). lia.
  - unfold chr. change (ascii_of_N (Z.to_N (bval c)) = c). unfold bval. rewrite N2Z.id. apply ascii_N_embedding.
Qed.

(* ---- strings ---- *)

Definition put (w : bytes) (r : option (bytes * bytes)) : option (bytes * bytes) :=
  match r with Some (t, rest) => Some (w ++ t, rest) | None => None end.

Lemma read_escaped_char c s : in_range 0 127 c = true -> read_chars (escape_char c ++ s) = put [c] (read_chars s).
Proof.
  destruct c as [[] [] [] [] [] [] [] []]; intros H; first [discriminate H|reflexivity].
Qed.

Lemma plain_first c s : 128 <= bval c -> read_chars (c :: s) =
  match rune_width (c :: s), s with
  | 2%nat, c1 :: r1 => put [c; c1] (read_chars r1)
  | 3%nat, c1 :: c2 :: r2 => put [c; c1; c2] (read_chars r2)
  | 4%nat, c1 :: c2 :: c3 :: r3 => put [c; c1; c2; c3] (read_chars r3)
  | _, _ => put replacement (read_chars s)
  end.
Proof.
  intros H. cbn [read_chars].
  assert (byte_eqb c quote_char = false) as -> by (apply byte_eqb_neq; intros ->; vm_compute in H; congruence).
  assert (byte_eqb c backslash = false) as -> by (apply byte_eqb_neq; intros ->; vm_compute in H; congruence).
  assert (bval c <? 32 = false) as -> by (apply Z.ltb_ge; lia).
  assert (in_range 0 127 c = false) as -> by (unfold in_range; destruct (Z.leb_spec (bval c) 127); [lia|apply andb_false_r]).
  reflexivity.
Qed.

Lemma code_bval c : code c = bval c.
Proof. reflexivity. Qed.
Lemma zbyte_chr z : 0 <= z < 256 -> zbyte z = chr z.
Proof. intros H. unfold zbyte, chr. rewrite Z.mod_small by assumption. reflexivity. Qed.

Lemma encodes_unique z r : encodes z r -> forall q, encodes z q -> r = q.
Proof. intros [y H|y H|y H N|y H] q Q; inversion Q; subst; try lia; reflexivity. Qed.

Lemma utf8_encodes z r : encodes z r -> utf8 z = r.
Proof.
  intros [y H|y H|y H N|y H]; unfold utf8.
  - destruct (Z.ltb_spec y 128); [|lia]. rewrite zbyte_chr by lia. reflexivity.
  - destruct (Z.ltb_spec y 128); [lia|]. destruct (Z.ltb_spec y 2048); [|lia]. rewrite !zbyte_chr by euclid. reflexivity.
  - destruct (Z.ltb_spec y 128); [lia|]. destruct (Z.ltb_spec y 2048); [lia|]. destruct (Z.ltb_spec y 65536); [|lia].
    destruct (Z.leb_spec 55296 y), (Z.leb_spec y 57343); cbn [andb]; try lia; rewrite !zbyte_chr by euclid; reflexivity.
  - destruct (Z.ltb_spec y 128); [lia|]. destruct (Z.ltb_spec y 2048); [lia|]. destruct (Z.ltb_spec y 65536); [lia|].
    rewrite !zbyte_chr by euclid. reflexivity.
Qed.

Lemma hex_digit_val v c : hex_digit v c -> hex_val c = Some v.
Proof.
  unfold hex_digit. rewrite !code_bval. intros H. unfold hex_val. destruct (is_digit c) eqn:D.
  - apply is_digit_spec in D. unfold digit_val. f_equal. lia.
  - assert (~ (48 <= bval c <= 57)) as Nd by (intros X; apply is_digit_spec in X; congruence).
    unfold in_range. destruct (Z.leb_spec 97 (bval c)), (Z.leb_spec (bval c) 102); cbn [andb]; try (f_equal; lia); try lia;
    destruct (Z.leb_spec 65 (bval c)), (Z.leb_spec (bval c) 70); cbn [andb]; try (f_equal; lia); lia.
Qed.

Lemma hex_digit_range v c : hex_digit v c -> 0 <= v < 16.
Proof. unfold hex_digit. lia. Qed.

Lemma four_digits_val z t : four_digits z t -> exists a b c d, t = [a; b; c; d] /\ hex4 a b c d = Some z /\ 0 <= z < 65536.
Proof.
  intros (a & b & c & d & x & y & u & v & A & B & C & D & -> & ->). exists x, y, u, v. split; [reflexivity|]. unfold hex4.
  pose proof (hex_digit_range _ _ A). pose proof (hex_digit_range _ _ B). pose proof (hex_digit_range _ _ C). pose proof (hex_digit_range _ _ D).
  rewrite (hex_digit_val _ _ A), (hex_digit_val _ _ B), (hex_digit_val _ _ C), (hex_digit_val _ _ D). split; [f_equal; ring|lia].
Qed.

Lemma hex_char_digit v : 0 <= v < 16 -> hex_digit v (hex_char v).
Proof.
  intros H. unfold hex_digit, hex_char. destruct (Z.ltb_spec v 10); rewrite zbyte_chr, code_bval, chr_val by lia; lia.
Qed.

Lemma u_escape_spelled z : 0 <= z < 65536 -> ~ (55296 <= z < 57344) -> spelled_char z (u_escape z).
Proof.
  intros H N. unfold u_escape. apply Unicode; [|assumption].
  exists (z / 4096 mod 16), (z / 256 mod 16), (z / 16 mod 16), (z mod 16),
    (hex_char (z / 4096 mod 16)), (hex_char (z / 256 mod 16)), (hex_char (z / 16 mod 16)), (hex_char (z mod 16)).
  repeat (split; [apply hex_char_digit, Z.mod_pos_bound; lia|]). split; [|reflexivity]. euclid.
Qed.

(* a character that is neither escaped nor forbidden *)
Lemma read_plain z r s : encodes z r -> 32 <= z -> z <> 34 -> z <> 92 -> read_chars (r ++ s) = put r (read_chars s).
Proof.
  intros E L N1 N2. pose proof (utf8_char_width r s (ex_intro _ z E)) as W. destruct E as [y H|y H|y H N|y H].
  - cbn [app read_chars].
    assert (byte_eqb (chr y) quote_char = false) as ->.
    { apply byte_eqb_neq. intros X. apply (f_equal bval) in X. rewrite chr_val in X by lia. vm_compute in X. congruence. }
    assert (byte_eqb (chr y) backslash = false) as ->.
    { apply byte_eqb_neq. intros X. apply (f_equal bval) in X. rewrite chr_val in X by lia. vm_compute in X. congruence. }
    rewrite chr_val by lia. destruct (Z.ltb_spec y 32); [lia|]. rewrite in_true by lia. reflexivity.
  - cbn [app]. rewrite plain_first by (rewrite chr_val; euclid). cbn [app] in W. rewrite W. reflexivity.
  - cbn [app]. rewrite plain_first by (rewrite chr_val; euclid). cbn [app] in W. rewrite W. reflexivity.
  - cbn [app]. rewrite plain_first by (rewrite chr_val; euclid). cbn [app] in W. rewrite W. reflexivity.
Qed.

Lemma encodes_small z r : encodes z r -> 0 <= z < 128 -> r = [chr z].
Proof. intros E H. apply (encodes_unique z r E). now constructor. Qed.

Lemma read_unit a b c d r : read_chars (backslash :: "u"%char :: a :: b :: c :: d :: r) =
  match hex4 a b c d with
  | Some z =>
      if is_high z then
        match r with
        | x :: u :: l1 :: l2 :: l3 :: l4 :: r3 =>
            if byte_eqb x backslash && byte_eqb u "u" then
              match hex4 l1 l2 l3 l4 with
              | Some y =>
                  if is_low y
                  then put (utf8 ((z - 55296) * 1024 + (y - 56320) + 65536)) (read_chars r3)
                  else put replacement (read_chars r)
              | None => None
              end
            else put replacement (read_chars r)
        | _ => put replacement (read_chars r)
        end
      else put (utf8 z) (read_chars r)
  | None => None
  end.
Proof. reflexivity. Qed.

Lemma read_spelled_char z q r s : spelled_char z q -> encodes z r -> read_chars (q ++ s) = put r (read_chars s).
Proof.
  intros Q E. destruct Q as [z q P L N1 N2|z e I|z t F N|h l t t' F F' Hh Hl].
  - rewrite (encodes_unique z r E q P). now apply read_plain with z.
  - unfold short_escapes in I. cbn [In] in I.
    repeat (destruct I as [X|I]; [injection X as <- <-; rewrite (encodes_small _ _ E) by lia; reflexivity|]). destruct I.
  - destruct (four_digits_val z t F) as (a & b & c & d & -> & V & R). cbn [app].
    change (chr 92) with backslash. rewrite read_unit.
    rewrite V. assert (is_high z = false) as ->.
    { unfold is_high. destruct (Z.leb_spec 55296 z), (Z.leb_spec z 56319); cbn [andb]; try reflexivity. lia. }
    rewrite (utf8_encodes z r E). reflexivity.
  - destruct (four_digits_val h t F) as (a & b & c & d & -> & V & R).
    destruct (four_digits_val l t' F') as (a' & b' & c' & d' & -> & V' & R'). cbn [app].
    change (chr 92) with backslash. rewrite read_unit.
    rewrite V. assert (is_high h = true) as ->.
    { unfold is_high. apply andb_true_intro. split; apply Z.leb_le; lia. }
    change (byte_eqb backslash backslash && byte_eqb "u" "u") with true. cbv iota. rewrite V'. assert (is_low l = true) as ->.
    { unfold is_low. apply andb_true_intro. split; apply Z.leb_le; lia. }
    rewrite <- (utf8_encodes _ r E). unfold put. replace (65536 + (h - 55296) * 1024 + (l - 56320)) with ((h - 55296) * 1024 + (l - 56320) + 65536) by ring.
    reflexivity.
Qed.

Lemma read_text s q rest : spelled_text s q -> read_chars (q ++ quote_char :: rest) = Some (s, rest).
Proof.
  induction 1 as [|z r q s t E Q _ IH]; [reflexivity|]. rewrite <- app_assoc, (read_spelled_char z q r) by assumption.
  rewrite IH. reflexivity.
Qed.

Lemma read_quoted s t rest : string_text s t -> exists q, t = quote_char :: q /\ read_chars (q ++ rest) = Some (s, rest).
Proof.
  intros (q & T & ->). exists (q ++ [quote_char]). split; [reflexivity|]. rewrite <- app_assoc. now apply read_text.
Qed.

(* ---- what is written ---- *)

Lemma escape_char_spelled z : 0 <= z < 128 -> spelled_char z (escape_char (chr z)).
Proof.
  intros H. unfold escape_char. rewrite chr_val by lia.
  destruct (Z.eqb_spec z 34) as [->|N1]; [apply Short; unfold short_escapes; cbn [In]; auto|].
  destruct (Z.eqb_spec z 92) as [->|N2]; [apply Short; unfold short_escapes; cbn [In]; auto|]. cbn [orb].
  destruct (Z.eqb_spec z 8) as [->|N3]; [apply Short; unfold short_escapes; cbn [In]; auto 10|].
  destruct (Z.eqb_spec z 12) as [->|N4]; [apply Short; unfold short_escapes; cbn [In]; auto 10|].
  destruct (Z.eqb_spec z 10) as [->|N5]; [apply Short; unfold short_escapes; cbn [In]; auto 10|].
  destruct (Z.eqb_spec z 13) as [->|N6]; [apply Short; unfold short_escapes; cbn [In]; auto 10|].
  destruct (Z.eqb_spec z 9) as [->|N7]; [apply Short; unfold short_escapes; cbn [In]; auto 10|].
  destruct (_ || _ || _ || _) eqn:E; [apply u_escape_spelled; lia|].
  destruct (Z.ltb_spec z 32); [discriminate E|]. apply Plain; try assumption. now constructor.
Qed.

Lemma escape_rune_spelled z r : encodes z r -> spelled_char z (escape_rune r).
Proof.
  intros E. destruct E as [z H|z H|z H N|z H]; cbn [escape_rune].
  - rewrite in_true by lia. now apply escape_char_spelled.
  - assert (forall x, length x = 3%nat -> bytes_eqb [chr (192 + z / 64); chr (128 + z mod 64)] x = false) as X.
    { intros x L. apply bytes_eqb_neq. intros <-. discriminate L. }
    rewrite !X by reflexivity. apply Plain; try lia. now constructor.
  - assert (chr (224 + z / 4096) = chr 226 -> chr (128 + z / 64 mod 64) = chr 128 -> z / 64 = 128) as X.
    { intros A B. apply (f_equal bval) in A, B. rewrite !chr_val in A, B by euclid. euclid. }
    destruct (bytes_eqb _ line_separator) eqn:E1.
    { apply bytes_eqb_eq in E1. injection E1 as A B C. apply (f_equal bval) in C. rewrite chr_val in C by euclid.
      change (bval _) with 168 in C. specialize (X A B). assert (z = 8232) as -> by euclid. apply u_escape_spelled; lia. }
    destruct (bytes_eqb _ paragraph_separator) eqn:E2.
    { apply bytes_eqb_eq in E2. injection E2 as A B C. apply (f_equal bval) in C. rewrite chr_val in C by euclid.
      change (bval _) with 169 in C. specialize (X A B). assert (z = 8233) as -> by euclid. apply u_escape_spelled; lia. }
    apply Plain; try lia. now constructor.
  - assert (forall x, length x = 3%nat -> bytes_eqb [chr (240 + z / 262144); chr (128 + z / 4096 mod 64); chr (128 + z / 64 mod 64); chr (128 + z mod 64)] x = false) as X.
    { intros x L. apply bytes_eqb_neq. intros <-. discriminate L. }
    rewrite !X by reflexivity. apply Plain; try lia. now constructor.
Qed.

Lemma quote_text s : utf8_text s -> string_text s (quote s).
Proof.
  intros (l & F & ->). exists (List.concat (map escape_rune l)). unfold quote. rewrite runes_concat by assumption. split; [|reflexivity].
  induction F as [|r l [z E] _ IH]; cbn [List.concat map]; [constructor|]. apply (TextChar z); try assumption. now apply escape_rune_spelled.
Qed.

(* ---- numbers ---- *)

(* the text after a number does not continue it *)
Definition after_number (s : bytes) : Prop :=
  match s with
  | [] => True
  | c :: _ => is_digit c = false /\ byte_eqb c "." = false /\ byte_eqb c "e" = false /\ byte_eqb c "E" = false
  end.

Lemma take_digits_app ds rest : forallb is_digit ds = true -> after_number rest -> take_digits (ds ++ rest) = (ds, rest).
Proof.
  induction ds as [|c ds IH]; cbn [forallb app take_digits]; intros H A.
  - destruct rest as [|c r]; [reflexivity|]. destruct A as [A _]. cbn [take_digits]. now rewrite A.
  - apply andb_prop in H as [H1 H2]. rewrite H1, IH by assumption. reflexivity.
Qed.

Lemma utoa_first z : 0 < z -> exists c r, utoa z = c :: r /\ byte_eqb c "0" = false.
Proof.
  intros H. pose proof (utoa_digits z ltac:(lia)) as D. pose proof (dval_utoa z ltac:(lia)) as V.
  destruct (utoa z) as [|c r] eqn:E; [pose proof (utoa_nonempty z) as L; rewrite E in L; cbn in L; lia|].
  exists c, r. split; [reflexivity|]. apply byte_eqb_neq. intros ->.
  cbn [forallb] in D. apply andb_prop in D as [_ D]. rewrite dval_cons in V. change (digit_val "0") with 0 in V.
  pose proof (dval_range r D). destruct r as [|c r].
  - cbn in V. lia.
  - pose proof (utoa_length_le z (length (c :: r)) ltac:(lia) ltac:(lia) ltac:(cbn; lia)) as L. rewrite E in L. cbn in L. lia.
Qed.

Lemma utoa_0 : utoa 0 = ["0"%char].
Proof. reflexivity. Qed.

Lemma read_integer_utoa z rest : 0 <= z -> after_number rest -> read_integer (utoa z ++ rest) = Some (utoa z, rest).
Proof.
  intros H A. destruct (Z.eq_dec z 0) as [->|N].
  - rewrite utoa_0. reflexivity.
  - destruct (utoa_first z ltac:(lia)) as (c & r & E & F). pose proof (utoa_digits z H) as D.
    unfold read_integer. rewrite E. cbn [app]. rewrite F. unfold take_digits1.
    change (c :: r ++ rest) with ((c :: r) ++ rest). rewrite E in D. rewrite take_digits_app by assumption. reflexivity.
Qed.

Lemma read_tail rest : after_number rest -> read_fraction rest = Some ([], rest) /\ read_exponent rest = Some ([], rest).
Proof.
  destruct rest as [|c r]; [split; reflexivity|]. intros (_ & H1 & H2 & H3). cbn. rewrite H1, H2, H3. split; reflexivity.
Qed.

Lemma numerals_digits ds : numerals ds -> forallb is_digit ds = true.
Proof. intros [_ F]. apply forallb_forall. intros c I. rewrite Forall_forall in F. apply is_digit_spec. exact (F c I). Qed.

Lemma take_numerals ds rest : numerals ds -> after_number rest \/ (exists c r, rest = c :: r /\ is_digit c = false) ->
  take_digits1 (ds ++ rest) = Some (ds, rest).
Proof.
  intros N A. pose proof (numerals_digits ds N) as D. destruct N as [N _]. unfold take_digits1.
  assert (take_digits (ds ++ rest) = (ds, rest)) as ->.
  { clear N. induction ds as [|c ds IH]; cbn [app].
    - destruct rest as [|c r]; [reflexivity|]. cbn [take_digits].
      assert (is_digit c = false) as -> by (destruct A as [[A _]|(c' & r' & E & A)]; [exact A|congruence]). reflexivity.
    - cbn [forallb] in D. apply andb_prop in D as [D1 D2]. cbn [take_digits]. rewrite D1, IH by assumption. reflexivity. }
  destruct ds; [congruence|reflexivity].
Qed.

Lemma read_number_text t rest : number_text t -> after_number rest -> read_number (t ++ rest) = Some (t, rest).
Proof.
  intros (sg & w & f & e & -> & S & W & F & X) A.
  destruct (read_tail rest A) as [RF RE].
  assert (HE : read_exponent (e ++ rest) = Some (e, rest)).
  { destruct X as [->|(c & g & ds & -> & C & G & N)]; [exact RE|]. cbn [app read_exponent].
    assert (byte_eqb c "e" || byte_eqb c "E" = true) as -> by (destruct C as [->| ->]; reflexivity).
    rewrite <- app_assoc. destruct G as [->|[->| ->]].
    - pose proof (take_numerals ds rest N (or_introl A)) as T. cbn [app]. pose proof (numerals_digits ds N) as D.
      destruct ds as [|x ds]; [destruct N; congruence|]. cbn [app] in T |- *. cbn [forallb] in D. apply andb_prop in D as [D _].
      assert (byte_eqb x "+" || byte_eqb x "-" = false) as ->.
      { apply orb_false_intro; apply byte_eqb_neq; intros ->; discriminate D. }
      rewrite T. reflexivity.
    - cbn [lit list_ascii_of_string app]. change (byte_eqb "+" "+" || byte_eqb "+" "-") with true. cbv iota.
      rewrite (take_numerals ds rest N (or_introl A)). reflexivity.
    - cbn [lit list_ascii_of_string app]. change (byte_eqb "-" "+" || byte_eqb "-" "-") with true. cbv iota.
      rewrite (take_numerals ds rest N (or_introl A)). reflexivity. }
  assert (AE : after_number (e ++ rest) \/ exists c r, e ++ rest = c :: r /\ is_digit c = false /\ byte_eqb c "." = false).
  { destruct X as [->|(c & g & ds & -> & C & G & N)]; [left; exact A|right]. exists c, ((g ++ ds) ++ rest). split; [reflexivity|].
    destruct C as [->| ->]; split; reflexivity. }
  assert (HF : read_fraction (f ++ e ++ rest) = Some (f, e ++ rest)).
  { destruct F as [->|(ds & -> & N)].
    - cbn [app]. destruct AE as [AE|(c & r & E & _ & D)]; [apply read_tail in AE as [-> _]; reflexivity|]. rewrite E. cbn [read_fraction]. rewrite D. reflexivity.
    - cbn [app read_fraction]. change (byte_eqb "." ".") with true. cbv iota.
      rewrite (take_numerals ds (e ++ rest) N); [reflexivity|]. destruct AE as [AE|(c & r & E & D & _)]; [left; exact AE|right; eauto]. }
  assert (AF : after_number (f ++ e ++ rest) \/ exists c r, f ++ e ++ rest = c :: r /\ is_digit c = false).
  { destruct F as [->|(ds & -> & N)].
    - cbn [app]. destruct AE as [AE|(c & r & E & D & _)]; [left; exact AE|right; eauto].
    - right. eexists _, _. split; [reflexivity|reflexivity]. }
  assert (HI : read_integer (w ++ f ++ e ++ rest) = Some (w, f ++ e ++ rest)).
  { destruct W as [->|[N Nz]]; [reflexivity|]. pose proof (take_numerals w _ N AF) as T.
    destruct w as [|c w]; [destruct N; congruence|]. cbn [app read_integer] in T |- *.
    assert (byte_eqb c "0" = false) as -> by (apply byte_eqb_neq; intros ->; exact (Nz w eq_refl)). exact T. }
  unfold read_number. rewrite <- !app_assoc. destruct S as [->| ->].
  - cbn [app].
    assert (exists c r, w ++ f ++ e ++ rest = c :: r /\ byte_eqb c "-" = false) as (c & r & E & N).
    { destruct W as [->|[N Nz]]; [eexists _, _; split; reflexivity|]. pose proof (numerals_digits w N) as D.
      destruct w as [|c w]; [destruct N; congruence|]. exists c, (w ++ f ++ e ++ rest). split; [reflexivity|].
      cbn [forallb] in D. apply andb_prop in D as [D _]. apply byte_eqb_neq. intros ->. discriminate D. }
    rewrite E, N, <- E, HI, HF, HE. reflexivity.
  - cbn [lit list_ascii_of_string app]. change (byte_eqb "-" "-") with true. cbv iota. rewrite HI, HF, HE. reflexivity.
Qed.

Lemma utoa_numerals z : 0 <= z -> numerals (utoa z).
Proof.
  intros H. split; [pose proof (utoa_nonempty z); destruct (utoa z); [cbn in *; lia|discriminate]|].
  pose proof (utoa_digits z H) as D. rewrite forallb_forall in D. apply Forall_forall. intros c I. specialize (D c I). now apply is_digit_spec in D.
Qed.

Lemma number_itoa z : number_text (itoa z).
Proof.
  assert (forall y, 0 <= y -> utoa y = lit "0" \/ numerals (utoa y) /\ forall r, utoa y <> "0"%char :: r) as U.
  { intros y H. destruct (Z.eq_dec y 0) as [->|N]; [left; exact utoa_0|right]. split; [now apply utoa_numerals|].
    intros r E. destruct (utoa_first y ltac:(lia)) as (c & r' & E' & B). rewrite E in E'. injection E' as <- <-. discriminate B. }
  unfold itoa. destruct (Z.ltb_spec z 0).
  - exists (lit "-"), (utoa (- z)), [], []. split; [rewrite !app_nil_r; reflexivity|]. split; [auto|]. split; [apply U; lia|auto].
  - exists [], (utoa z), [], []. split; [rewrite !app_nil_r; reflexivity|]. split; [auto|]. split; [apply U; lia|auto].
Qed.

Lemma number_first t : number_text t -> exists c r, t = c :: r /\ (is_digit c = true \/ c = "-"%char).
Proof.
  intros (sg & w & f & e & -> & [->| ->] & W & _); [|eexists _, _; split; [reflexivity|now right]].
  destruct W as [->|[N _]]; [eexists _, _; split; [reflexivity|now left]|]. pose proof (numerals_digits w N) as D.
  destruct w as [|c w]; [destruct N; congruence|]. cbn [forallb] in D. apply andb_prop in D as [D _].
  eexists _, _. split; [reflexivity|now left].
Qed.

Lemma parse_itoa z : Z.abs z <= 2 ^ 53 -> parse_int 64 (itoa z) = (z, None).
Proof.
  intros H. unfold itoa. destruct (Z.ltb_spec z 0).
  - pose proof (utoa_digits (- z) ltac:(lia)) as D. pose proof (dval_utoa (- z) ltac:(lia)) as V. pose proof (utoa_nonempty (- z)).
    unfold parse_int. change (byte_eqb "-" "+") with false. change (byte_eqb "-" "-") with true. cbv iota.
    destruct (utoa (- z)) as [|c r] eqn:E; [cbn in *; lia|]. rewrite D, V. cbn [negb andb].
    destruct (Z.ltb_spec (2 ^ (64 - 1)) (- z)); [lia|]. f_equal. lia.
  - assert (utoa z <> []) as N by (pose proof (utoa_nonempty z); destruct (utoa z); [cbn in *; lia|discriminate]).
    pose proof (dval_utoa z ltac:(lia)) as V.
    rewrite (parse_int_digits 64 (utoa z) N); [now rewrite V|apply utoa_digits; lia|lia].
Qed.

(* ---- white space ---- *)

Lemma white_space c : white c -> is_json_space c = true.
Proof. unfold white, is_json_space, code. change (Z.of_N (N_of_ascii c)) with (bval c). intros [->|[->|[->| ->]]]; reflexivity. Qed.

Lemma skip_white w s : Forall white w -> skip_ws (w ++ s) = skip_ws s.
Proof. induction 1 as [|c w H _ IH]; [reflexivity|]. cbn [app]. unfold skip_ws. cbn [drop_while]. rewrite white_space by assumption. exact IH. Qed.

Lemma skip_none c s : is_json_space c = false -> skip_ws (c :: s) = c :: s.
Proof. intros H. unfold skip_ws. cbn [drop_while]. now rewrite H. Qed.

Lemma white_after_number w c s : Forall white w -> after_number (c :: s) -> after_number (w ++ c :: s).
Proof.
  intros F A. destruct F as [|x w H F]; [exact A|]. cbn [app after_number].
  unfold white, code in H. change (Z.of_N (N_of_ascii x)) with (bval x) in H.
  destruct H as [->|H]; [repeat split; reflexivity|].
  assert (bval x < 32) by lia.
  assert (forall c, 32 <= bval c -> byte_eqb x c = false) as X by (intros d Hd; apply byte_eqb_neq; intros ->; lia).
  rewrite !X by (vm_compute; congruence). repeat split.
  destruct (is_digit x) eqn:D; [apply is_digit_spec in D; lia|reflexivity].
Qed.

(* ---- values ---- *)

Scheme spells_ind3 := Minimality for spells Sort Prop
  with spells_list_ind3 := Minimality for spells_list Sort Prop
  with spells_members_ind3 := Minimality for spells_members Sort Prop.
Combined Scheme spells_all from spells_ind3, spells_list_ind3, spells_members_ind3.

(* the text starts with something that is neither white space nor a closing bracket *)
Definition starts (s : bytes) : Prop :=
  exists c r, s = c :: r /\ is_json_space c = false /\ byte_eqb c "]" = false /\ byte_eqb c "}" = false.

Lemma spells_starts j s : spells j s -> starts s.
Proof.
  intros [| | |t N|v q U|w F|l t F|w F|l t F]; try (eexists _, _; split; [reflexivity|]; repeat split; reflexivity).
  - destruct (number_first t N) as (c & r & E & D). exists c, r. split; [assumption|]. destruct D as [D| ->]; [|repeat split; reflexivity].
    apply is_digit_spec in D.
    assert (forall x, 57 < bval x -> byte_eqb c x = false) as X by (intros x Hx; apply byte_eqb_neq; intros ->; lia).
    rewrite !X by (vm_compute; congruence). repeat split. unfold is_json_space.
    repeat (rewrite (proj2 (Z.eqb_neq _ _)) by lia). reflexivity.
  - destruct U as (t & _ & ->). eexists _, _. split; [reflexivity|]. repeat split; reflexivity.
Qed.

Lemma spells_nonempty j s : spells j s -> (1 <= length s)%nat.
Proof. intros H. destruct (spells_starts j s H) as (c & r & -> & _). cbn. lia. Qed.

Lemma word_app w j s : word w j (lit w ++ s) = Some (j, s).
Proof.
  unfold word. assert (has_prefix w (lit w ++ s) = true) as ->.
  { unfold has_prefix. rewrite firstn_app_exact by reflexivity. apply bytes_eqb_refl. }
  rewrite skipn_app_exact by reflexivity. reflexivity.
Qed.

Ltac len := repeat (rewrite ?app_length in * || cbn [length app] in * ); lia.

Lemma read_spelled :
  (forall j s, spells j s -> forall fuel w rest, Forall white w -> after_number rest -> (length s <= fuel)%nat ->
     read_value fuel (w ++ s ++ rest) = Some (j, rest)) /\
  (forall l t, spells_list l t -> forall fuel rest, (length t <= fuel)%nat ->
     read_elements fuel (t ++ rest) = Some (l, rest) /\
     exists c r, skip_ws (t ++ rest) = c :: r /\ byte_eqb c "]" = false) /\
  (forall l t, spells_members l t -> forall fuel rest, (length t <= fuel)%nat ->
     read_members fuel (t ++ rest) = Some (l, rest) /\
     exists c r, skip_ws (t ++ rest) = c :: r /\ byte_eqb c "}" = false).
Proof.
  apply spells_all.
  - intros fuel w rest F A L. destruct fuel; [cbn in L; lia|]. cbn [read_value]. rewrite skip_white by assumption. cbn. reflexivity.
  - intros fuel w rest F A L. destruct fuel; [cbn in L; lia|]. cbn [read_value]. rewrite skip_white by assumption. cbn. reflexivity.
  - intros fuel w rest F A L. destruct fuel; [cbn in L; lia|]. cbn [read_value]. rewrite skip_white by assumption. cbn. reflexivity.
  - intros t Nt fuel w rest F A L. destruct (number_first t Nt) as (c & r & E & D).
    destruct fuel; [rewrite E in L; cbn in L; lia|]. cbn [read_value]. rewrite skip_white by assumption.
    pose proof (read_number_text t rest Nt A) as R. rewrite E in R |- *. cbn [app] in R |- *.
    assert (is_json_space c = false /\ byte_eqb c "{" = false /\ byte_eqb c "[" = false /\ byte_eqb c quote_char = false
      /\ byte_eqb c "t" = false /\ byte_eqb c "f" = false /\ byte_eqb c "n" = false) as (N1 & N2 & N3 & N4 & N5 & N6 & N7).
    { destruct D as [D| ->]; [|repeat split; reflexivity]. apply is_digit_spec in D.
      assert (forall x, 57 < bval x \/ bval x < 48 -> byte_eqb c x = false) as X by (intros x Hx; apply byte_eqb_neq; intros ->; lia).
      rewrite !X by (vm_compute; first [left; reflexivity|right; reflexivity]). repeat split. unfold is_json_space.
      repeat (rewrite (proj2 (Z.eqb_neq _ _)) by lia). reflexivity. }
    rewrite skip_none by assumption. rewrite N2, N3, N4, N5, N6, N7, R. reflexivity.
  - intros s t U fuel w rest F A L. destruct (read_quoted s t rest U) as (q & E & R). rewrite E in *.
    destruct fuel; [cbn in L; lia|]. cbn [read_value]. rewrite skip_white by assumption. cbn [app]. rewrite skip_none by reflexivity.
    cbn. rewrite R. reflexivity.
  - intros w' F' fuel w rest F A L. destruct fuel; [cbn in L; lia|]. cbn [read_value]. rewrite skip_white by assumption.
    cbn [app]. rewrite skip_none by reflexivity. change (byte_eqb "[" "{") with false. change (byte_eqb "[" "[") with true. cbv iota.
    rewrite <- app_assoc, skip_white by assumption. reflexivity.
  - intros l t _ IH fuel w rest F A L. destruct fuel as [|fuel]; [cbn in L; lia|]. cbn [read_value]. rewrite skip_white by assumption.
    cbn [app]. rewrite skip_none by reflexivity. change (byte_eqb "[" "{") with false. change (byte_eqb "[" "[") with true. cbv iota.
    destruct (IH fuel rest ltac:(cbn in L; lia)) as (R & c & r & E & N). rewrite E, N, R. reflexivity.
  - intros w' F' fuel w rest F A L. destruct fuel; [cbn in L; lia|]. cbn [read_value]. rewrite skip_white by assumption.
    cbn [app]. rewrite skip_none by reflexivity. change (byte_eqb "{" "{") with true. cbv iota.
    rewrite <- app_assoc, skip_white by assumption. reflexivity.
  - intros l t _ IH fuel w rest F A L. destruct fuel as [|fuel]; [cbn in L; lia|]. cbn [read_value]. rewrite skip_white by assumption.
    cbn [app]. rewrite skip_none by reflexivity. change (byte_eqb "{" "{") with true. cbv iota.
    destruct (IH fuel rest ltac:(cbn in L; lia)) as (R & c & r & E & N). rewrite E, N, R. reflexivity.
  - intros w w' j s F F' Sp IH fuel rest L. destruct (spells_starts j s Sp) as (c & r & Es & N1 & N2 & N3).
    repeat rewrite <- app_assoc. split.
    + destruct fuel as [|fuel]; [len|]. cbn [read_elements].
      rewrite IH; [|assumption|apply white_after_number; [assumption|repeat split; reflexivity]|len].
      rewrite skip_white by assumption. reflexivity.
    + exists c, (r ++ w' ++ ["]"%char] ++ rest). rewrite skip_white by assumption. rewrite Es. cbn [app]. rewrite skip_none by assumption. auto.
  - intros w w' j s l t F F' Sp IH Sl IHl fuel rest L. destruct (spells_starts j s Sp) as (c & r & Es & N1 & N2 & N3).
    repeat rewrite <- app_assoc. split.
    + destruct fuel as [|fuel]; [len|]. cbn [read_elements].
      rewrite IH; [|assumption|apply white_after_number; [assumption|repeat split; reflexivity]|len].
      rewrite skip_white by assumption. cbn [app]. rewrite skip_none by reflexivity.
      change (byte_eqb "," "]") with false. change (byte_eqb "," ",") with true. cbv iota.
      destruct (IHl fuel rest) as [-> _]; [len|]. reflexivity.
    + exists c, (r ++ w' ++ (","%char :: t) ++ rest). rewrite skip_white by assumption. rewrite Es. cbn [app]. rewrite skip_none by assumption. auto.
  - intros w1 w2 w3 w4 k kq j s F1 F2 F3 F4 U Sp IH fuel rest L.
    repeat rewrite <- app_assoc. cbn [app]. repeat rewrite <- app_assoc.
    destruct (read_quoted k kq (w2 ++ ":"%char :: w3 ++ s ++ w4 ++ "}"%char :: rest) U) as (q & E & R). rewrite E in *. cbn [app] in *. split.
    + destruct fuel as [|fuel]; [len|]. cbn [read_members]. rewrite skip_white by assumption.
      rewrite skip_none by reflexivity. change (byte_eqb quote_char quote_char) with true. cbv iota. rewrite R.
      rewrite skip_white by assumption. rewrite skip_none by reflexivity. change (byte_eqb ":" ":") with true. cbv iota.
      rewrite IH; [|assumption|apply white_after_number; [assumption|repeat split; reflexivity]|len].
      rewrite skip_white by assumption. reflexivity.
    + eexists _, _. rewrite skip_white by assumption. rewrite skip_none by reflexivity. split; reflexivity.
  - intros w1 w2 w3 w4 k kq j s l t F1 F2 F3 F4 U Sp IH Sl IHl fuel rest L.
    repeat rewrite <- app_assoc. cbn [app]. repeat rewrite <- app_assoc. cbn [app].
    destruct (read_quoted k kq (w2 ++ ":"%char :: w3 ++ s ++ w4 ++ ","%char :: t ++ rest) U) as (q & E & R). rewrite E in *. cbn [app] in *. split.
    + destruct fuel as [|fuel]; [len|]. cbn [read_members]. rewrite skip_white by assumption.
      rewrite skip_none by reflexivity. change (byte_eqb quote_char quote_char) with true. cbv iota. rewrite R.
      rewrite skip_white by assumption. rewrite skip_none by reflexivity. change (byte_eqb ":" ":") with true. cbv iota.
      rewrite IH; [|assumption|apply white_after_number; [assumption|repeat split; reflexivity]|len].
      rewrite skip_white by assumption. rewrite skip_none by reflexivity.
      change (byte_eqb "," "}") with false. change (byte_eqb "," ",") with true. cbv iota.
      destruct (IHl fuel rest) as [-> _]; [len|]. reflexivity.
    + eexists _, _. rewrite skip_white by assumption. rewrite skip_none by reflexivity. split; reflexivity.
Qed.

Lemma decode_spelled j s w rest : spells j s -> Forall white w -> after_number rest -> decode (w ++ s ++ rest) = Some j.
Proof.
  intros H F A. unfold decode. rewrite (proj1 read_spelled j s H); [reflexivity|assumption|assumption|len].
Qed.

(* ---- an induction principle for JSON values ---- *)

Lemma json_induction (P : json -> Prop) :
  P JNull -> (forall b, P (JBool b)) -> (forall t, P (JNum t)) -> (forall s, P (JStr s)) ->
  (forall l, Forall P l -> P (JArr l)) -> (forall l, Forall (fun m => P (snd m)) l -> P (JObj l)) -> forall j, P j.
Proof.
  intros H1 H2 H3 H4 H5 H6. fix IH 1. intros [|b|t|s|l|l]; [exact H1|apply H2|apply H3|apply H4| |].
  - apply H5. induction l as [|j l IHl]; constructor; [apply IH|exact IHl].
  - apply H6. induction l as [|[k j] l IHl]; constructor; [apply IH|exact IHl].
Qed.

(* ---- both printers spell the value ---- *)

Lemma comma_spells (l : list json) (f : json -> bytes) : l <> [] -> Forall (fun j => spells j (f j)) l ->
  spells_list l (comma (map f l) ++ ["]"%char]).
Proof.
  intros N F. induction F as [|j l H F IH]; [congruence|]. destruct l as [|j' l].
  - cbn [map comma]. apply (SLast [] []); [constructor|constructor|assumption].
  - cbn [map] in *. cbn [comma]. rewrite <- app_assoc. cbn [app]. apply (SNext [] []); [constructor|constructor|assumption|]. apply IH. discriminate.
Qed.

Lemma comma_spells_members (l : list (bytes * json)) (f : json -> bytes) : l <> [] ->
  Forall (fun m => utf8_text (fst m) /\ spells (snd m) (f (snd m))) l ->
  spells_members l (comma (map (fun m => quote (fst m) ++ ":"%char :: f (snd m)) l) ++ ["}"%char]).
Proof.
  intros N F. induction F as [|[k j] l [U H] F IH]; [congruence|]. cbn [fst snd] in *. destruct l as [|m' l].
  - cbn [map comma fst snd]. rewrite <- app_assoc. cbn [app].
    apply (SLastMember [] [] [] []); try constructor; try assumption. now apply quote_text.
  - cbn [map] in *. cbn [comma fst snd] in *. rewrite <- app_assoc. cbn [app]. rewrite <- app_assoc. cbn [app].
    apply (SNextMember [] [] [] []); try assumption; try constructor; [now apply quote_text|]. apply IH. discriminate.
Qed.

Lemma print_spells j : plain_json j -> spells j (print j).
Proof.
  induction j using json_induction; intros H0; cbn [print].
  - constructor.
  - destruct b; constructor.
  - inversion H0; subst. constructor. apply number_itoa.
  - inversion H0; subst. constructor. now apply quote_text.
  - inversion H0 as [| | | |l' F|]; subst. destruct l as [|j l]; [apply (SNone []); constructor|].
    apply SArr. apply comma_spells; [discriminate|].
    rewrite Forall_forall in *. intros x I. apply H; auto.
  - inversion H0 as [| | | | |l' ND F]; subst. destruct l as [|j l]; [apply (SEmpty []); constructor|].
    apply SObj. apply (comma_spells_members (j :: l) print); [discriminate|].
    rewrite Forall_forall in *. intros x I. destruct (F x I). split; [assumption|]. apply H; assumption.
Qed.

Lemma white_lf : white lf_char. Proof. right. right. left. reflexivity. Qed.
Lemma white_indent indent n : Forall white indent -> Forall white (line_indent indent n).
Proof. intros F. induction n as [|n IH]; cbn [line_indent]; [constructor; [apply white_lf|constructor]|]. apply Forall_app. split; assumption. Qed.

Lemma lines_spells nl w (l : list json) (f : json -> bytes) : Forall white nl -> Forall white w -> l <> [] ->
  Forall (fun j => spells j (f j)) l -> spells_list l (comma_line nl (map f l) ++ w ++ ["]"%char]).
Proof.
  intros Fn Fw N F. induction F as [|j l H F IH]; [congruence|]. destruct l as [|j' l].
  - cbn [map comma_line]. rewrite <- app_assoc. apply SLast; assumption.
  - cbn [map] in *. cbn [comma_line]. repeat (rewrite <- app_assoc; cbn [app]). apply (SNext nl []); try assumption; [constructor|]. apply IH. discriminate.
Qed.

Lemma lines_spells_members nl w (l : list (bytes * json)) (f : json -> bytes) : Forall white nl -> Forall white w -> l <> [] ->
  Forall (fun m => utf8_text (fst m) /\ spells (snd m) (f (snd m))) l ->
  spells_members l (comma_line nl (map (fun m => quote (fst m) ++ ":"%char :: " "%char :: f (snd m)) l) ++ w ++ ["}"%char]).
Proof.
  intros Fn Fw N F. assert (Forall white [" "%char]) as Fb by (constructor; [left; reflexivity|constructor]).
  induction F as [|[k j] l [U H] F IH]; [congruence|]. cbn [fst snd] in *. destruct l as [|m' l].
  - cbn [map comma_line fst snd]. repeat (rewrite <- app_assoc; cbn [app]).
    apply (SLastMember nl [] [" "%char] w); try assumption; try constructor. now apply quote_text.
  - specialize (IH ltac:(discriminate)). remember (m' :: l) as ml eqn:Em. cbn [map].
    remember (map (fun m => quote (fst m) ++ ":"%char :: " "%char :: f (snd m)) ml) as M eqn:EM.
    assert (forall x, comma_line nl (x :: M) = nl ++ x ++ ","%char :: comma_line nl M) as -> by (intros x; rewrite EM, Em; reflexivity).
    cbn [fst snd]. repeat (rewrite <- app_assoc; cbn [app]).
    apply (SNextMember nl [] [" "%char] []); try assumption; try constructor. now apply quote_text.
Qed.

Lemma print_indent_spells indent j : Forall white indent -> plain_json j -> forall n, spells j (print_indent indent n j).
Proof.
  intros Fi. induction j using json_induction; intros H0 n; cbn [print_indent].
  - constructor.
  - destruct b; constructor.
  - inversion H0; subst. constructor. apply number_itoa.
  - inversion H0; subst. constructor. now apply quote_text.
  - inversion H0 as [| | | |l' F|]; subst. destruct l as [|j l]; [apply (SNone []); constructor|].
    apply SArr. apply lines_spells; try (apply white_indent; assumption); [discriminate|].
    rewrite Forall_forall in *. intros x I. apply H; auto.
  - inversion H0 as [| | | | |l' ND F]; subst. destruct l as [|j l]; [apply (SEmpty []); constructor|].
    apply SObj. apply (lines_spells_members _ _ (j :: l) (print_indent indent (S n))); try (apply white_indent; assumption); [discriminate|].
    rewrite Forall_forall in *. intros x I. destruct (F x I). split; [assumption|]. apply H; assumption.
Qed.
