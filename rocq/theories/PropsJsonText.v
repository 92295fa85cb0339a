(* C94: the JSON texts a file is read from *)
From Coq Require Import ZArith NArith Bool Ascii String List.
Import ListNotations.
From Verif Require Import GoBase GoTime Json Tables Codec Records File JsonFile SpecCodec SpecJson JsonGrammarFacts.
Local Open Scope string_scope.
Local Open Scope Z_scope.
Local Open Scope list_scope.
Local Notation length := List.length.

(* However a value is written - with escapes, in numbers of any form, with white
   space between the tokens - it is read as that value.  The text after it may
   not continue a number. *)
Theorem C94_value j s w rest :
  spells j s -> Forall white w ->
  (forall c r, rest = c :: r -> ~ (48 <= code c <= 57) /\ c <> "."%char /\ c <> "e"%char /\ c <> "E"%char) ->
  decode (w ++ s ++ rest) = Some j.
Proof. exact (decode_spelling j s w rest). Qed.
Print Assumptions C94_value.
(* U+1F600 as a surrogate pair, a letter by its number, a line feed by its letter *)
Example C94_value_case : string_text (map chr [240; 159; 152; 128; 74; 10])
  (chr 34 :: lit "\uD83D\uDE00\u004a\n" ++ [chr 34]).
Proof.
  exists (lit "\uD83D\uDE00\u004a\n"). split; [|reflexivity].
  refine (TextChar 128512 (map chr [240; 159; 152; 128]) (lit "\uD83D\uDE00") _ (lit "\u004a\n") (Utf4 128512 _) (Surrogates 55357 56832 (lit "D83D") (lit "DE00") _ _ _ _) _);
    [split; [discriminate|reflexivity] | | |split; [discriminate|reflexivity]|split; [discriminate|reflexivity]|].
  - exists 13, 8, 3, 13, "D"%char, "8"%char, "3"%char, "D"%char. repeat split; try reflexivity; unfold hex_digit; cbn; intuition discriminate.
  - exists 13, 14, 0, 0, "D"%char, "E"%char, "0"%char, "0"%char. repeat split; try reflexivity; unfold hex_digit; cbn; intuition discriminate.
  - refine (TextChar 74 (map chr [74]) (lit "\u004a") _ (lit "\n") (Utf1 74 _) (Unicode 74 (lit "004a") _ _) _);
      [split; [discriminate|reflexivity]| |intros [X _]; apply X; reflexivity|].
    + exists 0, 0, 4, 10, "0"%char, "0"%char, "4"%char, "a"%char. repeat split; try reflexivity; unfold hex_digit; cbn; intuition discriminate.
    + refine (TextChar 10 (map chr [10]) (lit "\n") [] [] (Utf1 10 _) (Short 10 "n"%char _) TextEnd);
        [split; [discriminate|reflexivity]|cbn; auto 10].
Qed.
Example C94_value_run : decode (chr 34 :: lit "\uD83D\uDE00\u004a\n" ++ [chr 34]) = Some (JStr (map chr [240; 159; 152; 128; 74; 10])).
Proof. vm_compute. reflexivity. Qed.

(* Whatever is read begins with a text of the JSON grammar, after white space. *)
Theorem C94_only s j :
  decode s = Some j -> exists w t rest, s = w ++ t ++ rest /\ Forall white w /\ json_text t.
Proof. exact (decode_grammar s j). Qed.
Print Assumptions C94_only.
Example C94_only_case : decode (lit " [1, -0.5e+10] {") = Some (JArr [JNum (lit "1"); JNum (lit "-0.5e+10")])
  /\ map decode [lit "[1,]"; lit "{""a"":1,}"; lit "{a:1}"; lit "01x"; lit "+1"; lit ".5"; lit "'a'"; lit "[01]"; lit "nul"; lit """\x41"""; lit """\u12g4""";
       chr 34 :: chr 9 :: [chr 34]; lit "{""a"" 1}"; lit "[1 2]"]
     = [None; None; None; Some (JNum (lit "0")); None; None; None; None; None; None; None; None; None; None].
Proof. vm_compute. split; reflexivity. Qed.

(* An object is read from exactly the texts that begin with the text of an
   object.  What follows is not looked at. *)
Theorem C94_object s :
  (exists l, decode s = Some (JObj l)) <->
  exists w t rest, s = w ++ ("{"%char :: t) ++ rest /\ Forall white w /\ json_text ("{"%char :: t).
Proof. exact (decode_object s). Qed.
Print Assumptions C94_object.
(* half a surrogate pair and a stray byte are replaced, not refused *)
Example C94_object_case : decode (lit " {""a"":""\uD83D" ++ [chr 255; chr 34] ++ lit "}x")
  = Some (JObj [(lit "a", JStr (map chr [239; 191; 189; 239; 191; 189]))]).
Proof. vm_compute. reflexivity. Qed.

(* Every text of the grammar, white space around it, is read as some value. *)
Theorem C94_accepted s :
  (exists w t w', s = w ++ t ++ w' /\ Forall white w /\ json_text t /\ Forall white w') ->
  exists j, decode s = Some j.
Proof. exact (decode_accepts s). Qed.
Print Assumptions C94_accepted.
Example C94_accepted_case : json_text (lit "-0").
Proof.
  apply AnyNumber. exists (lit "-"), (lit "0"), [], []. repeat split; auto.
Qed.

(* The ways to write a value are texts of the grammar. *)
Theorem C94_spellings j s : spells j s -> json_text s.
Proof. exact (proj1 spells_json_text j s). Qed.
Print Assumptions C94_spellings.
Example C94_spellings_case : spells (JArr [JNull; JBool true]) (lit "[ null, true]").
Proof.
  apply (SArr _ (lit " null, true]")).
  refine (SNext [" "%char] [] JNull (lit "null") [JBool true] (lit " true]") _ _ SNull _); [repeat constructor|constructor|].
  refine (SLast [" "%char] [] (JBool true) (lit "true") _ _ STrue); repeat constructor.
Qed.

(* A file read from JSON comes from a text of the grammar at the head of the
   input: an object, or null. *)
Theorem C94_file rt s f :
  file_from_json rt s = Ok f ->
  exists w t rest, s = w ++ t ++ rest /\ Forall white w /\ json_text t
    /\ (t = lit "null" \/ exists r, t = "{"%char :: r).
Proof. exact (file_text rt s f). Qed.
Print Assumptions C94_file.
(* null before any brace is read as a file with nothing in it *)
Example C94_file_case rt evs : rtOrder rt 0 [] = [] ->
  new_file_from_reader rt evs (lit "null {") = Some (Ok (new_file_p false)).
Proof.
  intros H. change (new_file_from_reader rt evs (lit "null {")) with
    (if looks_like_json (lit "null {") then Some (file_from_json rt (lit "null {")) else Reader.read_from evs (lit "null {")).
  assert (looks_like_json (lit "null {") = true) as -> by (vm_compute; reflexivity). unfold file_from_json.
  assert (decode (lit "null {") = Some JNull) as -> by (vm_compute; reflexivity).
  cbn [decode_dummy dummy_packed]. unfold unmarshal_file. change (json_map rt JNull) with (Some (@nil (bytes * json))). cbv iota. rewrite H. reflexivity.
Qed.
