(* Properties of the forms the client sends: C100 *)
From Coq Require Import ZArith NArith Bool Ascii String List Lia.
Import ListNotations.
From Verif Require Import GoBase GoTime Tables Codec Records File Reader Json JsonFile Server Client ClientHeaders
  SpecForm FormFacts.
Local Open Scope string_scope.
Local Open Scope list_scope.
Local Notation length := List.length.

(* C100: the body has a part for each field and each file, in their order, with the
   value as it is; this needs that no value contains the boundary in a line of its
   own, which the client leaves to chance *)
Theorem C100_says_partial : forall esc boundary w form files, wrForm w = Some (form, files) ->
  (forall s, one_line (esc s)) ->
  Forall (fun p => ~ occurs (delimiter boundary) (snd p)) form ->
  Forall (fun p => ~ occurs (delimiter boundary) (upBytes (snd p))) files ->
  exists ps qs, form_says boundary (body_text esc boundary w) (ps ++ qs)
    /\ Forall2 (fun p => field_says (esc (list_ascii_of_string (fst p))) (snd p)) form ps
    /\ Forall2 (fun p => file_says (esc (list_ascii_of_string (fst p))) (esc (base_name (upName (snd p)))) (upBytes (snd p))) files qs.
Proof. exact body_says. Qed.
Print Assumptions C100_says_partial.

(* without this the same body stands for different forms *)
Theorem C100_says_refuted : exists boundary form1 form2, form1 <> form2
  /\ form_text (fun s => s) boundary form1 [] = form_text (fun s => s) boundary form2 [].
Proof. exact ambiguous. Qed.
Print Assumptions C100_says_refuted.

(* a body can be read in one way only *)
Theorem C100_unique : forall boundary body ps qs, one_line boundary ->
  form_says boundary body ps -> form_says boundary body qs -> ps = qs.
Proof. exact says_unique. Qed.
Print Assumptions C100_unique.

(* the name sent with a file is the last element of its path *)
Theorem C100_name : forall path, last_of path (base_name path).
Proof. exact base_last. Qed.
Print Assumptions C100_name.

(* a call to convert, with a file *)
Example C100_case : forall n, let c := mkConvertCall None (Some (lit "json")) None None None (Some (mkUpload (lit "/tmp/a.dat") (lit "x"))) in
  let b := lit "8f2" ++ repeat "0"%char n in
  wrForm (convert_request b c) = Some ([("format"%string, lit "json")], [("file"%string, mkUpload (lit "/tmp/a.dat") (lit "x"))])
  /\ ~ occurs (delimiter b) (lit "json") /\ ~ occurs (delimiter b) (lit "x") /\ one_line b.
Proof.
  intros n c b. assert (H : forall s, forallb (fun a => negb (Ascii.eqb a "013")) s = true -> ~ occurs (delimiter b) s).
  { intros s H [x [y E]]. rewrite forallb_forall in H.
    assert (I : In "013"%char s) by (rewrite E; apply in_or_app; right; left; reflexivity).
    apply H in I. discriminate I. }
  split; [reflexivity|]. split; [apply H; reflexivity|]. split; [apply H; reflexivity|].
  intros I. apply in_app_or in I as [I|I]; [cbn in I; destruct I as [I|[I|[I|[]]]]; discriminate I|].
  apply repeat_spec in I. discriminate I.
Qed.
Example C100_body : body_text (fun s => s) (lit "b") (convert_request (lit "b") (mkConvertCall None (Some (lit "json")) None None None
      (Some (mkUpload (lit "/tmp/a.dat") (lit "x")))))
  = lit "--b" ++ crlf ++ lit "Content-Disposition: form-data; name=""format""" ++ crlf ++ crlf ++ lit "json" ++ crlf
    ++ lit "--b" ++ crlf ++ lit "Content-Disposition: form-data; name=""file""; filename=""a.dat""" ++ crlf
    ++ lit "Content-Type: application/octet-stream" ++ crlf ++ crlf ++ lit "x" ++ crlf ++ lit "--b--" ++ crlf.
Proof. reflexivity. Qed.
