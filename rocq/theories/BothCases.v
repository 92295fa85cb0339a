(* Examples for the command line and the web server: C116 *)
From Coq Require Import ZArith NArith Bool Ascii String Lia Permutation List.
Import ListNotations.
From Verif Require Import GoBase GoBaseFacts GoTime Tables Codec Records File Reader Json JsonFile Server SpecJson SpecFile SpecFiles SpecServer
  Samples FileCases ReaderCases JsonCases ServerFacts ServerProps ServerCases SpecBoth BothFacts.
Local Open Scope string_scope.
Local Open Scope list_scope.

(* a file posted as the body, options in the query *)
Definition asked (l : options) : request := body_request "text/plain" l (file_text true fixed_file).
(* the same file named on the command line *)
Definition told (format type : string) (g b : bool) : flags :=
  mkFlags (Some (source_of (file_text true fixed_file))) (lit format) (lit type) g b true.

Lemma asked_input l format type g b : same_input (asked l) (told format type g b).
Proof. exists (source_of (file_text true fixed_file)). split; [apply body_sent; [vm_compute; reflexivity|reflexivity]|reflexivity]. Qed.

Lemma asked_form l format type g b : option_value l "format" = lit format -> same_form (asked l) (told format type g b).
Proof.
  intros E o. split.
  - intros [o' T _|o' _ N]; [discriminate T|]. cbn [asked body_request rqForm] in N. rewrite E in N. exact N.
  - intros N. apply asks_value; [discriminate|]. cbn [asked body_request rqForm]. rewrite E. exact N.
Qed.

Lemma asked_breaks l format type g b : get_is_newline (asked l) = b -> same_breaks (asked l) (told format type g b).
Proof. intros <-. apply breaks_spec. Qed.

Lemma asked_change l format type g b : equal_fold (rqForm (asked l) "generate") (lit "true") = g -> option_value l "type" = lit type ->
  same_change (asked l) (told format type g b).
Proof.
  intros <- E. split; [|exact E]. cbn [told fgGenerate]. symmetry. apply true_spec.
Qed.

Definition differs (d : option done) (rp : option reply) : bool :=
  match d, rp with
  | Some (Wrote t), Some (Reply st _ (BodyText u)) => Z.eqb st 200 && negb (bytes_eqb t u)
  | _, _ => false
  end.
Lemma differs_spec d rp : differs d rp = true -> exists t h u, d = Some (Wrote t) /\ rp = Some (Reply 200 h (BodyText u)) /\ t <> u.
Proof.
  intros H. destruct d as [d|]; [|discriminate H]. destruct d as [ | t | ]; try discriminate H.
  destruct rp as [rp|]; [|discriminate H]. destruct rp as [st h b|]; [|discriminate H]. destruct b as [u| | ]; try discriminate H.
  cbn [differs] in H. apply andb_prop in H as [S H]. apply Z.eqb_eq in S as ->. exists t, h, u.
  split; [reflexivity|]. split; [reflexivity|]. intros ->. rewrite (proj2 (bytes_eqb_eq u u) eq_refl) in H. discriminate H.
Qed.

(* as JSON the same request gives other bytes, printed and converted *)
Lemma json_differs : exists cpus rt rq fg t h u, same_input rq fg /\ same_form rq fg /\ same_breaks rq fg
  /\ cli_print cpus rt fg = Some (Wrote t) /\ serve_print cpus rt rq = Some (Reply 200 h (BodyText u)) /\ t <> u.
Proof.
  exists 8%Z, plain_host, (asked [("format", "json")]), (told "json" "" false true).
  assert (differs (cli_print 8 plain_host (told "json" "" false true)) (serve_print 8 plain_host (asked [("format", "json")])) = true) as D
    by (vm_compute; reflexivity).
  apply differs_spec in D. destruct D as (t & h & u & D). exists t, h, u.
  split; [apply asked_input|]. split; [apply asked_form; reflexivity|]. split; [apply asked_breaks; vm_compute; reflexivity|exact D].
Qed.

Lemma json_converted_differs : exists cpus rt rq fg t h u, same_input rq fg /\ same_form rq fg /\ same_breaks rq fg /\ same_change rq fg
  /\ cli_convert cpus rt fg = Some (Wrote t) /\ serve_convert cpus rt rq = Some (Reply 200 h (BodyText u)) /\ t <> u.
Proof.
  exists 8%Z, plain_host, (asked [("format", "json")]), (told "json" "" false true).
  assert (differs (cli_convert 8 plain_host (told "json" "" false true)) (serve_convert 8 plain_host (asked [("format", "json")])) = true) as D
    by (vm_compute; reflexivity).
  apply differs_spec in D. destruct D as (t & h & u & D). exists t, h, u.
  split; [apply asked_input|]. split; [apply asked_form; reflexivity|]. split; [apply asked_breaks; vm_compute; reflexivity|].
  split; [apply asked_change; reflexivity|exact D].
Qed.

(* and when neither says anything of line breaks (--newline is false by default), the records differ *)
Lemma default_differs : exists cpus rt rq fg t h u, same_input rq fg /\ same_form rq fg /\ names_form (fgFormat fg) MetroOutput
  /\ rqForm rq "newline" = [] /\ fgNewline fg = false
  /\ cli_print cpus rt fg = Some (Wrote t) /\ serve_print cpus rt rq = Some (Reply 200 h (BodyText u)) /\ t <> u.
Proof.
  exists 8%Z, plain_host, (asked [("format", "metro")]), (told "metro" "" false false).
  assert (differs (cli_print 8 plain_host (told "metro" "" false false)) (serve_print 8 plain_host (asked [("format", "metro")])) = true) as D
    by (vm_compute; reflexivity).
  apply differs_spec in D. destruct D as (t & h & u & D). exists t, h, u.
  split; [apply asked_input|]. split; [apply asked_form; reflexivity|]. split; [|split; [reflexivity|split; [reflexivity|exact D]]].
  destruct (names_spec (fgFormat (told "metro" "" false false))) as [[E _]|(o & N & E)]; [vm_compute in E; congruence|].
  destruct o; [vm_compute in E; congruence|exact N].
Qed.

Lemma both_case : same_input (asked [("format", "metro"); ("generate", "TRUE"); ("type", "packed")]) (told "metro" "packed" true true)
  /\ same_form (asked [("format", "metro"); ("generate", "TRUE"); ("type", "packed")]) (told "metro" "packed" true true)
  /\ same_breaks (asked [("format", "metro"); ("generate", "TRUE"); ("type", "packed")]) (told "metro" "packed" true true)
  /\ same_change (asked [("format", "metro"); ("generate", "TRUE"); ("type", "packed")]) (told "metro" "packed" true true)
  /\ fgCreates (told "metro" "packed" true true) = true
  /\ (exists t, t <> [] /\ cli_convert 8 plain_host (told "metro" "packed" true true) = Some (Wrote t)
        /\ serve_convert 4 plain_host (asked [("format", "metro"); ("generate", "TRUE"); ("type", "packed")]) = Some (Reply 200 attachment (BodyText t))).
Proof.
  split; [apply asked_input|]. split; [apply asked_form; reflexivity|]. split; [apply asked_breaks; vm_compute; reflexivity|].
  split; [apply asked_change; vm_compute; reflexivity|]. split; [reflexivity|].
  eexists. split; [|split; vm_compute; reflexivity]. discriminate.
Qed.

Lemma both_validate_case : cli_validate plain_host (told "json" "" false false) <> None /\ serve_validator plain_host (asked []) <> None.
Proof. split; vm_compute; discriminate. Qed.

Lemma reread_case : orders plain_host /\ comes_back MetroOutput fixed_file true /\ comes_back MetroOutput fixed_file false
  /\ comes_back JsonOutput fixed_file true /\ comes_back JsonOutput fixed_file false
  /\ (forall t, delivers (source_of t) t)
  /\ exists t h u, cli_print 8 plain_host (told "metro" "" false false) = Some (Wrote t)
       /\ serve_print 8 plain_host (asked [("format", "metro")]) = Some (Reply 200 h (BodyText u)).
Proof.
  destruct comes_back_case as (M & J & _). split; [intros n l; apply Permutation_refl|]. split; [exact M|].
  split; [exists FixedFile; split; [apply fixed_file_streams|apply no_braceb; vm_compute; reflexivity]|].
  split; [exact J|]. split; [exact J|].
  split; [intros t; split; [reflexivity|]; split; [apply byte_reads_patient|cbn [source_of srReads]; rewrite byte_reads_useful; apply Nat.lt_succ_diag_r]|].
  destruct commands_case as (E & _). exists (file_text false fixed_file). do 2 eexists. split; [exact E|].
  apply (print_delivers 8 plain_host _ fixed_file MetroOutput true false);
    [apply text_reads; [vm_compute; reflexivity|apply fixed_text_read]| |apply breaks_spec|].
  - apply asks_value; [discriminate|]. apply (names_word MetroOutput).
  - exists (source_of (file_text true fixed_file)). split; [apply body_sent; [vm_compute; reflexivity|reflexivity]|].
    pose proof (nil_null (file_text true fixed_file) fixed_file fixed_file) as X.
    assert (read_nil (file_text true fixed_file) fixed_file || negb (Bool.eqb (flPacked fixed_file) (flPacked fixed_file)) = false) as E' by (vm_compute; reflexivity).
    rewrite E' in X. exact X.
Qed.
