(* Examples for the client *)
From Coq Require Import ZArith NArith Bool Ascii String List Lia.
Import ListNotations.
From Verif Require Import GoBase GoTime Tables Codec Records File Reader Json JsonFile Server Client
  SpecCodec SpecLayouts SpecRecords SpecFile SpecFiles SpecReader SpecApi SpecJson SpecServer SpecClient
  Check Samples ApiCase FileCases ReaderCases JsonReader JsonCases ServerFacts ServerProps ServerCases ClientFacts.
Local Open Scope string_scope.
Local Open Scope Z_scope.
Local Open Scope list_scope.
Local Notation length := List.length.

Definition upload_of (f : file) : upload := mkUpload (lit "sample.dat") (file_text true f).
Definition upload_reads (f : file) : list read_event := byte_reads (S (length (file_text true f))).

Lemma fixed_uploaded rt : uploaded rt (upload_reads fixed_file) (Some (upload_of fixed_file)) fixed_file.
Proof.
  exists (file_text true fixed_file). split; [|apply fixed_text_read].
  exists (lit "sample.dat"). split; [reflexivity|]. split; [discriminate|].
  apply text_nonempty. apply file_okb_ok. vm_compute. reflexivity.
Qed.

(* metro in the query wins over json in the form *)
Definition print_both : print_call := mkPrintCall (Some (lit "metro")) (Some (lit "json")) (Some (upload_of fixed_file)).
Lemma print_both_asks : asks (pcFormat print_both) (pcFormat2 print_both) MetroOutput.
Proof. apply asks_names. apply (names_word MetroOutput). Qed.

Definition convert_both : convert_call :=
  mkConvertCall None (Some (lit "metro")) (Some (lit "character")) (Some true) None (Some (upload_of fixed_file)).
Lemma convert_both_asks : asks (ccFormat convert_both) (ccFormat2 convert_both) MetroOutput
  /\ breaks_asked (ccNewline convert_both) true /\ ccGenerate convert_both = Some true /\ flBases fixed_file <> [].
Proof.
  split; [apply asks_names; apply (names_word MetroOutput)|]. split; [split; discriminate|]. split; [reflexivity|discriminate].
Qed.

Lemma fresh_converted : converted (ccGenerate convert_both = Some true) (given (ccType convert_both)) fixed_file fresh_file.
Proof.
  exists fresh_file. split; [|split].
  - intros _. exists (RTrailer false fresh_fields). split; [vm_compute; reflexivity|]. split; [vm_compute; reflexivity|reflexivity].
  - intros N. destruct N. reflexivity.
  - apply (retyped_to false fresh_file fresh_file); [|reflexivity|apply file_okb_ok; vm_compute; reflexivity].
    split; [reflexivity|]. split; [|reflexivity]. generalize (flBases fresh_file). intros l.
    induction l as [|[] l IH]; constructor; try exact IH; cbn; try split; reflexivity.
Qed.
Lemma fresh_back : comes_back MetroOutput fresh_file true.
Proof.
  exists FixedFile. split; [apply file_in_streams; [apply fresh_file_in|mark]|apply no_braceb; vm_compute; reflexivity].
Qed.

(* calls that are refused *)
Definition status_or (r : option outcome) : option Z := match r with Some (ApiError s _ _) => Some s | _ => None end.
Lemma refused_calls :
  let go c := status_or (client_convert 8 plain_host (upload_reads fixed_file) (fun _ => []) (lit "x") c) in
  go (mkConvertCall (Some (lit "metro")) None None None None None) = Some 400
  /\ go (mkConvertCall None None None None None (Some (mkUpload (lit "a") []))) = Some 400
  /\ go (mkConvertCall None None None None None (Some (mkUpload [] (file_text true fixed_file)))) = Some 400
  /\ go (mkConvertCall (Some (lit "xml")) (Some (lit "json")) None None None (Some (upload_of fixed_file))) = Some 501
  /\ status_or (client_validator 8 plain_host [] (fun _ => []) (lit "x") (mkValidatorCall None)) = Some 400
  /\ status_or (client_validator 8 plain_host (upload_reads fixed_file) (fun _ => []) (lit "x") (mkValidatorCall (Some (upload_of fixed_file)))) = Some 501.
Proof. vm_compute. repeat split. Qed.

(* a text with every kind of character in a query *)
Definition odd_values : values := [("a[b]", lit "x&y=z;%41+ ~[" ++ [ascii_of_nat 0; ascii_of_nat 255]); ("", [])].
Lemma odd_query : encode_query odd_values = lit "a[b]=x%26y%3Dz%3B%2541%2B+~%5B%00%FF&=".
Proof. vm_compute. reflexivity. Qed.
