(* Concrete cases of agreement and disagreement between the streaming reader and File.Parse *)
From Coq Require Import ZArith NArith Bool Ascii String List Lia.
Import ListNotations.
From Verif Require Import GoBase GoBaseFacts GoTime Tables Codec Records File Reader
  SpecCodec SpecLayouts SpecRecords SpecFile SpecFiles SpecReader SpecAgree Samples
  BreakFacts FieldFacts RecordFacts RoundTrip FileCases ReaderFacts ReaderProps ReaderCases AgreeFacts.
Local Open Scope string_scope.
Local Open Scope Z_scope.
Local Open Scope list_scope.
Local Notation length := List.length.
Local Opaque window.

Definition agree_header : bytes := header_string false (sample_header 0 426).
Definition agree_trailer : bytes := trailer_string false (sample_trailer 426).
(* 427 bytes, the last of them given *)
Definition agree_first (c : string) : bytes := firstn 426 (base_string_char (sample_plain 0 427)) ++ lit c.
(* 1426 bytes, the last thousand blank *)
Definition agree_second : bytes := base_string_char (sample_plain 0 1426).
Definition agree_text (c : string) : bytes := agree_header ++ List.concat [agree_first c; agree_second] ++ agree_trailer.
Definition agree_bases : list base := [sample_plain 0 427; sample_plain 0 1426].
Definition agree_file : file := mkFile false (RHeader false (sample_header 0 426)) (map (RBase false) agree_bases)
  (RTrailer false (sample_trailer 426)).

Definition sized_recordb (r : bytes) : bool :=
  Nat.leb 4 (length r) && match announced_size (firstn 4 r) with Some n => n =? Z.of_nat (length r) | None => false end.

Lemma sized_recordb_ok r : sized_recordb r = true -> sized_record r.
Proof.
  unfold sized_recordb. intros H. apply andb_prop in H as [L A]. apply Nat.leb_le in L. apply good_sized. split; [exact L|].
  destruct (announced_size (firstn 4 r)) as [n|]; [|discriminate]. apply Z.eqb_eq in A. subst. reflexivity.
Qed.

Lemma agree_streamed c : c = "J" \/ c = " " ->
  streamed (agree_text c) agree_file agree_header [agree_first c; agree_second] agree_trailer [] false.
Proof.
  intros C. unfold streamed. rewrite app_nil_r.
  split. { apply strip_unbroken. symmetry. apply strip_plain. apply no_breaksb_ok. destruct C as [-> | ->]; vm_compute; reflexivity. }
  split; [apply sized_recordb_ok; vm_compute; reflexivity|].
  split. { constructor; [|constructor; [|constructor]]; apply sized_recordb_ok; destruct C as [-> | ->]; vm_compute; reflexivity. }
  split; [apply sized_recordb_ok; vm_compute; reflexivity|].
  split. { apply metro_file_spec; [apply sized_recordb_ok|]; vm_compute; reflexivity. }
  split. { rewrite <- is_packed_spec. vm_compute. split; discriminate. }
  split. { rewrite <- blocked_spec. vm_compute. split; discriminate. }
  split; [eexists; vm_compute; reflexivity|].
  split. { constructor; [|constructor; [|constructor]]; eexists; destruct C as [-> | ->]; vm_compute; reflexivity. }
  split; [eexists; eexists; vm_compute; reflexivity|].
  eexists; vm_compute; reflexivity.
Qed.

Lemma agree_announced c : c = "J" \/ c = " " ->
  announces (flHeader agree_file) (Z.of_nat (length agree_header))
  /\ Forall2 (fun d b => announces b (Z.of_nat (length d))) [agree_first c; agree_second] (flBases agree_file)
  /\ announces (flTrailer agree_file) (Z.of_nat (length agree_trailer)).
Proof.
  intros C. destruct (agree_streamed c C) as (_ & _ & _ & _ & _ & _ & _ & _ & F2 & _).
  assert (length agree_header = 426%nat) as -> by (vm_compute; reflexivity).
  assert (length agree_trailer = 426%nat) as -> by (vm_compute; reflexivity).
  split. { exists 0, 426. split; [apply lookup_In; vm_compute; reflexivity|]. split; [apply lookup_In; vm_compute; reflexivity|]. split; intros; [lia|reflexivity]. }
  split; [|apply lookup_In; vm_compute; reflexivity].
  constructor; [|constructor; [|constructor]].
  - replace (Z.of_nat (length (agree_first c))) with 427 by (destruct C as [-> | ->]; vm_compute; reflexivity).
    exists 0, 427. split; [apply lookup_In; vm_compute; reflexivity|]. split; [apply lookup_In; vm_compute; reflexivity|]. split; intros; [lia|reflexivity].
  - replace (Z.of_nat (length agree_second)) with 1426 by (vm_compute; reflexivity).
    exists 0, 1426. split; [apply lookup_In; vm_compute; reflexivity|]. split; [apply lookup_In; vm_compute; reflexivity|]. split; intros; [lia|reflexivity].
Qed.

(* the records are apart when the filler is blank ... *)
Lemma agree_apart : apart false agree_trailer [agree_first " "; agree_second] (flBases agree_file).
Proof.
  constructor; [|constructor; [|constructor]].
  - exists 0, (firstn 426 (agree_first " ")), [], [], (skipn 426 (agree_first " ")).
    split; [apply lookup_In; vm_compute; reflexivity|]. split; [vm_compute; reflexivity|]. split; [vm_compute; reflexivity|].
    split; [constructor|]. right. intros k. destruct k; vm_compute; discriminate.
  - exists 0, (firstn 426 agree_second), [], [], (skipn 426 agree_second).
    split; [apply lookup_In; vm_compute; reflexivity|]. split; [vm_compute; reflexivity|]. split; [vm_compute; reflexivity|].
    split; [constructor|]. right. intros k. destruct k; vm_compute; discriminate.
Qed.

(* ... but not when it is a J and the next record's length starts with a 1 *)
Lemma disagree_case : exists s f h ds t f' e, streamed s f h ds t [] false
  /\ announces (flHeader f) (Z.of_nat (length h))
  /\ Forall2 (fun d b => announces b (Z.of_nat (length d))) ds (flBases f)
  /\ announces (flTrailer f) (Z.of_nat (length t))
  /\ file_parse 9 (new_file_p false) s false = Some (f', Err e).
Proof.
  exists (agree_text "J"), agree_file, agree_header, [agree_first "J"; agree_second], agree_trailer.
  destruct (file_parse 9 (new_file_p false) (agree_text "J") false) as [[f' [u|e|]]|] eqn:E; [vm_compute in E; discriminate E| |vm_compute in E; discriminate E..].
  exists f', e. split; [apply agree_streamed; auto|]. destruct (agree_announced "J") as (A & B & C); auto.
Qed.

Lemma agree_within : within_buffer (agree_text " ").
Proof. apply within_end. vm_compute. discriminate. Qed.

Lemma agree_back : file_parse 3 (new_file_p false) (agree_text " ") false = Some (agree_file, Ok tt)
  /\ says_header agree_header /\ ~ says_packed agree_header /\ ~ says_blocked agree_header
  /\ sized_record agree_header /\ Forall sized_record [agree_first " "; agree_second] /\ sized_record agree_trailer.
Proof.
  destruct (agree_streamed " ") as (_ & Gh & Gd & Gt & Mh & Pk & Bl & _); [auto|].
  split. { destruct (agree_announced " ") as (A & B & C); [auto|].
    apply (streamed_parsed _ _ _ _ _ _ (agree_streamed " " (or_intror eq_refl)) A B C agree_apart). vm_compute. lia. }
  split; [exact Mh|]. split; [intros X; apply Pk in X; discriminate X|]. split; [intros X; apply Bl in X; discriminate X|].
  split; [exact Gh|]. split; [exact Gd|exact Gt].
Qed.
