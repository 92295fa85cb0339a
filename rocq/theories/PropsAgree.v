(* Exactly what the streaming reader accepts, and when File.Parse agrees with it: C42, C72 *)
From Coq Require Import ZArith NArith Bool Ascii String List Lia.
Import ListNotations.
From Verif Require Import GoBase GoTime Tables Codec Records File Reader
  SpecCodec SpecLayouts SpecRecords SpecFile SpecFiles SpecReader SpecAgree
  AgreeFacts AgreeCases.
Local Open Scope string_scope.
Local Open Scope Z_scope.
Local Open Scope list_scope.
Local Notation length := List.length.

(* C42: the reader answers a file if and only if the text is its records, each as
   long as it says, and something that is ignored *)
Theorem C42_exactly : forall evs s f, patient evs -> (length s < useful evs)%nat -> within_buffer s ->
  (read_from evs s = Some (Ok f) <-> exists h ds t more blocked, streamed s f h ds t more blocked).
Proof. exact reader_exactly. Qed.
Print Assumptions C42_exactly.

Example C42_exactly_case :
  streamed (agree_text " ") agree_file agree_header [agree_first " "; agree_second] agree_trailer [] false
  /\ within_buffer (agree_text " ") /\ length (flBases agree_file) = 2%nat.
Proof. exact (conj (agree_streamed " " (or_intror eq_refl)) (conj agree_within eq_refl)). Qed.

(* C72: nothing follows the trailer, every record is as long as its descriptor words
   say once they are read, and no record's filler looks like a segment together with
   what follows: the reader and File.Parse give the same file *)
Theorem C72_same : forall evs s f h ds t blocked fuel, streamed s f h ds t [] blocked ->
  announces (flHeader f) (Z.of_nat (length h)) ->
  Forall2 (fun d b => announces b (Z.of_nat (length d))) ds (flBases f) ->
  announces (flTrailer f) (Z.of_nat (length t)) ->
  apart (flPacked f) t ds (flBases f) ->
  patient evs -> (length s < useful evs)%nat -> within_buffer s -> (length ds < fuel)%nat ->
  read_from evs s = Some (Ok f) /\ file_parse fuel (new_file_p (flPacked f)) s blocked = Some (f, Ok tt).
Proof. exact readers_agree. Qed.
Print Assumptions C72_same.

Example C72_same_case :
  streamed (agree_text " ") agree_file agree_header [agree_first " "; agree_second] agree_trailer [] false
  /\ (announces (flHeader agree_file) (Z.of_nat (length agree_header))
      /\ Forall2 (fun d b => announces b (Z.of_nat (length d))) [agree_first " "; agree_second] (flBases agree_file)
      /\ announces (flTrailer agree_file) (Z.of_nat (length agree_trailer)))
  /\ apart false agree_trailer [agree_first " "; agree_second] (flBases agree_file)
  /\ within_buffer (agree_text " ").
Proof.
  exact (conj (agree_streamed " " (or_intror eq_refl)) (conj (agree_announced " " (or_intror eq_refl)) (conj agree_apart agree_within))).
Qed.

(* ... the condition on the filler cannot be left out: a J at the end of a record and
   a 1 at the start of the next are a segment to File.Parse only *)
Theorem C72_refuted : exists s f h ds t f' e, streamed s f h ds t [] false
  /\ announces (flHeader f) (Z.of_nat (length h))
  /\ Forall2 (fun d b => announces b (Z.of_nat (length d))) ds (flBases f)
  /\ announces (flTrailer f) (Z.of_nat (length t))
  /\ file_parse 9 (new_file_p false) s false = Some (f', Err e).
Proof. exact disagree_case. Qed.
Print Assumptions C72_refuted.

(* ... conversely a text that File.Parse accepts is cut into records of the announced
   lengths, each of which can be read by itself, so that the reader gives the same file
   if it finds those lengths and the format at the start of the records *)
Theorem C72_back : forall fuel packed s blocked f, file_parse fuel (new_file_p packed) s blocked = Some (f, Ok tt) ->
  (blocked = true -> Forall block_given (flBases f)) ->
  exists h ds t, unbroken s (h ++ List.concat ds ++ t) /\ flPacked f = packed
    /\ announces (flHeader f) (Z.of_nat (length h))
    /\ Forall2 (fun d b => announces b (Z.of_nat (length d))) ds (flBases f)
    /\ announces (flTrailer f) (Z.of_nat (length t))
    /\ (says_header h -> (packed = true <-> says_packed h) -> (blocked = true <-> says_blocked h) ->
        sized_record h -> Forall sized_record ds -> sized_record t ->
        (record_size packed + (if blocked then 4 else 0) <= length h)%nat ->
        forall evs, patient evs -> (length s < useful evs)%nat -> within_buffer s -> read_from evs s = Some (Ok f)).
Proof. exact parsed_read. Qed.
Print Assumptions C72_back.

Example C72_back_case : file_parse 3 (new_file_p false) (agree_text " ") false = Some (agree_file, Ok tt)
  /\ says_header agree_header /\ ~ says_packed agree_header /\ ~ says_blocked agree_header
  /\ sized_record agree_header /\ Forall sized_record [agree_first " "; agree_second] /\ sized_record agree_trailer.
Proof. exact agree_back. Qed.
