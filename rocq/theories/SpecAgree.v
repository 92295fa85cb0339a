(* Specification: what the streaming reader accepts, and the texts on which it and
   File.Parse agree *)
From Coq Require Import ZArith NArith Bool Ascii String List.
Import ListNotations.
From Verif Require Import GoBase GoTime Tables Codec Records File SpecCodec SpecLayouts SpecRecords SpecFiles SpecReader.
Local Open Scope string_scope.
Local Open Scope Z_scope.
Local Open Scope list_scope.
Local Notation length := List.length.

(* ---- what the first record says about the file ---- *)

Definition nul_at (h : bytes) (i : nat) : Prop := nth_error h i = Some "000"%char.

(* a descriptor word whose lower half is zero *)
Definition says_packed (h : bytes) : Prop := (nul_at h 2 /\ nul_at h 3) \/ (nul_at h 6 /\ nul_at h 7).

(* the identifier comes after two descriptor words; upper or lower case *)
Definition says_blocked (h : bytes) : Prop :=
  (15 < length h)%nat /\ exists a id b, h = a ++ id ++ b /\ length a = 8%nat /\ length id = 6%nat
    /\ to_upper id = lit "HEADER".

Definition says_header (h : bytes) : Prop :=
  exists a b, h = a ++ lit "HEADER" ++ b /\ (length a = 4%nat \/ length a = 8%nat).

(* ---- the records of a stream ---- *)

(* A header, data records and a trailer, each as long as it says and accepted by the
   Parse method of its type; the trailer is the first that is not a data record.
   Nothing is asked of what follows. *)
Definition streamed (s : bytes) (f : file) (h : bytes) (ds : list bytes) (t more : bytes) (blocked : bool) : Prop :=
  unbroken s (h ++ List.concat ds ++ t ++ more)
  /\ sized_record h /\ Forall sized_record ds /\ sized_record t
  /\ says_header h /\ (flPacked f = true <-> says_packed h) /\ (blocked = true <-> says_blocked h)
  /\ (exists n, record_parse (RHeader (flPacked f) new_header) h blocked = (flHeader f, Ok n))
  /\ Forall2 (fun d b => exists n, record_parse (RBase (flPacked f) new_base) d blocked = (b, Ok n)) ds (flBases f)
  /\ (exists b e, record_parse (RBase (flPacked f) new_base) t blocked = (b, Err e))
  /\ (exists n, record_parse (RTrailer (flPacked f) new_trailer) t blocked = (flTrailer f, Ok n)).

(* ---- data records that end where their segments do, or in something else ---- *)

(* [d] is a body, segments and a tail; the tail together with what follows the
   record does not look like a further segment *)
Definition ends_before (packed : bool) (b : base) (d rest : bytes) : Prop :=
  exists bdw body ks parts tail, base_bdw_is b bdw /\ d = body ++ List.concat parts ++ tail
    /\ length body = (record_size packed + if packed then 4 else if (0 <? bdw)%Z then 4 else 0)%nat
    /\ Forall2 (fun k p => length p = seg_size k /\ firstn 2 p = seg_mark k) ks parts
    /\ no_segment (tail ++ rest).

(* ... for all data records of a file that ends with the text [t] *)
Inductive apart (packed : bool) (t : bytes) : list bytes -> list record -> Prop :=
| apart_nil : apart packed t [] []
| apart_cons d ds b bs : ends_before packed b d (List.concat ds ++ t) -> apart packed t ds bs ->
    apart packed t (d :: ds) (RBase packed b :: bs).

(* a data record whose block descriptor word says something *)
Definition block_given (r : record) : Prop := exists p b z, r = RBase p b /\ base_bdw_is b z /\ 0 < z.
