(* C112: pointers, copies and maps of objects of the client *)
From Coq Require Import ZArith NArith Bool Ascii String List.
Import ListNotations.
From Verif Require Import GoBase GoTime Tables JsonTables Codec Records Json JsonFile ClientTypes ClientAccess ClientMemory
  SpecCodec SpecJson SpecSchema SpecClientTypes SpecAccess SpecMemory MemoryMain.
Local Open Scope string_scope.
Local Open Scope list_scope.
Local Notation length := List.length.

(* a program for the examples: a K3 segment with an account number *)
Definition k3_property (n : nat) : property := nth n (obj_schema (OSegment K3)) (mkProperty "" TText false).
Definition k3_program : list mcall :=
  [PNew (client_table (OSegment K3)) (params_of (OSegment K3)) [VStr (lit "K3")]; PSet 0 "accountNumber" (VStr (lit "1"))].
Lemma k3_typed l : typed (k3_program ++ l) 0 (OSegment K3).
Proof. exact (TypedNew [] (OSegment K3) (params_of (OSegment K3)) [VStr (lit "K3")] (PSet 0 "accountNumber" (VStr (lit "1")) :: l)). Qed.

(* the literal claim: a pointer stands for its property whatever is called, and writing
   through it changes this property alone *)
Definition C112_view_claim : Prop :=
  forall before i o q after, typed before i o -> In q (obj_schema o) -> m_answer before (PGetOk i (pKey q)) = SBool true ->
  let L := before ++ PGetOk i (pKey q) :: after in
  m_answer L (PRead (made_by makes_pointer before)) = m_answer L (PGet i (pKey q)).
Definition C112_copies_claim : Prop :=
  forall before i o q after w, typed before i o -> In q (obj_schema o) ->
  let L := before ++ PGetOk i (pKey q) :: after in
  forall j r, (j, r) <> (i, pKey q) ->
  m_answer (L ++ [PWrite (made_by makes_pointer before) w]) (PGet j r) = m_answer L (PGet j r).
Definition C112_maps_claim : Prop :=
  forall before i o q after w, typed before i o -> In q (obj_schema o) ->
  let L := before ++ PGetOk i (pKey q) :: after in
  forall n r, m_answer (L ++ [PWrite (made_by makes_pointer before) w]) (PEntry n r) = m_answer L (PEntry n r).

(* it holds for required properties, and for the others as long as their setter is not called *)
Theorem C112_partial before i o q after : typed before i o -> In q (obj_schema o) ->
  pRequired q = true \/ Forall (fun c => ~ sets i (pKey q) c) after ->
  m_answer before (PGetOk i (pKey q)) = SBool true ->
  let L := before ++ PGetOk i (pKey q) :: after in let p := made_by makes_pointer before in
  (exists v, m_answer L (PRead p) = SValue v /\ m_answer L (PGet i (pKey q)) = SValue v)
  /\ forall w, m_answer (L ++ [PWrite p w]) (PGet i (pKey q)) = SValue w /\ m_answer (L ++ [PWrite p w]) (PRead p) = SValue w.
Proof. exact (memory_view before i o q after). Qed.
Print Assumptions C112_partial.
Example C112_partial_example :
  let q := k3_property 0 in let L := k3_program ++ PGetOk 0 (pKey q) :: [PSet 0 (pKey q) (VStr (lit "K4"))] in
  typed k3_program 0 (OSegment K3) /\ In q (obj_schema (OSegment K3)) /\ pRequired q = true
  /\ m_answer k3_program (PGetOk 0 (pKey q)) = SBool true
  /\ m_answer L (PRead 0) = SValue (VStr (lit "K4")) /\ m_answer (L ++ [PWrite 0 (VStr (lit "K5"))]) (PGet 0 (pKey q)) = SValue (VStr (lit "K5")).
Proof.
  cbn zeta. split; [exact (k3_typed [])|]. split; [now left|]. repeat split.
Qed.

(* the setter of an optional property takes the property away from its pointers *)
Theorem C112_refuted : exists before i o q after, typed before i o /\ In q (obj_schema o)
  /\ m_answer before (PGetOk i (pKey q)) = SBool true
  /\ let L := before ++ PGetOk i (pKey q) :: after in
     m_answer L (PRead (made_by makes_pointer before)) = SValue (VStr (lit "1")) /\ m_answer L (PGet i (pKey q)) = SValue (VStr (lit "2")).
Proof.
  exists k3_program, 0%nat, (OSegment K3), (k3_property 2), [PSet 0 "accountNumber" (VStr (lit "2"))].
  split; [exact (k3_typed [])|]. split; [do 2 right; now left|]. repeat split.
Qed.
Print Assumptions C112_refuted.
Theorem C112_view_refuted : ~ C112_view_claim.
Proof.
  intros H. specialize (H k3_program 0%nat (OSegment K3) (k3_property 2) [PSet 0 "accountNumber" (VStr (lit "2"))] (k3_typed []) (or_intror (or_intror (or_introl eq_refl))) eq_refl).
  vm_compute in H. discriminate.
Qed.
Print Assumptions C112_view_refuted.

(* writing through the pointer of a copy changes the object it is a copy of *)
Theorem C112_copy_refuted : ~ C112_copies_claim.
Proof.
  intros H. specialize (H (k3_program ++ [PCopy 0]) 1%nat (OSegment K3) (k3_property 2) [] (VStr (lit "2"))).
  specialize (H (TypedCopy k3_program 0 (OSegment K3) [] (k3_typed []))). specialize (H (or_intror (or_intror (or_introl eq_refl)))).
  specialize (H 0%nat "accountNumber"). cbv zeta in H. assert (N : (0%nat, "accountNumber") <> (1%nat, pKey (k3_property 2))) by discriminate.
  specialize (H N). vm_compute in H. discriminate.
Qed.
Print Assumptions C112_copy_refuted.

(* and the map that ToMap made *)
Theorem C112_map_refuted : ~ C112_maps_claim.
Proof.
  intros H. specialize (H (k3_program ++ [PMap 0]) 0%nat (OSegment K3) (k3_property 2) [] (VStr (lit "2")) (k3_typed [PMap 0]) (or_intror (or_intror (or_introl eq_refl))) 0%nat "accountNumber").
  vm_compute in H. discriminate.
Qed.
Print Assumptions C112_map_refuted.

(* a required property always has a pointer; that of a property without value is nil for ever *)
Theorem C112_required before i o q : typed before i o -> In q (obj_schema o) -> pRequired q = true ->
  m_answer before (PGetOk i (pKey q)) = SBool true.
Proof. exact (memory_required_pointer before i o q). Qed.
Print Assumptions C112_required.
Theorem C112_nil before i k after w : m_answer before (PGetOk i k) = SBool false ->
  let L := before ++ PGetOk i k :: after in let p := made_by makes_pointer before in
  m_answer L (PRead p) = SPanic /\ m_answer L (PWrite p w) = SPanic.
Proof. exact (memory_nil_pointer before i k after w). Qed.
Print Assumptions C112_nil.
Example C112_nil_example :
  m_answer k3_program (PGetOk 0 "agencyIdentifier") = SBool false
  /\ m_answer (k3_program ++ PGetOk 0 "agencyIdentifier" :: [PSet 0 "agencyIdentifier" (VInt 1)]) (PRead 0) = SPanic.
Proof. split; reflexivity. Qed.

(* a new object has its arguments *)
Theorem C112_new l o args : let L := l ++ [PNew (client_table o) (params_of o) args] in let i := made_by makes_object l in
  (forall n q v, nth_error (required_of o) n = Some q -> nth_error args n = Some v -> m_answer L (PGet i (pKey q)) = SValue v)
  /\ (forall q, In q (obj_schema o) -> pRequired q = false ->
        m_answer L (PHas i (pKey q)) = SBool false /\ m_answer L (PGet i (pKey q)) = SValue (c_zero_value (ctype_of (pType q)))).
Proof. exact (memory_new l o args). Qed.
Print Assumptions C112_new.
Example C112_new_example : nth_error (required_of (OSegment K3)) 0 = Some (k3_property 0)
  /\ m_answer (k3_program ++ [PNew (client_table (OSegment K3)) (params_of (OSegment K3)) [VStr (lit "X")]]) (PGet 1 "segmentIdentifier") = SValue (VStr (lit "X")).
Proof. split; reflexivity. Qed.

(* a setter changes its property alone: no other property, no other object, no copy, no map *)
Theorem C112_setter l i o q v : typed l i o -> In q (obj_schema o) ->
  let L := l ++ [PSet i (pKey q) v] in
  m_answer L (PGet i (pKey q)) = SValue v
  /\ (pRequired q = false -> m_answer L (PHas i (pKey q)) = SBool true)
  /\ (forall j r, (j, r) <> (i, pKey q) -> m_answer L (PGet j r) = m_answer l (PGet j r) /\ m_answer L (PHas j r) = m_answer l (PHas j r))
  /\ (forall n r, m_answer L (PEntry n r) = m_answer l (PEntry n r))
  /\ (pRequired q = false -> forall p, m_answer L (PRead p) = m_answer l (PRead p)).
Proof. exact (memory_set l i o q v). Qed.
Print Assumptions C112_setter.
Example C112_setter_example : let l := k3_program ++ [PCopy 0; PMap 0; PSet 0 "accountNumber" (VStr (lit "2"))] in
  typed l 0 (OSegment K3) /\ m_answer l (PGet 0 "accountNumber") = SValue (VStr (lit "2"))
  /\ m_answer l (PGet 1 "accountNumber") = SValue (VStr (lit "1")) /\ m_answer l (PEntry 0 "accountNumber") = SValue (VStr (lit "1")).
Proof. cbn zeta. split; [apply k3_typed|]. repeat split. Qed.

(* writing through a pointer changes its property, and that of copies if it is optional:
   nothing under other names, nothing in objects of other origin, and if it is required
   nothing in copies and maps *)
Theorem C112_write before i o q after w : typed before i o -> In q (obj_schema o) ->
  let L := before ++ PGetOk i (pKey q) :: after in let M := L ++ [PWrite (made_by makes_pointer before) w] in
  (forall j r, r <> pKey q \/ ~ akin L i j \/ pRequired q = true /\ j <> i -> m_answer M (PGet j r) = m_answer L (PGet j r))
  /\ (forall j r, m_answer M (PHas j r) = m_answer L (PHas j r))
  /\ (forall n r, r <> pKey q \/ pRequired q = true -> m_answer M (PEntry n r) = m_answer L (PEntry n r)).
Proof. exact (memory_write before i o q after w). Qed.
Print Assumptions C112_write.
Example C112_write_example : let b := k3_program ++ [PCopy 0; PMap 0] in
  typed b 0 (OSegment K3) /\ akin b 0 1
  /\ m_answer (b ++ PGetOk 0 "segmentIdentifier" :: [] ++ [PWrite 0 (VStr (lit "X"))]) (PGet 0 "segmentIdentifier") = SValue (VStr (lit "X"))
  /\ m_answer (b ++ PGetOk 0 "segmentIdentifier" :: [] ++ [PWrite 0 (VStr (lit "X"))]) (PGet 1 "segmentIdentifier") = SValue (VStr (lit "K3")).
Proof.
  cbn zeta. split; [apply k3_typed|]. split; [|repeat split]. apply Relation_Operators.rst_step. exists k3_program, [PMap 0]. split; reflexivity.
Qed.

(* after the setter of an optional property, what is written through an older pointer is
   not seen in it any more *)
Theorem C112_detached before i o q A v B w : typed before i o -> In q (obj_schema o) -> pRequired q = false ->
  let L := before ++ PGetOk i (pKey q) :: A ++ PSet i (pKey q) v :: B in
  m_answer (L ++ [PWrite (made_by makes_pointer before) w]) (PGet i (pKey q)) = m_answer L (PGet i (pKey q)).
Proof. exact (memory_detached before i o q A v B w). Qed.
Print Assumptions C112_detached.
Example C112_detached_example : typed k3_program 0 (OSegment K3) /\ In (k3_property 2) (obj_schema (OSegment K3)) /\ pRequired (k3_property 2) = false
  /\ m_answer ((k3_program ++ PGetOk 0 "accountNumber" :: [PSet 0 "accountNumber" (VStr (lit "2"))]) ++ [PWrite 0 (VStr (lit "3"))]) (PGet 0 "accountNumber") = SValue (VStr (lit "2")).
Proof. split; [exact (k3_typed [])|]. split; [do 2 right; now left|]. split; reflexivity. Qed.

(* without writing through pointers a property keeps its value until its setter is called *)
Theorem C112_kept before j o q after : typed before j o -> In q (obj_schema o) ->
  Forall (fun c => ~ sets j (pKey q) c) after -> Forall (fun c => ~ writes_through c) after ->
  m_answer (before ++ after) (PGet j (pKey q)) = m_answer before (PGet j (pKey q)).
Proof. exact (memory_kept before j o q after). Qed.
Print Assumptions C112_kept.
Example C112_kept_example : let after := [PCopy 0; PSet 1 "accountNumber" (VStr (lit "2")); PGetOk 0 "accountNumber"] in
  Forall (fun c => ~ sets 0 "accountNumber" c) after /\ Forall (fun c => ~ writes_through c) after
  /\ m_answer (k3_program ++ after) (PGet 0 "accountNumber") = SValue (VStr (lit "1")).
Proof.
  cbn zeta. split; [|split; [|reflexivity]].
  - constructor; [intros [v E]; discriminate|]. constructor; [intros [v E]; discriminate|]. constructor; [intros [v E]; discriminate|constructor].
  - constructor; [intros (p & v & E); discriminate|]. constructor; [intros (p & v & E); discriminate|]. constructor; [intros (p & v & E); discriminate|constructor].
Qed.

(* a copy has the values of the object *)
Theorem C112_copy l i o q : typed l i o -> In q (obj_schema o) -> let n := made_by makes_object l in
  m_answer (l ++ [PCopy i]) (PGet n (pKey q)) = m_answer l (PGet i (pKey q))
  /\ m_answer (l ++ [PCopy i]) (PHas n (pKey q)) = m_answer l (PHas i (pKey q)).
Proof. exact (memory_copy l i o q). Qed.
Print Assumptions C112_copy.
Example C112_copy_example : m_answer (k3_program ++ [PCopy 0]) (PGet 1 "accountNumber") = SValue (VStr (lit "1"))
  /\ m_answer (k3_program ++ [PCopy 0]) (PHas 1 "agencyIdentifier") = SBool false.
Proof. split; reflexivity. Qed.

(* a map keeps the values of required properties whatever is called, the others as long as
   nothing is written through pointers *)
Theorem C112_map before i o q after : typed before i o -> In q (obj_schema o) ->
  let L := before ++ PMap i :: after in let n := made_by makes_map before in
  (pRequired q = true -> m_answer L (PEntry n (pKey q)) = m_answer before (PGet i (pKey q)))
  /\ (m_answer before (PHas i (pKey q)) = SBool false -> m_answer L (PEntry n (pKey q)) = SNothing)
  /\ (m_answer before (PHas i (pKey q)) = SBool true -> Forall (fun c => ~ writes_through c) after ->
        m_answer L (PEntry n (pKey q)) = m_answer before (PGet i (pKey q))).
Proof. exact (memory_map before i o q after). Qed.
Print Assumptions C112_map.
Example C112_map_example : m_answer (k3_program ++ PMap 0 :: [PSet 0 "segmentIdentifier" (VStr (lit "X"))]) (PEntry 0 "segmentIdentifier") = SValue (VStr (lit "K3"))
  /\ m_answer (k3_program ++ PMap 0 :: [PSet 0 "agencyIdentifier" (VInt 1)]) (PEntry 0 "agencyIdentifier") = SNothing.
Proof. split; reflexivity. Qed.

(* the pointer in a map stands for the property like that of the getter *)
Theorem C112_taken before i o q A B : typed before i o -> In q (obj_schema o) ->
  m_answer before (PHas i (pKey q)) = SBool true -> Forall (fun c => ~ sets i (pKey q) c) (A ++ B) ->
  let n := made_by makes_map before in let C := before ++ PMap i :: A in let p := made_by makes_pointer C in
  let L := C ++ PTake n (pKey q) :: B in
  m_answer C (PTake n (pKey q)) = SBool true /\ m_answer L (PRead p) = m_answer L (PGet i (pKey q))
  /\ forall w, m_answer (L ++ [PWrite p w]) (PGet i (pKey q)) = SValue w /\ m_answer (L ++ [PWrite p w]) (PEntry n (pKey q)) = SValue w.
Proof. exact (memory_taken before i o q A B). Qed.
Print Assumptions C112_taken.
Example C112_taken_example : m_answer k3_program (PHas 0 "accountNumber") = SBool true
  /\ m_answer (k3_program ++ [PMap 0; PTake 0 "accountNumber"; PWrite 0 (VStr (lit "9"))]) (PGet 0 "accountNumber") = SValue (VStr (lit "9")).
Proof. split; reflexivity. Qed.

(* a required property is in the map by its value and one without value is not there *)
Theorem C112_not_taken before i o q A : typed before i o -> In q (obj_schema o) ->
  pRequired q = true \/ m_answer before (PHas i (pKey q)) = SBool false ->
  let n := made_by makes_map before in let C := before ++ PMap i :: A in
  m_answer C (PTake n (pKey q)) = SPanic.
Proof. exact (memory_not_taken before i o q A). Qed.
Print Assumptions C112_not_taken.
Example C112_not_taken_example : pRequired (k3_property 0) = true /\ m_answer (k3_program ++ [PMap 0]) (PTake 0 "segmentIdentifier") = SPanic
  /\ m_answer k3_program (PHas 0 "agencyIdentifier") = SBool false.
Proof. repeat split. Qed.
