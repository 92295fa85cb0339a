(* Programs with objects of the client: which objects they have, of which types, which
   are copies of which, and which calls change what *)
From Coq Require Import ZArith NArith Bool Ascii String List Relations.
Import ListNotations.
From Verif Require Import GoBase GoTime Tables JsonTables Codec Records Json JsonFile ClientTypes ClientAccess ClientMemory
  SpecCodec SpecJson SpecSchema SpecClientTypes SpecAccess.
Local Open Scope string_scope.
Local Open Scope list_scope.
Local Notation length := List.length.

(* the variables a program has *)
Definition makes_object (c : mcall) : bool := match c with PNew _ _ _ | PCopy _ => true | _ => false end.
Definition makes_pointer (c : mcall) : bool := match c with PGetOk _ _ | PTake _ _ => true | _ => false end.
Definition makes_map (c : mcall) : bool := match c with PMap _ => true | _ => false end.
Definition made_by (f : mcall -> bool) (l : list mcall) : nat := length (filter f l).

(* object [i] of the program is of a type: it was made by NewX, or by NewXWithDefaults, which
   has no parameters, or is a copy of such an object *)
Inductive typed : list mcall -> nat -> object -> Prop :=
| TypedNew before o params args after :
    typed (before ++ PNew (client_table o) params args :: after) (made_by makes_object before) o
| TypedCopy before i o after :
    typed before i o -> typed (before ++ PCopy i :: after) (made_by makes_object before) o.

(* object [j] is a copy of [i] *)
Definition copied (l : list mcall) (i j : nat) : Prop :=
  exists before after, l = before ++ PCopy i :: after /\ j = made_by makes_object before.
(* copies of one object, of copies of it, and so on *)
Definition akin (l : list mcall) : nat -> nat -> Prop := clos_refl_sym_trans nat (copied l).

(* calls of a setter of one property of one object *)
Definition sets (i : nat) (k : string) (c : mcall) : Prop := exists v, c = PSet i k v.
Definition writes_through (c : mcall) : Prop := exists p v, c = PWrite p v.
