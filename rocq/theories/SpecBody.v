(* What a body stands for.  pkg/client/client.go:276-351, 475-493, 508-563 *)
From Coq Require Import ZArith NArith Bool Ascii String List.
Import ListNotations.
From Verif Require Import GoBase Json Server SpecCodec SpecJson SpecServer Client ClientBody.
Local Open Scope string_scope.
Local Open Scope Z_scope.
Local Open Scope list_scope.
Local Notation length := List.length.

(* ---- media types ---- *)

(* a word in upper or lower case, the long s included *)
Definition in_case (w : string) (t : bytes) : Prop := spelled [("s"%char, long_s)] t (list_ascii_of_string w).
Definition tree (t : bytes) : Prop := in_case "application/" t \/ in_case "text/" t.
(* the types of which the subtype begins with json, or has it behind vnd. and a plus sign *)
Definition json_type (ct : bytes) : Prop :=
  exists a t v j b, ct = a ++ t ++ v ++ j ++ b /\ tree t /\ in_case "json" j
    /\ (v = [] \/ exists d x, v = d ++ x ++ list_ascii_of_string "+" /\ in_case "vnd." d /\ x <> [] /\ ~ In ";"%char x).
Definition xml_type (ct : bytes) : Prop := exists a t x b, ct = a ++ t ++ x ++ b /\ tree t /\ in_case "xml" x.

(* ---- post bodies ---- *)

(* the type that is asked for, or one for the kind of the value *)
Definition kind_type (k : kind) (ct : bytes) : Prop :=
  (k = KStruct \/ k = KMap \/ k = KPtr \/ k = KSlice) /\ ct = list_ascii_of_string "application/json; charset=utf-8"
  \/ (k = KString \/ k = KOther) /\ ct = list_ascii_of_string "text/plain; charset=utf-8".
Inductive labelled (sniff : bytes -> bytes) : post -> bytes -> bytes -> Prop :=
| LAsked p ct : ct <> [] -> labelled sniff p ct ct
| LReader k d e ct : kind_type k ct -> labelled sniff (PReader k d e) [] ct
| LBytes b : labelled sniff (PBytes b) [] (sniff b)
| LText s : labelled sniff (PText s) [] (list_ascii_of_string "text/plain; charset=utf-8")
| LTextAt s : labelled sniff (PTextAt s) [] (list_ascii_of_string "application/json; charset=utf-8")
| LValue k j x ct : kind_type k ct -> labelled sniff (PValue k j x) [] ct.

(* the bytes of a value under a type *)
Inductive given : post -> bytes -> bytes -> Prop :=
| GReader k s ct : given (PReader k s None) ct s
| GBytes s ct : given (PBytes s) ct s
| GText s ct : given (PText s) ct s
| GTextAt s ct : given (PTextAt (Some s)) ct s
| GJson k j x ct : json_type ct -> given (PValue k (inl j) x) ct (print j ++ [chr 10])
| GXml k j s ct : ~ json_type ct -> xml_type ct -> given (PValue k j (inl s)) ct s.

(* what is complained about *)
Inductive complains : post -> bytes -> bytes -> Prop :=
| CReader k s e ct : complains (PReader k s (Some e)) ct e
| CJson k e x ct : json_type ct -> complains (PValue k (inr e) x) ct e
| CXml k j e ct : ~ json_type ct -> xml_type ct -> complains (PValue k j (inr e)) ct e
| CEmpty p ct : given p ct [] -> complains p ct (list_ascii_of_string "invalid body type " ++ ct ++ [chr 10])
| CNone k j x ct : ~ json_type ct -> ~ xml_type ct -> complains (PValue k j x) ct (list_ascii_of_string "invalid body type " ++ ct ++ [chr 10]).

(* ---- forms ---- *)

(* all values under a key, in order *)
Definition held (k : bytes) (f : form) : list bytes := List.concat (map snd (filter (fun kv => bytes_eqb (fst kv) k) f)).
Definition got (k : bytes) (l : list (bytes * bytes)) : list bytes := map snd (filter (fun p => bytes_eqb (fst p) k) l).

(* the order of keys by their bytes *)
Inductive before : bytes -> bytes -> Prop :=
| BEmpty b : before [] b
| BLess x y a b : code x < code y -> before (x :: a) (y :: b)
| BSame x a b : before a b -> before (x :: a) (x :: b).

(* some key with an at sign has a value *)
Definition has_path (f : form) : Prop := exists k v vs, In ("@"%char :: k, v :: vs) f.

(* the values of a form one after the other *)
Inductive listed : form -> list (bytes * bytes) -> Prop :=
| ListEnd : listed [] []
| ListKey k f l : listed f l -> listed ((k, []) :: f) l
| ListValue k v vs f l : listed ((k, vs) :: f) l -> listed ((k, v :: vs) :: f) ((k, v) :: l).
(* the files that have bytes and a name *)
Inductive kept : list (string * upload) -> list (string * upload) -> Prop :=
| KeptEnd : kept [] []
| KeptFile n u l l' : upBytes u <> [] -> upName u <> [] -> kept l l' -> kept ((n, u) :: l) ((n, u) :: l')
| KeptNot n u l l' : upBytes u = [] \/ upName u = [] -> kept l l' -> kept ((n, u) :: l) l'.
