(* Properties of the parameters of the client: C108 *)
From Coq Require Import ZArith NArith Bool Ascii String List.
Import ListNotations.
From Verif Require Import GoBase GoTime GoFloat Client ClientScalars ClientParams SpecParams ParamFacts.
Local Open Scope string_scope.
Local Open Scope Z_scope.
Local Open Scope list_scope.

(* C108: with texts of float64 as float_says tells them, a query or a form gets the texts of the
   parameter after those it had; with commas they are joined if the first is not empty, and kept
   apart if it is; a header gets the last text only *)
Theorem C108_partial : exists w, (forall x, float_says x (w x)) /\ forall st k v l, pieces w k v l ->
  (exists st', add_param Multi st k v = Ok st' /\ forall q ts, texts_under q l ts -> store_get st' q = store_get st q ++ ts)
  /\ (exists st', add_param Csv st k v = Ok st' /\ forall q ts, texts_under q l ts ->
       (ts = [] -> store_get st' q = store_get st q)
       /\ (forall t r w, ts = t :: r -> t <> [] -> store_get st q = [] -> with_commas ts w -> store_get st' q = [w])
       /\ (forall r, ts = [] :: r -> store_get st q = [] -> store_get st' q = ts))
  /\ (exists st', add_param Single st k v = Ok st' /\ forall q ts, texts_under q l ts ->
       (ts = [] -> store_get st' q = store_get st q) /\ (forall r t, ts = r ++ [t] -> store_get st' q = [t])).
Proof. exact params_told. Qed.
Print Assumptions C108_partial.

(* refuted: a list that begins with an empty text is not joined *)
Theorem C108_csv_refuted : exists k l w, with_commas l w
  /\ (exists st, add_param Csv [] k (GList (map GText l)) = Ok st /\ store_get st k <> [w]).
Proof. exact csv_wrong. Qed.
Print Assumptions C108_csv_refuted.
(* and lists with commas in their texts cannot be told apart *)
Theorem C108_commas_refuted : exists k l l', l <> l'
  /\ add_param Csv [] k (GList (map GText l)) = add_param Csv [] k (GList (map GText l')).
Proof. exact csv_mixed. Qed.
Print Assumptions C108_commas_refuted.

(* refuted: lists in headers *)
Theorem C108_header_refuted : exists k l l', l <> l'
  /\ add_param Single [] k (GList (map GText l)) = add_param Single [] k (GList (map GText l')).
Proof. exact header_wrong. Qed.
Print Assumptions C108_header_refuted.

(* every value and every key has its texts, so that the statement above says all about the result *)
Theorem C108_pieces : forall w v, proper v -> forall k, exists l, pieces w k v l.
Proof. exact pieces_exist. Qed.
Print Assumptions C108_pieces.
Theorem C108_texts : forall q l, exists ts, texts_under q l ts.
Proof. exact texts_exist. Qed.
Print Assumptions C108_texts.

(* a call panics exactly if it meets a nil pointer *)
Theorem C108_nil : forall s st k v, add_param s st k v = Panic <-> nil_inside v.
Proof. exact nil_panics. Qed.
Print Assumptions C108_nil.

(* numbers go through float32: 16777216 and 16777217 have the same text *)
Theorem C108_float_refuted : exists m e m' e', to_double 16777216 1 = Some (m, e) /\ to_double 16777217 1 = Some (m', e')
  /\ forall s st k, add_param s st k (GFloat (Finite false m e)) = add_param s st k (GFloat (Finite false m' e')).
Proof. exact float_wrong. Qed.
Print Assumptions C108_float_refuted.

(* what the calls of the client hand over, as in C96 *)
Theorem C108_calls_text : forall k t,
  add_param Multi [] (list_ascii_of_string k) (GPtr (Some (GText t))) = Ok (map (fun p => (list_ascii_of_string (fst p), [snd p])) (add_text k (Some t))).
Proof. exact calls_text. Qed.
Print Assumptions C108_calls_text.
Theorem C108_calls_bool : forall k b,
  add_param Multi [] (list_ascii_of_string k) (GPtr (Some (GBool b))) = Ok (map (fun p => (list_ascii_of_string (fst p), [snd p])) (add_bool k (Some b))).
Proof. exact calls_bool. Qed.
Print Assumptions C108_calls_bool.

Example C108_case :
  let v := GMap [(lit "a", GList [GInt (-5); GPtr (Some (GText (lit "x")))]); (lit "b", GMapped [(lit "c", GBool true); (lit "d", GNil)])] in
  pieces float_text (lit "p") v [(lit "p[a]", lit "-5"); (lit "p[a]", lit "x"); (lit "p[b][c]", lit "true"); (lit "p[b][d]", lit "null")]
  /\ texts_under (lit "p[a]") [(lit "p[a]", lit "-5"); (lit "p[a]", lit "x"); (lit "p[b][c]", lit "true")] [lit "-5"; lit "x"]
  /\ add_param Multi [] (lit "p") v = Ok [(lit "p[a]", [lit "-5"; lit "x"]); (lit "p[b][c]", [lit "true"]); (lit "p[b][d]", [lit "null"])]
  /\ add_param Csv [] (lit "p") v = Ok [(lit "p[a]", [lit "-5,x"]); (lit "p[b][c]", [lit "true"]); (lit "p[b][d]", [lit "null"])]
  /\ add_param Single [] (lit "p") v = Ok [(lit "p[a]", [lit "x"]); (lit "p[b][c]", [lit "true"]); (lit "p[b][d]", [lit "null"])].
Proof. exact params_case. Qed.
Example C108_floats : float_text (Finite false 3 (-1)) = lit "1.5" /\ float_text (Finite true 3 (-1)) = lit "-1.5" /\ float_text (Finite false 1 100) = lit "1.2676506e+30"
  /\ float_text (Finite false 1 (-20)) = lit "9.536743e-07" /\ float_text (Finite false 1 200) = lit "+Inf" /\ float_text (Finite true 1 20) = lit "-1.048576e+06" /\ float_text (Finite true 0 0) = lit "-0".
Proof. exact floats_case. Qed.
Example C108_proper : proper (GMap [(lit "a", GList [GFloat NotANumber; GPtr (Some GNil)])]).
Proof. apply proper_map. constructor; [|constructor]. apply proper_list. constructor; [apply proper_float|]. constructor; [apply proper_pointer, proper_nil|constructor]. Qed.
