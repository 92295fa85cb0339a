(* newStrictDecoder (pkg/client/client.go:501-505) for data records and files; that for
   the other types is in ClientHelpers.v *)
From Coq Require Import ZArith NArith Bool Ascii String List.
Import ListNotations.
From Verif Require Import GoBase GoTime Tables JsonTables Codec Records Json JsonFile ClientTypes ClientHelpers.
Local Open Scope string_scope.
Local Open Scope list_scope.
Local Notation length := List.length.

(* client.go:501-505, into a pointer of pkg/client/model_data_record.go:25-30 *)
Definition strict_ptr (zone : bytes -> time -> time) (tbl : list cfield) (j : json) (o : option cobject) : option (option cobject) :=
  match j with
  | JNull => Some None
  | _ => option_map Some (strict_decode zone tbl j (match o with Some x => x | None => c_zero tbl end))
  end.
(* client.go:501-505, into a field of pkg/client/model_data_record.go:21-31 *)
Definition strict_record_member (zone : bytes -> time -> time) (m : bytes * json) (r : crecord) : option crecord :=
  let '(k, j) := m in
  let '(mkCRecord b j1 j2 k1 k2 k3 k4 l1 n1) := r in
  let key := c_key record_keys k in
  let many tbl := c_decode_slice (fun x => strict_decode zone tbl x (c_zero tbl)) j in
  if String.eqb key "base" then option_map (fun x => mkCRecord x j1 j2 k1 k2 k3 k4 l1 n1) (strict_decode zone c_base j b)
  else if String.eqb key "j1" then option_map (fun x => mkCRecord b x j2 k1 k2 k3 k4 l1 n1) (many c_j1)
  else if String.eqb key "j2" then option_map (fun x => mkCRecord b j1 x k1 k2 k3 k4 l1 n1) (many c_j2)
  else if String.eqb key "k1" then option_map (fun x => mkCRecord b j1 j2 x k2 k3 k4 l1 n1) (strict_ptr zone c_k1 j k1)
  else if String.eqb key "k2" then option_map (fun x => mkCRecord b j1 j2 k1 x k3 k4 l1 n1) (strict_ptr zone c_k2 j k2)
  else if String.eqb key "k3" then option_map (fun x => mkCRecord b j1 j2 k1 k2 x k4 l1 n1) (strict_ptr zone c_k3 j k3)
  else if String.eqb key "k4" then option_map (fun x => mkCRecord b j1 j2 k1 k2 k3 x l1 n1) (strict_ptr zone c_k4 j k4)
  else if String.eqb key "l1" then option_map (fun x => mkCRecord b j1 j2 k1 k2 k3 k4 x n1) (strict_ptr zone c_l1 j l1)
  else if String.eqb key "n1" then option_map (fun x => mkCRecord b j1 j2 k1 k2 k3 k4 l1 x) (strict_ptr zone c_n1 j n1)
  else None.
(* client.go:501-505, into pkg/client/model_data_record.go:21-31 *)
Fixpoint strict_record_members (zone : bytes -> time -> time) (l : list (bytes * json)) (r : crecord) : option crecord :=
  match l with
  | [] => Some r
  | m :: l' => match strict_record_member zone m r with Some r' => strict_record_members zone l' r' | None => None end
  end.
(* client.go:501-505, into pkg/client/model_data_record.go:21-31 *)
Definition strict_record (zone : bytes -> time -> time) (j : json) (r : crecord) : option crecord :=
  match j with
  | JObj l => strict_record_members zone l r
  | JNull => Some r
  | _ => None
  end.

(* client.go:501-505, into a field of pkg/client/model_file.go:21-25 *)
Definition strict_file_member (zone : bytes -> time -> time) (m : bytes * json) (f : cfile) : option cfile :=
  let '(k, j) := m in
  let '(mkCFile h d t) := f in
  let key := c_key ["header"; "data"; "trailer"] k in
  if String.eqb key "header" then option_map (fun x => mkCFile x d t) (strict_decode zone c_header j h)
  else if String.eqb key "data" then option_map (fun x => mkCFile h x t) (c_decode_slice (fun x => strict_record zone x crecord0) j)
  else if String.eqb key "trailer" then option_map (fun x => mkCFile h d x) (strict_decode zone c_trailer j t)
  else None.
(* client.go:501-505, into pkg/client/model_file.go:21-25 *)
Fixpoint strict_file_members (zone : bytes -> time -> time) (l : list (bytes * json)) (f : cfile) : option cfile :=
  match l with
  | [] => Some f
  | m :: l' => match strict_file_member zone m f with Some f' => strict_file_members zone l' f' | None => None end
  end.
(* client.go:501-505, into a File, pkg/client/model_file.go:21-25 *)
Definition strict_file (zone : bytes -> time -> time) (j : json) : option cfile :=
  match j with
  | JObj l => strict_file_members zone l cfile0
  | JNull => Some cfile0
  | _ => None
  end.
