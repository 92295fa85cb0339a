(* Helpers of the client that nothing calls: pkg/client/client.go:113-140, 229-236, 501-505 *)
From Coq Require Import ZArith NArith Bool Ascii String List.
Import ListNotations.
From Verif Require Import GoBase GoTime GoLayout Tables Codec Records File Json JsonFile ClientTypes.
Local Open Scope string_scope.
Local Open Scope Z_scope.
Local Open Scope list_scope.
Local Notation length := List.length.

(* ---- typeCheckParameter ---- *)

(* client.go:114-125: [typ] is the name of the type of the argument, None for nil; the text of
   the error, if there is one *)
Definition type_check (typ : option bytes) (expected name : bytes) : option bytes :=
  match typ with
  | None => None
  | Some t =>
      if bytes_eqb t expected then None
      else Some (lit "expected " ++ name ++ lit " to be of type " ++ expected ++ lit " but received " ++ t)
  end.

(* ---- parameterValueToString ---- *)

(* fmt.fmt.fmtInteger with base 16: the digits of an unsigned number, as client.go:139 prints pointers *)
Fixpoint hex_digits (fuel : nat) (z : Z) (acc : bytes) : bytes :=
  match fuel with
  | O => acc
  | S f => let acc' := hex_char (z mod 16) :: acc in if z / 16 =? 0 then acc' else hex_digits f (z / 16) acc'
  end.
(* fmt.pp.fmtPointer of a pointer of 64 bits that is not nil, for client.go:139 *)
Definition pointer_text (a : Z) : bytes := lit "0x" ++ hex_digits 16 a [].

(* the argument: nil, something that is no pointer with its text under %v, a pointer to something
   without ToMap, a pointer to one of the objects of the client; client.go:127-140 *)
Inductive argument :=
| ANil
| APlain (text : bytes)
| APointer
| AObject (tbl : list cfield) (o : option cobject).

Section Texts.
(* where the value of an optional field is; time.Time.String *)
Context (address : string -> Z) (stamp : time -> bytes).

(* fmt.Sprintf %v of a field that is no pointer, client.go:139 *)
Definition value_text (v : value) : bytes :=
  match v with VInt z => itoa z | VStr s => s | VTime t => stamp t end.
(* the same of what ToMap put into the map: the field itself, so a pointer if it is optional, e.g.
   pkg/client/model_k3_segment.go:174-187. A *time.Time has the method String, *int32, *int64 and
   *string have none; client.go:139 *)
Definition entry_text (c : cfield) (v : value) : bytes :=
  if cPtr c then match v with VTime t => stamp t | _ => pointer_text (address (cKey c)) end else value_text v.
(* dataMap[key] is nil for a key that is not there; client.go:135-139 *)
Definition map_text (tbl : list cfield) (o : cobject) (key : bytes) : bytes :=
  match find (fun c => bytes_eqb (lit (cKey c)) key) tbl with
  | Some c => match c_get (cKey c) o with Some v => entry_text c v | None => lit "<nil>" end
  | None => lit "<nil>"
  end.

(* client.go:127-140: reflect.TypeOf of nil is nil, and Kind of it panics; ToMap has the object as
   receiver, so the pointer must not be nil. ToMap never fails *)
Definition value_to_string (a : argument) (key : bytes) : res bytes :=
  match a with
  | ANil => Panic
  | APlain t => Ok t
  | APointer => Ok []
  | AObject _ None => Panic
  | AObject tbl (Some o) => Ok (map_text tbl o key)
  end.
End Texts.

(* ---- parameterToJson ---- *)

(* client.go:230-236: [m] is what json.Marshal gives, a value to be printed or the text of an error *)
Definition to_json (m : json + bytes) : bytes * option bytes :=
  match m with inl j => (print j, None) | inr e => ([], Some e) end.

(* ---- newStrictDecoder ---- *)

(* client.go:501-505: Decode into one of the objects: as without DisallowUnknownFields, but a
   member that no field takes is an error *)
Fixpoint strict_members (zone : bytes -> time -> time) (tbl : list cfield) (l : list (bytes * json)) (o : cobject) : option cobject :=
  match l with
  | [] => Some o
  | (k, j) :: r =>
      match c_find tbl k with
      | Some c =>
          match c_decode_value zone c (c_get (cKey c) o) j with
          | Some v => strict_members zone tbl r (c_set (cKey c) v o)
          | None => None
          end
      | None => None
      end
  end.
(* client.go:501-505 *)
Definition strict_decode (zone : bytes -> time -> time) (tbl : list cfield) (j : json) (o : cobject) : option cobject :=
  match j with
  | JObj l => strict_members zone tbl l o
  | JNull => Some o
  | _ => None
  end.
