(* Specification: forms of multipart/form-data (RFC 2046, RFC 7578) and the last
   element of a path *)
From Coq Require Import Bool Ascii String List.
Import ListNotations.
Local Open Scope string_scope.
Local Open Scope list_scope.

Definition line_end : list ascii := ["013"; "010"]%char.

(* a text within another *)
Definition occurs (d s : list ascii) : Prop := exists a b, s = a ++ d ++ b.

(* what separates the parts *)
Definition delimiter (boundary : list ascii) : list ascii := line_end ++ ["-"; "-"]%char ++ boundary.

(* no carriage return *)
Definition one_line (s : list ascii) : Prop := ~ In "013"%char s.

(* the lines above the content, and the content *)
Definition part := (list (list ascii) * list ascii)%type.

(* what stands behind the first boundary: parts, each ended by the next delimiter,
   and two dashes behind the last *)
Inductive parts_follow (boundary : list ascii) : list ascii -> list part -> Prop :=
| no_part : parts_follow boundary (["-"; "-"]%char ++ line_end) []
| one_part lines content rest ps :
    Forall (fun l => l <> [] /\ one_line l) lines ->
    ~ occurs (delimiter boundary) content ->
    parts_follow boundary rest ps ->
    parts_follow boundary
      (line_end ++ flat_map (fun l => l ++ line_end) lines ++ line_end ++ content ++ delimiter boundary ++ rest)
      ((lines, content) :: ps).

(* the body; a line may end before the first boundary *)
Definition form_says (boundary body : list ascii) (ps : list part) : Prop :=
  exists rest, parts_follow boundary rest ps
    /\ (body = ["-"; "-"]%char ++ boundary ++ rest \/ body = delimiter boundary ++ rest).

(* the parts of a field and of a file; names as they are quoted *)
Definition field_says (name value : list ascii) (p : part) : Prop :=
  p = ([list_ascii_of_string "Content-Disposition: form-data; name=""" ++ name ++ [""""%char]], value).
Definition file_says (name file content : list ascii) (p : part) : Prop :=
  p = ([list_ascii_of_string "Content-Disposition: form-data; name=""" ++ name
          ++ list_ascii_of_string """; filename=""" ++ file ++ [""""%char];
        list_ascii_of_string "Content-Type: application/octet-stream"], content).

(* the last element of a path *)
Inductive last_of : list ascii -> list ascii -> Prop :=
| last_none : last_of [] ["."%char]
| last_root s : s <> [] -> Forall (eq "/"%char) s -> last_of s ["/"%char]
| last_some dir name slashes :
    (dir = [] \/ exists d, dir = d ++ ["/"%char]) -> name <> [] -> ~ In "/"%char name -> Forall (eq "/"%char) slashes ->
    last_of (dir ++ name ++ slashes) name.
