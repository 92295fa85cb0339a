(* A Reader of pkg/file/file.go whose Read is called again and again: the reader
   keeps its scanner and its File from one call to the next.  Reader.v models
   what a single call returns; here the state left behind is kept as well *)
From Coq Require Import ZArith NArith Bool Ascii String List.
Import ListNotations.
From Verif Require Import GoBase GoTime Tables Codec Records File Reader.
Local Open Scope string_scope.
Local Open Scope Z_scope.
Local Open Scope list_scope.
Local Notation length := List.length.

(* Reader, file.go:144-151, with what its io.Reader is going to do.  The field
   line is written before each use and is left out. *)
Record reader := mkReader {
  rdFile : file;                    (* what r.File points to *)
  rdScanner : scanner;
  rdEvents : list read_event }.

(* NewReader, file.go:224-234 *)
Definition new_reader (evs : list read_event) (input : bytes) : reader :=
  mkReader (new_file_p false) (new_scanner input) evs.

(* the result of the loop: the records so far, the line whose parsing failed (if
   any), and where the scanner stands; file.go:187-204 *)
Inductive loop_result :=
| LEnd (bases : list record) (line : option bytes) (s : scanner) (evs : list read_event)
| LPanic.

(* the loop of file.go:187-204; the fuel bounds the number of records *)
Fixpoint next_bases (fuel : nat) (packed isVariableLength : bool) (evs : list read_event)
    (s : scanner) (bases : list record) : option loop_result :=
  match fuel with
  | O => None
  | S fuel' =>
      match scan evs s with
      | None => None
      | Some (None, s', evs') => Some (LEnd bases None s' evs')
      | Some (Some line, s', evs') =>
          match record_parse (new_data_record packed) line isVariableLength with
          | (_, Err _) => Some (LEnd bases (Some line) s' evs')
          | (_, Panic) => Some LPanic
          | (b, Ok _) => next_bases fuel' packed isVariableLength evs' s' (bases ++ [b])
          end
      end
  end.

(* file.go:215-220: the trailer is parsed into the trailer of the file, also
   when that fails half way *)
Definition next_trailer (f : file) (line : bytes) (isVariableLength : bool) : file * res unit :=
  let '(t, x) := record_parse (flTrailer f) line isVariableLength in
  (set_trailer f t, match x with Ok _ => Ok tt | Err e => Err e | Panic => Panic end).

(* Reader.Read, file.go:154-221.  Ok: it returns r.File itself, the object that
   rdFile describes, not a copy of it.  None: the events or the fuel are used up. *)
Definition read_next (fuel : nat) (r : reader) : option (reader * res unit) :=
  let f := set_bases (rdFile r) [] in
  match scan (rdEvents r) (rdScanner r) with
  | None => None
  | Some (None, s1, evs1) => Some (mkReader f s1 evs1, Err (ErrInvalidSegment (lit "header")))
  | Some (Some line, s1, evs1) =>
      if negb (is_metro_file line) then Some (mkReader f s1 evs1, Err ErrInvalidMetroFile)
      else
        (* file.go:171-178: the error of SetType is dropped *)
        let f1 := fst (file_set_type f (if is_packed line then lit "packed" else lit "metro")) in
        let isVariableLength := is_variable_length line in
        let '(h, x) := record_parse (flHeader f1) line isVariableLength in
        let f2 := set_header f1 h in
        match x with
        | Err e => Some (mkReader f2 s1 evs1, Err e)
        | Panic => Some (mkReader f2 s1 evs1, Panic)
        | Ok _ =>
            match next_bases fuel (flPacked f2) isVariableLength evs1 s1 [] with
            | None => None
            | Some LPanic => Some (mkReader f2 s1 evs1, Panic)
            | Some (LEnd bs (Some line') s2 evs2) =>
                let '(f3, y) := next_trailer (set_bases f2 bs) line' isVariableLength in
                Some (mkReader f3 s2 evs2, y)
            | Some (LEnd bs None s2 evs2) =>
                match scan evs2 s2 with
                | None => None
                | Some (None, s3, evs3) =>
                    Some (mkReader (set_bases f2 bs) s3 evs3, Err (ErrInvalidSegment (lit "trailer")))
                | Some (Some line', s3, evs3) =>
                    let '(f3, y) := next_trailer (set_bases f2 bs) line' isVariableLength in
                    Some (mkReader f3 s3 evs3, y)
                end
            end
        end
  end.

(* What the caller of a Read sees when it returns; file.go:154-221 *)
Definition returned (r : reader) (x : res unit) : res file :=
  match x with Ok _ => Ok (rdFile r) | Err e => Err e | Panic => Panic end.

(* [n] calls of Read, each with what it returned at the time; file.go:154-221 *)
Fixpoint read_many (n fuel : nat) (r : reader) : option (reader * list (res file)) :=
  match n with
  | O => Some (r, [])
  | S n' =>
      match read_next fuel r with
      | None => None
      | Some (r', x) =>
          match read_many n' fuel r' with
          | None => None
          | Some (r'', l) => Some (r'', returned r' x :: l)
          end
      end
  end.
