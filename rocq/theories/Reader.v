(* The streaming reader: scanRecord, NewReader and Reader.Read of pkg/file/file.go,
   IsPacked and IsMetroFile of pkg/utils/file.go, and the part of bufio.Scanner
   they use *)
From Coq Require Import ZArith NArith Bool Ascii String List.
Import ListNotations.
From Verif Require Import GoBase GoTime Tables Codec Records File.
Local Open Scope string_scope.
Local Open Scope Z_scope.
Local Open Scope list_scope.
Local Notation length := List.length.

(* ---- utils/file.go ---- *)

(* a comparison of utils/file.go:40 and 45 *)
Definition is_nul (buf : bytes) (i : nat) : bool :=
  match nth_error buf i with Some c => bval c =? 0 | None => false end.

(* utils/file.go:37-50; the callers have checked the length *)
Definition is_packed (buf : bytes) : bool :=
  (is_nul buf 2 && is_nul buf 3) || (is_nul buf 6 && is_nul buf 7).

(* utils/file.go:53-61 *)
Definition is_metro_file (buf : bytes) : bool :=
  negb (Nat.ltb (length buf) PackedRecordLength)
  && (bytes_eqb (firstn 6 (skipn 4 buf)) (lit "HEADER")
      || bytes_eqb (firstn 6 (skipn 8 buf)) (lit "HEADER")).

(* ---- scanRecord, file.go:237-304 ---- *)

(* the loop of getStripedData, file.go:253-263: [n] values of i, starting at [i] *)
Fixpoint striped_loop (n : nat) (data : bytes) (size i : nat) : option (nat * bytes) :=
  match n with
  | O => None
  | S n' =>
      let buffer := strip (firstn i data) in
      if Nat.eqb (length buffer) size then Some (i, buffer)
      else striped_loop n' data size (S i)
  end.

(* getStripedData, file.go:251-265 *)
Definition get_striped_data (data : bytes) (size : nat) : option (nat * bytes) :=
  striped_loop (S (length data) - size) data size size.

(* the results of bufio.SplitFunc, file.go:237-304 *)
Inductive split_result :=
| SToken (advance : nat) (token : bytes)
| SMore                                   (* 0, nil, nil *)
| SError.                                 (* 0, nil, err *)

(* the size a record announces, file.go:279-292; None: io.ErrNoProgress *)
Definition announced_size (bdw : bytes) : option Z :=
  match parse_int 32 bdw with
  | (size, None) => if size <? Z.of_nat UnpackedRecordLength then None else Some size
  | (_, Some _) =>
      let size := be_val (firstn 2 bdw) in
      if size <? Z.of_nat PackedRecordLength then None else Some size
  end.

(* file.go:237-304; getStripedLength is the length of the stripped data *)
Definition scan_record (data : bytes) (atEOF : bool) : split_result :=
  let n := length (strip data) in
  if Nat.ltb n 4 then
    if negb atEOF then SMore else if Nat.eqb n 0 then SMore else SError
  else
    match get_striped_data data 4 with
    | None => SError
    | Some (_, bdw) =>
        match announced_size bdw with
        | None => SError
        | Some size =>
            if size <=? Z.of_nat n then
              match get_striped_data data (Z.to_nat size) with
              | Some (i, token) => SToken i token
              | None => SError
              end
            else if atEOF then SError else SMore
        end
    end.

(* ---- bufio.Scanner (Go 1.25, bufio/scan.go) ---- *)

Definition maxTokenSize : Z := 65536.
(* bufio/scan.go, for file.go:224-234 *)
Definition startBufSize : Z := 4096.
(* bufio/scan.go, for file.go:224-234 *)
Definition maxConsecutiveEmptyReads : nat := 100.

(* the scanner and the io.Reader below it.  scData is buf[start:end]; scRest is
   what the io.Reader has not delivered yet.  Only whether there is an error
   matters to Scan and to Reader.Read, not which one.  bufio/scan.go, for file.go:224-234 *)
Record scanner := mkScanner {
  scCap : Z;            (* len(s.buf) *)
  scStart : Z;
  scData : bytes;
  scErr : bool;         (* s.err != nil *)
  scRest : bytes }.

(* bufio.NewScanner; file.go:228 *)
Definition new_scanner (input : bytes) : scanner := mkScanner 0 0 [] false input.

(* bufio/scan.go setErr, for file.go:154-221 *)
Definition set_err (s : scanner) : scanner :=
  mkScanner (scCap s) (scStart s) (scData s) true (scRest s).

(* shifting and resizing before a read; None: ErrTooLong; bufio/scan.go Scan, for file.go:154-221 *)
Definition make_room (s : scanner) : option scanner :=
  let fin := scStart s + Z.of_nat (length (scData s)) in
  let start := if (0 <? scStart s) && ((fin =? scCap s) || (scCap s / 2 <? scStart s)) then 0
               else scStart s in
  let fin := start + Z.of_nat (length (scData s)) in
  if fin =? scCap s then
    if maxTokenSize <=? scCap s then None
    else
      let size := if scCap s * 2 =? 0 then startBufSize else scCap s * 2 in
      Some (mkScanner (Z.min size maxTokenSize) 0 (scData s) (scErr s) (scRest s))
  else Some (mkScanner (scCap s) start (scData s) (scErr s) (scRest s)).

(* bufio/scan.go Scan, for file.go:154-221 *)
Inductive head_result :=
| HReturn (token : option bytes) (s : scanner)     (* Scan returns *)
| HRead (s : scanner).                             (* go on with a read *)

(* the loop of Scan up to the read; bufio/scan.go Scan, for file.go:154-221 *)
Definition scan_head (s : scanner) : head_result :=
  let more :=
    if scErr s then HReturn None (mkScanner (scCap s) 0 [] true (scRest s))
    else match make_room s with
         | None => HReturn None (set_err s)
         | Some s' => HRead s'
         end in
  if Nat.ltb 0 (length (scData s)) || scErr s then
    match scan_record (scData s) (scErr s) with
    | SError => HReturn None (set_err s)
    | SToken advance token =>
        HReturn (Some token)
          (mkScanner (scCap s) (scStart s + Z.of_nat advance) (skipn advance (scData s))
             (scErr s) (scRest s))
    | SMore => more
    end
  else more.

(* What one call of Read does: it delivers at most evMax bytes (and no more than
   there is room for).  It reports the end of the input either together with the
   last bytes (evEof) or by the next call.  the io.Reader of file.go:224-234 *)
Record read_event := mkEvent { evMax : nat; evEof : bool }.

(* len(l) == 0, in bufio.Scanner *)
Definition nilb {A} (l : list A) : bool := match l with [] => true | _ => false end.

(* the call of Read in bufio/scan.go Scan, for file.go:154-221 *)
Definition read_once (e : read_event) (s : scanner) : nat * scanner :=
  let space := Z.to_nat (scCap s - (scStart s + Z.of_nat (length (scData s)))) in
  let n := Nat.min (evMax e) space in
  let chunk := firstn n (scRest s) in
  let rest := skipn n (scRest s) in
  let err := Nat.ltb 0 (evMax e) && nilb rest && (evEof e || nilb (scRest s)) in
  (length chunk, mkScanner (scCap s) (scStart s) (scData s ++ chunk) err rest).

(* the reads of Scan, [loop] empty ones so far; the loop of Scan starts again
   after each.  None: the list of events is used up.  bufio/scan.go Scan, for file.go:154-221 *)
Fixpoint scan_reads (evs : list read_event) (s : scanner) (loop : nat)
    : option (option bytes * scanner * list read_event) :=
  match evs with
  | [] => None
  | e :: evs' =>
      let '(n, s') := read_once e s in
      let again s'' :=
        match scan_head s'' with
        | HReturn token t => Some (token, t, evs')
        | HRead t => scan_reads evs' t 0
        end in
      if scErr s' || Nat.ltb 0 n then again s'
      else if Nat.ltb maxConsecutiveEmptyReads (S loop) then again (set_err s')
      else scan_reads evs' s' (S loop)
  end.

(* Scan; the token is what Bytes returns; scanner.Scan and scanner.Bytes of file.go:154-221 *)
Definition scan (evs : list read_event) (s : scanner)
    : option (option bytes * scanner * list read_event) :=
  match scan_head s with
  | HReturn token t => Some (token, t, evs)
  | HRead t => scan_reads evs t 0
  end.

(* ---- Reader.Read ---- *)

(* how the loop of file.go:187-204 ends *)
Inductive bases_result :=
| BFailed (bases : list record) (line : bytes)        (* failedParse *)
| BEnd (bases : list record) (s : scanner) (evs : list read_event)
| BPanic.

(* the loop of file.go:188-204; the fuel bounds the number of records *)
Fixpoint read_bases (fuel : nat) (packed isVariableLength : bool) (evs : list read_event)
    (s : scanner) (bases : list record) : option bases_result :=
  match fuel with
  | O => None
  | S fuel' =>
      match scan evs s with
      | None => None
      | Some (None, s', evs') => Some (BEnd bases s' evs')
      | Some (Some line, s', evs') =>
          match record_parse (new_data_record packed) line isVariableLength with
          | (_, Err _) => Some (BFailed bases line)
          | (_, Panic) => Some BPanic
          | (b, Ok _) => read_bases fuel' packed isVariableLength evs' s' (bases ++ [b])
          end
      end
  end.

(* file.go:215-220 *)
Definition read_trailer (f : file) (line : bytes) (isVariableLength : bool) : res file :=
  match record_parse (flTrailer f) line isVariableLength with
  | (_, Err e) => Err e
  | (_, Panic) => Panic
  | (t, Ok _) => Ok (set_trailer f t)
  end.

(* file.go:167-182: what is done with the first record *)
Definition read_header (f : file) (line : bytes) : res file :=
  if negb (is_metro_file line) then Err ErrInvalidMetroFile
  else
    let f1 := fst (file_set_type f (if is_packed line then lit "packed" else lit "metro")) in
    match record_parse (flHeader f1) line (is_variable_length line) with
    | (_, Err e) => Err e
    | (_, Panic) => Panic
    | (h, Ok _) => Ok (set_header f1 h)
    end.

(* Reader.Read, file.go:154-221, of a reader whose File is [file0]; the type
   assertion of file.go:155 holds for every File of this package.  None: the
   events or the fuel are used up. *)
Definition reader_read (fuel : nat) (evs : list read_event) (file0 : file) (s : scanner)
    : option (res file) :=
  let f := set_bases file0 [] in
  match scan evs s with
  | None => None
  | Some (None, _, _) => Some (Err (ErrInvalidSegment (lit "header")))
  | Some (Some line, s1, evs1) =>
      let isVariableLength := is_variable_length line in
      match read_header f line with
      | Err e => Some (Err e)
      | Panic => Some Panic
      | Ok f1 =>
          match read_bases fuel (flPacked f1) isVariableLength evs1 s1 [] with
          | None => None
          | Some BPanic => Some Panic
          | Some (BFailed bs line') => Some (read_trailer (set_bases f1 bs) line' isVariableLength)
          | Some (BEnd bs s2 evs2) =>
              match scan evs2 s2 with
              | None => None
              | Some (None, _, _) => Some (Err (ErrInvalidSegment (lit "trailer")))
              | Some (Some line', _, _) =>
                  Some (read_trailer (set_bases f1 bs) line' isVariableLength)
              end
          end
      end
  end.

(* NewReader(r).Read(), file.go:224-234: r delivers [input] as the events say *)
Definition read_from (evs : list read_event) (input : bytes) : option (res file) :=
  reader_read (S (length input)) evs (new_file_p false) (new_scanner input).
