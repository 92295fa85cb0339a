(* JSON values and their text, as read and written by Go's encoding/json.
   Trusted transcription of that package (scanner.go, decode.go unquote,
   encode.go appendString, appendCompact); the limit on the nesting depth
   (10000) is not modelled. *)
From Coq Require Import ZArith NArith Bool Ascii String List.
Import ListNotations.
From Verif Require Import GoBase GoLayout.
Local Open Scope string_scope.
Local Open Scope Z_scope.
Local Open Scope list_scope.
Local Notation length := List.length.

(* numbers keep their literal; the members of an object keep their order and
   may repeat a key; encoding/json, for pkg/file/file_instance.go:343-403 *)
Inductive json :=
| JNull
| JBool (b : bool)
| JNum (text : bytes)
| JStr (s : bytes)
| JArr (l : list json)
| JObj (l : list (bytes * json)).

(* ---- strings ---- *)

Definition backslash : byte := ascii_of_N 92.
(* encoding/json unquote *)
Definition slash : byte := ascii_of_N 47.

(* UTF-8 of U+FFFD; utf8.RuneError, written by encoding/json appendString *)
Definition replacement : bytes := map ascii_of_N [239; 191; 189]%N.

(* the runes of a string, each invalid byte replaced by U+FFFD; encoding/json unquote *)
Definition clean_rune (r : bytes) : bytes :=
  match r with
  | [c] => if in_range 0 127 c then r else replacement
  | _ => r
  end.
(* encoding/json unquote, for pkg/file/file_instance.go:343-403 *)
Definition clean (s : bytes) : bytes := List.concat (map clean_rune (runes s)).

(* encoding/json, hex *)
Definition hex_char (z : Z) : byte := if z <? 10 then zbyte (48 + z) else zbyte (87 + z).
(* encoding/json appendString *)
Definition u_escape (z : Z) : bytes :=
  [backslash; "u"%char; hex_char (z / 4096 mod 16); hex_char (z / 256 mod 16);
   hex_char (z / 16 mod 16); hex_char (z mod 16)].

(* encode.go appendString with escapeHTML, one ASCII character *)
Definition escape_char (c : byte) : bytes :=
  let z := bval c in
  if (z =? 34) || (z =? 92) then [backslash; c]
  else if z =? 8 then [backslash; "b"%char]
  else if z =? 12 then [backslash; "f"%char]
  else if z =? 10 then [backslash; "n"%char]
  else if z =? 13 then [backslash; "r"%char]
  else if z =? 9 then [backslash; "t"%char]
  else if (z <? 32) || (z =? 60) || (z =? 62) || (z =? 38) then u_escape z
  else [c].

(* encoding/json appendString *)
Definition line_separator : bytes := map ascii_of_N [226; 128; 168]%N.
(* encoding/json appendString *)
Definition paragraph_separator : bytes := map ascii_of_N [226; 128; 169]%N.

(* encoding/json appendString *)
Definition escape_rune (r : bytes) : bytes :=
  match r with
  | [c] => if in_range 0 127 c then escape_char c else u_escape 65533
  | _ => if bytes_eqb r line_separator then u_escape 8232
         else if bytes_eqb r paragraph_separator then u_escape 8233
         else r
  end.

(* encoding/json appendString, for pkg/server/server.go:62 and 76 *)
Definition quote (s : bytes) : bytes :=
  quote_char :: List.concat (map escape_rune (runes s)) ++ [quote_char].

(* value of a hexadecimal digit; encoding/json getu4 *)
Definition hex_val (c : byte) : option Z :=
  if is_digit c then Some (digit_val c)
  else if in_range 97 102 c then Some (bval c - 87)
  else if in_range 65 70 c then Some (bval c - 55)
  else None.
(* encoding/json getu4 *)
Definition hex4 (a b c d : byte) : option Z :=
  match hex_val a, hex_val b, hex_val c, hex_val d with
  | Some a, Some b, Some c, Some d => Some (a * 4096 + b * 256 + c * 16 + d)
  | _, _, _, _ => None
  end.

(* utf8.EncodeRune; called by encoding/json unquote *)
Definition utf8 (z : Z) : bytes :=
  if z <? 128 then [zbyte z]
  else if z <? 2048 then [zbyte (192 + z / 64); zbyte (128 + z mod 64)]
  else if z <? 65536 then
    if (55296 <=? z) && (z <=? 57343) then replacement
    else [zbyte (224 + z / 4096); zbyte (128 + z / 64 mod 64); zbyte (128 + z mod 64)]
  else [zbyte (240 + z / 262144); zbyte (128 + z / 4096 mod 64);
        zbyte (128 + z / 64 mod 64); zbyte (128 + z mod 64)].

(* unicode/utf16, called by encoding/json unquote *)
Definition is_high (z : Z) : bool := (55296 <=? z) && (z <=? 56319).
(* unicode/utf16, called by encoding/json unquote *)
Definition is_low (z : Z) : bool := (56320 <=? z) && (z <=? 57343).

(* the characters of a string literal after the opening quote, up to and
   including the closing quote: the string and what follows;
   encoding/json unquote and the scanner's string states *)
Fixpoint read_chars (s : bytes) : option (bytes * bytes) :=
  let put (w : bytes) (r : option (bytes * bytes)) :=
    match r with Some (t, rest) => Some (w ++ t, rest) | None => None end in
  match s with
  | [] => None
  | c :: r =>
      if byte_eqb c quote_char then Some ([], r)
      else if byte_eqb c backslash then
        match r with
        | e :: r1 =>
            if byte_eqb e quote_char || byte_eqb e backslash || byte_eqb e slash then put [e] (read_chars r1)
            else if byte_eqb e "b" then put [ascii_of_N 8] (read_chars r1)
            else if byte_eqb e "f" then put [ascii_of_N 12] (read_chars r1)
            else if byte_eqb e "n" then put [ascii_of_N 10] (read_chars r1)
            else if byte_eqb e "r" then put [ascii_of_N 13] (read_chars r1)
            else if byte_eqb e "t" then put [ascii_of_N 9] (read_chars r1)
            else if byte_eqb e "u" then
              match r1 with
              | h1 :: h2 :: h3 :: h4 :: r2 =>
                  match hex4 h1 h2 h3 h4 with
                  | Some z =>
                      if is_high z then
                        match r2 with
                        | b :: u :: l1 :: l2 :: l3 :: l4 :: r3 =>
                            if byte_eqb b backslash && byte_eqb u "u" then
                              match hex4 l1 l2 l3 l4 with
                              | Some y =>
                                  if is_low y
                                  then put (utf8 ((z - 55296) * 1024 + (y - 56320) + 65536)) (read_chars r3)
                                  else put replacement (read_chars r2)
                              | None => None
                              end
                            else put replacement (read_chars r2)
                        | _ => put replacement (read_chars r2)
                        end
                      else put (utf8 z) (read_chars r2)
                  | None => None
                  end
              | _ => None
              end
            else None
        | [] => None
        end
      else if bval c <? 32 then None
      else if in_range 0 127 c then put [c] (read_chars r)
      else match rune_width s, r with
           | 2%nat, c1 :: r1 => put [c; c1] (read_chars r1)
           | 3%nat, c1 :: c2 :: r2 => put [c; c1; c2] (read_chars r2)
           | 4%nat, c1 :: c2 :: c3 :: r3 => put [c; c1; c2; c3] (read_chars r3)
           | _, _ => put replacement (read_chars r)
           end
  end.

(* ---- numbers ---- *)

(* encoding/json scanner, numbers *)
Definition take_digits1 (s : bytes) : option (bytes * bytes) :=
  match GoTime.take_digits s with ([], _) => None | (ds, r) => Some (ds, r) end.

(* the exponent of a number; encoding/json scanner, stateE *)
Definition read_exponent (s : bytes) : option (bytes * bytes) :=
  match s with
  | e :: r =>
      if byte_eqb e "e" || byte_eqb e "E" then
        match r with
        | g :: r1 =>
            if byte_eqb g "+" || byte_eqb g "-"
            then match take_digits1 r1 with Some (ds, r2) => Some (e :: g :: ds, r2) | None => None end
            else match take_digits1 r with Some (ds, r2) => Some (e :: ds, r2) | None => None end
        | [] => None
        end
      else Some ([], s)
  | [] => Some ([], [])
  end.

(* the fraction of a number; encoding/json scanner, stateDot *)
Definition read_fraction (s : bytes) : option (bytes * bytes) :=
  match s with
  | p :: r =>
      if byte_eqb p "." then
        match take_digits1 r with Some (ds, r1) => Some (p :: ds, r1) | None => None end
      else Some ([], s)
  | [] => Some ([], [])
  end.

(* the integer part of a number, without sign; encoding/json scanner, state0 and state1 *)
Definition read_integer (s : bytes) : option (bytes * bytes) :=
  match s with
  | c :: r => if byte_eqb c "0" then Some ([c], r) else take_digits1 s
  | [] => None
  end.

(* encoding/json scanner, numbers *)
Definition read_number (s : bytes) : option (bytes * bytes) :=
  let '(sign, r) := match s with c :: r => if byte_eqb c "-" then ([c], r) else ([], s) | [] => ([], s) end in
  match read_integer r with
  | Some (i, r1) =>
      match read_fraction r1 with
      | Some (f, r2) =>
          match read_exponent r2 with
          | Some (e, r3) => Some (sign ++ i ++ f ++ e, r3)
          | None => None
          end
      | None => None
      end
  | None => None
  end.

(* ---- values ---- *)

(* encoding/json isSpace *)
Definition is_json_space (c : byte) : bool :=
  let z := bval c in (z =? 32) || (z =? 9) || (z =? 10) || (z =? 13).
(* encoding/json scanner *)
Definition skip_ws (s : bytes) : bytes := drop_while is_json_space s.

(* a literal word at the head of the text; encoding/json scanner, stateT, stateF, stateN *)
Definition word (w : string) (j : json) (s : bytes) : option (json * bytes) :=
  if has_prefix w s then Some (j, skipn (length (lit w)) s) else None.

(* one value and the text after it; fuel bounds the nesting and the number of
   elements, the length of the text is always enough; encoding/json checkValid and decodeState.value *)
Fixpoint read_value (fuel : nat) (s : bytes) : option (json * bytes) :=
  match fuel with
  | O => None
  | S fuel =>
      match skip_ws s with
      | [] => None
      | c :: r =>
          if byte_eqb c "{" then
            match skip_ws r with
            | d :: r1 =>
                if byte_eqb d "}" then Some (JObj [], r1)
                else match read_members fuel r with
                     | Some (l, r2) => Some (JObj l, r2)
                     | None => None
                     end
            | [] => None
            end
          else if byte_eqb c "[" then
            match skip_ws r with
            | d :: r1 =>
                if byte_eqb d "]" then Some (JArr [], r1)
                else match read_elements fuel r with
                     | Some (l, r2) => Some (JArr l, r2)
                     | None => None
                     end
            | [] => None
            end
          else if byte_eqb c quote_char then
            match read_chars r with Some (t, r1) => Some (JStr t, r1) | None => None end
          else if byte_eqb c "t" then word "true" (JBool true) (c :: r)
          else if byte_eqb c "f" then word "false" (JBool false) (c :: r)
          else if byte_eqb c "n" then word "null" JNull (c :: r)
          else match read_number (c :: r) with Some (t, r1) => Some (JNum t, r1) | None => None end
      end
  end
(* the elements of an array and the closing bracket *)
with read_elements (fuel : nat) (s : bytes) : option (list json * bytes) :=
  match fuel with
  | O => None
  | S fuel =>
      match read_value fuel s with
      | Some (v, r) =>
          match skip_ws r with
          | d :: r1 =>
              if byte_eqb d "]" then Some ([v], r1)
              else if byte_eqb d "," then
                match read_elements fuel r1 with Some (l, r2) => Some (v :: l, r2) | None => None end
              else None
          | [] => None
          end
      | None => None
      end
  end
(* the members of an object and the closing brace *)
with read_members (fuel : nat) (s : bytes) : option (list (bytes * json) * bytes) :=
  match fuel with
  | O => None
  | S fuel =>
      match skip_ws s with
      | q :: r =>
          if byte_eqb q quote_char then
            match read_chars r with
            | Some (k, r1) =>
                match skip_ws r1 with
                | c :: r2 =>
                    if byte_eqb c ":" then
                      match read_value fuel r2 with
                      | Some (v, r3) =>
                          match skip_ws r3 with
                          | d :: r4 =>
                              if byte_eqb d "}" then Some ([(k, v)], r4)
                              else if byte_eqb d "," then
                                match read_members fuel r4 with
                                | Some (l, r5) => Some ((k, v) :: l, r5)
                                | None => None
                                end
                              else None
                          | [] => None
                          end
                      | None => None
                      end
                    else None
                | [] => None
                end
            | None => None
            end
          else None
      | [] => None
      end
  end.

(* json.NewDecoder(r).Decode: the first value of the text, the rest is not looked at *)
Definition decode (s : bytes) : option json :=
  match read_value (S (length s)) s with Some (j, _) => Some j | None => None end.

(* values separated by commas; encoding/json encodeState, arrays and objects *)
Fixpoint comma (l : list bytes) : bytes :=
  match l with
  | [] => []
  | [x] => x
  | x :: r => x ++ "," %char :: comma r
  end.

(* json.Marshal *)
Fixpoint print (j : json) : bytes :=
  match j with
  | JNull => lit "null"
  | JBool b => if b then lit "true" else lit "false"
  | JNum t => t
  | JStr s => quote s
  | JArr l => "["%char :: comma (map print l) ++ ["]"%char]
  | JObj l => "{"%char :: comma (map (fun m => quote (fst m) ++ ":"%char :: print (snd m)) l) ++ ["}"%char]
  end.

(* json.MarshalIndent with an empty prefix (indent.go appendIndent): every
   element on a line of its own, indented by its depth; empty arrays and
   objects stay closed up *)
Fixpoint comma_line (nl : bytes) (l : list bytes) : bytes :=
  match l with
  | [] => []
  | [x] => nl ++ x
  | x :: r => nl ++ x ++ "," %char :: comma_line nl r
  end.
(* encoding/json appendNewline *)
Fixpoint line_indent (indent : bytes) (depth : nat) : bytes :=
  match depth with O => [lf_char] | S d => line_indent indent d ++ indent end.
(* encoding/json Indent, for pkg/server/server.go:62 and cmd/metro2/main.go:153, 230 *)
Fixpoint print_indent (indent : bytes) (depth : nat) (j : json) : bytes :=
  match j with
  | JArr ((_ :: _) as l) =>
      "["%char :: comma_line (line_indent indent (S depth)) (map (print_indent indent (S depth)) l)
      ++ line_indent indent depth ++ ["]"%char]
  | JObj ((_ :: _) as l) =>
      "{"%char :: comma_line (line_indent indent (S depth))
        (map (fun m => quote (fst m) ++ ":"%char :: " "%char :: print_indent indent (S depth) (snd m)) l)
      ++ line_indent indent depth ++ ["}"%char]
  | _ => print j
  end.
