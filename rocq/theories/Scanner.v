(** * Scanner: src/assembler/scanner.rs *)

From Verif Require Import Base Text Location Token.
Open Scope N_scope.

(** ** The regular expressions of the scanner.

    [Regex::find] on a pattern anchored with [^] either fails or matches a prefix
    of the text; each function below returns that prefix (its byte length is the
    [byte_index_end] of the Rust code).  That these functions agree with the
    patterns is proved in LexProofs.v against regular-expression ASTs. *)

(** The Unicode White_Space property, i.e. [\s] of the regex crate. *)
Definition is_whitespace (c : char) : bool :=
  ((9 <=? c) && (c <=? 13)) || (c =? 32) || (c =? 0x85) || (c =? 0xA0) || (c =? 0x1680)
  || ((0x2000 <=? c) && (c <=? 0x200A)) || (c =? 0x2028) || (c =? 0x2029)
  || (c =? 0x202F) || (c =? 0x205F) || (c =? 0x3000).

(** ['\n'], scanner.rs:143,333,411,460 *)
Definition newline : char := 10.

(** [[0-9]], scanner.rs:242 *)
Definition is_digit (c : char) : bool := (c_ "0" <=? c) && (c <=? c_ "9").
(** [[0-9a-fA-F]], scanner.rs:179 *)
Definition is_hex_digit (c : char) : bool :=
  is_digit c || ((c_ "a" <=? c) && (c <=? c_ "f")) || ((c_ "A" <=? c) && (c <=? c_ "F")).
(** [[a-zA-Z]], scanner.rs:280 *)
Definition is_alpha (c : char) : bool :=
  ((c_ "a" <=? c) && (c <=? c_ "z")) || ((c_ "A" <=? c) && (c <=? c_ "Z")).
(** [[_a-zA-Z]], scanner.rs:280 *)
Definition is_id_start (c : char) : bool := (c =? c_ "_") || is_alpha c.
(** [[_a-zA-Z0-9]], scanner.rs:280 *)
Definition is_id_char (c : char) : bool := is_id_start c || is_digit c.
(** [[01\.]], scanner.rs:206 *)
Definition is_bin_digit (c : char) : bool := (c =? c_ "0") || (c =? c_ "1") || (c =? c_ ".").

(** Greedy [[p]*]. *)
Fixpoint take_while (p : char -> bool) (s : str) : str :=
  match s with
  | c :: r => if p c then c :: take_while p r else []
  | [] => []
  end.

(** Greedy [[p]{0,n}]. *)
Fixpoint take_while_max (n : nat) (p : char -> bool) (s : str) : str :=
  match n, s with
  | S m, c :: r => if p c then c :: take_while_max m p r else []
  | _, _ => []
  end.

(** [+] instead of [*], scanner.rs:130,242 *)
Definition non_empty (s : str) : option str :=
  match s with [] => None | _ => Some s end.

(** scanner.rs:130 [^[^\S\n]+] *)
Definition find_whitespace (s : str) : option str :=
  non_empty (take_while (fun c => is_whitespace c && negb (c =? newline)) s).

(** The rest of a string literal after the opening quote, up to and including
    the closing one: the pattern (?:[^Q\\]|\\.)*Q, Q being the double quote;
    the dot does not match a newline. *)
Fixpoint find_string_body (s : str) : option str :=
  match s with
  | [] => None
  | c :: r =>
      if c =? 34 (* quote *) then Some [c]
      else if c =? 92 (* backslash *) then
        match r with
        | d :: r' =>
            if d =? newline then None
            else match find_string_body r' with
                 | Some m => Some (c :: d :: m)
                 | None => None
                 end
        | [] => None
        end
      else match find_string_body r with
           | Some m => Some (c :: m)
           | None => None
           end
  end.

(** scanner.rs:153, the pattern ^Q(?:[^Q\\]|\\.)*Q, Q being the double quote *)
Definition find_string_literal (s : str) : option str :=
  match s with
  | c :: r =>
      if c =? 34
      then match find_string_body r with Some m => Some (c :: m) | None => None end
      else None
  | [] => None
  end.

(** scanner.rs:179 [^[\$\#][0-9a-fA-F]{1,3}] *)
Definition find_hex_literal (s : str) : option str :=
  match s with
  | c :: r =>
      if (c =? c_ "$") || (c =? c_ "#")
      then match take_while_max 3 is_hex_digit r with
           | [] => None
           | m => Some (c :: m)
           end
      else None
  | [] => None
  end.

(** scanner.rs:206 [^%[01\.]+] *)
Definition find_bin_literal (s : str) : option str :=
  match s with
  | c :: r =>
      if c =? c_ "%"
      then match take_while is_bin_digit r with
           | [] => None
           | m => Some (c :: m)
           end
      else None
  | [] => None
  end.

(** scanner.rs:242 [^[0-9]{1,}] *)
Definition find_decimal_literal (s : str) : option str :=
  non_empty (take_while is_digit s).

(** scanner.rs:280 [^[_a-zA-Z][_a-zA-Z0-9]{0,}] *)
Definition find_identifier (s : str) : option str :=
  match s with
  | c :: r => if is_id_start c then Some (c :: take_while is_id_char r) else None
  | [] => None
  end.

(** ** The scanner state: scanner.rs:74-85 *)
Record scanner : Type := mk_scanner {
  sc_file : str;
  sc_input : str;
  sc_position : N;       (* in bytes *)
  sc_line : N;
  sc_offset : N          (* in code points *)
}.

(** scanner.rs:476-484 *)
Definition scanner_new (file input : str) : scanner :=
  mk_scanner file input 0 1 1.

(** scanner.rs:428-430 *)
Definition is_at_end (sc : scanner) : bool := byte_len (sc_input sc) <=? sc_position sc.

(** [&self.input[self.position ..]] *)
Definition rest_of_input (sc : scanner) : run str := drop_bytes (sc_input sc) (sc_position sc).

(** The idiom [self.position = self.input.len()] used on every error path. *)
Definition jump_to_end (sc : scanner) : scanner :=
  mk_scanner (sc_file sc) (sc_input sc) (byte_len (sc_input sc)) (sc_line sc) (sc_offset sc).

(** scanner.rs:384-386 *)
Definition char_at (sc : scanner) (offset : N) : run char :=
  let* s := drop_bytes (sc_input sc) (sc_position sc + offset) in
  match s with
  | c :: _ => Done c
  | [] => Crash UnwrapFailed
  end.

(** scanner.rs:404-415, the loop body over the state
    (number_of_newlines, characters_on_first_line, last_line_offset). *)
Definition advance_step (st : N * N * N) (c : char) : N * N * N :=
  let '(newlines, first, off) := st in
  let off := off + 1 in
  let first := if newlines =? 0 then first + 1 else first in
  if c =? newline then (newlines + 1, first, 1) else (newlines, first, off).

(** scanner.rs:392-423 *)
Definition advance_by (sc : scanner) (bytes : N) : run (loc * scanner) :=
  let* range := slice (sc_input sc) (sc_position sc) (sc_position sc + bytes) in
  let total_byte_count := fold_left (fun acc x => acc + len_utf8 x) range 0 in
  let* _ := assert_ (total_byte_count =? bytes) in
  let '(newlines, first, off) := fold_left advance_step range (0, 0, sc_offset sc) in
  let* location := loc_new (sc_file sc) (sc_line sc) (sc_offset sc) first in
  Done (location,
        mk_scanner (sc_file sc) (sc_input sc) (sc_position sc + bytes)
                   (sc_line sc + newlines) off).

(** scanner.rs:376-379 *)
Definition consume_char (sc : scanner) : run (char * loc * scanner) :=
  let* value := char_at sc 0 in
  let* (l, sc') := advance_by sc (len_utf8 value) in
  Done (value, l, sc').

(** scanner.rs:128-136 *)
Definition consume_whitespace (sc : scanner) : run scanner :=
  let* s := rest_of_input sc in
  match find_whitespace s with
  | Some m => let* (_, sc') := advance_by sc (byte_len m) in Done sc'
  | None => Done sc
  end.

(** scanner.rs:141-145 *)
Definition consume_newline (sc : scanner) : run (token * scanner) :=
  let* (value, l, sc') := consume_char sc in
  let* _ := assert_ (value =? newline) in
  Done (Newline l, sc').

(** The error path shared by scanner.rs:166-168, 192-194, 229-231, 267-269,
    291-293, 317-319 and 466-468. *)
Definition error_here (sc : scanner) (e : scan_error) : run (token * scanner) :=
  let* l := loc_new (sc_file sc) (sc_line sc) (sc_offset sc) 1 in
  Done (ErrorToken e l, jump_to_end sc).

(** scanner.rs:151-171.  The slice drops one byte at each end. *)
Definition consume_string_literal (sc : scanner) : run (token * scanner) :=
  let* s := rest_of_input sc in
  match find_string_literal s with
  | Some m =>
      let* body := slice (sc_input sc) (sc_position sc + 1) (sc_position sc + byte_len m - 1) in
      let* (l, sc') := advance_by sc (byte_len m) in
      Done (StringLiteral body l, sc')
  | None => error_here sc InvalidStringLiteral
  end.

(** scanner.rs:177-197 *)
Definition consume_hex_literal (sc : scanner) : run (token * scanner) :=
  let* s := rest_of_input sc in
  match find_hex_literal s with
  | Some m =>
      let* digits := slice (sc_input sc) (sc_position sc + 1) (sc_position sc + byte_len m) in
      let* (l, sc') := advance_by sc (byte_len m) in
      let* value := unwrap (from_str_radix usize_bits 16 digits) in
      Done (NumericLiteral value l, sc')
  | None => error_here sc InvalidHexadecimalLiteral
  end.

(** scanner.rs:92-97 *)
Definition bin_char_value (c : char) : option N :=
  if c =? c_ "." then Some 0
  else if c =? c_ "0" then Some 0
  else if c =? c_ "1" then Some 1
  else None.

(** scanner.rs:102-113, the loop.  [whole] is [bin_str], for the error. *)
Fixpoint bin_loop (whole : str) (acc : N) (s : str) : result scan_error N :=
  match s with
  | [] => Ok acc
  | c :: r =>
      match bin_char_value c with
      | None => Err InvalidBinaryLiteral
      | Some bit =>
          match usize_checked_shl acc 1 with
          | Some shifted => bin_loop whole (N.lor shifted bit) r
          | None => Err (BinaryLiteralOutOfRange whole)
          end
      end
  end.

(** scanner.rs:89-121 *)
Definition parse_12_bit_bin_str (s : str) : result scan_error N :=
  match bin_loop s 0 s with
  | Err e => Err e
  | Ok accumulator =>
      if accumulator <=? 0xFFF then Ok accumulator else Err (BinaryLiteralOutOfRange s)
  end.

(** scanner.rs:204-234 *)
Definition consume_bin_literal (sc : scanner) : run (token * scanner) :=
  let* s := rest_of_input sc in
  match find_bin_literal s with
  | Some m =>
      let* digits := slice (sc_input sc) (sc_position sc + 1) (sc_position sc + byte_len m) in
      let* (l, sc') := advance_by sc (byte_len m) in
      match parse_12_bit_bin_str digits with
      | Ok value => Done (NumericLiteral value l, sc')
      | Err e => Done (ErrorToken e l, jump_to_end sc')
      end
  | None => error_here sc InvalidBinaryLiteral
  end.

(** scanner.rs:240-272 *)
Definition consume_decimal_literal (sc : scanner) : run (token * scanner) :=
  let* s := rest_of_input sc in
  match find_decimal_literal s with
  | Some m =>
      let* digits := slice (sc_input sc) (sc_position sc) (sc_position sc + byte_len m) in
      let error :=
        let* (l, sc') := advance_by sc (byte_len m) in
        Done (ErrorToken (DecimalLiteralOutOfRange digits) l, jump_to_end sc') in
      match from_str_radix usize_bits 10 digits with
      | Some value =>
          if value <=? 4095
          then let* (l, sc') := advance_by sc (byte_len m) in
               Done (NumericLiteral value l, sc')
          else error
      | None => error
      end
  | None => error_here sc InvalidDecimalLiteral
  end.

(** scanner.rs:278-296 *)
Definition consume_identifier (sc : scanner) : run (token * scanner) :=
  let* s := rest_of_input sc in
  match find_identifier s with
  | Some m =>
      let* id := slice (sc_input sc) (sc_position sc) (sc_position sc + byte_len m) in
      let* (l, sc') := advance_by sc (byte_len m) in
      Done (Identifier id l, sc')
  | None => error_here sc InvalidIdentifier
  end.

(** scanner.rs:302-320 *)
Definition consume_index_register_indirect (sc : scanner) : run (token * scanner) :=
  let* s := rest_of_input sc in
  if starts_with s (u "[i]") || starts_with s (u "[I]") then
    let* id := slice (sc_input sc) (sc_position sc) (sc_position sc + 3) in
    let* (l, sc') := advance_by sc 3 in
    Done (Identifier id l, sc')
  else error_here sc ExpectedRegisterIndirect.

(** scanner.rs:331-338: bytes up to, not including, the first newline. *)
Fixpoint comment_bytes (s : str) : N :=
  match s with
  | [] => 0
  | c :: r => if c =? newline then 0 else len_utf8 c + comment_bytes r
  end.

(** scanner.rs:327-343 *)
Definition consume_single_line_comment (sc : scanner) : run (token * scanner) :=
  let* c := char_at sc 0 in
  let* _ := assert_ (c =? c_ ";") in
  let* s := rest_of_input sc in
  let bytes := comment_bytes s in
  let* text := slice (sc_input sc) (sc_position sc) (sc_position sc + bytes) in
  let* (l, sc') := advance_by sc bytes in
  Done (SingleLineComment text l, sc').

(** scanner.rs:348-352 *)
Definition consume_directive_marker (sc : scanner) : run (token * scanner) :=
  let* (value, l, sc') := consume_char sc in
  let* _ := assert_ (value =? c_ ".") in
  Done (DirectiveMarker l, sc').

(** scanner.rs:357-361 *)
Definition consume_label_marker (sc : scanner) : run (token * scanner) :=
  let* (value, l, sc') := consume_char sc in
  let* _ := assert_ (value =? c_ ":") in
  Done (LabelMarker l, sc').

(** scanner.rs:366-370 *)
Definition consume_comma (sc : scanner) : run (token * scanner) :=
  let* (value, l, sc') := consume_char sc in
  let* _ := assert_ (value =? c_ ",") in
  Done (Comma l, sc').

(** scanner.rs:441-470, the dispatch on the first character *)
Definition consume_token_at (sc : scanner) (c : char) : run (token * scanner) :=
  if c =? c_ ";" then consume_single_line_comment sc
  else if c =? c_ "." then consume_directive_marker sc
  else if c =? c_ ":" then consume_label_marker sc
  else if c =? c_ "," then consume_comma sc
  else if c =? 34 then consume_string_literal sc
  else if c =? c_ "$" then consume_hex_literal sc
  else if c =? c_ "#" then consume_hex_literal sc
  else if c =? c_ "%" then consume_bin_literal sc
  else if c =? c_ "[" then consume_index_register_indirect sc
  else if is_digit c then consume_decimal_literal sc
  else if is_id_start c then consume_identifier sc
  else if c =? newline then consume_newline sc
  else error_here sc (InvalidCharacter c).

(** scanner.rs:435-471; also [Iterator::next], 490-492 *)
Definition next_token (sc : scanner) : run (option token * scanner) :=
  let* sc := consume_whitespace sc in
  if is_at_end sc then Done (None, sc)
  else
    let* c := char_at sc 0 in
    let* (t, sc') := consume_token_at sc c in
    Done (Some t, sc').

(** Draining the iterator.  In /repo the parser pulls tokens one at a time
    (parser.rs:209-223); scanning has no side effect, so the model scans first.
    [LexTheorems.next_token_fused] shows that the calls to [next] which the parser
    makes after the first [None] also answer [None]. *)
Fixpoint scan_fuel (fuel : nat) (sc : scanner) : run (list token) :=
  match fuel with
  | O => Crash OutOfFuel
  | S n =>
      let* (t, sc') := next_token sc in
      match t with
      | None => Done []
      | Some t => let* ts := scan_fuel n sc' in Done (t :: ts)
      end
  end.

(** All the tokens of a text: at most one per character, and one last [None]. *)
Definition scan (file input : str) : run (list token) :=
  scan_fuel (S (length input)) (scanner_new file input).
