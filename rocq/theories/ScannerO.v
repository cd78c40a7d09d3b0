(** * ScannerO: src/assembler/scanner.rs with counters of [bits] bits.

    In Scanner.v the positions, lines and columns are unbounded.  Here every addition and subtraction of [usize]
    which the code makes is checked, as in the debug profile: a result which does not fit is a panic. *)

From Verif Require Import Base Text Location Token Scanner ScannerW.
Open Scope N_scope.

(** [x + y] *)
Definition add_o (bits : N) (x y : N) : run N :=
  if x + y <? 2 ^ bits then Done (x + y) else Crash ArithOverflow.

(** [x - y] *)
Definition sub_o (x y : N) : run N :=
  if y <=? x then Done (x - y) else Crash ArithOverflow.

(** [fold] of an operation that can panic *)
Fixpoint fold_o {A B : Type} (f : A -> B -> run A) (l : list B) (a : A) : run A :=
  match l with
  | [] => Done a
  | x :: r => let* a' := f a x in fold_o f r a'
  end.

(** scanner.rs:384-386 *)
Definition char_at_o (bits : N) (sc : scanner) (offset : N) : run char :=
  let* start := add_o bits (sc_position sc) offset in
  let* s := drop_bytes (sc_input sc) start in
  match s with
  | c :: _ => Done c
  | [] => Crash UnwrapFailed
  end.

(** scanner.rs:404-415 *)
Definition advance_step_o (bits : N) (st : N * N * N) (c : char) : run (N * N * N) :=
  let '(newlines, first, off) := st in
  let* off := add_o bits off 1 in
  let* first := if newlines =? 0 then add_o bits first 1 else Done first in
  if c =? newline
  then (let* newlines := add_o bits newlines 1 in Done (newlines, first, 1))
  else Done (newlines, first, off).

(** scanner.rs:392-423 *)
Definition advance_by_o (bits : N) (sc : scanner) (bytes : N) : run (loc * scanner) :=
  let* stop := add_o bits (sc_position sc) bytes in
  let* range := slice (sc_input sc) (sc_position sc) stop in
  let* total_byte_count := fold_o (fun acc x => add_o bits acc (len_utf8 x)) range 0 in
  let* _ := assert_ (total_byte_count =? bytes) in
  let* (newlines, first, off) := fold_o (advance_step_o bits) range (0, 0, sc_offset sc) in
  let* location := loc_new (sc_file sc) (sc_line sc) (sc_offset sc) first in
  let* position := add_o bits (sc_position sc) bytes in
  let* line := add_o bits (sc_line sc) newlines in
  Done (location, mk_scanner (sc_file sc) (sc_input sc) position line off).

(** scanner.rs:376-379 *)
Definition consume_char_o (bits : N) (sc : scanner) : run (char * loc * scanner) :=
  let* value := char_at_o bits sc 0 in
  let* (l, sc') := advance_by_o bits sc (len_utf8 value) in
  Done (value, l, sc').

(** scanner.rs:128-136 *)
Definition consume_whitespace_o (bits : N) (sc : scanner) : run scanner :=
  let* s := rest_of_input sc in
  match find_whitespace s with
  | Some m => let* (_, sc') := advance_by_o bits sc (byte_len m) in Done sc'
  | None => Done sc
  end.

(** scanner.rs:141-145, 348-370 *)
Definition consume_mark_o (bits : N) (c : char) (t : loc -> token) (sc : scanner) : run (token * scanner) :=
  let* (value, l, sc') := consume_char_o bits sc in
  let* _ := assert_ (value =? c) in
  Done (t l, sc').

(** scanner.rs:151-171 *)
Definition consume_string_literal_o (bits : N) (sc : scanner) : run (token * scanner) :=
  let* s := rest_of_input sc in
  match find_string_literal s with
  | Some m =>
      let* start := add_o bits (sc_position sc) 1 in
      let* past := add_o bits (sc_position sc) (byte_len m) in
      let* stop := sub_o past 1 in
      let* body := slice (sc_input sc) start stop in
      let* (l, sc') := advance_by_o bits sc (byte_len m) in
      Done (StringLiteral body l, sc')
  | None => error_here sc InvalidStringLiteral
  end.

(** scanner.rs:177-197 *)
Definition consume_hex_literal_o (bits : N) (sc : scanner) : run (token * scanner) :=
  let* s := rest_of_input sc in
  match find_hex_literal s with
  | Some m =>
      let* start := add_o bits (sc_position sc) 1 in
      let* stop := add_o bits (sc_position sc) (byte_len m) in
      let* digits := slice (sc_input sc) start stop in
      let* (l, sc') := advance_by_o bits sc (byte_len m) in
      let* value := unwrap (from_str_radix bits 16 digits) in
      Done (NumericLiteral value l, sc')
  | None => error_here sc InvalidHexadecimalLiteral
  end.

(** scanner.rs:204-234 *)
Definition consume_bin_literal_o (bits : N) (sc : scanner) : run (token * scanner) :=
  let* s := rest_of_input sc in
  match find_bin_literal s with
  | Some m =>
      let* start := add_o bits (sc_position sc) 1 in
      let* stop := add_o bits (sc_position sc) (byte_len m) in
      let* digits := slice (sc_input sc) start stop in
      let* (l, sc') := advance_by_o bits sc (byte_len m) in
      match parse_12_bit_bin_str_w bits digits with
      | Ok value => Done (NumericLiteral value l, sc')
      | Err e => Done (ErrorToken e l, jump_to_end sc')
      end
  | None => error_here sc InvalidBinaryLiteral
  end.

(** scanner.rs:240-272 *)
Definition consume_decimal_literal_o (bits : N) (sc : scanner) : run (token * scanner) :=
  let* s := rest_of_input sc in
  match find_decimal_literal s with
  | Some m =>
      let* stop := add_o bits (sc_position sc) (byte_len m) in
      let* digits := slice (sc_input sc) (sc_position sc) stop in
      let error :=
        let* (l, sc') := advance_by_o bits sc (byte_len m) in
        Done (ErrorToken (DecimalLiteralOutOfRange digits) l, jump_to_end sc') in
      match from_str_radix bits 10 digits with
      | Some value =>
          if value <=? 4095
          then let* (l, sc') := advance_by_o bits sc (byte_len m) in
               Done (NumericLiteral value l, sc')
          else error
      | None => error
      end
  | None => error_here sc InvalidDecimalLiteral
  end.

(** scanner.rs:278-296 *)
Definition consume_identifier_o (bits : N) (sc : scanner) : run (token * scanner) :=
  let* s := rest_of_input sc in
  match find_identifier s with
  | Some m =>
      let* stop := add_o bits (sc_position sc) (byte_len m) in
      let* id := slice (sc_input sc) (sc_position sc) stop in
      let* (l, sc') := advance_by_o bits sc (byte_len m) in
      Done (Identifier id l, sc')
  | None => error_here sc InvalidIdentifier
  end.

(** scanner.rs:302-320 *)
Definition consume_index_register_indirect_o (bits : N) (sc : scanner) : run (token * scanner) :=
  let* s := rest_of_input sc in
  if starts_with s (u "[i]") || starts_with s (u "[I]") then
    let* stop := add_o bits (sc_position sc) 3 in
    let* id := slice (sc_input sc) (sc_position sc) stop in
    let* (l, sc') := advance_by_o bits sc 3 in
    Done (Identifier id l, sc')
  else error_here sc ExpectedRegisterIndirect.

(** scanner.rs:331-338 *)
Fixpoint comment_bytes_o (bits : N) (bytes : N) (s : str) : run N :=
  match s with
  | [] => Done bytes
  | c :: r => if c =? newline then Done bytes
              else let* bytes := add_o bits bytes (len_utf8 c) in comment_bytes_o bits bytes r
  end.

(** scanner.rs:327-343 *)
Definition consume_single_line_comment_o (bits : N) (sc : scanner) : run (token * scanner) :=
  let* c := char_at_o bits sc 0 in
  let* _ := assert_ (c =? c_ ";") in
  let* s := rest_of_input sc in
  let* bytes := comment_bytes_o bits 0 s in
  let* stop := add_o bits (sc_position sc) bytes in
  let* text := slice (sc_input sc) (sc_position sc) stop in
  let* (l, sc') := advance_by_o bits sc bytes in
  Done (SingleLineComment text l, sc').

(** scanner.rs:441-470 *)
Definition consume_token_at_o (bits : N) (sc : scanner) (c : char) : run (token * scanner) :=
  if c =? c_ ";" then consume_single_line_comment_o bits sc
  else if c =? c_ "." then consume_mark_o bits (c_ ".") DirectiveMarker sc
  else if c =? c_ ":" then consume_mark_o bits (c_ ":") LabelMarker sc
  else if c =? c_ "," then consume_mark_o bits (c_ ",") Comma sc
  else if c =? 34 then consume_string_literal_o bits sc
  else if c =? c_ "$" then consume_hex_literal_o bits sc
  else if c =? c_ "#" then consume_hex_literal_o bits sc
  else if c =? c_ "%" then consume_bin_literal_o bits sc
  else if c =? c_ "[" then consume_index_register_indirect_o bits sc
  else if is_digit c then consume_decimal_literal_o bits sc
  else if is_id_start c then consume_identifier_o bits sc
  else if c =? newline then consume_mark_o bits newline Newline sc
  else error_here sc (InvalidCharacter c).

(** scanner.rs:435-471 *)
Definition next_token_o (bits : N) (sc : scanner) : run (option token * scanner) :=
  let* sc := consume_whitespace_o bits sc in
  if is_at_end sc then Done (None, sc)
  else
    let* c := char_at_o bits sc 0 in
    let* (t, sc') := consume_token_at_o bits sc c in
    Done (Some t, sc').

(** scanner.rs:488-493, until there is no token *)
Fixpoint scan_fuel_o (bits : N) (fuel : nat) (sc : scanner) : run (list token) :=
  match fuel with
  | O => Crash OutOfFuel
  | S n =>
      let* (t, sc') := next_token_o bits sc in
      match t with
      | None => Done []
      | Some t => let* ts := scan_fuel_o bits n sc' in Done (t :: ts)
      end
  end.

(** scanner.rs:476-493 *)
Definition scan_o (bits : N) (file input : str) : run (list token) :=
  scan_fuel_o bits (S (length input)) (scanner_new file input).

(** source_file_location.rs:25-30: [location + length - 1] *)
Definition loc_fmt_o (bits : N) (l : loc) : run str :=
  if l_length l =? 1 then Done (loc_fmt l)
  else
    let* past := add_o bits (l_location l) (l_length l) in
    let* _ := sub_o past 1 in
    Done (loc_fmt l).
