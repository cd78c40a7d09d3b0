(** * ScannerB: src/assembler/scanner.rs with the text as the bytes it is.

    In [Scanner.v] a text is the list of its characters.  A Rust [str] is a sequence of bytes; the functions of the standard library
    that the scanner calls find the characters in it.  Here they do. *)

From Verif Require Import Base Text Location Token Scanner.
Open Scope N_scope.

(** [str::is_char_boundary]: the beginning, the end, or at a byte that does not continue a character *)
Definition is_char_boundary (s : list byte) (index : N) : bool :=
  (index =? 0) || (index =? N.of_nat (length s))
  || match nth_error s (N.to_nat index) with
     | Some b => (b <? 128) || (192 <=? b)
     | None => false
     end.

(** [str::len] *)
Definition str_len (s : list byte) : N := N.of_nat (length s).

(** [&s[n ..]] *)
Definition drop_b (s : list byte) (n : N) : run (list byte) :=
  if is_char_boundary s n then Done (skipn (N.to_nat n) s) else Crash BadSlice.

(** [&s[a .. b]] *)
Definition slice_b (s : list byte) (a b : N) : run (list byte) :=
  if (a <=? b) && is_char_boundary s a && is_char_boundary s b
  then Done (firstn (N.to_nat (b - a)) (skipn (N.to_nat a) s))
  else Crash BadSlice.

(** The low six bits of a byte that continues a character; 0 if there is none *)
Definition next_six (s : list byte) : N * list byte :=
  match s with
  | [] => (0, [])
  | b :: r => (N.land b 0x3F, r)
  end.

(** [core::str::next_code_point], which [Chars::next] calls: it does not check anything *)
Definition next_code_point (s : list byte) : option (char * list byte) :=
  match s with
  | [] => None
  | x :: r =>
      if x <? 128 then Some (x, r)
      else
        let init := N.land x 0x1F in
        let '(y, r) := next_six r in
        if x <? 0xE0 then Some (N.lor (N.shiftl init 6) y, r)
        else
          let '(z, r) := next_six r in
          let y_z := N.lor (N.shiftl y 6) z in
          if x <? 0xF0 then Some (N.lor (N.shiftl init 12) y_z, r)
          else
            let '(w, r) := next_six r in
            Some (N.lor (N.shiftl (N.land init 7) 18) (N.lor (N.shiftl y_z 6) w), r)
  end.

(** [str::chars], at most one character per byte *)
Fixpoint chars_fuel (fuel : nat) (s : list byte) : str :=
  match fuel with
  | O => []
  | S n => match next_code_point s with
           | None => []
           | Some (c, r) => c :: chars_fuel n r
           end
  end.

(** [str::chars], scanner.rs:90,332,385,396,404 *)
Definition chars (s : list byte) : str := chars_fuel (length s) s.

(** scanner.rs:476-484 *)
Definition scanner_new_b (file : str) (input : list byte) : scanner :=
  mk_scanner file input 0 1 1.

(** scanner.rs:428-430 *)
Definition is_at_end_b (sc : scanner) : bool := str_len (sc_input sc) <=? sc_position sc.

(** [&self.input[self.position ..]] *)
Definition rest_of_input_b (sc : scanner) : run (list byte) := drop_b (sc_input sc) (sc_position sc).

(** The idiom [self.position = self.input.len()] used on every error path. *)
Definition jump_to_end_b (sc : scanner) : scanner :=
  mk_scanner (sc_file sc) (sc_input sc) (str_len (sc_input sc)) (sc_line sc) (sc_offset sc).

(** scanner.rs:384-386 *)
Definition char_at_b (sc : scanner) (offset : N) : run char :=
  let* s := drop_b (sc_input sc) (sc_position sc + offset) in
  match chars s with
  | c :: _ => Done c
  | [] => Crash UnwrapFailed
  end.

(** scanner.rs:392-423 *)
Definition advance_by_b (sc : scanner) (bytes : N) : run (loc * scanner) :=
  let* range := slice_b (sc_input sc) (sc_position sc) (sc_position sc + bytes) in
  let total_byte_count := fold_left (fun acc x => acc + len_utf8 x) (chars range) 0 in
  let* _ := assert_ (total_byte_count =? bytes) in
  let '(newlines, first, off) := fold_left advance_step (chars range) (0, 0, sc_offset sc) in
  let* location := loc_new (sc_file sc) (sc_line sc) (sc_offset sc) first in
  Done (location,
        mk_scanner (sc_file sc) (sc_input sc) (sc_position sc + bytes)
                   (sc_line sc + newlines) off).

(** scanner.rs:376-379 *)
Definition consume_char_b (sc : scanner) : run (char * loc * scanner) :=
  let* value := char_at_b sc 0 in
  let* (l, sc') := advance_by_b sc (len_utf8 value) in
  Done (value, l, sc').

(** scanner.rs:128-136 *)
Definition consume_whitespace_b (sc : scanner) : run scanner :=
  let* s := rest_of_input_b sc in
  match find_whitespace (chars s) with
  | Some m => let* (_, sc') := advance_by_b sc (byte_len m) in Done sc'
  | None => Done sc
  end.

(** scanner.rs:141-145 *)
Definition consume_newline_b (sc : scanner) : run (token * scanner) :=
  let* (value, l, sc') := consume_char_b sc in
  let* _ := assert_ (value =? newline) in
  Done (Newline l, sc').

(** The error path shared by scanner.rs:166-168, 192-194, 229-231, 267-269,
    291-293, 317-319 and 466-468. *)
Definition error_here_b (sc : scanner) (e : scan_error) : run (token * scanner) :=
  let* l := loc_new (sc_file sc) (sc_line sc) (sc_offset sc) 1 in
  Done (ErrorToken e l, jump_to_end_b sc).

(** scanner.rs:151-171.  The slice drops one byte at each end. *)
Definition consume_string_literal_b (sc : scanner) : run (token * scanner) :=
  let* s := rest_of_input_b sc in
  match find_string_literal (chars s) with
  | Some m =>
      let* body := slice_b (sc_input sc) (sc_position sc + 1) (sc_position sc + byte_len m - 1) in
      let* (l, sc') := advance_by_b sc (byte_len m) in
      Done (StringLiteral body l, sc')
  | None => error_here_b sc InvalidStringLiteral
  end.

(** scanner.rs:177-197 *)
Definition consume_hex_literal_b (sc : scanner) : run (token * scanner) :=
  let* s := rest_of_input_b sc in
  match find_hex_literal (chars s) with
  | Some m =>
      let* digits := slice_b (sc_input sc) (sc_position sc + 1) (sc_position sc + byte_len m) in
      let* (l, sc') := advance_by_b sc (byte_len m) in
      let* value := unwrap (from_str_radix usize_bits 16 digits) in
      Done (NumericLiteral value l, sc')
  | None => error_here_b sc InvalidHexadecimalLiteral
  end.

(** scanner.rs:89-121 *)
Definition parse_12_bit_bin_str_b (bin_str : list byte) : result scan_error N :=
  match bin_loop bin_str 0 (chars bin_str) with
  | Err e => Err e
  | Ok accumulator =>
      if accumulator <=? 0xFFF then Ok accumulator else Err (BinaryLiteralOutOfRange bin_str)
  end.

(** scanner.rs:204-234 *)
Definition consume_bin_literal_b (sc : scanner) : run (token * scanner) :=
  let* s := rest_of_input_b sc in
  match find_bin_literal (chars s) with
  | Some m =>
      let* digits := slice_b (sc_input sc) (sc_position sc + 1) (sc_position sc + byte_len m) in
      let* (l, sc') := advance_by_b sc (byte_len m) in
      match parse_12_bit_bin_str_b digits with
      | Ok value => Done (NumericLiteral value l, sc')
      | Err e => Done (ErrorToken e l, jump_to_end_b sc')
      end
  | None => error_here_b sc InvalidBinaryLiteral
  end.

(** scanner.rs:240-272 *)
Definition consume_decimal_literal_b (sc : scanner) : run (token * scanner) :=
  let* s := rest_of_input_b sc in
  match find_decimal_literal (chars s) with
  | Some m =>
      let* digits := slice_b (sc_input sc) (sc_position sc) (sc_position sc + byte_len m) in
      let error :=
        let* (l, sc') := advance_by_b sc (byte_len m) in
        Done (ErrorToken (DecimalLiteralOutOfRange digits) l, jump_to_end_b sc') in
      match from_str_radix usize_bits 10 digits with
      | Some value =>
          if value <=? 4095
          then let* (l, sc') := advance_by_b sc (byte_len m) in
               Done (NumericLiteral value l, sc')
          else error
      | None => error
      end
  | None => error_here_b sc InvalidDecimalLiteral
  end.

(** scanner.rs:278-296 *)
Definition consume_identifier_b (sc : scanner) : run (token * scanner) :=
  let* s := rest_of_input_b sc in
  match find_identifier (chars s) with
  | Some m =>
      let* id := slice_b (sc_input sc) (sc_position sc) (sc_position sc + byte_len m) in
      let* (l, sc') := advance_by_b sc (byte_len m) in
      Done (Identifier id l, sc')
  | None => error_here_b sc InvalidIdentifier
  end.

(** scanner.rs:302-320 *)
Definition consume_index_register_indirect_b (sc : scanner) : run (token * scanner) :=
  let* s := rest_of_input_b sc in
  if starts_with s (u "[i]") || starts_with s (u "[I]") then
    let* id := slice_b (sc_input sc) (sc_position sc) (sc_position sc + 3) in
    let* (l, sc') := advance_by_b sc 3 in
    Done (Identifier id l, sc')
  else error_here_b sc ExpectedRegisterIndirect.

(** scanner.rs:327-343 *)
Definition consume_single_line_comment_b (sc : scanner) : run (token * scanner) :=
  let* c := char_at_b sc 0 in
  let* _ := assert_ (c =? c_ ";") in
  let* s := rest_of_input_b sc in
  let bytes := comment_bytes (chars s) in
  let* text := slice_b (sc_input sc) (sc_position sc) (sc_position sc + bytes) in
  let* (l, sc') := advance_by_b sc bytes in
  Done (SingleLineComment text l, sc').

(** scanner.rs:348-352 *)
Definition consume_directive_marker_b (sc : scanner) : run (token * scanner) :=
  let* (value, l, sc') := consume_char_b sc in
  let* _ := assert_ (value =? c_ ".") in
  Done (DirectiveMarker l, sc').

(** scanner.rs:357-361 *)
Definition consume_label_marker_b (sc : scanner) : run (token * scanner) :=
  let* (value, l, sc') := consume_char_b sc in
  let* _ := assert_ (value =? c_ ":") in
  Done (LabelMarker l, sc').

(** scanner.rs:366-370 *)
Definition consume_comma_b (sc : scanner) : run (token * scanner) :=
  let* (value, l, sc') := consume_char_b sc in
  let* _ := assert_ (value =? c_ ",") in
  Done (Comma l, sc').

(** scanner.rs:441-470, the dispatch on the first character *)
Definition consume_token_at_b (sc : scanner) (c : char) : run (token * scanner) :=
  if c =? c_ ";" then consume_single_line_comment_b sc
  else if c =? c_ "." then consume_directive_marker_b sc
  else if c =? c_ ":" then consume_label_marker_b sc
  else if c =? c_ "," then consume_comma_b sc
  else if c =? 34 then consume_string_literal_b sc
  else if c =? c_ "$" then consume_hex_literal_b sc
  else if c =? c_ "#" then consume_hex_literal_b sc
  else if c =? c_ "%" then consume_bin_literal_b sc
  else if c =? c_ "[" then consume_index_register_indirect_b sc
  else if is_digit c then consume_decimal_literal_b sc
  else if is_id_start c then consume_identifier_b sc
  else if c =? newline then consume_newline_b sc
  else error_here_b sc (InvalidCharacter c).

(** scanner.rs:435-471; also [Iterator::next], 490-492 *)
Definition next_token_b (sc : scanner) : run (option token * scanner) :=
  let* sc := consume_whitespace_b sc in
  if is_at_end_b sc then Done (None, sc)
  else
    let* c := char_at_b sc 0 in
    let* (t, sc') := consume_token_at_b sc c in
    Done (Some t, sc').

(** As in [Scanner.v]. *)
Fixpoint scan_fuel_b (fuel : nat) (sc : scanner) : run (list token) :=
  match fuel with
  | O => Crash OutOfFuel
  | S n =>
      let* (t, sc') := next_token_b sc in
      match t with
      | None => Done []
      | Some t => let* ts := scan_fuel_b n sc' in Done (t :: ts)
      end
  end.

(** All the tokens of a text: at most one per byte, and one last [None]. *)
Definition scan_b (file : str) (input : list byte) : run (list token) :=
  scan_fuel_b (S (length input)) (scanner_new_b file input).
