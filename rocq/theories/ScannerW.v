(** * ScannerW: src/assembler/scanner.rs on a machine whose [usize] has [bits] bits.

    Scanner.v is for 64 bits.  The functions below are those which compute with a [usize]
    taken from the text, and the ones which call them; the others do not change. *)

From Verif Require Import Base Text Location Token Scanner.
Open Scope N_scope.

(** [usize::checked_shl(k)] *)
Definition checked_shl_w (bits : N) (x k : N) : option N :=
  if k <? bits then Some ((x * 2 ^ k) mod 2 ^ bits) else None.

(** scanner.rs:102-113 *)
Fixpoint bin_loop_w (bits : N) (whole : str) (acc : N) (s : str) : result scan_error N :=
  match s with
  | [] => Ok acc
  | c :: r =>
      match bin_char_value c with
      | None => Err InvalidBinaryLiteral
      | Some bit =>
          match checked_shl_w bits acc 1 with
          | Some shifted => bin_loop_w bits whole (N.lor shifted bit) r
          | None => Err (BinaryLiteralOutOfRange whole)
          end
      end
  end.

(** scanner.rs:89-121 *)
Definition parse_12_bit_bin_str_w (bits : N) (s : str) : result scan_error N :=
  match bin_loop_w bits s 0 s with
  | Err e => Err e
  | Ok accumulator =>
      if accumulator <=? 0xFFF then Ok accumulator else Err (BinaryLiteralOutOfRange s)
  end.

(** scanner.rs:177-197 *)
Definition consume_hex_literal_w (bits : N) (sc : scanner) : run (token * scanner) :=
  let* s := rest_of_input sc in
  match find_hex_literal s with
  | Some m =>
      let* digits := slice (sc_input sc) (sc_position sc + 1) (sc_position sc + byte_len m) in
      let* (l, sc') := advance_by sc (byte_len m) in
      let* value := unwrap (from_str_radix bits 16 digits) in
      Done (NumericLiteral value l, sc')
  | None => error_here sc InvalidHexadecimalLiteral
  end.

(** scanner.rs:204-234 *)
Definition consume_bin_literal_w (bits : N) (sc : scanner) : run (token * scanner) :=
  let* s := rest_of_input sc in
  match find_bin_literal s with
  | Some m =>
      let* digits := slice (sc_input sc) (sc_position sc + 1) (sc_position sc + byte_len m) in
      let* (l, sc') := advance_by sc (byte_len m) in
      match parse_12_bit_bin_str_w bits digits with
      | Ok value => Done (NumericLiteral value l, sc')
      | Err e => Done (ErrorToken e l, jump_to_end sc')
      end
  | None => error_here sc InvalidBinaryLiteral
  end.

(** scanner.rs:240-272 *)
Definition consume_decimal_literal_w (bits : N) (sc : scanner) : run (token * scanner) :=
  let* s := rest_of_input sc in
  match find_decimal_literal s with
  | Some m =>
      let* digits := slice (sc_input sc) (sc_position sc) (sc_position sc + byte_len m) in
      let error :=
        let* (l, sc') := advance_by sc (byte_len m) in
        Done (ErrorToken (DecimalLiteralOutOfRange digits) l, jump_to_end sc') in
      match from_str_radix bits 10 digits with
      | Some value =>
          if value <=? 4095
          then let* (l, sc') := advance_by sc (byte_len m) in
               Done (NumericLiteral value l, sc')
          else error
      | None => error
      end
  | None => error_here sc InvalidDecimalLiteral
  end.

(** scanner.rs:441-470 *)
Definition consume_token_at_w (bits : N) (sc : scanner) (c : char) : run (token * scanner) :=
  if c =? c_ ";" then consume_single_line_comment sc
  else if c =? c_ "." then consume_directive_marker sc
  else if c =? c_ ":" then consume_label_marker sc
  else if c =? c_ "," then consume_comma sc
  else if c =? 34 then consume_string_literal sc
  else if c =? c_ "$" then consume_hex_literal_w bits sc
  else if c =? c_ "#" then consume_hex_literal_w bits sc
  else if c =? c_ "%" then consume_bin_literal_w bits sc
  else if c =? c_ "[" then consume_index_register_indirect sc
  else if is_digit c then consume_decimal_literal_w bits sc
  else if is_id_start c then consume_identifier sc
  else if c =? newline then consume_newline sc
  else error_here sc (InvalidCharacter c).

(** scanner.rs:435-471 *)
Definition next_token_w (bits : N) (sc : scanner) : run (option token * scanner) :=
  let* sc := consume_whitespace sc in
  if is_at_end sc then Done (None, sc)
  else
    let* c := char_at sc 0 in
    let* (t, sc') := consume_token_at_w bits sc c in
    Done (Some t, sc').

(** scanner.rs:488-493, until there is no token *)
Fixpoint scan_fuel_w (bits : N) (fuel : nat) (sc : scanner) : run (list token) :=
  match fuel with
  | O => Crash OutOfFuel
  | S n =>
      let* (t, sc') := next_token_w bits sc in
      match t with
      | None => Done []
      | Some t => let* ts := scan_fuel_w bits n sc' in Done (t :: ts)
      end
  end.

(** scanner.rs:476-493 *)
Definition scan_w (bits : N) (file input : str) : run (list token) :=
  scan_fuel_w bits (S (length input)) (scanner_new file input).
