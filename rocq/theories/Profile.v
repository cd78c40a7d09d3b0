(** * Profile: the whole tool with integers of the machine, built with checks or without.

    Rust builds a program in one of two ways.  In the debug profile an addition or subtraction whose result does not
    fit panics; in the release profile the result is taken modulo the word size.  The other models have the panics of
    the debug profile for the short integers of data_range.rs and ihex_writer.rs and unbounded counters elsewhere
    (ScannerO.v: bounded counters for the scanner alone).  Here every [+], [-], [+=] of the source is done with
    integers of [bits] bits ([usize]) or 16 bits ([u16]), in either profile.  Assertions, [unwrap], slices and
    [checked_add] are the same in both. *)

From Verif Require Import Base Text U12 Location Token Scanner ScannerW ScannerO Parser Directive Opcode
  Instruction DataRange Assembler IHex Main.
Open Scope N_scope.

(** The two profiles Cargo builds with; they decide what an overflow in scanner.rs does *)
Inductive profile : Set := Debug | Release.

(** [x + y] in [bits] bits *)
Definition add_p (k : profile) (bits : N) (x y : N) : run N :=
  if x + y <? 2 ^ bits then Done (x + y)
  else match k with
       | Debug => Crash ArithOverflow
       | Release => Done ((x + y) mod 2 ^ bits)
       end.

(** [x - y] in [bits] bits *)
Definition sub_p (k : profile) (bits : N) (x y : N) : run N :=
  if y <=? x then Done (x - y)
  else match k with
       | Debug => Crash ArithOverflow
       | Release => Done ((2 ^ bits + x - y) mod 2 ^ bits)
       end.

(** ** scanner.rs *)

(** scanner.rs:384-386 *)
Definition char_at_p (k : profile) (bits : N) (sc : scanner) (offset : N) : run char :=
  let* start := add_p k bits (sc_position sc) offset in
  let* s := drop_bytes (sc_input sc) start in
  match s with
  | c :: _ => Done c
  | [] => Crash UnwrapFailed
  end.

(** scanner.rs:404-415 *)
Definition advance_step_p (k : profile) (bits : N) (st : N * N * N) (c : char) : run (N * N * N) :=
  let '(newlines, first, off) := st in
  let* off := add_p k bits off 1 in
  let* first := if newlines =? 0 then add_p k bits first 1 else Done first in
  if c =? newline
  then (let* newlines := add_p k bits newlines 1 in Done (newlines, first, 1))
  else Done (newlines, first, off).

(** scanner.rs:392-423 *)
Definition advance_by_p (k : profile) (bits : N) (sc : scanner) (bytes : N) : run (loc * scanner) :=
  let* stop := add_p k bits (sc_position sc) bytes in
  let* range := slice (sc_input sc) (sc_position sc) stop in
  let* total_byte_count := fold_o (fun acc x => add_p k bits acc (len_utf8 x)) range 0 in
  let* _ := assert_ (total_byte_count =? bytes) in
  let* (newlines, first, off) := fold_o (advance_step_p k bits) range (0, 0, sc_offset sc) in
  let* location := loc_new (sc_file sc) (sc_line sc) (sc_offset sc) first in
  let* position := add_p k bits (sc_position sc) bytes in
  let* line := add_p k bits (sc_line sc) newlines in
  Done (location, mk_scanner (sc_file sc) (sc_input sc) position line off).

(** scanner.rs:376-379 *)
Definition consume_char_p (k : profile) (bits : N) (sc : scanner) : run (char * loc * scanner) :=
  let* value := char_at_p k bits sc 0 in
  let* (l, sc') := advance_by_p k bits sc (len_utf8 value) in
  Done (value, l, sc').

(** scanner.rs:128-136 *)
Definition consume_whitespace_p (k : profile) (bits : N) (sc : scanner) : run scanner :=
  let* s := rest_of_input sc in
  match find_whitespace s with
  | Some m => let* (_, sc') := advance_by_p k bits sc (byte_len m) in Done sc'
  | None => Done sc
  end.

(** scanner.rs:141-145, 348-370 *)
Definition consume_mark_p (k : profile) (bits : N) (c : char) (t : loc -> token) (sc : scanner) : run (token * scanner) :=
  let* (value, l, sc') := consume_char_p k bits sc in
  let* _ := assert_ (value =? c) in
  Done (t l, sc').

(** scanner.rs:151-171 *)
Definition consume_string_literal_p (k : profile) (bits : N) (sc : scanner) : run (token * scanner) :=
  let* s := rest_of_input sc in
  match find_string_literal s with
  | Some m =>
      let* start := add_p k bits (sc_position sc) 1 in
      let* past := add_p k bits (sc_position sc) (byte_len m) in
      let* stop := sub_p k bits past 1 in
      let* body := slice (sc_input sc) start stop in
      let* (l, sc') := advance_by_p k bits sc (byte_len m) in
      Done (StringLiteral body l, sc')
  | None => error_here sc InvalidStringLiteral
  end.

(** scanner.rs:177-197 *)
Definition consume_hex_literal_p (k : profile) (bits : N) (sc : scanner) : run (token * scanner) :=
  let* s := rest_of_input sc in
  match find_hex_literal s with
  | Some m =>
      let* start := add_p k bits (sc_position sc) 1 in
      let* stop := add_p k bits (sc_position sc) (byte_len m) in
      let* digits := slice (sc_input sc) start stop in
      let* (l, sc') := advance_by_p k bits sc (byte_len m) in
      let* value := unwrap (from_str_radix bits 16 digits) in
      Done (NumericLiteral value l, sc')
  | None => error_here sc InvalidHexadecimalLiteral
  end.

(** scanner.rs:204-234 *)
Definition consume_bin_literal_p (k : profile) (bits : N) (sc : scanner) : run (token * scanner) :=
  let* s := rest_of_input sc in
  match find_bin_literal s with
  | Some m =>
      let* start := add_p k bits (sc_position sc) 1 in
      let* stop := add_p k bits (sc_position sc) (byte_len m) in
      let* digits := slice (sc_input sc) start stop in
      let* (l, sc') := advance_by_p k bits sc (byte_len m) in
      match parse_12_bit_bin_str_w bits digits with
      | Ok value => Done (NumericLiteral value l, sc')
      | Err e => Done (ErrorToken e l, jump_to_end sc')
      end
  | None => error_here sc InvalidBinaryLiteral
  end.

(** scanner.rs:240-272 *)
Definition consume_decimal_literal_p (k : profile) (bits : N) (sc : scanner) : run (token * scanner) :=
  let* s := rest_of_input sc in
  match find_decimal_literal s with
  | Some m =>
      let* stop := add_p k bits (sc_position sc) (byte_len m) in
      let* digits := slice (sc_input sc) (sc_position sc) stop in
      let error :=
        let* (l, sc') := advance_by_p k bits sc (byte_len m) in
        Done (ErrorToken (DecimalLiteralOutOfRange digits) l, jump_to_end sc') in
      match from_str_radix bits 10 digits with
      | Some value =>
          if value <=? 4095
          then let* (l, sc') := advance_by_p k bits sc (byte_len m) in
               Done (NumericLiteral value l, sc')
          else error
      | None => error
      end
  | None => error_here sc InvalidDecimalLiteral
  end.

(** scanner.rs:278-296 *)
Definition consume_identifier_p (k : profile) (bits : N) (sc : scanner) : run (token * scanner) :=
  let* s := rest_of_input sc in
  match find_identifier s with
  | Some m =>
      let* stop := add_p k bits (sc_position sc) (byte_len m) in
      let* id := slice (sc_input sc) (sc_position sc) stop in
      let* (l, sc') := advance_by_p k bits sc (byte_len m) in
      Done (Identifier id l, sc')
  | None => error_here sc InvalidIdentifier
  end.

(** scanner.rs:302-320 *)
Definition consume_index_register_indirect_p (k : profile) (bits : N) (sc : scanner) : run (token * scanner) :=
  let* s := rest_of_input sc in
  if starts_with s (u "[i]") || starts_with s (u "[I]") then
    let* stop := add_p k bits (sc_position sc) 3 in
    let* id := slice (sc_input sc) (sc_position sc) stop in
    let* (l, sc') := advance_by_p k bits sc 3 in
    Done (Identifier id l, sc')
  else error_here sc ExpectedRegisterIndirect.

(** scanner.rs:331-338 *)
Fixpoint comment_bytes_p (k : profile) (bits : N) (bytes : N) (s : str) : run N :=
  match s with
  | [] => Done bytes
  | c :: r => if c =? newline then Done bytes
              else let* bytes := add_p k bits bytes (len_utf8 c) in comment_bytes_p k bits bytes r
  end.

(** scanner.rs:327-343 *)
Definition consume_single_line_comment_p (k : profile) (bits : N) (sc : scanner) : run (token * scanner) :=
  let* c := char_at_p k bits sc 0 in
  let* _ := assert_ (c =? c_ ";") in
  let* s := rest_of_input sc in
  let* bytes := comment_bytes_p k bits 0 s in
  let* stop := add_p k bits (sc_position sc) bytes in
  let* text := slice (sc_input sc) (sc_position sc) stop in
  let* (l, sc') := advance_by_p k bits sc bytes in
  Done (SingleLineComment text l, sc').

(** scanner.rs:441-470 *)
Definition consume_token_at_p (k : profile) (bits : N) (sc : scanner) (c : char) : run (token * scanner) :=
  if c =? c_ ";" then consume_single_line_comment_p k bits sc
  else if c =? c_ "." then consume_mark_p k bits (c_ ".") DirectiveMarker sc
  else if c =? c_ ":" then consume_mark_p k bits (c_ ":") LabelMarker sc
  else if c =? c_ "," then consume_mark_p k bits (c_ ",") Comma sc
  else if c =? 34 then consume_string_literal_p k bits sc
  else if c =? c_ "$" then consume_hex_literal_p k bits sc
  else if c =? c_ "#" then consume_hex_literal_p k bits sc
  else if c =? c_ "%" then consume_bin_literal_p k bits sc
  else if c =? c_ "[" then consume_index_register_indirect_p k bits sc
  else if is_digit c then consume_decimal_literal_p k bits sc
  else if is_id_start c then consume_identifier_p k bits sc
  else if c =? newline then consume_mark_p k bits newline Newline sc
  else error_here sc (InvalidCharacter c).

(** scanner.rs:435-471 *)
Definition next_token_p (k : profile) (bits : N) (sc : scanner) : run (option token * scanner) :=
  let* sc := consume_whitespace_p k bits sc in
  if is_at_end sc then Done (None, sc)
  else
    let* c := char_at_p k bits sc 0 in
    let* (t, sc') := consume_token_at_p k bits sc c in
    Done (Some t, sc').

(** scanner.rs:488-493, until there is no token *)
Fixpoint scan_fuel_p (k : profile) (bits : N) (fuel : nat) (sc : scanner) : run (list token) :=
  match fuel with
  | O => Crash OutOfFuel
  | S n =>
      let* (t, sc') := next_token_p k bits sc in
      match t with
      | None => Done []
      | Some t => let* ts := scan_fuel_p k bits n sc' in Done (t :: ts)
      end
  end.

(** scanner.rs:476-493 *)
Definition scan_p (k : profile) (bits : N) (file input : str) : run (list token) :=
  scan_fuel_p k bits (S (length input)) (scanner_new file input).

(** ** The messages *)

(** source_file_location.rs:25-30: [location + length - 1] *)
Definition loc_fmt_p (k : profile) (bits : N) (l : loc) : run str :=
  let start := l_file l ++ u ":" ++ fmt_dec (l_line l) ++ u ":" ++ fmt_dec (l_location l) in
  if l_length l =? 1 then Done start
  else
    let* past := add_p k bits (l_location l) (l_length l) in
    let* last := sub_p k bits past 1 in
    Done (start ++ u "-" ++ fmt_dec last).

(** parser.rs:49-79 *)
Definition parse_error_fmt_p (k : profile) (bits : N) (e : parse_error) : run str :=
  match e with
  | UnexpectedEndOfFile _ => parse_error_fmt e
  | UnexpectedToken expected (ErrorToken reason location) =>
      let* at_ := loc_fmt_p k bits location in
      let first_line := at_ ++ u ": error: Encountered syntax error: " ++ scan_error_fmt reason ++ [10] in
      match expected with
      | [] => Crash ExplicitPanic
      | [x] => Done (first_line ++ at_ ++ u ": error: Expecting " ++ x ++ u ".")
      | _ => Done (first_line ++ at_ ++ u ": error: Expecting one of: " ++ join (u ", ") expected ++ u ".")
      end
  | UnexpectedToken expected found =>
      let* at_ := loc_fmt_p k bits (token_location found) in
      match expected with
      | [] => Crash ExplicitPanic
      | [x] => Done (at_ ++ u ": error: Unexpected token found: " ++ token_fmt found
                       ++ u ", expecting " ++ x ++ u ".")
      | _ => Done (at_ ++ u ": error: Unexpected token found: " ++ token_fmt found
                     ++ u ", expecting one of: " ++ join (u ", ") expected ++ u ".")
      end
  end.

(** assembler.rs:85-102 *)
Definition semantic_error_fmt_p (k : profile) (bits : N) (e : semantic_error) : run str :=
  match e with
  | DirectiveInvalid l reason =>
      let* at_ := loc_fmt_p k bits l in
      Done (at_ ++ u ": error: " ++ directive_error_fmt reason)
  | DirectiveTooLarge l d =>
      let* at_ := loc_fmt_p k bits l in
      Done (at_ ++ u ": error: Directive (" ++ directive_fmt d ++ u ") size "
              ++ fmt_dec (directive_size d) ++ u " exceeds 4096 bytes.")
  | DirectiveWouldOverflow l d =>
      let* at_ := loc_fmt_p k bits l in
      Done (at_ ++ u ": error: Directive (" ++ directive_fmt d
              ++ u ") would cause the 12-bit address counter to overflow.")
  | RedefinitionOfLabel l label =>
      let* at_ := loc_fmt_p k bits l in
      Done (at_ ++ u ": error: Attempted re-definition of label '" ++ label ++ u "'.")
  | InstructionWouldOverflow l =>
      let* at_ := loc_fmt_p k bits l in
      Done (at_ ++ u ": error: " ++ semantic_error_description e ++ u ".")
  | AssemblyFailed l reason =>
      let* at_ := loc_fmt_p k bits l in
      Done (at_ ++ u ": error: " ++ instruction_error_fmt reason)
  | ConstantWithoutLabel l =>
      let* at_ := loc_fmt_p k bits l in
      Done (at_ ++ u ": error: " ++ semantic_error_description e ++ u ".")
  end.

(** ** data_range.rs *)

(** data_range.rs:25-32 *)
Definition range_fmt_p (k : profile) (bits : N) (r : data_range) : run str :=
  let '(first, end_) := address_range r in
  let* last := sub_p k bits end_ 1 in
  Done (u "$" ++ pad_left (c_ "0") 3 (fmt_hex true first) ++ u "...$"
          ++ pad_left (c_ "0") 3 (fmt_hex true last)
          ++ u " (" ++ fmt_dec (range_len r) ++ u " bytes)").

(** data_range.rs:64-67.  The first subtraction is one of [U12], which never has more than 12 bits. *)
Definition bytes_remaining_p (k : profile) (bits : N) (r : data_range) : run N :=
  let* above := sub_p k 12 u12_max (dr_start r) in
  let* total_space_in_range := add_p k bits above 1 in
  sub_p k bits total_space_in_range (range_len r).

(** data_range.rs:72-79 *)
Definition range_append_p (k : profile) (bits : N) (r : data_range) (data : list byte) : run (bool * data_range) :=
  let* remaining := bytes_remaining_p k bits r in
  if N.of_nat (length data) <=? remaining
  then Done (true, mk_range (dr_start r) (dr_data r ++ data))
  else Done (false, r).

(** ** assembler.rs *)

(** assembler.rs:220 and 236 *)
Definition append_asserted_p (k : profile) (bits : N) (r : data_range) (bytes : list byte) : run data_range :=
  let* (ok, r') := range_append_p k bits r bytes in
  let* _ := assert_ ok in
  Done r'.

(** assembler.rs:198-252 *)
Fixpoint emit_loop_p (k : profile) (bits : N) (labels : label_map) (ranges : list data_range) (current : data_range)
         (l : list node) : run (result semantic_error (list data_range)) :=
  match l with
  | [] => Done (Ok (push_range ranges current))
  | NDirective _ id args :: rest =>
      match directive_from id args with
      | Err _ => Crash UnwrapFailed
      | Ok (Org address) =>
          emit_loop_p k bits labels (push_range ranges current) (range_new address) rest
      | Ok d =>
          let* current := append_asserted_p k bits current (directive_into_vec d) in
          emit_loop_p k bits labels ranges current rest
      end
  | NInstruction location mnemonic fields :: rest =>
      match instruction_from mnemonic fields labels with
      | Err reason => Done (Err (AssemblyFailed location reason))
      | Ok o =>
          let* bytes := instruction_into_vec o in
          let* current := append_asserted_p k bits current bytes in
          emit_loop_p k bits labels ranges current rest
      end
  | NLabel _ _ :: rest => emit_loop_p k bits labels ranges current rest
  end.

(** assembler.rs:259-262 *)
Definition assemble_p (k : profile) (bits : N) (syntax_list : list node)
  : run (result semantic_error (list data_range)) :=
  match define_labels syntax_list with
  | Err e => Done (Err e)
  | Ok labels => emit_loop_p k bits labels [] (range_new 0) syntax_list
  end.

(** ** ihex_writer.rs *)

(** ihex_writer.rs:36-58: [record_address] is a [u16] *)
Fixpoint data_records_p (k : profile) (address : N) (cs : list (list byte)) : run (list record) :=
  match cs with
  | [] => Done []
  | chunk :: rest =>
      let* next := add_p k 16 address (N.of_nat (length chunk)) in
      let* rs := data_records_p k next rest in
      Done (RData address chunk :: rs)
  end.

(** ihex_writer.rs:33-61 *)
Fixpoint range_records_p (k : profile) (ranges : list data_range) : run (list record) :=
  match ranges with
  | [] => Done []
  | r :: rest =>
      let* a := data_records_p k (fst (address_range r)) (chunks 16 (dr_data r)) in
      let* b := range_records_p k rest in
      Done (a ++ b)
  end.

(** ihex_writer.rs:27-68 *)
Definition ihex_representation_p (k : profile) (ranges : list data_range) : run str :=
  let* _ := assert_ (Nat.eqb (length (find_overlapping_ranges ranges)) 0) in
  let* records := range_records_p k ranges in
  let* s := unwrap (create_object_file (records ++ [REndOfFile])) in
  Done (s ++ [10]).

(** ** main.rs *)

(** main.rs:74-77 *)
Fixpoint overlap_report_p (k : profile) (bits : N) (e : env) (l : list (data_range * data_range)) : run str :=
  match l with
  | [] => Done []
  | (a, b) :: r =>
      let* sa := range_fmt_p k bits a in
      let* sb := range_fmt_p k bits b in
      let* rest := overlap_report_p k bits e r in
      Done (program_error e (u "  range " ++ sa ++ u " overlaps with:")
              ++ program_error e (u "  range " ++ sb) ++ rest)
  end.

(** main.rs:52-83 *)
Definition assemble_text_p (k : profile) (bits : N) (e : env) (path buffer : str) : run (result str str) :=
  let* tokens := scan_p k bits path buffer in
  let* parsed := parse tokens in
  match parsed with
  | Err message => let* s := parse_error_fmt_p k bits message in Done (Err (s ++ [10]))
  | Ok syntax_list =>
      let* assembled := assemble_p k bits syntax_list in
      match assembled with
      | Err message => let* s := semantic_error_fmt_p k bits message in Done (Err (s ++ [10]))
      | Ok data_ranges =>
          let overlapping := find_overlapping_ranges data_ranges in
          if Nat.ltb 0 (length overlapping) then
            let* s := overlap_report_p k bits e overlapping in
            Done (Err (program_error e (u "Input file specifies overlapping data ranges.")
                         ++ program_error e
                              (u "Data from one section has overflowed into the adjacent.")
                         ++ s))
          else
            let* result := ihex_representation_p k data_ranges in
            Done (Ok result)
      end
  end.

(** main.rs:34-105 *)
Definition assemble_file_p (k : profile) (bits : N) (e : env) (f : fs) (input_path output_path : str) : run outcome :=
  match read_input e f input_path with
  | Err message => fail message f
  | Ok buffer =>
      let* r := assemble_text_p k bits e input_path buffer in
      match r with
      | Err message => fail message f
      | Ok result => write_output e f output_path result
      end
  end.

(** main.rs:126-169 *)
Definition main_p (k : profile) (bits : N) (e : env) (f : fs) : run outcome :=
  match e_options e with
  | Err reason => fail (program_error e reason) f
  | Ok m =>
      if m_help m then Done (mk_outcome (utf8 (usage_text e)) 0 f)
      else if m_version m then Done (mk_outcome (utf8 version_text) 0 f)
      else
        let output_path := match m_output m with Some p => p | None => u "a.hex" end in
        match m_free m with
        | [input_path] => assemble_file_p k bits e f input_path output_path
        | _ => fail (usage_text e) f
        end
  end.
