(** * MessageB: the messages, and main.rs:34-84, with every text as the bytes it is.

    The other formatting functions only put texts one after the other, so they do for bytes as they are. *)

From Verif Require Import Base Text U12 Location Token ScannerB Parser Directive Opcode Instruction DataRange Assembler AssemblerB IHex Main.
Open Scope N_scope.

(** scanner.rs:62-71: [{}] of a [char] writes its UTF-8 *)
Definition scan_error_fmt_b (e : scan_error) : list byte :=
  match e with
  | DecimalLiteralOutOfRange literal =>
      u "Decimal literal " ++ literal ++ u " not in range (0...4095)."
  | InvalidCharacter c => u "Invalid character '" ++ utf8_char c ++ u "'."
  | _ => scan_error_description e ++ u "."
  end.

(** token.rs:63-75 *)
Definition token_fmt_b (t : token) : list byte :=
  match t with
  | ErrorToken reason _ => scan_error_fmt_b reason
  | _ => token_fmt t
  end.

(** parser.rs:49-79 *)
Definition parse_error_fmt_b (e : parse_error) : run (list byte) :=
  match e with
  | UnexpectedEndOfFile expected =>
      match expected with
      | [] => Crash ExplicitPanic
      | [x] => Done (u "error: Unexpected end-of-file reached, expecting " ++ x ++ u ".")
      | _ => Done (u "error: Unexpected end-of-file reached, expecting one of: "
                     ++ join (u ", ") expected ++ u ".")
      end
  | UnexpectedToken expected (ErrorToken reason location) =>
      let first_line := loc_fmt location ++ u ": error: Encountered syntax error: "
                          ++ scan_error_fmt_b reason ++ [10] in
      match expected with
      | [] => Crash ExplicitPanic
      | [x] => Done (first_line ++ loc_fmt location ++ u ": error: Expecting " ++ x ++ u ".")
      | _ => Done (first_line ++ loc_fmt location ++ u ": error: Expecting one of: "
                     ++ join (u ", ") expected ++ u ".")
      end
  | UnexpectedToken expected found =>
      let l := token_location found in
      match expected with
      | [] => Crash ExplicitPanic
      | [x] => Done (loc_fmt l ++ u ": error: Unexpected token found: " ++ token_fmt_b found
                       ++ u ", expecting " ++ x ++ u ".")
      | _ => Done (loc_fmt l ++ u ": error: Unexpected token found: " ++ token_fmt_b found
                     ++ u ", expecting one of: " ++ join (u ", ") expected ++ u ".")
      end
  end.

(** main.rs:34-84; [e] has the name of the program in bytes *)
Definition assemble_text_b (e : env) (path buffer : list byte) : run (result (list byte) (list byte)) :=
  let* tokens := scan_b path buffer in
  let* parsed := parse tokens in
  match parsed with
  | Err message => let* s := parse_error_fmt_b message in Done (Err (s ++ [10]))
  | Ok syntax_list =>
      let* assembled := assemble_b syntax_list in
      match assembled with
      | Err message => Done (Err (semantic_error_fmt message ++ [10]))
      | Ok data_ranges =>
          let overlapping := find_overlapping_ranges data_ranges in
          if Nat.ltb 0 (length overlapping) then
            let* s := overlap_report e overlapping in
            Done (Err (program_error e (u "Input file specifies overlapping data ranges.")
                         ++ program_error e
                              (u "Data from one section has overflowed into the adjacent.")
                         ++ s))
          else
            let* result := ihex_representation data_ranges in
            Done (Ok result)
      end
  end.
