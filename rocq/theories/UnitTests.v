(** * UnitTests: tests of the MODEL (not proofs of properties).

    The [#[cfg(test)]] modules of /repo/src/assembler, restated against the model:
    the inputs and the expected results are those of the Rust tests, so a test that
    passes here is one the model and the program agree on.  The tactic [same] makes
    the build fail when the two sides differ; as these are tests, the evaluation is
    not part of the proof term.  A Rust test marked [should_panic] expects a
    [Crash]. *)

From Verif Require Import Base Text U12 Location Token Scanner Parser Directive Opcode
  Instruction DataRange Assembler IHex.
Open Scope string_scope.
Open Scope list_scope.
Open Scope N_scope.

Ltac same a b :=
  let x := eval vm_compute in a in
  let y := eval vm_compute in b in
  tryif constr_eq x y then idtac else fail 1 "model:" x "expected:" y.

Definition crashes {A : Type} (r : run A) : bool :=
  match r with Crash _ => true | _ => false end.

Definition at_ (line location length : N) : loc := mk_loc (u "-") line location length.

(** source_file_location.rs:57-61 *)
Goal True. (* test_display_fmt_one_character *)
Proof.
  same (match loc_new (u "test_file.s") 1 1 1 with Done l => loc_fmt l | _ => [] end)
       (u "test_file.s:1:1").
  exact I.
Qed.

(** source_file_location.rs:63-69 *)
Goal True. (* test_display_fmt_many_characters *)
Proof.
  same (match loc_new (u "test_file.s") 2 3 2 with Done l => loc_fmt l | _ => [] end)
       (u "test_file.s:2:3-4").
  same (match loc_new (u "test_file.s") 2 3 5 with Done l => loc_fmt l | _ => [] end)
       (u "test_file.s:2:3-7").
  exact I.
Qed.

(** source_file_location.rs:71-77 *)
Goal True. (* test_display_fmt_empty_file_name *)
Proof.
  same (match loc_new (u "") 1 1 1 with Done l => loc_fmt l | _ => [] end)
       (u ":1:1").
  same (match loc_new (u "") 1 2 3 with Done l => loc_fmt l | _ => [] end)
       (u ":1:2-4").
  exact I.
Qed.

(** source_file_location.rs:79-95 *)
Goal True. (* test_new_asserts_on_zero_* *)
Proof.
  same (crashes (loc_new (u "test.s") 0 2 3))
       (true).
  same (crashes (loc_new (u "test.s") 1 0 3))
       (true).
  same (crashes (loc_new (u "test.s") 1 2 0))
       (true).
  exact I.
Qed.

(** token.rs:103-118 *)
Goal True. (* test_display_fmt *)
Proof.
  same (token_fmt (SingleLineComment (u "; Hello") (at_ 1 1 1)))
       (u "single-line comment").
  same (token_fmt (DirectiveMarker (at_ 1 1 1)))
       (u "directive marker").
  same (token_fmt (Identifier (u "test_id") (at_ 1 1 1)))
       (u "identifier (test_id)").
  same (token_fmt (LabelMarker (at_ 1 1 1)))
       (u "label marker").
  same (token_fmt (StringLiteral (u "Hello") (at_ 1 1 1)))
       (u "string literal (""Hello"")").
  same (token_fmt (NumericLiteral 12 (at_ 1 1 1)))
       (u "numeric literal (12 / $C)").
  same (token_fmt (Comma (at_ 1 1 1)))
       (u "comma").
  same (token_fmt (Newline (at_ 1 1 1)))
       (u "newline").
  same (token_fmt (ErrorToken InvalidStringLiteral (at_ 1 1 1)))
       (scan_error_description InvalidStringLiteral ++ u ".").
  exact I.
Qed.

(** scanner.rs:503-512 *)
Goal True. (* test_parse_12_bit_bin_str *)
Proof.
  same (parse_12_bit_bin_str (u ""))
       (@Ok scan_error N 0).
  same (parse_12_bit_bin_str (u "...000."))
       (@Ok scan_error N 0).
  same (parse_12_bit_bin_str (u "...0001"))
       (@Ok scan_error N 1).
  same (parse_12_bit_bin_str (u ".....111111111111"))
       (@Ok scan_error N 4095).
  same (parse_12_bit_bin_str (u "....1000000000000"))
       (@Err scan_error N (BinaryLiteralOutOfRange (u "....1000000000000"))).
  same (parse_12_bit_bin_str (u "...11111111111111"))
       (@Err scan_error N (BinaryLiteralOutOfRange (u "...11111111111111"))).
  same (parse_12_bit_bin_str (u "...1111111111111+"))
       (@Err scan_error N InvalidBinaryLiteral).
  exact I.
Qed.

(** [is_at_end] before each call of [next], the tokens, and [is_at_end] when [next]
    has returned [None] (or after [n] calls). *)
Fixpoint trace (n : nat) (sc : scanner) : run (list (bool * option token) * bool) :=
  match n with
  | O => Done ([], is_at_end sc)
  | S n =>
      let* (t, sc') := next_token sc in
      let* (r, e) := trace n sc' in
      Done ((is_at_end sc, t) :: r, e)
  end.

Definition tokens_of (s : str) : run (list token) := scan (u "-") s.

(** scanner.rs:514-519 *)
Goal True. (* test_is_at_end_empty_string *)
Proof.
  same (trace 1 (scanner_new (u "-") (u "")))
       (@Done (list (bool * option token) * bool) ([(true, None)], true)).
  exact I.
Qed.

(** scanner.rs:521-525 *)
Goal True. (* test_is_at_end_non_empty_string *)
Proof.
  same (is_at_end (scanner_new (u "-") (u "NON_EMPTY_STRING")))
       (false).
  exact I.
Qed.

(** scanner.rs:527-533 *)
Goal True. (* test_next_whitespace_only *)
Proof.
  same (trace 1 (scanner_new (u "-") (u "    " ++ [9])))
       (@Done (list (bool * option token) * bool) ([(false, None)], true)).
  exact I.
Qed.

(** scanner.rs:537-543 *)
Goal True. (* test_directive_marker *)
Proof.
  same (trace 1 (scanner_new (u "-") (u ".")))
       (@Done (list (bool * option token) * bool) ([(false, Some (DirectiveMarker (at_ 1 1 1)))], true)).
  exact I.
Qed.

(** scanner.rs:545-551 *)
Goal True. (* test_label_marker *)
Proof.
  same (trace 1 (scanner_new (u "-") (u ":")))
       (@Done (list (bool * option token) * bool) ([(false, Some (LabelMarker (at_ 1 1 1)))], true)).
  exact I.
Qed.

(** scanner.rs:553-559 *)
Goal True. (* test_comma *)
Proof.
  same (trace 1 (scanner_new (u "-") (u ",")))
       (@Done (list (bool * option token) * bool) ([(false, Some (Comma (at_ 1 1 1)))], true)).
  exact I.
Qed.

(** scanner.rs:563-573 *)
Goal True. (* test_newline *)
Proof.
  same (trace 3 (scanner_new (u "-") [10; 10; 32; 10]))
       (@Done (list (bool * option token) * bool) ([(false, Some (Newline (at_ 1 1 1))); (false, Some (Newline (at_ 2 1 1))); (false, Some (Newline (at_ 3 2 1)))], true)).
  exact I.
Qed.

(** scanner.rs:575-595 *)
Goal True. (* test_comment *)
Proof.
  same (trace 1 (scanner_new (u "-") (u ";")))
       (@Done (list (bool * option token) * bool) ([(false, Some (SingleLineComment (u ";") (at_ 1 1 1)))], true)).
  same (trace 2 (scanner_new (u "-") (u ";" ++ [10])))
       (@Done (list (bool * option token) * bool) ([(false, Some (SingleLineComment (u ";") (at_ 1 1 1))); (false, Some (Newline (at_ 1 2 1)))], true)).
  same (trace 2 (scanner_new (u "-") (u "; Single-Line Comment" ++ [10])))
       (@Done (list (bool * option token) * bool) ([(false, Some (SingleLineComment (u "; Single-Line Comment") (at_ 1 1 21))); (false, Some (Newline (at_ 1 22 1)))], true)).
  exact I.
Qed.

(** scanner.rs:599-624 *)
Goal True. (* test_identifier *)
Proof.
  same (tokens_of (u "_ _a a _A A _0 _aA _zZ9"))
       (@Done (list token) [Identifier (u "_") (at_ 1 1 1);
         Identifier (u "_a") (at_ 1 3 2);
         Identifier (u "a") (at_ 1 6 1);
         Identifier (u "_A") (at_ 1 8 2);
         Identifier (u "A") (at_ 1 11 1);
         Identifier (u "_0") (at_ 1 13 2);
         Identifier (u "_aA") (at_ 1 16 3);
         Identifier (u "_zZ9") (at_ 1 20 4)]).
  same (tokens_of (u "_&"))
       (@Done (list token) [Identifier (u "_") (at_ 1 1 1);
         ErrorToken (InvalidCharacter 38) (at_ 1 2 1)]).
  same (tokens_of (u "_$0"))
       (@Done (list token) [Identifier (u "_") (at_ 1 1 1);
         NumericLiteral 0 (at_ 1 2 2)]).
  exact I.
Qed.

(** scanner.rs:626-631 *)
Goal True. (* test_index_register_indirect *)
Proof.
  same (match tokens_of (u "[i] [a]") with Done l => firstn 2 l | _ => [] end)
       ([Identifier (u "[i]") (at_ 1 1 3); ErrorToken ExpectedRegisterIndirect (at_ 1 5 1)]).
  exact I.
Qed.

(** scanner.rs:633-648 *)
Goal True. (* test_numeric_literal_hex *)
Proof.
  same (tokens_of (u "$0 $00 $000 $1 $F $FF $1FF $1_0 $"))
       (@Done (list token) [NumericLiteral 0x0 (at_ 1 1 2);
         NumericLiteral 0x00 (at_ 1 4 3);
         NumericLiteral 0x000 (at_ 1 8 4);
         NumericLiteral 0x1 (at_ 1 13 2);
         NumericLiteral 0xF (at_ 1 16 2);
         NumericLiteral 0xFF (at_ 1 19 3);
         NumericLiteral 0x1FF (at_ 1 23 4);
         NumericLiteral 0x1 (at_ 1 28 2);
         Identifier (u "_0") (at_ 1 30 2);
         ErrorToken InvalidHexadecimalLiteral (at_ 1 33 1)]).
  exact I.
Qed.

(** scanner.rs:650-665 *)
Goal True. (* test_numeric_literal_alternate_leading_indicator *)
Proof.
  same (tokens_of (u "#0 #00 #000 #1 #F #FF #1FF #1_0 #"))
       (@Done (list token) [NumericLiteral 0x0 (at_ 1 1 2);
         NumericLiteral 0x00 (at_ 1 4 3);
         NumericLiteral 0x000 (at_ 1 8 4);
         NumericLiteral 0x1 (at_ 1 13 2);
         NumericLiteral 0xF (at_ 1 16 2);
         NumericLiteral 0xFF (at_ 1 19 3);
         NumericLiteral 0x1FF (at_ 1 23 4);
         NumericLiteral 0x1 (at_ 1 28 2);
         Identifier (u "_0") (at_ 1 30 2);
         ErrorToken InvalidHexadecimalLiteral (at_ 1 33 1)]).
  exact I.
Qed.

(** scanner.rs:667-682 *)
Goal True. (* test_numeric_literal_dec *)
Proof.
  same (tokens_of (u "0 00 000 1 15 255 4095 1_0 4096"))
       (@Done (list token) [NumericLiteral 0 (at_ 1 1 1);
         NumericLiteral 0 (at_ 1 3 2);
         NumericLiteral 0 (at_ 1 6 3);
         NumericLiteral 1 (at_ 1 10 1);
         NumericLiteral 15 (at_ 1 12 2);
         NumericLiteral 255 (at_ 1 15 3);
         NumericLiteral 4095 (at_ 1 19 4);
         NumericLiteral 1 (at_ 1 24 1);
         Identifier (u "_0") (at_ 1 25 2);
         ErrorToken (DecimalLiteralOutOfRange (u "4096")) (at_ 1 28 4)]).
  exact I.
Qed.

(** scanner.rs:684-699 *)
Goal True. (* test_numeric_literal_bin *)
Proof.
  same (tokens_of (u "%0 %.. %0.. %1 %1111 %11111111 %111111111 %1_0 %"))
       (@Done (list token) [NumericLiteral 0 (at_ 1 1 2);
         NumericLiteral 0 (at_ 1 4 3);
         NumericLiteral 0 (at_ 1 8 4);
         NumericLiteral 1 (at_ 1 13 2);
         NumericLiteral 0xF (at_ 1 16 5);
         NumericLiteral 0xFF (at_ 1 22 9);
         NumericLiteral 0x1FF (at_ 1 32 10);
         NumericLiteral 1 (at_ 1 43 2);
         Identifier (u "_0") (at_ 1 45 2);
         ErrorToken InvalidBinaryLiteral (at_ 1 48 1)]).
  exact I.
Qed.

(** scanner.rs:701-711 *)
Goal True. (* test_string_literal *)
Proof.
  same (tokens_of (u """"" ""a"" """ ++ [0x1F60A; 0x1F61E] ++ u """ ""123"" ""end-of-line"))
       (@Done (list token) [StringLiteral (u "") (at_ 1 1 2);
         StringLiteral (u "a") (at_ 1 4 3);
         StringLiteral ([0x1F60A; 0x1F61E]) (at_ 1 8 4);
         StringLiteral (u "123") (at_ 1 13 5);
         ErrorToken InvalidStringLiteral (at_ 1 19 1)]).
  exact I.
Qed.

(** scanner.rs:713-719 *)
Goal True. (* test_string_literal_multiline *)
Proof.
  same (tokens_of (u """Hello " ++ [0x1F60A; 10; 0x1F433] ++ u " World"""))
       (@Done (list token) [StringLiteral (u "Hello " ++ [0x1F60A; 10; 0x1F433] ++ u " World") (at_ 1 1 9)]).
  exact I.
Qed.

(** parser.rs:532-538 *)
Goal True. (* test_error_display_unexpected_eof *)
Proof.
  same (parse_error_fmt (UnexpectedEndOfFile [dn_comma]))
       (@Done str (u "error: Unexpected end-of-file reached, expecting comma.")).
  same (parse_error_fmt (UnexpectedEndOfFile [dn_comma; dn_string_literal]))
       (@Done str (u "error: Unexpected end-of-file reached, expecting one of: comma, string literal.")).
  exact I.
Qed.

(** parser.rs:540-544 *)
Goal True. (* test_error_display_unexpected_eof_panics_on_zero_expectations *)
Proof.
  same (crashes (parse_error_fmt (UnexpectedEndOfFile [])))
       (true).
  exact I.
Qed.

(** parser.rs:546-566 *)
Goal True. (* test_error_display_unexpected_token_error *)
Proof.
  same (parse_error_fmt (UnexpectedToken [dn_comma] (ErrorToken InvalidStringLiteral (at_ 1 1 1))))
       (@Done str (u "-:1:1: error: Encountered syntax error: Invalid quoted string literal." ++ [10] ++ u "-:1:1: error: Expecting comma.")).
  same (parse_error_fmt (UnexpectedToken [dn_comma; dn_string_literal] (ErrorToken InvalidStringLiteral (at_ 1 1 1))))
       (@Done str (u "-:1:1: error: Encountered syntax error: Invalid quoted string literal." ++ [10] ++ u "-:1:1: error: Expecting one of: comma, string literal.")).
  exact I.
Qed.

(** parser.rs:568-576 *)
Goal True. (* test_error_display_unexpected_token_error_panics_on_zero_expectations *)
Proof.
  same (crashes (parse_error_fmt (UnexpectedToken [] (ErrorToken InvalidStringLiteral (at_ 1 1 1)))))
       (true).
  exact I.
Qed.

(** parser.rs:578-594 *)
Goal True. (* test_error_display_unexpected_token *)
Proof.
  same (parse_error_fmt (UnexpectedToken [dn_newline] (Comma (at_ 1 1 1))))
       (@Done str (u "-:1:1: error: Unexpected token found: comma, expecting newline.")).
  same (parse_error_fmt (UnexpectedToken [dn_newline; dn_string_literal] (Comma (at_ 1 1 1))))
       (@Done str (u "-:1:1: error: Unexpected token found: comma, expecting one of: newline, string literal.")).
  exact I.
Qed.

(** parser.rs:596-604 *)
Goal True. (* test_error_display_unexpected_token_panics_on_zero_expectations *)
Proof.
  same (crashes (parse_error_fmt (UnexpectedToken [] (Comma (at_ 1 1 1)))))
       (true).
  exact I.
Qed.

(** Run one of the parser's functions on a text, as [Parser::new(Scanner::new("-", s))]
    and keep its result. *)
Definition parsed {A : Type} (f : parser -> presult A) (s : str) : run (result parse_error A) :=
  let* ts := tokens_of s in
  let* r := f (parser_new ts) in
  Done match r with Ok (a, _) => Ok a | Err e => Err e end.

Definition literals (s : str) := parsed (fun p => parse_literal_list 20 p []) s.
Definition fields_of (s : str) := parsed (fun p => parse_field_list 20 p []) s.
Definition good {A : Type} (a : A) : run (result parse_error A) := Done (Ok a).
Definition bad {A : Type} (e : parse_error) : run (result parse_error A) := Done (Err e).

(** parser.rs:606-652 *)
Goal True. (* test_parse_literal_list *)
Proof.
  same (literals (u ""))
       (@bad (list literal) (UnexpectedEndOfFile [dn_numeric_literal; dn_string_literal])).
  same (literals (u "," ++ [10]))
       (@bad (list literal) (UnexpectedToken [dn_numeric_literal; dn_string_literal] (Comma (at_ 1 1 1)))).
  same (literals ([10]))
       (@good (list literal) []).
  same (literals (u "1" ++ [10]))
       (@good (list literal) [LNumeric 1]).
  same (literals (u """Hello""" ++ [10]))
       (@good (list literal) [LString (u "Hello")]).
  same (literals (u "1," ++ [10]))
       (@good (list literal) [LNumeric 1]).
  same (literals (u "1,2,3" ++ [10]))
       (@good (list literal) [LNumeric 1; LNumeric 2; LNumeric 3]).
  same (literals (u "1,""Hello"",3" ++ [10]))
       (@good (list literal) [LNumeric 1; LString (u "Hello"); LNumeric 3]).
  exact I.
Qed.

(** parser.rs:654-682 *)
Goal True. (* test_parse_directive *)
Proof.
  same (parsed (parse_directive 20) (u ".org $100" ++ [10]))
       (good (NDirective (at_ 1 2 3) (u "org") [LNumeric 0x100])).
  same (parsed (parse_directive 20) (u ".db ""Hello, World!"", $0" ++ [10]))
       (good (NDirective (at_ 1 2 2) (u "db") [LString (u "Hello, World!"); LNumeric 0])).
  same (parsed (parse_directive 20) (u ".test" ++ [10]))
       (good (NDirective (at_ 1 2 4) (u "test") [])).
  exact I.
Qed.

(** parser.rs:684-693 *)
Goal True. (* test_parse_label *)
Proof.
  same (parsed parse_label (u "a:" ++ [10]))
       (good (NLabel (at_ 1 1 1) (u "a"))).
  exact I.
Qed.

(** parser.rs:695-777 *)
Goal True. (* test_parse_field_list *)
Proof.
  same (fields_of (u ""))
       (@bad (list field) (UnexpectedEndOfFile [dn_instruction_field])).
  same (fields_of (u "," ++ [10]))
       (@bad (list field) (UnexpectedToken [dn_instruction_field] (Comma (at_ 1 1 1)))).
  same (fields_of (u """Hello""" ++ [10]))
       (@bad (list field) (UnexpectedToken [dn_instruction_field] (StringLiteral (u "Hello") (at_ 1 1 7)))).
  same (fields_of (u "" ++ [10]))
       (@good (list field) []).
  same (fields_of (u "$00" ++ [10]))
       (@good (list field) [FNumeric 0]).
  same (fields_of (u "v1" ++ [10]))
       (@good (list field) [FRegister 1]).
  same (fields_of (u "dt" ++ [10]))
       (@good (list field) [FDelayTimer]).
  same (fields_of (u "st" ++ [10]))
       (@good (list field) [FSoundTimer]).
  same (fields_of (u "k" ++ [10]))
       (@good (list field) [FKeypad]).
  same (fields_of (u "i" ++ [10]))
       (@good (list field) [FIndex]).
  same (fields_of (u "[i]" ++ [10]))
       (@good (list field) [FIndexIndirect]).
  same (fields_of (u "LABEL" ++ [10]))
       (@good (list field) [FIdentifier (u "LABEL")]).
  same (fields_of (u "b" ++ [10]))
       (@good (list field) [FBcd]).
  same (fields_of (u "f" ++ [10]))
       (@good (list field) [FSprite]).
  same (fields_of (u "$FF," ++ [10]))
       (@good (list field) [FNumeric 255]).
  same (fields_of (u "v0,vf" ++ [10]))
       (@good (list field) [FRegister 0; FRegister 15]).
  same (fields_of (u "v1,v2,$ff" ++ [10]))
       (@good (list field) [FRegister 1; FRegister 2; FNumeric 255]).
  exact I.
Qed.

(** parser.rs:779-811 *)
Goal True. (* test_parse_instruction *)
Proof.
  same (parsed (parse_instruction 20) (u "nop" ++ [10]))
       (good (NInstruction (at_ 1 1 3) (u "nop") [])).
  same (parsed (parse_instruction 20) (u "jp $002" ++ [10]))
       (good (NInstruction (at_ 1 1 2) (u "jp") [FNumeric 2])).
  same (parsed (parse_instruction 20) (u "drw v1, v2, $fe" ++ [10]))
       (good (NInstruction (at_ 1 1 3) (u "drw") [FRegister 1; FRegister 2; FNumeric 254])).
  exact I.
Qed.

(** parser.rs:813-845 *)
Goal True. (* test_parse_instruction_trailing_comment *)
Proof.
  same (parsed (parse_instruction 20) (u "nop;test_comment" ++ [10]))
       (good (NInstruction (at_ 1 1 3) (u "nop") [])).
  same (parsed (parse_instruction 20) (u "jp $002;test_comment" ++ [10]))
       (good (NInstruction (at_ 1 1 2) (u "jp") [FNumeric 2])).
  same (parsed (parse_instruction 20) (u "drw v1, v2, $fe, ;test_comment" ++ [10]))
       (good (NInstruction (at_ 1 1 3) (u "drw") [FRegister 1; FRegister 2; FNumeric 254])).
  exact I.
Qed.

(** directive.rs:212-228 *)
Goal True. (* test_error_display *)
Proof.
  same (directive_error_fmt (IncorrectNumberOfParameters name_org 0 1 false))
       (u "Incorrect number of parameters (0) for directive .org, expecting 1.").
  same (directive_error_fmt (IncorrectNumberOfParameters name_org 2 1 false))
       (u "Incorrect number of parameters (2) for directive .org, expecting 1.").
  same (directive_error_fmt (IncorrectNumberOfParameters name_org 0 1 true))
       (u "Incorrect number of parameters (0) for directive .org, expecting 1 or more.").
  same (directive_error_fmt (DirectiveRequiresOneNumericLiteral name_db))
       (u "Directive .db requires 1 numeric literal in the range $000-$FFF.").
  same (directive_error_fmt (DirectiveRequiresOneNumericLiteral name_equ))
       (u "Directive .equ requires 1 numeric literal in the range $000-$FFF.").
  same (directive_error_fmt (AllNumericParametersMustBeByteLiterals name_org 0x100))
       (u "All numeric parameters to .org must be 1-byte literals ($100 > $FF).").
  same (directive_error_fmt (UnrecognizedDirective (u "dw")))
       (u "Unrecognized directive '.dw'.").
  exact I.
Qed.

(** directive.rs:230-244 *)
Goal True. (* test_validate_directive_semantics_for_org *)
Proof.
  same (directive_from (u "org") [])
       (@Err directive_error directive (IncorrectNumberOfParameters name_org 0 1 false)).
  same (directive_from (u "org") [LNumeric 1; LNumeric 3])
       (@Err directive_error directive (IncorrectNumberOfParameters name_org 2 1 false)).
  same (directive_from (u "org") [LNumeric 0x1000])
       (@Err directive_error directive (DirectiveRequiresOneNumericLiteral name_org)).
  same (directive_from (u "org") [LString (u "TEST_STRING")])
       (@Err directive_error directive (DirectiveRequiresOneNumericLiteral name_org)).
  same (directive_from (u "org") [LNumeric 0xFFF])
       (@Ok directive_error directive (Org u12_max)).
  same (directive_from (u "org") [LNumeric 0x000])
       (@Ok directive_error directive (Org 0)).
  exact I.
Qed.

(** directive.rs:262-276 *)
Goal True. (* test_validate_directive_semantics_for_equ *)
Proof.
  same (directive_from (u "equ") [])
       (@Err directive_error directive (IncorrectNumberOfParameters name_equ 0 1 false)).
  same (directive_from (u "equ") [LNumeric 1; LNumeric 3])
       (@Err directive_error directive (IncorrectNumberOfParameters name_equ 2 1 false)).
  same (directive_from (u "equ") [LNumeric 0x1000])
       (@Err directive_error directive (DirectiveRequiresOneNumericLiteral name_equ)).
  same (directive_from (u "equ") [LString (u "TEST_STRING")])
       (@Err directive_error directive (DirectiveRequiresOneNumericLiteral name_equ)).
  same (directive_from (u "equ") [LNumeric 0xFFF])
       (@Ok directive_error directive (Equ u12_max)).
  same (directive_from (u "equ") [LNumeric 0x000])
       (@Ok directive_error directive (Equ 0)).
  exact I.
Qed.

(** directive.rs:246-260 *)
Goal True. (* test_validate_directive_semantics_for_db *)
Proof.
  same (directive_from (u "db") [])
       (@Err directive_error directive (IncorrectNumberOfParameters name_db 0 1 true)).
  same (directive_from (u "db") [LNumeric 0x100])
       (@Err directive_error directive (AllNumericParametersMustBeByteLiterals name_db 0x100)).
  same (directive_from (u "db") [LString (u "TEST_STRING")])
       (@Ok directive_error directive (Db (u "TEST_STRING"))).
  same (directive_from (u "db") [LNumeric 0xFF])
       (@Ok directive_error directive (Db [0xFF])).
  same (directive_from (u "db") [LNumeric 0x00])
       (@Ok directive_error directive (Db [0])).
  same (directive_from (u "db") [LString (u "TEST_STRING"); LNumeric 0x00])
       (@Ok directive_error directive (Db (u "TEST_STRING" ++ [0]))).
  exact I.
Qed.

(** directive.rs:278-284 *)
Goal True. (* test_validate_directive_semantics_for_invalid_directive *)
Proof.
  same (directive_from (u "dw") [])
       (@Err directive_error directive (UnrecognizedDirective (u "dw"))).
  same (directive_from (u "dw") [LNumeric 0x100])
       (@Err directive_error directive (UnrecognizedDirective (u "dw"))).
  exact I.
Qed.

(** directive.rs:286-310 *)
Goal True. (* test_size_of_directive_for_* *)
Proof.
  same (match directive_from (u "org") [LNumeric 0xFFF] with Ok d => Some (directive_size d) | _ => None end)
       (Some 0%N).
  same (match directive_from (u "db") [LNumeric 0xFF] with Ok d => Some (directive_size d) | _ => None end)
       (Some 1%N).
  same (match directive_from (u "db") [LString (u "TEST_STRING")] with Ok d => Some (directive_size d) | _ => None end)
       (Some 11%N).
  same (match directive_from (u "db") [LString (u "TEST_STRING"); LNumeric 0] with Ok d => Some (directive_size d) | _ => None end)
       (Some 12%N).
  same (match directive_from (u "equ") [LNumeric 0xFFF] with Ok d => Some (directive_size d) | _ => None end)
       (Some 0%N).
  exact I.
Qed.

(** opcode.rs:258-279.  The loop of the test stops before [0xFFFF]; so does this one. *)
Definition round_trips (i : N) : bool :=
  match as_instruction (from_instruction i) with
  | Done w =>
      match as_instruction (from_instruction w) with
      | Done w' =>
          (w' =? w) && match from_instruction i with NOP => true | _ => i =? w' end
      | _ => false
      end
  | _ => false
  end.

Fixpoint all_below (n : nat) (p : N -> bool) (i : N) : bool :=
  match n with O => true | S n => p i && all_below n p (i + 1) end.

(** opcode.rs:258-279 *)
Goal True. (* test_from_instruction_round_trips *)
Proof.
  same (all_below (N.to_nat 0xFFFF) round_trips 0)
       (true).
  exact I.
Qed.

(** opcode.rs:281-328 *)
Goal True. (* test_to_assembly_string *)
Proof.
  same (to_assembly_string (from_instruction 0x0000))
       (u "nop").
  same (to_assembly_string (from_instruction 0x00E0))
       (u "cls").
  same (to_assembly_string (from_instruction 0x00EE))
       (u "ret").
  same (to_assembly_string (from_instruction 0x00F8))
       (u "ld i, [i]").
  same (to_assembly_string (from_instruction 0x00F9))
       (u "trapret").
  same (to_assembly_string (from_instruction 0x00FA))
       (u "trap").
  same (to_assembly_string (from_instruction 0x1456))
       (u "jp $456").
  same (to_assembly_string (from_instruction 0x2789))
       (u "call $789").
  same (to_assembly_string (from_instruction 0x31DE))
       (u "se v1, $de").
  same (to_assembly_string (from_instruction 0x42EF))
       (u "sne v2, $ef").
  same (to_assembly_string (from_instruction 0x5560))
       (u "se v5, v6").
  same (to_assembly_string (from_instruction 0x6155))
       (u "ld v1, $55").
  same (to_assembly_string (from_instruction 0x7266))
       (u "add v2, $66").
  same (to_assembly_string (from_instruction 0x8340))
       (u "ld v3, v4").
  same (to_assembly_string (from_instruction 0x8561))
       (u "or v5, v6").
  same (to_assembly_string (from_instruction 0x8562))
       (u "and v5, v6").
  same (to_assembly_string (from_instruction 0x8563))
       (u "xor v5, v6").
  same (to_assembly_string (from_instruction 0x8564))
       (u "add v5, v6").
  same (to_assembly_string (from_instruction 0x8565))
       (u "sub v5, v6").
  same (to_assembly_string (from_instruction 0x8566))
       (u "shr v5").
  same (to_assembly_string (from_instruction 0x8567))
       (u "subn v5, v6").
  same (to_assembly_string (from_instruction 0x856E))
       (u "shl v5").
  same (to_assembly_string (from_instruction 0x9EF0))
       (u "sne ve, vf").
  same (to_assembly_string (from_instruction 0xADEF))
       (u "ld i, $def").
  same (to_assembly_string (from_instruction 0xB234))
       (u "jp v0, $234").
  same (to_assembly_string (from_instruction 0xC18F))
       (u "rnd v1, $8f").
  same (to_assembly_string (from_instruction 0xD234))
       (u "drw v2, v3, $4").
  same (to_assembly_string (from_instruction 0xE19E))
       (u "skp v1").
  same (to_assembly_string (from_instruction 0xE1A1))
       (u "sknp v1").
  same (to_assembly_string (from_instruction 0xF207))
       (u "ld v2, dt").
  same (to_assembly_string (from_instruction 0xF30A))
       (u "ld v3, k").
  same (to_assembly_string (from_instruction 0xF315))
       (u "ld dt, v3").
  same (to_assembly_string (from_instruction 0xF318))
       (u "ld st, v3").
  same (to_assembly_string (from_instruction 0xF51E))
       (u "add i, v5").
  same (to_assembly_string (from_instruction 0xF629))
       (u "ld f, v6").
  same (to_assembly_string (from_instruction 0xF733))
       (u "ld b, v7").
  same (to_assembly_string (from_instruction 0xFE55))
       (u "ld [i], ve").
  same (to_assembly_string (from_instruction 0xFF65))
       (u "ld vf, [i]").
  exact I.
Qed.

(** The [label_map], [defined_map] and [empty_map] of the instruction tests. *)
Definition label_map_ : label_map :=
  [(u "TWELVE_BITS", u12_max); (u "EIGHT_BITS", 255); (u "FOUR_BITS", 15)].
Definition defined_map : label_map := [(u "TEST_LABEL", u12_max)].
Definition empty_map : label_map := [].

Definition ok_op (o : opcode) : result instruction_error opcode := Ok o.
Definition err_op (e : instruction_error) : result instruction_error opcode := Err e.

(** instruction.rs:402-414 *)
Goal True. (* test_error_display *)
Proof.
  same (instruction_error_fmt (UnableToResolveLabel (u "TEST_LABEL")))
       (u "Unable to resolve label TEST_LABEL.").
  same (instruction_error_fmt (ExpectingEightBitValue 0x100))
       (u "Found 12-bit numeric value $100, expecting 8-bit value.").
  same (instruction_error_fmt (ExpectingFourBitValue 0x10))
       (u "Found 8/12-bit numeric value $10, expecting 4-bit value.").
  same (instruction_error_fmt (NoMatchingFormat (u "jp") (Some (u "register:0"))))
       (u "No matching instruction: jp register:0.").
  same (instruction_error_fmt (NoMatchingFormat (u "jp") None))
       (u "No matching instruction: jp.").
  exact I.
Qed.

(** instruction.rs:416-422 *)
Goal True. (* test_nop *)
Proof.
  same (match instruction_from (u "nop") [] empty_map with Ok o => match instruction_into_vec o with Done v => length v | _ => O end | _ => O end)
       (2%nat).
  same (instruction_from (u "nop") [] empty_map)
       (ok_op (NOP)).
  exact I.
Qed.

(** instruction.rs:424-430 *)
Goal True. (* test_cls *)
Proof.
  same (match instruction_from (u "cls") [] empty_map with Ok o => match instruction_into_vec o with Done v => length v | _ => O end | _ => O end)
       (2%nat).
  same (instruction_from (u "cls") [] empty_map)
       (ok_op (CLS)).
  exact I.
Qed.

(** instruction.rs:432-442 *)
Goal True. (* test_deref_i *)
Proof.
  same (match instruction_from (u "ld") [FIndex; FIndexIndirect] empty_map with Ok o => match instruction_into_vec o with Done v => length v | _ => O end | _ => O end)
       (2%nat).
  same (instruction_from (u "ld") [FIndex; FIndexIndirect] empty_map)
       (ok_op (DEREF_I)).
  exact I.
Qed.

(** instruction.rs:444-450 *)
Goal True. (* test_ret *)
Proof.
  same (match instruction_from (u "ret") [] empty_map with Ok o => match instruction_into_vec o with Done v => length v | _ => O end | _ => O end)
       (2%nat).
  same (instruction_from (u "ret") [] empty_map)
       (ok_op (RET)).
  exact I.
Qed.

(** instruction.rs:452-458 *)
Goal True. (* test_trapret *)
Proof.
  same (match instruction_from (u "trapret") [] empty_map with Ok o => match instruction_into_vec o with Done v => length v | _ => O end | _ => O end)
       (2%nat).
  same (instruction_from (u "trapret") [] empty_map)
       (ok_op (TRAPRET)).
  exact I.
Qed.

(** instruction.rs:460-466 *)
Goal True. (* test_trap *)
Proof.
  same (match instruction_from (u "trap") [] empty_map with Ok o => match instruction_into_vec o with Done v => length v | _ => O end | _ => O end)
       (2%nat).
  same (instruction_from (u "trap") [] empty_map)
       (ok_op (TRAP)).
  exact I.
Qed.

(** instruction.rs:468-495 *)
Goal True. (* test_jp *)
Proof.
  same (instruction_from (u "jp") [] empty_map)
       (err_op (NoMatchingFormat (u "jp") None)).
  same (instruction_from (u "jp") [FIdentifier (u "TEST_LABEL")] empty_map)
       (err_op (UnableToResolveLabel (u "TEST_LABEL"))).
  same (match instruction_from (u "jp") [FNumeric u12_max] empty_map with Ok o => match instruction_into_vec o with Done v => length v | _ => O end | _ => O end)
       (2%nat).
  same (instruction_from (u "jp") [FNumeric u12_max] empty_map)
       (ok_op (JP u12_max)).
  same (match instruction_from (u "jp") [FIdentifier (u "TEST_LABEL")] defined_map with Ok o => match instruction_into_vec o with Done v => length v | _ => O end | _ => O end)
       (2%nat).
  same (instruction_from (u "jp") [FIdentifier (u "TEST_LABEL")] defined_map)
       (ok_op (JP u12_max)).
  exact I.
Qed.

(** instruction.rs:497-526 *)
Goal True. (* test_jp_v0 *)
Proof.
  same (instruction_from (u "jp") [FRegister 0] empty_map)
       (err_op (NoMatchingFormat (u "jp") (Some (u "register:0")))).
  same (instruction_from (u "jp") [FRegister 0; FIdentifier (u "TEST_LABEL")] empty_map)
       (err_op (UnableToResolveLabel (u "TEST_LABEL"))).
  same (match instruction_from (u "jp") [FRegister 0; FNumeric u12_max] empty_map with Ok o => match instruction_into_vec o with Done v => length v | _ => O end | _ => O end)
       (2%nat).
  same (instruction_from (u "jp") [FRegister 0; FNumeric u12_max] empty_map)
       (ok_op (JP_V0 u12_max)).
  same (match instruction_from (u "jp") [FRegister 0; FIdentifier (u "TEST_LABEL")] defined_map with Ok o => match instruction_into_vec o with Done v => length v | _ => O end | _ => O end)
       (2%nat).
  same (instruction_from (u "jp") [FRegister 0; FIdentifier (u "TEST_LABEL")] defined_map)
       (ok_op (JP_V0 u12_max)).
  exact I.
Qed.

(** instruction.rs:528-555 *)
Goal True. (* test_call *)
Proof.
  same (instruction_from (u "call") [] empty_map)
       (err_op (NoMatchingFormat (u "call") None)).
  same (instruction_from (u "call") [FIdentifier (u "TEST_LABEL")] empty_map)
       (err_op (UnableToResolveLabel (u "TEST_LABEL"))).
  same (match instruction_from (u "call") [FNumeric u12_max] empty_map with Ok o => match instruction_into_vec o with Done v => length v | _ => O end | _ => O end)
       (2%nat).
  same (instruction_from (u "call") [FNumeric u12_max] empty_map)
       (ok_op (CALL u12_max)).
  same (match instruction_from (u "call") [FIdentifier (u "TEST_LABEL")] defined_map with Ok o => match instruction_into_vec o with Done v => length v | _ => O end | _ => O end)
       (2%nat).
  same (instruction_from (u "call") [FIdentifier (u "TEST_LABEL")] defined_map)
       (ok_op (CALL u12_max)).
  exact I.
Qed.

(** instruction.rs:557-584 *)
Goal True. (* test_se_immediate_and_register_and_keypad *)
Proof.
  same (match instruction_from (u "se") [FRegister 1; FRegister 2] empty_map with Ok o => match instruction_into_vec o with Done v => length v | _ => O end | _ => O end)
       (2%nat).
  same (instruction_from (u "se") [FRegister 1; FRegister 2] empty_map)
       (ok_op (SE_REGISTER 1 2)).
  same (match instruction_from (u "se") [FRegister 1; FNumeric 0xFF] empty_map with Ok o => match instruction_into_vec o with Done v => length v | _ => O end | _ => O end)
       (2%nat).
  same (instruction_from (u "se") [FRegister 1; FNumeric 0xFF] empty_map)
       (ok_op (SE_IMMEDIATE 1 0xFF)).
  same (instruction_from (u "se") [FRegister 1; FNumeric 0x100] empty_map)
       (err_op (ExpectingEightBitValue 0x100)).
  same (match instruction_from (u "skp") [FRegister 1] empty_map with Ok o => match instruction_into_vec o with Done v => length v | _ => O end | _ => O end)
       (2%nat).
  same (instruction_from (u "skp") [FRegister 1] empty_map)
       (ok_op (SE_K 1)).
  exact I.
Qed.

(** instruction.rs:586-626 *)
Goal True. (* test_se_immediate_label *)
Proof.
  same (match instruction_from (u "se") [FRegister 1; FIdentifier (u "EIGHT_BITS")] label_map_ with Ok o => match instruction_into_vec o with Done v => length v | _ => O end | _ => O end)
       (2%nat).
  same (instruction_from (u "se") [FRegister 1; FIdentifier (u "EIGHT_BITS")] label_map_)
       (ok_op (SE_IMMEDIATE 1 0xFF)).
  same (match instruction_from (u "se") [FRegister 2; FIdentifier (u "FOUR_BITS")] label_map_ with Ok o => match instruction_into_vec o with Done v => length v | _ => O end | _ => O end)
       (2%nat).
  same (instruction_from (u "se") [FRegister 2; FIdentifier (u "FOUR_BITS")] label_map_)
       (ok_op (SE_IMMEDIATE 2 0x0F)).
  same (instruction_from (u "se") [FRegister 2; FIdentifier (u "TWELVE_BITS")] label_map_)
       (err_op (ExpectingEightBitValue 0xFFF)).
  same (instruction_from (u "se") [FRegister 2; FIdentifier (u "INVALID")] label_map_)
       (err_op (UnableToResolveLabel (u "INVALID"))).
  exact I.
Qed.

(** instruction.rs:628-655 *)
Goal True. (* test_sne_immediate_and_register_and_keypad *)
Proof.
  same (match instruction_from (u "sne") [FRegister 1; FRegister 2] empty_map with Ok o => match instruction_into_vec o with Done v => length v | _ => O end | _ => O end)
       (2%nat).
  same (instruction_from (u "sne") [FRegister 1; FRegister 2] empty_map)
       (ok_op (SNE_REGISTER 1 2)).
  same (match instruction_from (u "sne") [FRegister 1; FNumeric 0xFF] empty_map with Ok o => match instruction_into_vec o with Done v => length v | _ => O end | _ => O end)
       (2%nat).
  same (instruction_from (u "sne") [FRegister 1; FNumeric 0xFF] empty_map)
       (ok_op (SNE_IMMEDIATE 1 0xFF)).
  same (instruction_from (u "sne") [FRegister 1; FNumeric 0x100] empty_map)
       (err_op (ExpectingEightBitValue 0x100)).
  same (match instruction_from (u "sknp") [FRegister 1] empty_map with Ok o => match instruction_into_vec o with Done v => length v | _ => O end | _ => O end)
       (2%nat).
  same (instruction_from (u "sknp") [FRegister 1] empty_map)
       (ok_op (SNE_K 1)).
  exact I.
Qed.

(** instruction.rs:657-697 *)
Goal True. (* test_sne_immediate_label *)
Proof.
  same (match instruction_from (u "sne") [FRegister 1; FIdentifier (u "EIGHT_BITS")] label_map_ with Ok o => match instruction_into_vec o with Done v => length v | _ => O end | _ => O end)
       (2%nat).
  same (instruction_from (u "sne") [FRegister 1; FIdentifier (u "EIGHT_BITS")] label_map_)
       (ok_op (SNE_IMMEDIATE 1 0xFF)).
  same (match instruction_from (u "sne") [FRegister 2; FIdentifier (u "FOUR_BITS")] label_map_ with Ok o => match instruction_into_vec o with Done v => length v | _ => O end | _ => O end)
       (2%nat).
  same (instruction_from (u "sne") [FRegister 2; FIdentifier (u "FOUR_BITS")] label_map_)
       (ok_op (SNE_IMMEDIATE 2 0x0F)).
  same (instruction_from (u "sne") [FRegister 2; FIdentifier (u "TWELVE_BITS")] label_map_)
       (err_op (ExpectingEightBitValue 0xFFF)).
  same (instruction_from (u "sne") [FRegister 2; FIdentifier (u "INVALID")] label_map_)
       (err_op (UnableToResolveLabel (u "INVALID"))).
  exact I.
Qed.

(** instruction.rs:699-721 *)
Goal True. (* test_ld_immediate_and_register_and_index *)
Proof.
  same (match instruction_from (u "ld") [FRegister 1; FRegister 2] empty_map with Ok o => match instruction_into_vec o with Done v => length v | _ => O end | _ => O end)
       (2%nat).
  same (instruction_from (u "ld") [FRegister 1; FRegister 2] empty_map)
       (ok_op (LD_REGISTER 1 2)).
  same (match instruction_from (u "ld") [FRegister 1; FNumeric 0xFF] empty_map with Ok o => match instruction_into_vec o with Done v => length v | _ => O end | _ => O end)
       (2%nat).
  same (instruction_from (u "ld") [FRegister 1; FNumeric 0xFF] empty_map)
       (ok_op (LD_IMMEDIATE 1 0xFF)).
  same (instruction_from (u "ld") [FRegister 1; FNumeric 0x100] empty_map)
       (err_op (ExpectingEightBitValue 0x100)).
  exact I.
Qed.

(** instruction.rs:723-763 *)
Goal True. (* test_ld_immediate_label *)
Proof.
  same (match instruction_from (u "ld") [FRegister 1; FIdentifier (u "EIGHT_BITS")] label_map_ with Ok o => match instruction_into_vec o with Done v => length v | _ => O end | _ => O end)
       (2%nat).
  same (instruction_from (u "ld") [FRegister 1; FIdentifier (u "EIGHT_BITS")] label_map_)
       (ok_op (LD_IMMEDIATE 1 0xFF)).
  same (match instruction_from (u "ld") [FRegister 2; FIdentifier (u "FOUR_BITS")] label_map_ with Ok o => match instruction_into_vec o with Done v => length v | _ => O end | _ => O end)
       (2%nat).
  same (instruction_from (u "ld") [FRegister 2; FIdentifier (u "FOUR_BITS")] label_map_)
       (ok_op (LD_IMMEDIATE 2 0x0F)).
  same (instruction_from (u "ld") [FRegister 2; FIdentifier (u "TWELVE_BITS")] label_map_)
       (err_op (ExpectingEightBitValue 0xFFF)).
  same (instruction_from (u "ld") [FRegister 2; FIdentifier (u "INVALID")] label_map_)
       (err_op (UnableToResolveLabel (u "INVALID"))).
  exact I.
Qed.

(** instruction.rs:765-788 *)
Goal True. (* test_ld_index *)
Proof.
  same (instruction_from (u "ld") [FIndex; FIdentifier (u "TEST_LABEL")] empty_map)
       (err_op (UnableToResolveLabel (u "TEST_LABEL"))).
  same (match instruction_from (u "ld") [FIndex; FNumeric u12_max] empty_map with Ok o => match instruction_into_vec o with Done v => length v | _ => O end | _ => O end)
       (2%nat).
  same (instruction_from (u "ld") [FIndex; FNumeric u12_max] empty_map)
       (ok_op (LD_I u12_max)).
  same (match instruction_from (u "ld") [FIndex; FIdentifier (u "TEST_LABEL")] defined_map with Ok o => match instruction_into_vec o with Done v => length v | _ => O end | _ => O end)
       (2%nat).
  same (instruction_from (u "ld") [FIndex; FIdentifier (u "TEST_LABEL")] defined_map)
       (ok_op (LD_I u12_max)).
  exact I.
Qed.

(** instruction.rs:790-818 *)
Goal True. (* test_add_immediate_and_register_and_index *)
Proof.
  same (match instruction_from (u "add") [FRegister 1; FRegister 2] empty_map with Ok o => match instruction_into_vec o with Done v => length v | _ => O end | _ => O end)
       (2%nat).
  same (instruction_from (u "add") [FRegister 1; FRegister 2] empty_map)
       (ok_op (ADD_REGISTER 1 2)).
  same (match instruction_from (u "add") [FRegister 1; FNumeric 0xFF] empty_map with Ok o => match instruction_into_vec o with Done v => length v | _ => O end | _ => O end)
       (2%nat).
  same (instruction_from (u "add") [FRegister 1; FNumeric 0xFF] empty_map)
       (ok_op (ADD_IMMEDIATE 1 0xFF)).
  same (instruction_from (u "add") [FRegister 1; FNumeric 0x100] empty_map)
       (err_op (ExpectingEightBitValue 0x100)).
  same (match instruction_from (u "add") [FIndex; FRegister 2] empty_map with Ok o => match instruction_into_vec o with Done v => length v | _ => O end | _ => O end)
       (2%nat).
  same (instruction_from (u "add") [FIndex; FRegister 2] empty_map)
       (ok_op (ADD_I_X 2)).
  exact I.
Qed.

(** instruction.rs:820-860 *)
Goal True. (* test_add_immediate_label *)
Proof.
  same (match instruction_from (u "add") [FRegister 1; FIdentifier (u "EIGHT_BITS")] label_map_ with Ok o => match instruction_into_vec o with Done v => length v | _ => O end | _ => O end)
       (2%nat).
  same (instruction_from (u "add") [FRegister 1; FIdentifier (u "EIGHT_BITS")] label_map_)
       (ok_op (ADD_IMMEDIATE 1 0xFF)).
  same (match instruction_from (u "add") [FRegister 2; FIdentifier (u "FOUR_BITS")] label_map_ with Ok o => match instruction_into_vec o with Done v => length v | _ => O end | _ => O end)
       (2%nat).
  same (instruction_from (u "add") [FRegister 2; FIdentifier (u "FOUR_BITS")] label_map_)
       (ok_op (ADD_IMMEDIATE 2 0x0F)).
  same (instruction_from (u "add") [FRegister 2; FIdentifier (u "TWELVE_BITS")] label_map_)
       (err_op (ExpectingEightBitValue 0xFFF)).
  same (instruction_from (u "add") [FRegister 2; FIdentifier (u "INVALID")] label_map_)
       (err_op (UnableToResolveLabel (u "INVALID"))).
  exact I.
Qed.

(** instruction.rs:862-902 *)
Goal True. (* test_and_or_xor_sub_subn_shr_shl *)
Proof.
  same (match instruction_from (u "and") [FRegister 1; FRegister 2] empty_map with Ok o => match instruction_into_vec o with Done v => length v | _ => O end | _ => O end)
       (2%nat).
  same (instruction_from (u "and") [FRegister 1; FRegister 2] empty_map)
       (ok_op (AND 1 2)).
  same (match instruction_from (u "or") [FRegister 1; FRegister 2] empty_map with Ok o => match instruction_into_vec o with Done v => length v | _ => O end | _ => O end)
       (2%nat).
  same (instruction_from (u "or") [FRegister 1; FRegister 2] empty_map)
       (ok_op (OR 1 2)).
  same (match instruction_from (u "xor") [FRegister 1; FRegister 2] empty_map with Ok o => match instruction_into_vec o with Done v => length v | _ => O end | _ => O end)
       (2%nat).
  same (instruction_from (u "xor") [FRegister 1; FRegister 2] empty_map)
       (ok_op (XOR 1 2)).
  same (match instruction_from (u "sub") [FRegister 1; FRegister 2] empty_map with Ok o => match instruction_into_vec o with Done v => length v | _ => O end | _ => O end)
       (2%nat).
  same (instruction_from (u "sub") [FRegister 1; FRegister 2] empty_map)
       (ok_op (SUB 1 2)).
  same (match instruction_from (u "subn") [FRegister 1; FRegister 2] empty_map with Ok o => match instruction_into_vec o with Done v => length v | _ => O end | _ => O end)
       (2%nat).
  same (instruction_from (u "subn") [FRegister 1; FRegister 2] empty_map)
       (ok_op (SUBN 1 2)).
  same (match instruction_from (u "shr") [FRegister 1] empty_map with Ok o => match instruction_into_vec o with Done v => length v | _ => O end | _ => O end)
       (2%nat).
  same (instruction_from (u "shr") [FRegister 1] empty_map)
       (ok_op (SHR 1 0)).
  same (match instruction_from (u "shl") [FRegister 1] empty_map with Ok o => match instruction_into_vec o with Done v => length v | _ => O end | _ => O end)
       (2%nat).
  same (instruction_from (u "shl") [FRegister 1] empty_map)
       (ok_op (SHL 1 0)).
  exact I.
Qed.

(** instruction.rs:904-920 *)
Goal True. (* test_rnd *)
Proof.
  same (match instruction_from (u "rnd") [FRegister 1; FNumeric 0xFF] empty_map with Ok o => match instruction_into_vec o with Done v => length v | _ => O end | _ => O end)
       (2%nat).
  same (instruction_from (u "rnd") [FRegister 1; FNumeric 0xFF] empty_map)
       (ok_op (RND 1 0xFF)).
  same (instruction_from (u "rnd") [FRegister 1; FNumeric 0x100] empty_map)
       (err_op (ExpectingEightBitValue 0x100)).
  exact I.
Qed.

(** instruction.rs:922-962 *)
Goal True. (* test_rnd_immediate_label *)
Proof.
  same (match instruction_from (u "rnd") [FRegister 1; FIdentifier (u "EIGHT_BITS")] label_map_ with Ok o => match instruction_into_vec o with Done v => length v | _ => O end | _ => O end)
       (2%nat).
  same (instruction_from (u "rnd") [FRegister 1; FIdentifier (u "EIGHT_BITS")] label_map_)
       (ok_op (RND 1 0xFF)).
  same (match instruction_from (u "rnd") [FRegister 2; FIdentifier (u "FOUR_BITS")] label_map_ with Ok o => match instruction_into_vec o with Done v => length v | _ => O end | _ => O end)
       (2%nat).
  same (instruction_from (u "rnd") [FRegister 2; FIdentifier (u "FOUR_BITS")] label_map_)
       (ok_op (RND 2 0x0F)).
  same (instruction_from (u "rnd") [FRegister 2; FIdentifier (u "TWELVE_BITS")] label_map_)
       (err_op (ExpectingEightBitValue 0xFFF)).
  same (instruction_from (u "rnd") [FRegister 2; FIdentifier (u "INVALID")] label_map_)
       (err_op (UnableToResolveLabel (u "INVALID"))).
  exact I.
Qed.

(** instruction.rs:964-981 *)
Goal True. (* test_drw *)
Proof.
  same (match instruction_from (u "drw") [FRegister 1; FRegister 2; FNumeric 0xF] empty_map with Ok o => match instruction_into_vec o with Done v => length v | _ => O end | _ => O end)
       (2%nat).
  same (instruction_from (u "drw") [FRegister 1; FRegister 2; FNumeric 0xF] empty_map)
       (ok_op (DRW 1 2 15)).
  same (instruction_from (u "drw") [FRegister 1; FRegister 2; FNumeric 0x10] empty_map)
       (err_op (ExpectingFourBitValue 0x10)).
  exact I.
Qed.

(** instruction.rs:983-1026 *)
Goal True. (* test_drw_immediate_label *)
Proof.
  same (match instruction_from (u "drw") [FRegister 1; FRegister 2; FIdentifier (u "FOUR_BITS")] label_map_ with Ok o => match instruction_into_vec o with Done v => length v | _ => O end | _ => O end)
       (2%nat).
  same (instruction_from (u "drw") [FRegister 1; FRegister 2; FIdentifier (u "FOUR_BITS")] label_map_)
       (ok_op (DRW 1 2 15)).
  same (instruction_from (u "drw") [FRegister 1; FRegister 2; FIdentifier (u "TWELVE_BITS")] label_map_)
       (err_op (ExpectingFourBitValue 0xFFF)).
  same (instruction_from (u "drw") [FRegister 1; FRegister 2; FIdentifier (u "EIGHT_BITS")] label_map_)
       (err_op (ExpectingFourBitValue 0xFF)).
  same (instruction_from (u "drw") [FRegister 1; FRegister 2; FIdentifier (u "INVALID")] label_map_)
       (err_op (UnableToResolveLabel (u "INVALID"))).
  exact I.
Qed.

(** instruction.rs:1028-1055 *)
Goal True. (* test_ld_delay_and_sound_timer_and_keypad *)
Proof.
  same (match instruction_from (u "ld") [FRegister 15; FDelayTimer] empty_map with Ok o => match instruction_into_vec o with Done v => length v | _ => O end | _ => O end)
       (2%nat).
  same (instruction_from (u "ld") [FRegister 15; FDelayTimer] empty_map)
       (ok_op (LD_X_DT 15)).
  same (match instruction_from (u "ld") [FRegister 15; FKeypad] empty_map with Ok o => match instruction_into_vec o with Done v => length v | _ => O end | _ => O end)
       (2%nat).
  same (instruction_from (u "ld") [FRegister 15; FKeypad] empty_map)
       (ok_op (LD_X_K 15)).
  same (match instruction_from (u "ld") [FDelayTimer; FRegister 15] empty_map with Ok o => match instruction_into_vec o with Done v => length v | _ => O end | _ => O end)
       (2%nat).
  same (instruction_from (u "ld") [FDelayTimer; FRegister 15] empty_map)
       (ok_op (LD_DT_X 15)).
  same (match instruction_from (u "ld") [FSoundTimer; FRegister 15] empty_map with Ok o => match instruction_into_vec o with Done v => length v | _ => O end | _ => O end)
       (2%nat).
  same (instruction_from (u "ld") [FSoundTimer; FRegister 15] empty_map)
       (ok_op (LD_ST_X 15)).
  exact I.
Qed.

(** instruction.rs:1057-1067 *)
Goal True. (* test_sprite *)
Proof.
  same (match instruction_from (u "ld") [FSprite; FRegister 7] empty_map with Ok o => match instruction_into_vec o with Done v => length v | _ => O end | _ => O end)
       (2%nat).
  same (instruction_from (u "ld") [FSprite; FRegister 7] empty_map)
       (ok_op (SPRITE_I 7)).
  exact I.
Qed.

(** instruction.rs:1069-1079 *)
Goal True. (* test_bcd *)
Proof.
  same (match instruction_from (u "ld") [FBcd; FRegister 7] empty_map with Ok o => match instruction_into_vec o with Done v => length v | _ => O end | _ => O end)
       (2%nat).
  same (instruction_from (u "ld") [FBcd; FRegister 7] empty_map)
       (ok_op (BCD_I 7)).
  exact I.
Qed.

(** instruction.rs:1081-1091 *)
Goal True. (* test_save *)
Proof.
  same (match instruction_from (u "ld") [FIndexIndirect; FRegister 7] empty_map with Ok o => match instruction_into_vec o with Done v => length v | _ => O end | _ => O end)
       (2%nat).
  same (instruction_from (u "ld") [FIndexIndirect; FRegister 7] empty_map)
       (ok_op (SAVE_I 7)).
  exact I.
Qed.

(** instruction.rs:1093-1103 *)
Goal True. (* test_restore *)
Proof.
  same (match instruction_from (u "ld") [FRegister 7; FIndexIndirect] empty_map with Ok o => match instruction_into_vec o with Done v => length v | _ => O end | _ => O end)
       (2%nat).
  same (instruction_from (u "ld") [FRegister 7; FIndexIndirect] empty_map)
       (ok_op (RESTORE_I 7)).
  exact I.
Qed.

(** data_range.rs:292-301 *)
Definition range_with (start : N) (len : nat) : data_range :=
  match range_append (range_new (u12_unchecked_into start)) (repeat 0 len) with
  | Done (_, r) => r
  | _ => range_new 0
  end.

Definition facts (r : data_range) : N * run N * (U12 * U12) :=
  (range_len r, bytes_remaining r, address_range r).

(** Append each list in turn, keeping what [append] returned and the range after it. *)
Fixpoint appends (r : data_range) (l : list (list byte))
  : run (list (bool * (N * run N * (U12 * U12)) * list byte)) :=
  match l with
  | [] => Done []
  | x :: l =>
      let* (b, r') := range_append r x in
      let* rest := appends r' l in
      Done ((b, facts r', dr_data r') :: rest)
  end.

(** data_range.rs:128-145 *)
Goal True. (* test_empty_ranges *)
Proof.
  same (facts (range_new 0))
       ((0, Done 4096, (0, 0))).
  same (facts (range_new 0x800))
       ((0, Done 2048, (0x800, 0x800))).
  same (facts (range_new u12_max))
       ((0, Done 1, (u12_max, u12_max))).
  exact I.
Qed.

(** data_range.rs:147-171 *)
Goal True. (* test_append_within_range *)
Proof.
  same (facts (range_new 0x200))
       ((0, Done 3584, (0x200, 0x200))).
  same (appends (range_new 0x200) [[1]; [2; 3]])
       (@Done (list (bool * (N * run N * (U12 * U12)) * list byte)) [(true, (1, Done 3583, (0x200, 0x201)), [1]); (true, (3, Done 3581, (0x200, 0x203)), [1; 2; 3])]).
  exact I.
Qed.

(** data_range.rs:173-195 *)
Goal True. (* test_append_out_of_range *)
Proof.
  same (appends (range_new u12_max) [[1]; [1]])
       (@Done (list (bool * (N * run N * (U12 * U12)) * list byte)) [(true, (1, Done 0, (u12_max, 0)), [1]); (false, (1, Done 0, (u12_max, 0)), [1])]).
  exact I.
Qed.

(** data_range.rs:197-246 *)
Goal True. (* test_intersects *)
Proof.
  same (intersects (range_with 0 5) (range_with 8 2))
       (false).
  same (intersects (range_with 8 2) (range_with 0 5))
       (false).
  same (intersects (range_with 0 5) (range_with 6 4))
       (false).
  same (intersects (range_with 6 4) (range_with 0 5))
       (false).
  same (intersects (range_with 0 5) (range_with 5 5))
       (false).
  same (intersects (range_with 5 5) (range_with 0 5))
       (false).
  same (intersects (range_with 0 7) (range_with 6 4))
       (true).
  same (intersects (range_with 6 4) (range_with 0 7))
       (true).
  same (intersects (range_with 0 10) (range_with 0 1))
       (true).
  same (intersects (range_with 0 1) (range_with 0 10))
       (true).
  same (intersects (range_with 0 10) (range_with 9 1))
       (true).
  same (intersects (range_with 9 1) (range_with 0 10))
       (true).
  same (intersects (range_with 0 10) (range_with 4 2))
       (true).
  same (intersects (range_with 4 2) (range_with 0 10))
       (true).
  same (intersects (range_with 0 10) (range_with 4 0))
       (false).
  same (intersects (range_with 4 0) (range_with 0 10))
       (false).
  exact I.
Qed.

(** data_range.rs:248-291 *)
Goal True. (* test_find_overlapping_ranges *)
Proof.
  same (find_overlapping_ranges [])
       (@nil (data_range * data_range)).
  same (find_overlapping_ranges [range_with 0 10])
       (@nil (data_range * data_range)).
  same (find_overlapping_ranges [range_with 0 3])
       (@nil (data_range * data_range)).
  same (find_overlapping_ranges [range_with 7 3])
       (@nil (data_range * data_range)).
  same (find_overlapping_ranges [range_with 2 6])
       (@nil (data_range * data_range)).
  same (find_overlapping_ranges [range_with 0 0])
       (@nil (data_range * data_range)).
  same (find_overlapping_ranges [range_with 0 3; range_with 7 3])
       (@nil (data_range * data_range)).
  same (find_overlapping_ranges [range_with 0 3; range_with 0 0])
       (@nil (data_range * data_range)).
  same (find_overlapping_ranges [range_with 0 10; range_with 0 10])
       ([(range_with 0 10, range_with 0 10)]).
  same (find_overlapping_ranges [range_with 0 10; range_with 0 3])
       ([(range_with 0 10, range_with 0 3)]).
  same (find_overlapping_ranges [range_with 0 10; range_with 7 3])
       ([(range_with 0 10, range_with 7 3)]).
  same (find_overlapping_ranges [range_with 0 10; range_with 0 3; range_with 0 0])
       ([(range_with 0 10, range_with 0 3)]).
  same (find_overlapping_ranges [range_with 0 10; range_with 0 3; range_with 7 3; range_with 2 6; range_with 0 0])
       ([(range_with 0 10, range_with 0 3); (range_with 0 10, range_with 7 3); (range_with 0 10, range_with 2 6); (range_with 0 3, range_with 2 6); (range_with 7 3, range_with 2 6)]).
  exact I.
Qed.

(** assembler.rs:277-307 *)
Definition label_ (seq : N) (name : string) : node :=
  NLabel (at_ seq 1 (N.of_nat (String.length name))) (u name).
Definition directive_ (seq : N) (name : string) (args : list literal) : node :=
  NDirective (at_ seq 2 (N.of_nat (String.length name))) (u name) args.
Definition instruction_ (seq : N) (name : string) (fields : list field) : node :=
  NInstruction (at_ seq 1 (N.of_nat (String.length name))) (u name) fields.

Definition lookups (r : result semantic_error label_map) (names : list string)
  : option (nat * list (option U12)) :=
  match r with
  | Ok m => Some (length m, map (fun n => label_get m (u n)) names)
  | Err _ => None
  end.
Definition message (r : result semantic_error label_map) : str :=
  match r with Ok _ => [] | Err e => semantic_error_fmt e end.

(** assembler.rs:312-337 *)
Goal True. (* test_define_labels *)
Proof.
  same (lookups (define_labels
     [directive_ 1 "org" [LNumeric 0x100]; label_ 2 "label1"; directive_ 3 "db" [LNumeric 0xFF];
      label_ 4 "label2"; instruction_ 5 "trap" []; label_ 6 "label3"]) ["label1"; "label2"; "label3"])
       (Some (3%nat, [Some 0x100; Some 0x101; Some 0x103])).
  exact I.
Qed.

(** assembler.rs:339-363 *)
Goal True. (* test_define_constants *)
Proof.
  same (lookups (define_labels
     [directive_ 1 "org" [LNumeric 0x100]; label_ 2 "CONST_1"; directive_ 3 "equ" [LNumeric 0xFFF];
      label_ 4 "CONST_2"; directive_ 5 "equ" [LNumeric 100]; label_ 6 "address_1"])
     ["CONST_1"; "CONST_2"; "address_1"])
       (Some (3%nat, [Some 0xFFF; Some 100; Some 0x100])).
  exact I.
Qed.

(** assembler.rs:365-393 *)
Goal True. (* test_define_labels_does_semantic_analysis_on_* *)
Proof.
  same (message (define_labels [directive_ 1 "org" []]))
       (u "-:1:2-4: error: Incorrect number of parameters (0) for directive .org, expecting 1.").
  same (message (define_labels [directive_ 1 "db" []]))
       (u "-:1:2-3: error: Incorrect number of parameters (0) for directive .db, expecting 1 or more.").
  same (message (define_labels [directive_ 1 "equ" []]))
       (u "-:1:2-4: error: Incorrect number of parameters (0) for directive .equ, expecting 1.").
  exact I.
Qed.

(** assembler.rs:395-404 *)
Goal True. (* test_define_labels_fails_on_redefinition *)
Proof.
  same (message (define_labels [label_ 1 "L1"; label_ 2 "L1"]))
       (u "-:2:1-2: error: Attempted re-definition of label 'L1'.").
  exact I.
Qed.

Definition filled (start : N) (l : list (list byte)) : data_range :=
  fold_left (fun r x => match range_append r x with Done (_, r') => r' | _ => r end) l
    (range_new start).

(** ihex_writer.rs:81-85 *)
Goal True. (* test_ihex_representation_of_data_ranges_no_ranges *)
Proof.
  same (ihex_representation [])
       (@Done str (u ":00000001FF" ++ [10])).
  exact I.
Qed.

(** ihex_writer.rs:87-105 *)
Goal True. (* test_ihex_representation_of_data_ranges_one_range *)
Proof.
  same (ihex_representation [filled 0x100 [[0x21; 0x46; 0x01; 0x36; 0x01; 0x21; 0x47; 0x01; 0x36; 0x00; 0x7E; 0xFE; 0x09; 0xD2; 0x19; 0x01]; [0x21; 0x46; 0x01; 0x7E; 0x17; 0xC2; 0x00; 0x01; 0xFF; 0x5F; 0x16; 0x00; 0x21; 0x48; 0x01; 0x19]; [0x19; 0x4E; 0x79; 0x23; 0x46; 0x23; 0x96; 0x57; 0x78; 0x23; 0x9E; 0xDA; 0x3F; 0x01; 0xB2; 0xCA]; [0x3F; 0x01; 0x56; 0x70; 0x2B; 0x5E; 0x71; 0x2B; 0x72; 0x2B; 0x73; 0x21; 0x46; 0x01; 0x34; 0x21]]])
       (@Done str (u ":10010000214601360121470136007EFE09D2190140" ++ [10] ++
         u ":100110002146017E17C20001FF5F16002148011928" ++ [10] ++
         u ":10012000194E79234623965778239EDA3F01B2CAA7" ++ [10] ++
         u ":100130003F0156702B5E712B722B732146013421C7" ++ [10] ++
         u ":00000001FF" ++ [10])).
  exact I.
Qed.

(** ihex_writer.rs:107-122 *)
Goal True. (* test_ihex_representation_of_data_ranges_adjacent_ranges *)
Proof.
  same (ihex_representation [filled 0x100 [[0x21; 0x46; 0x01; 0x36; 0x01; 0x21; 0x47; 0x01; 0x36; 0x00; 0x7E; 0xFE; 0x09; 0xD2; 0x19; 0x01]];
     filled 0x110 [[0x21; 0x46; 0x01; 0x7E; 0x17; 0xC2; 0x00; 0x01; 0xFF; 0x5F; 0x16; 0x00; 0x21; 0x48; 0x01; 0x19]]])
       (@Done str (u ":10010000214601360121470136007EFE09D2190140" ++ [10] ++
         u ":100110002146017E17C20001FF5F16002148011928" ++ [10] ++
         u ":00000001FF" ++ [10])).
  exact I.
Qed.

(** ihex_writer.rs:124-139 *)
Goal True. (* test_ihex_representation_of_data_ranges_disjoint_ranges *)
Proof.
  same (ihex_representation [filled 0x100 [[0x21; 0x46; 0x01; 0x36; 0x01; 0x21; 0x47; 0x01; 0x36; 0x00; 0x7E; 0xFE; 0x09; 0xD2; 0x19; 0x01]];
     filled 0x130 [[0x3F; 0x01; 0x56; 0x70; 0x2B; 0x5E; 0x71; 0x2B; 0x72; 0x2B; 0x73; 0x21; 0x46; 0x01; 0x34; 0x21]]])
       (@Done str (u ":10010000214601360121470136007EFE09D2190140" ++ [10] ++
         u ":100130003F0156702B5E712B722B732146013421C7" ++ [10] ++
         u ":00000001FF" ++ [10])).
  exact I.
Qed.

(** ihex_writer.rs:141-160 *)
Goal True. (* test_ihex_representation_of_data_ranges_uneven_ranges *)
Proof.
  same (ihex_representation [filled 0x100 [[0x21; 0x46; 0x01; 0x36; 0x01; 0x21; 0x47; 0x01; 0x36; 0x00; 0x7E; 0xFE; 0x09; 0xD2; 0x19]];
     filled 0x130 [[0x3F; 0x01; 0x56; 0x70; 0x2B; 0x5E; 0x71; 0x2B; 0x72; 0x2B; 0x73; 0x21; 0x46; 0x01; 0x34; 0x21; 0x22]];
     filled 0x200 [[0x3F]]])
       (@Done str (u ":0F010000214601360121470136007EFE09D21942" ++ [10] ++
         u ":100130003F0156702B5E712B722B732146013421C7" ++ [10] ++
         u ":01014000229C" ++ [10] ++
         u ":010200003FBE" ++ [10] ++
         u ":00000001FF" ++ [10])).
  exact I.
Qed.

(** ihex_writer.rs:162-171 *)
Goal True. (* test_ihex_representation_of_data_ranges_panics_when_overlapping *)
Proof.
  same (crashes (ihex_representation [filled 0x100 [[0x21; 0x46; 0x01; 0x36; 0x01; 0x21; 0x47; 0x01; 0x36; 0x00; 0x7E; 0xFE; 0x09; 0xD2; 0x19; 0x01]];
     filled 0x101 [[0x3F; 0x01; 0x56; 0x70; 0x2B; 0x5E; 0x71; 0x2B; 0x72; 0x2B; 0x73; 0x21; 0x46; 0x01; 0x34; 0x21]]]))
       (true).
  exact I.
Qed.
