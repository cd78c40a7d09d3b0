(** * Work: src/assembler and main.rs:52-83, counting steps

    Every function returns, beside its result, the number of steps it has taken.  A step is a call of a function,
    an operation on numbers, or one turn of a loop.  Of the standard library and of the crates:
    - slicing a [&str], [chars().next()], [Vec::push], a comparison with a constant and printing a message are one
      step (C73 says what is printed, C75 how much);
    - [to_lowercase], [chars().count()], [from_str_radix], hashing a key, copying a string or a vector and writing a
      number of characters take a step for each character or byte;
    - a search with a regular expression that begins with [^] looks at one character after the other, as long as
      the ones before can be continued to a match, and at one more (PropWork.v says this of the patterns);
    - [HashMap::get], [contains_key] and [insert] take what hashing the key takes.
    That the results are those of the other model files is proved in WorkProofs.v. *)

From Verif Require Import Base Text U12 Location Token Scanner Parser Directive Opcode Instruction DataRange Assembler IHex Main.
Open Scope N_scope.

(** A result of a function of the source, and how many steps it took *)
Definition work (A : Type) := (run A * N)%type.

(** [n] steps, with the result [r] *)
Definition steps {A : Type} (n : N) (r : run A) : work A := (r, n).

(** One thing after the other. *)
Definition afterwards {A B : Type} (m : work A) (k : A -> work B) : work B :=
  match m with
  | (Done a, n) => match k a with (r, n') => (r, n + n') end
  | (Crash why, n) => (Crash why, n)
  end.

Notation "'let+' x ':=' m 'in' k" := (afterwards m (fun x => k))
  (at level 200, x pattern, m at level 100, k at level 200, right associativity).

(** [try!] *)
Definition try_w {E A B : Type} (m : work (result E A)) (k : A -> work (result E B)) : work (result E B) :=
  let+ r := m in
  match r with
  | Ok a => k a
  | Err e => steps 1 (Done (Err e))
  end.

Notation "'try+' x ':=' m 'in' k" := (try_w m (fun x => k))
  (at level 200, x pattern, m at level 100, k at level 200, right associativity).

(** The length of a list, as a number of steps *)
Definition amount {A : Type} (l : list A) : N := N.of_nat (length l).

(** ** scanner.rs *)

(** What a search looks at. *)
(** scanner.rs:130 *)
Definition look_whitespace (s : str) : N := 1 + amount (take_while (fun c => is_whitespace c && negb (c =? newline)) s).

(** scanner.rs:153, after the opening quote *)
Fixpoint look_string_body (s : str) : N :=
  match s with
  | [] => 0
  | c :: r =>
      if c =? 34 then 1
      else if c =? 92 then
        match r with
        | d :: r' => if d =? newline then 1 else 2 + look_string_body r'
        | [] => 1
        end
      else 1 + look_string_body r
  end.
(** scanner.rs:153, the quote that opens it and the one that closes it *)
Definition look_string (s : str) : N :=
  match s with
  | c :: r => if c =? 34 then 2 + look_string_body r else 1
  | [] => 1
  end.

(** scanner.rs:179 *)
Definition look_hex (s : str) : N :=
  match s with
  | c :: r => if (c =? c_ "$") || (c =? c_ "#") then 2 + amount (take_while_max 3 is_hex_digit r) else 1
  | [] => 1
  end.

(** scanner.rs:206 *)
Definition look_bin (s : str) : N :=
  match s with
  | c :: r => if c =? c_ "%" then 2 + amount (take_while is_bin_digit r) else 1
  | [] => 1
  end.

(** scanner.rs:242 *)
Definition look_decimal (s : str) : N := 1 + amount (take_while is_digit s).

(** scanner.rs:280 *)
Definition look_identifier (s : str) : N :=
  match s with
  | c :: r => if is_id_start c then 2 + amount (take_while is_id_char r) else 1
  | [] => 1
  end.

(** scanner.rs:384-386 *)
Definition char_at_w (sc : scanner) (offset : N) : work char := steps 3 (char_at sc offset).

(** scanner.rs:392-423: the characters are walked through twice, 396 and 404 *)
Definition advance_by_w (sc : scanner) (bytes : N) : work (loc * scanner) :=
  let+ range := steps 2 (slice (sc_input sc) (sc_position sc) (sc_position sc + bytes)) in
  let+ total_byte_count := steps (amount range) (Done (fold_left (fun acc x => acc + len_utf8 x) range 0)) in
  let+ _ := steps 1 (assert_ (total_byte_count =? bytes)) in
  let+ (newlines, first, off) := steps (amount range) (Done (fold_left advance_step range (0, 0, sc_offset sc))) in
  let+ location := steps 1 (loc_new (sc_file sc) (sc_line sc) (sc_offset sc) first) in
  steps 3 (Done (location,
                 mk_scanner (sc_file sc) (sc_input sc) (sc_position sc + bytes) (sc_line sc + newlines) off)).

(** scanner.rs:376-379 *)
Definition consume_char_w (sc : scanner) : work (char * loc * scanner) :=
  let+ value := char_at_w sc 0 in
  let+ (l, sc') := advance_by_w sc (len_utf8 value) in
  steps 1 (Done (value, l, sc')).

(** scanner.rs:128-136 *)
Definition consume_whitespace_w (sc : scanner) : work scanner :=
  let+ s := steps 1 (rest_of_input sc) in
  let+ found := steps (look_whitespace s) (Done (find_whitespace s)) in
  match found with
  | Some m => let+ (_, sc') := advance_by_w sc (byte_len m) in steps 1 (Done sc')
  | None => steps 1 (Done sc)
  end.

(** scanner.rs:141-145, 348-352, 357-361, 366-370 *)
Definition consume_mark_w (c : char) (t : loc -> token) (sc : scanner) : work (token * scanner) :=
  let+ (value, l, sc') := consume_char_w sc in
  let+ _ := steps 1 (assert_ (value =? c)) in
  steps 1 (Done (t l, sc')).

(** scanner.rs:166-168 and the like *)
Definition error_here_w (sc : scanner) (e : scan_error) : work (token * scanner) := steps 3 (error_here sc e).

(** scanner.rs:151-171 *)
Definition consume_string_literal_w (sc : scanner) : work (token * scanner) :=
  let+ s := steps 1 (rest_of_input sc) in
  let+ found := steps (look_string s) (Done (find_string_literal s)) in
  match found with
  | Some m =>
      let+ body := steps 3 (slice (sc_input sc) (sc_position sc + 1) (sc_position sc + byte_len m - 1)) in
      let+ (l, sc') := advance_by_w sc (byte_len m) in
      steps 1 (Done (StringLiteral body l, sc'))
  | None => error_here_w sc InvalidStringLiteral
  end.

(** scanner.rs:177-197 *)
Definition consume_hex_literal_w (sc : scanner) : work (token * scanner) :=
  let+ s := steps 1 (rest_of_input sc) in
  let+ found := steps (look_hex s) (Done (find_hex_literal s)) in
  match found with
  | Some m =>
      let+ digits := steps 3 (slice (sc_input sc) (sc_position sc + 1) (sc_position sc + byte_len m)) in
      let+ (l, sc') := advance_by_w sc (byte_len m) in
      let+ value := steps (1 + amount digits) (unwrap (from_str_radix usize_bits 16 digits)) in
      steps 1 (Done (NumericLiteral value l, sc'))
  | None => error_here_w sc InvalidHexadecimalLiteral
  end.

(** scanner.rs:204-234 *)
Definition consume_bin_literal_w (sc : scanner) : work (token * scanner) :=
  let+ s := steps 1 (rest_of_input sc) in
  let+ found := steps (look_bin s) (Done (find_bin_literal s)) in
  match found with
  | Some m =>
      let+ digits := steps 3 (slice (sc_input sc) (sc_position sc + 1) (sc_position sc + byte_len m)) in
      let+ (l, sc') := advance_by_w sc (byte_len m) in
      let+ value := steps (2 + amount digits) (Done (parse_12_bit_bin_str digits)) in
      match value with
      | Ok value => steps 1 (Done (NumericLiteral value l, sc'))
      | Err e => steps 2 (Done (ErrorToken e l, jump_to_end sc'))
      end
  | None => error_here_w sc InvalidBinaryLiteral
  end.

(** scanner.rs:240-272 *)
Definition consume_decimal_literal_w (sc : scanner) : work (token * scanner) :=
  let+ s := steps 1 (rest_of_input sc) in
  let+ found := steps (look_decimal s) (Done (find_decimal_literal s)) in
  match found with
  | Some m =>
      let+ digits := steps 3 (slice (sc_input sc) (sc_position sc) (sc_position sc + byte_len m)) in
      let error :=
        let+ (l, sc') := advance_by_w sc (byte_len m) in
        steps 2 (Done (ErrorToken (DecimalLiteralOutOfRange digits) l, jump_to_end sc')) in
      let+ number := steps (1 + amount digits) (Done (from_str_radix usize_bits 10 digits)) in
      match number with
      | Some value =>
          if value <=? 4095
          then let+ (l, sc') := advance_by_w sc (byte_len m) in
               steps 2 (Done (NumericLiteral value l, sc'))
          else error
      | None => error
      end
  | None => error_here_w sc InvalidDecimalLiteral
  end.

(** scanner.rs:278-296 *)
Definition consume_identifier_w (sc : scanner) : work (token * scanner) :=
  let+ s := steps 1 (rest_of_input sc) in
  let+ found := steps (look_identifier s) (Done (find_identifier s)) in
  match found with
  | Some m =>
      let+ id := steps 3 (slice (sc_input sc) (sc_position sc) (sc_position sc + byte_len m)) in
      let+ (l, sc') := advance_by_w sc (byte_len m) in
      steps 1 (Done (Identifier id l, sc'))
  | None => error_here_w sc InvalidIdentifier
  end.

(** scanner.rs:302-320 *)
Definition consume_index_register_indirect_w (sc : scanner) : work (token * scanner) :=
  let+ s := steps 1 (rest_of_input sc) in
  let+ found := steps 6 (Done (starts_with s (u "[i]") || starts_with s (u "[I]"))) in
  if found : bool then
    let+ id := steps 3 (slice (sc_input sc) (sc_position sc) (sc_position sc + 3)) in
    let+ (l, sc') := advance_by_w sc 3 in
    steps 1 (Done (Identifier id l, sc'))
  else error_here_w sc ExpectedRegisterIndirect.

(** scanner.rs:331-338 *)
Fixpoint comment_bytes_w (s : str) : work N :=
  match s with
  | [] => steps 1 (Done 0)
  | c :: r =>
      if c =? newline then steps 1 (Done 0)
      else let+ n := comment_bytes_w r in steps 2 (Done (len_utf8 c + n))
  end.

(** scanner.rs:327-343 *)
Definition consume_single_line_comment_w (sc : scanner) : work (token * scanner) :=
  let+ c := char_at_w sc 0 in
  let+ _ := steps 1 (assert_ (c =? c_ ";")) in
  let+ s := steps 1 (rest_of_input sc) in
  let+ bytes := comment_bytes_w s in
  let+ text := steps 2 (slice (sc_input sc) (sc_position sc) (sc_position sc + bytes)) in
  let+ (l, sc') := advance_by_w sc bytes in
  steps 1 (Done (SingleLineComment text l, sc')).

(** scanner.rs:441-470: at most 13 comparisons with the first character *)
Definition consume_token_at_w (sc : scanner) (c : char) : work (token * scanner) :=
  let+ _ := steps 13 (Done tt) in
  if c =? c_ ";" then consume_single_line_comment_w sc
  else if c =? c_ "." then consume_mark_w (c_ ".") DirectiveMarker sc
  else if c =? c_ ":" then consume_mark_w (c_ ":") LabelMarker sc
  else if c =? c_ "," then consume_mark_w (c_ ",") Comma sc
  else if c =? 34 then consume_string_literal_w sc
  else if c =? c_ "$" then consume_hex_literal_w sc
  else if c =? c_ "#" then consume_hex_literal_w sc
  else if c =? c_ "%" then consume_bin_literal_w sc
  else if c =? c_ "[" then consume_index_register_indirect_w sc
  else if is_digit c then consume_decimal_literal_w sc
  else if is_id_start c then consume_identifier_w sc
  else if c =? newline then consume_mark_w newline Newline sc
  else error_here_w sc (InvalidCharacter c).

(** scanner.rs:435-471, 490-492 *)
Definition next_token_w (sc : scanner) : work (option token * scanner) :=
  let+ sc := consume_whitespace_w sc in
  let+ at_end := steps 1 (Done (is_at_end sc)) in
  if at_end : bool then steps 1 (Done (None, sc))
  else
    let+ c := char_at_w sc 0 in
    let+ (t, sc') := consume_token_at_w sc c in
    steps 1 (Done (Some t, sc')).

(** parser.rs:209-223: the parser asks for the next token, here for all of them *)
Fixpoint scan_fuel_w (fuel : nat) (sc : scanner) : work (list token) :=
  match fuel with
  | O => steps 0 (Crash OutOfFuel)
  | S n =>
      let+ (t, sc') := next_token_w sc in
      match t with
      | None => steps 1 (Done [])
      | Some t => let+ ts := scan_fuel_w n sc' in steps 1 (Done (t :: ts))
      end
  end.

(** scanner.rs:476-493 *)
Definition scan_w (file input : str) : work (list token) := scan_fuel_w (S (length input)) (scanner_new file input).

(** ** parser.rs *)

(** [Result<A, Error>], and the parser after it, parser.rs:245-498 *)
Definition work_presult (A : Type) := work (result parse_error (A * parser)).

(** parser.rs:245-253 *)
Definition parse_identifier_w (p : parser) : work_presult (str * loc) := steps 4 (parse_identifier p).

(** parser.rs:260-280 *)
Definition parse_literal_w (p : parser) : work_presult literal := steps 5 (parse_literal p).

(** parser.rs:288-307 *)
Fixpoint parse_literal_list_w (fuel : nat) (p : parser) (acc : list literal) : work_presult (list literal) :=
  match fuel with
  | O => steps 0 (Crash OutOfFuel)
  | S n =>
      match p_current p with
      | Some (Newline _) => steps 2 (Done (Ok (acc, p)))
      | _ =>
          try+ (lit, p) := parse_literal_w p in
          let acc := acc ++ [lit] in
          match p_current p with
          | Some (Comma _) =>
              let+ p := steps 5 (Done (snd (consume_token p))) in
              parse_literal_list_w n p acc
          | _ => steps 4 (Done (Ok (acc, p)))
          end
      end
  end.

(** parser.rs:314-328 *)
Definition parse_directive_w (fuel : nat) (p : parser) : work_presult node :=
  match consume_token p with
  | (Some (DirectiveMarker _), p) =>
      let+ _ := steps 4 (Done tt) in
      try+ (id, l, p) := parse_identifier_w p in
      try+ (params, p) := parse_literal_list_w fuel p [] in
      steps 1 (Done (Ok (NDirective l id params, p)))
  | (unexpected, _) => steps 5 (Done (Err (syntax_error unexpected [dn_directive_marker])))
  end.

(** parser.rs:335-348 *)
Definition parse_label_w (p : parser) : work_presult node :=
  try+ (id, l, p) := parse_identifier_w p in
  match consume_token p with
  | (Some (LabelMarker _), p) => steps 4 (Done (Ok (NLabel l id, p)))
  | (unexpected, _) => steps 5 (Done (Err (syntax_error unexpected [dn_label_marker])))
  end.

(** parser.rs:377-403: fourteen names, then the characters are counted *)
Definition identifier_field_w (id : str) : work field := steps (18 + amount id) (identifier_field id).

(** parser.rs:366-416 *)
Definition parse_field_w (p : parser) : work_presult field :=
  match p_current p with
  | Some (NumericLiteral number _) =>
      steps 5 (Done (Ok (FNumeric (u12_unchecked_into number), snd (consume_token p))))
  | Some (Identifier id _) =>
      let+ f := identifier_field_w id in
      steps 5 (Done (Ok (f, snd (consume_token p))))
  | cur => steps 5 (Done (Err (syntax_error cur [dn_instruction_field])))
  end.

(** parser.rs:358-430 *)
Fixpoint parse_field_list_w (fuel : nat) (p : parser) (acc : list field) : work_presult (list field) :=
  match fuel with
  | O => steps 0 (Crash OutOfFuel)
  | S n =>
      match p_current p with
      | Some (Newline _) | Some (SingleLineComment _ _) => steps 3 (Done (Ok (acc, p)))
      | _ =>
          try+ (f, p) := parse_field_w p in
          let acc := acc ++ [f] in
          match p_current p with
          | Some (Comma _) =>
              let+ p := steps 5 (Done (snd (consume_token p))) in
              parse_field_list_w n p acc
          | _ => steps 5 (Done (Ok (acc, p)))
          end
      end
  end.

(** parser.rs:437-443 *)
Definition parse_instruction_w (fuel : nat) (p : parser) : work_presult node :=
  try+ (mnemonic, l, p) := parse_identifier_w p in
  try+ (fields, p) := parse_field_list_w fuel p [] in
  steps 1 (Done (Ok (NInstruction l mnemonic fields, p))).

(** parser.rs:450-470 *)
Definition parse_statement_w (fuel : nat) (p : parser) : work_presult node :=
  let+ _ := steps 4 (Done tt) in
  match p_current p, p_next p with
  | Some (DirectiveMarker _), _ => parse_directive_w fuel p
  | Some (Identifier _ _), Some (LabelMarker _) => parse_label_w p
  | Some (Identifier _ _), _ => parse_instruction_w fuel p
  | cur, _ => steps 2 (Done (Err (syntax_error cur [dn_directive_marker; dn_identifier])))
  end.

(** parser.rs:477-498 *)
Fixpoint parse_statement_list_w (fuel : nat) (p : parser) (acc : list node) : work (result parse_error (list node)) :=
  match fuel with
  | O => steps 0 (Crash OutOfFuel)
  | S n =>
      match p_current p with
      | None => steps 2 (Done (Ok acc))
      | Some (SingleLineComment _ _) | Some (Newline _) =>
          let+ p := steps 5 (Done (snd (consume_token p))) in
          parse_statement_list_w n p acc
      | Some _ =>
          let+ _ := steps 4 (Done tt) in
          try+ (nd, p) := parse_statement_w (S n) p in
          parse_statement_list_w n p (acc ++ [nd])
      end
  end.

(** parser.rs:510-512 *)
Definition parse_w (tokens : list token) : work (result parse_error (list node)) :=
  let+ p := steps 5 (Done (parser_new tokens)) in
  parse_statement_list_w (S (length tokens)) p [].

(** ** directive.rs and instruction.rs *)

(** directive.rs:135-148 *)
Fixpoint db_bytes_w (bytes : list byte) (arguments : list literal) : work (result directive_error (list byte)) :=
  match arguments with
  | [] => steps 1 (Done (Ok bytes))
  | LNumeric value :: r =>
      if 0xFF <? value
      then steps 3 (Done (Err (AllNumericParametersMustBeByteLiterals name_db value)))
      else let+ bytes := steps 5 (Done (bytes ++ [N.land value 0x00FF])) in db_bytes_w bytes r
  | LString s :: r => let+ bytes := steps (3 + amount (utf8 s)) (Done (bytes ++ utf8 s)) in db_bytes_w bytes r
  end.

(** directive.rs:99-173: the name is copied, made lower case and compared; an unknown one is copied once more *)
Definition directive_from_w (input_identifier : str) (arguments : list literal) : work (result directive_error directive) :=
  let+ identifier := steps (3 + 3 * amount input_identifier) (Done (to_lowercase input_identifier)) in
  if str_eqb identifier name_org then steps 5 (Done (one_numeric name_org Org arguments))
  else if str_eqb identifier name_db then
    match arguments with
    | [] => steps 3 (Done (Err (IncorrectNumberOfParameters name_db 0 1 true)))
    | _ => try+ bytes := db_bytes_w [] arguments in steps 3 (Done (Ok (Db bytes)))
    end
  else if str_eqb identifier name_equ then steps 5 (Done (one_numeric name_equ Equ arguments))
  else steps 3 (Done (Err (UnrecognizedDirective input_identifier))).

(** [Clone] of a directive: its bytes are copied. *)
Definition clone_work (d : directive) : N := 2 + directive_size d.

(** instruction.rs:69-74: the label is looked up *)
Definition field_work (f : field) : N :=
  match f with
  | FIdentifier id => 4 + amount id
  | _ => 1
  end.

(** A total of steps *)
Fixpoint sums (l : list N) : N :=
  match l with [] => 0 | x :: r => x + sums r end.

(** instruction.rs:112-366: the mnemonic is copied and made lower case; there are fewer than 50 alternatives; for the error the
    mnemonic is copied and the fields are written out *)
Definition instruction_from_w (mnemonic : str) (fields : list field) (labels : label_map) : work (result instruction_error opcode) :=
  let r := instruction_from mnemonic fields labels in
  steps (50 + 2 * amount mnemonic + sums (map field_work fields)
         + match r with
           | Err (NoMatchingFormat m (Some description)) => amount m + amount description
           | Err (NoMatchingFormat m None) => amount m
           | _ => 0
           end)
        (Done r).

(** instruction.rs:377-383, opcode.rs:158-198: one of 38 forms, and two bytes *)
Definition instruction_into_vec_w (o : opcode) : work (list byte) := steps 45 (instruction_into_vec o).

(** ** assembler.rs *)

(** assembler.rs:165-171 *)
Definition peek_constant_w (rest : list node) : work (option U12) :=
  match rest with
  | NDirective _ id args :: _ =>
      let+ d := directive_from_w id args in
      steps 2 (Done (match d with Ok (Equ constant) => Some constant | _ => None end))
  | _ => steps 1 (Done None)
  end.

(** assembler.rs:175-179 *)
Definition insert_w (labels : label_map) (location : loc) (id : str) (value : U12) : work (result semantic_error label_map) :=
  let+ there := steps (1 + amount id) (Done (contains_key labels id)) in
  if there : bool
  then steps (2 + amount id) (Done (Err (RedefinitionOfLabel location id)))
  else steps (1 + amount id) (Done (Ok ((id, value) :: labels))).

(** assembler.rs:115-194.  The arguments of [ok_or], 138 and 145, are evaluated whether they are needed or not: the
    directive is copied twice. *)
Fixpoint define_labels_loop_w (labels : label_map) (current_address : U12) (l : list node)
  : work (result semantic_error label_map) :=
  match l with
  | [] => steps 2 (Done (Ok labels))
  | NDirective location id args :: rest =>
      let+ d := directive_from_w id args in
      try+ d := steps 2 (Done (map_err (DirectiveInvalid location) d)) in
      try+ size := steps (5 + clone_work d) (Done (ok_or (u12_failable_into (directive_size d)) (DirectiveTooLarge location d))) in
      try+ address := steps (5 + clone_work d) (Done (ok_or (u12_checked_add current_address size)
                                                      (DirectiveWouldOverflow location d))) in
      let+ _ := steps 3 (Done tt) in
      match d with
      | Org origin => define_labels_loop_w labels origin rest
      | Db _ => define_labels_loop_w labels address rest
      | Equ _ => steps 2 (Done (Err (ConstantWithoutLabel location)))
      end
  | NLabel location id :: rest =>
      let+ _ := steps 3 (Done tt) in
      let+ constant := peek_constant_w rest in
      match rest, constant with
      | _ :: rest', Some constant =>
          try+ labels := insert_w labels location id constant in
          define_labels_loop_w labels current_address rest'
      | _, _ =>
          try+ labels := insert_w labels location id current_address in
          define_labels_loop_w labels current_address rest
      end
  | NInstruction location _ _ :: rest =>
      try+ address := steps 6 (Done (ok_or (u12_checked_add current_address bytes_per_instruction)
                                     (InstructionWouldOverflow location))) in
      define_labels_loop_w labels address rest
  end.

(** assembler.rs:220 and 236: the bytes are copied *)
Definition append_asserted_w (r : data_range) (bytes : list byte) : work data_range :=
  steps (8 + amount bytes) (append_asserted r bytes).

(** assembler.rs:198-252 *)
Fixpoint emit_loop_w (labels : label_map) (ranges : list data_range) (current : data_range)
         (l : list node) : work (result semantic_error (list data_range)) :=
  match l with
  | [] => steps 4 (Done (Ok (push_range ranges current)))
  | NDirective _ id args :: rest =>
      let+ d := directive_from_w id args in
      match d with
      | Err _ => steps 1 (Crash UnwrapFailed)
      | Ok (Org address) =>
          let+ _ := steps 7 (Done tt) in
          emit_loop_w labels (push_range ranges current) (range_new address) rest
      | Ok d =>
          let+ current := append_asserted_w current (directive_into_vec d) in
          emit_loop_w labels ranges current rest
      end
  | NInstruction location mnemonic fields :: rest =>
      let+ o := instruction_from_w mnemonic fields labels in
      match o with
      | Err reason => steps 3 (Done (Err (AssemblyFailed location reason)))
      | Ok o =>
          let+ bytes := instruction_into_vec_w o in
          let+ current := append_asserted_w current bytes in
          emit_loop_w labels ranges current rest
      end
  | NLabel _ _ :: rest => let+ _ := steps 2 (Done tt) in emit_loop_w labels ranges current rest
  end.

(** assembler.rs:259-262 *)
Definition assemble_w (syntax_list : list node) : work (result semantic_error (list data_range)) :=
  try+ labels := define_labels_loop_w [] 0 syntax_list in
  emit_loop_w labels [] (range_new 0) syntax_list.

(** ** data_range.rs, ihex_writer.rs, main.rs *)

(** data_range.rs:105-112: the inner loop *)
Fixpoint compare_w (lhs : data_range) (rest : list data_range) : work (list (data_range * data_range)) :=
  match rest with
  | [] => steps 1 (Done [])
  | rhs :: rest =>
      let+ there := steps 8 (Done (intersects lhs rhs)) in
      let+ l := compare_w lhs rest in
      if there : bool then steps 1 (Done ((lhs, rhs) :: l)) else steps 0 (Done l)
  end.

(** data_range.rs:95-115 *)
Fixpoint find_overlapping_ranges_w (ranges : list data_range) : work (list (data_range * data_range)) :=
  match ranges with
  | [] => steps 1 (Done [])
  | lhs :: rest =>
      let+ a := compare_w lhs rest in
      let+ b := find_overlapping_ranges_w rest in
      steps 0 (Done (a ++ b))
  end.

(** ihex_writer.rs:36-58: each chunk is copied *)
Fixpoint data_records_w (address : N) (cs : list (list byte)) : work (list record) :=
  match cs with
  | [] => steps 1 (Done [])
  | chunk :: rest =>
      let+ next := steps (8 + amount chunk) (if address + amount chunk <? 65536 then Done (address + amount chunk)
                                           else Crash ArithOverflow) in
      let+ rs := data_records_w next rest in
      steps 0 (Done (RData address chunk :: rs))
  end.

(** ihex_writer.rs:33-61: the records of a range are moved to the end of the list *)
Fixpoint range_records_w (ranges : list data_range) : work (list record) :=
  match ranges with
  | [] => steps 1 (Done [])
  | r :: rest =>
      let+ a := data_records_w (fst (address_range r)) (chunks 16 (dr_data r)) in
      let+ _ := steps (4 + amount a) (Done tt) in
      let+ b := range_records_w rest in
      steps 0 (Done (a ++ b))
  end.

(** ihex_writer.rs:27-68; the crate writes every record, and then all of them once more, joined *)
Definition ihex_representation_w (ranges : list data_range) : work str :=
  let+ overlapping := find_overlapping_ranges_w ranges in
  let+ _ := steps 1 (assert_ (Nat.eqb (length overlapping) 0)) in
  let+ records := range_records_w ranges in
  let text := create_object_file (records ++ [REndOfFile]) in
  let+ s := steps (2 + amount records + match text with Some s => 2 * amount s | None => 0 end) (unwrap text) in
  steps 1 (Done (s ++ [10])).

(** main.rs:74-77: two messages for each pair *)
Fixpoint overlap_report_w (e : env) (l : list (data_range * data_range)) : work str :=
  match l with
  | [] => steps 1 (Done [])
  | (a, b) :: r =>
      let+ sa := steps 4 (range_fmt a) in
      let+ sb := steps 4 (range_fmt b) in
      let+ rest := overlap_report_w e r in
      steps 2 (Done (program_error e (u "  range " ++ sa ++ u " overlaps with:")
                      ++ program_error e (u "  range " ++ sb) ++ rest))
  end.

(** main.rs:52-83 *)
Definition assemble_text_w (e : env) (path buffer : str) : work (result str str) :=
  let+ tokens := scan_w path buffer in
  let+ parsed := parse_w tokens in
  match parsed with
  | Err message => let+ s := steps 1 (parse_error_fmt message) in steps 1 (Done (Err (s ++ [10])))
  | Ok syntax_list =>
      let+ assembled := assemble_w syntax_list in
      match assembled with
      | Err message => steps 2 (Done (Err (semantic_error_fmt message ++ [10])))
      | Ok data_ranges =>
          let+ overlapping := find_overlapping_ranges_w data_ranges in
          if Nat.ltb 0 (length overlapping) then
            let+ s := overlap_report_w e overlapping in
            steps 4 (Done (Err (program_error e (u "Input file specifies overlapping data ranges.")
                                  ++ program_error e
                                       (u "Data from one section has overflowed into the adjacent.")
                                  ++ s)))
          else
            let+ result := ihex_representation_w data_ranges in
            steps 1 (Done (Ok result))
      end
  end.
