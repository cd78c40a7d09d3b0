(** * SpecDiag: the diagnostics that a source text can provoke.

    Of the code only the error types are used.  Errors stand without their place in the
    text, and comments without their wording (SpecErase). *)

From Verif Require Import Base Text Location Token Parser Directive Instruction Assembler
  SpecUtf8 SpecLex SpecGrammar SpecOpcode SpecRefusal SpecLayout SpecErase SpecWrite.
Open Scope N_scope.

(** ** Errors of the scanner *)

(** Characters with which a token can begin, or after which an error is about what should
    have followed. *)
Definition begins (c : char) : bool :=
  among letters c || among decimal_digits c || among "_;.:,$#%[" c || (c =? QUOTE) || (c =? LF).

Inductive scan_diagnostic : scan_error -> Prop :=
| sd_string : scan_diagnostic InvalidStringLiteral
| sd_hexadecimal : scan_diagnostic InvalidHexadecimalLiteral
| sd_binary : scan_diagnostic InvalidBinaryLiteral
| sd_indirect : scan_diagnostic ExpectedRegisterIndirect
| sd_decimal_range : forall d, forallb (among decimal_digits) d = true -> 4095 < positional 10 d ->
    scan_diagnostic (DecimalLiteralOutOfRange d)
| sd_binary_range : forall d, forallb (among "01.") d = true -> 4095 < positional 2 (undot d) mod 2 ^ 64 ->
    scan_diagnostic (BinaryLiteralOutOfRange d)
| sd_character : forall c, scalar c -> begins c = false -> blank c = false ->
    scan_diagnostic (InvalidCharacter c).

(** ** Errors of the parser *)

(** A token which some text contains. *)
Definition scannable (t : token) : Prop :=
  match t with
  | Identifier id l => name id /\ l = nowhere
  | StringLiteral s l => quotable s /\ Forall scalar s /\ l = nowhere
  | NumericLiteral v l => v <= 4095 /\ l = nowhere
  | ErrorToken e l => scan_diagnostic e /\ l = nowhere
  | SingleLineComment c l => c = [] /\ l = nowhere
  | DirectiveMarker l | LabelMarker l | Comma l | Newline l => l = nowhere
  end.

(** The four places where something is missing: what the message says is expected, and
    which tokens are accepted there. *)
Definition statement_place (t : token) : bool :=
  match t with Newline _ | SingleLineComment _ _ | DirectiveMarker _ | Identifier _ _ => true | _ => false end.
Definition directive_place (t : token) : bool :=
  match t with Identifier _ _ => true | _ => false end.
Definition literal_place (t : token) : bool :=
  match t with Newline _ | NumericLiteral _ _ | StringLiteral _ _ => true | _ => false end.
Definition field_place (t : token) : bool :=
  match t with Newline _ | SingleLineComment _ _ | NumericLiteral _ _ | Identifier _ _ => true | _ => false end.

Definition places : list (list str * (token -> bool)) :=
  [ ([u "directive marker"; u "identifier"], statement_place);
    ([u "identifier"], directive_place);
    ([u "numeric literal"; u "string literal"], literal_place);
    ([u "instruction field"], field_place) ].

(** At any of these places any token not accepted can stand, and the text can end at the
    last three. *)
Inductive syntax_diagnostic : parse_error -> Prop :=
| yd_token : forall expected accepted t, In (expected, accepted) places ->
    scannable t -> accepted t = false -> syntax_diagnostic (UnexpectedToken expected t)
| yd_end : forall expected accepted, In (expected, accepted) (tl places) ->
    syntax_diagnostic (UnexpectedEndOfFile expected).

Definition bare_syntax (e : parse_error) : parse_error :=
  match e with
  | UnexpectedEndOfFile expected => UnexpectedEndOfFile expected
  | UnexpectedToken expected t => UnexpectedToken expected (bare t)
  end.

(** ** Errors of the assembler *)

Inductive directive_diagnostic : directive_error -> Prop :=
| dd_unknown : forall id, name id ->
    names id "ORG" = false -> names id "DB" = false -> names id "EQU" = false ->
    directive_diagnostic (UnrecognizedDirective id)
| dd_count : forall low n, In low ["org"; "equ"]%string -> n <> 1 ->
    directive_diagnostic (IncorrectNumberOfParameters (u low) n 1 false)
| dd_string : forall low, In low ["org"; "equ"]%string ->
    directive_diagnostic (DirectiveRequiresOneNumericLiteral (u low))
| dd_empty : directive_diagnostic (IncorrectNumberOfParameters (u "db") 0 1 true)
| dd_wide : forall v, 255 < v <= 4095 ->
    directive_diagnostic (AllNumericParametersMustBeByteLiterals (u "db") v).

Inductive instruction_diagnostic : instruction_error -> Prop :=
| id_label : forall id, name id -> SpecGrammar.operand id = FIdentifier id ->
    instruction_diagnostic (UnableToResolveLabel id)
| id_byte : forall v, 255 < v <= 4095 -> instruction_diagnostic (ExpectingEightBitValue v)
| id_nibble : forall v, 15 < v <= 4095 -> instruction_diagnostic (ExpectingFourBitValue v)
| id_unknown : forall m fields, name m -> Forall writable_field fields ->
    (forall row, ~ row_for m fields row) -> instruction_diagnostic (NoMatchingFormat m (listed fields)).

(** Only '.db' can be too large or leave no room: an '.org' cannot overflow. *)
Inductive diagnostic : semantic_error -> Prop :=
| di_directive : forall e, directive_diagnostic e -> diagnostic (DirectiveInvalid nowhere e)
| di_size : forall bytes, Forall (fun b => b < 256) bytes -> 4096 <= N.of_nat (length bytes) ->
    diagnostic (DirectiveTooLarge nowhere (Db bytes))
| di_space : forall bytes, Forall (fun b => b < 256) bytes -> 1 <= N.of_nat (length bytes) <= 4095 ->
    diagnostic (DirectiveWouldOverflow nowhere (Db bytes))
| di_instruction_space : diagnostic (InstructionWouldOverflow nowhere)
| di_label : forall id, name id -> diagnostic (RedefinitionOfLabel nowhere id)
| di_constant : diagnostic (ConstantWithoutLabel nowhere)
| di_instruction : forall e, instruction_diagnostic e -> diagnostic (AssemblyFailed nowhere e).
