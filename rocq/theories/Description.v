(** * Description: the trait [Error] of the error types: descriptions and causes.

    [scan_error_description] is in Token.v and [semantic_error_description] in
    Assembler.v, as messages use them. *)

From Verif Require Import Base Text Location Token Parser Directive Instruction Assembler.
Open Scope N_scope.

(** parser.rs:34-39 *)
Definition parse_error_description (e : parse_error) : str :=
  match e with
  | UnexpectedEndOfFile _ => u "Unexpected end-of-file reached"
  | UnexpectedToken _ _ => u "Unexpected token found"
  end.

(** directive.rs:33-40 *)
Definition directive_error_description (e : directive_error) : str :=
  match e with
  | IncorrectNumberOfParameters _ _ _ _ => u "Incorrect number of parameters for directive"
  | DirectiveRequiresOneNumericLiteral _ => u "Directive requires one numeric literal"
  | AllNumericParametersMustBeByteLiterals _ _ => u "All numeric parameters must by one-byte literals"
  | UnrecognizedDirective _ => u "Unrecognized directive"
  end.

(** instruction.rs:31-38 *)
Definition instruction_error_description (e : instruction_error) : str :=
  match e with
  | UnableToResolveLabel _ => u "Unable to resolve label"
  | ExpectingEightBitValue _ => u "Found 12-bit numeric value, expecting 8-bit value"
  | ExpectingFourBitValue _ => u "Found 8/12-bit numeric value, expecting 4-bit value"
  | NoMatchingFormat _ _ => u "No matching instruction"
  end.

(** Values of the five types behind [&error::Error]. *)
Inductive any_error : Type :=
| EScan (e : scan_error)
| EParse (e : parse_error)
| EDirective (e : directive_error)
| EInstruction (e : instruction_error)
| ESemantic (e : semantic_error).

(** [description()] of whichever error it is: scanner.rs, parser.rs, directive.rs, instruction.rs, semantic_error.rs *)
Definition description (e : any_error) : str :=
  match e with
  | EScan e => scan_error_description e
  | EParse e => parse_error_description e
  | EDirective e => directive_error_description e
  | EInstruction e => instruction_error_description e
  | ESemantic e => semantic_error_description e
  end.

(** assembler.rs:69-78; the other types have the default, [None] *)
Definition cause (e : any_error) : option any_error :=
  match e with
  | ESemantic (DirectiveInvalid _ error) => Some (EDirective error)
  | ESemantic (AssemblyFailed _ error) => Some (EInstruction error)
  | _ => None
  end.

(** The trait [Display] of the five types. *)
Definition display (e : any_error) : run str :=
  match e with
  | EScan e => Done (scan_error_fmt e)
  | EParse e => parse_error_fmt e
  | EDirective e => Done (directive_error_fmt e)
  | EInstruction e => Done (instruction_error_fmt e)
  | ESemantic e => Done (semantic_error_fmt e)
  end.
