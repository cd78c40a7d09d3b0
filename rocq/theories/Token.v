(** * Token: src/assembler/token.rs and the error type of src/assembler/scanner.rs *)

From Verif Require Import Base Text Location.
Open Scope N_scope.

(** scanner.rs:19-38 *)
Inductive scan_error : Type :=
| InvalidStringLiteral
| InvalidHexadecimalLiteral
| DecimalLiteralOutOfRange (literal : str)
| InvalidDecimalLiteral
| InvalidBinaryLiteral
| BinaryLiteralOutOfRange (literal : str)
| InvalidIdentifier
| ExpectedRegisterIndirect
| InvalidCharacter (c : char).

(** scanner.rs:44-56 *)
Definition scan_error_description (e : scan_error) : str :=
  match e with
  | InvalidStringLiteral => u "Invalid quoted string literal"
  | InvalidHexadecimalLiteral => u "Invalid hexadecimal literal starting with ($)"
  | DecimalLiteralOutOfRange _ => u "Decimal literal not in range 0...4095"
  | InvalidDecimalLiteral => u "Invalid decimal literal encountered"
  | InvalidBinaryLiteral => u "Invalid binary literal encountered"
  | BinaryLiteralOutOfRange _ => u "Binary literal not in range 0...4095"
  | InvalidIdentifier => u "Invalid identifier encountered"
  | ExpectedRegisterIndirect => u "Expected Index Register Indirect ([i]) not found"
  | InvalidCharacter _ => u "Invalid character encountered"
  end.

(** scanner.rs:62-71 *)
Definition scan_error_fmt (e : scan_error) : str :=
  match e with
  | DecimalLiteralOutOfRange literal =>
      u "Decimal literal " ++ literal ++ u " not in range (0...4095)."
  | InvalidCharacter c => u "Invalid character '" ++ [c] ++ u "'."
  | _ => scan_error_description e ++ u "."
  end.

(** token.rs:16-35 *)
Inductive token : Type :=
| SingleLineComment (text : str) (l : loc)
| DirectiveMarker (l : loc)
| Identifier (id : str) (l : loc)
| LabelMarker (l : loc)
| StringLiteral (text : str) (l : loc)
| NumericLiteral (value : N) (l : loc)
| Comma (l : loc)
| Newline (l : loc)
| ErrorToken (e : scan_error) (l : loc).

(** token.rs:41-53 *)
Definition token_location (t : token) : loc :=
  match t with
  | SingleLineComment _ l => l
  | DirectiveMarker l => l
  | Identifier _ l => l
  | LabelMarker l => l
  | StringLiteral _ l => l
  | NumericLiteral _ l => l
  | Comma l => l
  | Newline l => l
  | ErrorToken _ l => l
  end.

(** token.rs:81-91, [display_names] *)
Definition dn_single_line_comment : str := u "single-line comment".
(** token.rs:83 *)
Definition dn_directive_marker : str := u "directive marker".
(** token.rs:84 *)
Definition dn_identifier : str := u "identifier".
(** token.rs:85 *)
Definition dn_label_marker : str := u "label marker".
(** token.rs:86 *)
Definition dn_string_literal : str := u "string literal".
(** token.rs:87 *)
Definition dn_numeric_literal : str := u "numeric literal".
(** token.rs:88 *)
Definition dn_comma : str := u "comma".
(** token.rs:89 *)
Definition dn_newline : str := u "newline".
(** token.rs:90 *)
Definition dn_instruction_field : str := u "instruction field".

(** One double quote. *)
Definition dquote : str := [34].

(** token.rs:63-75 *)
Definition token_fmt (t : token) : str :=
  match t with
  | SingleLineComment _ _ => dn_single_line_comment
  | DirectiveMarker _ => dn_directive_marker
  | LabelMarker _ => dn_label_marker
  | Comma _ => dn_comma
  | Newline _ => dn_newline
  | Identifier value _ => dn_identifier ++ u " (" ++ value ++ u ")"
  | StringLiteral value _ =>
      dn_string_literal ++ u " (" ++ dquote ++ value ++ dquote ++ u ")"
  | NumericLiteral value _ =>
      dn_numeric_literal ++ u " (" ++ fmt_dec value ++ u " / $" ++ fmt_hex true value ++ u ")"
  | ErrorToken reason _ => scan_error_fmt reason
  end.
