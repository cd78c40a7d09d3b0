(** * Directive: src/assembler/directive.rs *)

From Verif Require Import Base Text U12 Parser.
Open Scope N_scope.

(** directive.rs:18-27 *)
Inductive directive_error : Type :=
| IncorrectNumberOfParameters (name : str) (count from : N) (or_more : bool)
| DirectiveRequiresOneNumericLiteral (name : str)
| AllNumericParametersMustBeByteLiterals (name : str) (value : N)
| UnrecognizedDirective (identifier : str).

(** directive.rs:46-59 *)
Definition directive_error_fmt (e : directive_error) : str :=
  match e with
  | IncorrectNumberOfParameters directive count from false =>
      u "Incorrect number of parameters (" ++ fmt_dec count ++ u ") for directive ."
        ++ directive ++ u ", expecting " ++ fmt_dec from ++ u "."
  | IncorrectNumberOfParameters directive count from true =>
      u "Incorrect number of parameters (" ++ fmt_dec count ++ u ") for directive ."
        ++ directive ++ u ", expecting " ++ fmt_dec from ++ u " or more."
  | DirectiveRequiresOneNumericLiteral directive =>
      u "Directive ." ++ directive ++ u " requires 1 numeric literal in the range $000-$FFF."
  | AllNumericParametersMustBeByteLiterals directive value_over =>
      u "All numeric parameters to ." ++ directive ++ u " must be 1-byte literals ($"
        ++ fmt_hex true value_over ++ u " > $FF)."
  | UnrecognizedDirective identifier =>
      u "Unrecognized directive '." ++ identifier ++ u "'."
  end.

(** directive.rs:63-70 *)
Inductive directive : Type :=
| Org (address : U12)
| Db (bytes : list byte)
| Equ (value : U12).

(** directive.rs:82-89, [names] *)
Definition name_org : str := u "org".
(** directive.rs:86 *)
Definition name_db : str := u "db".
(** directive.rs:88 *)
Definition name_equ : str := u "equ".

(** directive.rs:73-79; [{:3X}] pads with spaces *)
Definition directive_fmt (d : directive) : str :=
  match d with
  | Org location => u "." ++ name_org ++ u " $" ++ pad_left 32 3 (fmt_hex true location)
  | Db bytes => u "." ++ name_db ++ u " [" ++ fmt_dec (N.of_nat (length bytes)) ++ u " bytes]"
  | Equ value => u "." ++ name_equ ++ u " $" ++ pad_left 32 3 (fmt_hex true value)
  end.

(** directive.rs:135-148, the loop over the arguments of [.db] *)
Fixpoint db_bytes (bytes : list byte) (arguments : list literal)
  : result directive_error (list byte) :=
  match arguments with
  | [] => Ok bytes
  | LNumeric value :: r =>
      if 0xFF <? value
      then Err (AllNumericParametersMustBeByteLiterals name_db value)
      else db_bytes (bytes ++ [N.land value 0x00FF]) r
  | LString s :: r => db_bytes (bytes ++ utf8 s) r
  end.

(** directive.rs:108-119 and 158-169: the single 12-bit argument of .org and .equ *)
Definition one_numeric (name : str) (make : U12 -> directive) (arguments : list literal)
  : result directive_error directive :=
  match arguments with
  | [LNumeric a] =>
      if a <=? 0xFFF then Ok (make (u12_unchecked_into a))
      else Err (DirectiveRequiresOneNumericLiteral name)
  | [LString _] => Err (DirectiveRequiresOneNumericLiteral name)
  | _ => Err (IncorrectNumberOfParameters name (N.of_nat (length arguments)) 1 false)
  end.

(** directive.rs:99-173 *)
Definition directive_from (input_identifier : str) (arguments : list literal)
  : result directive_error directive :=
  let identifier := to_lowercase input_identifier in
  if str_eqb identifier name_org then one_numeric name_org Org arguments
  else if str_eqb identifier name_db then
    match arguments with
    | [] => Err (IncorrectNumberOfParameters name_db 0 1 true)
    | _ => match db_bytes [] arguments with
           | Ok bytes => Ok (Db bytes)
           | Err e => Err e
           end
    end
  else if str_eqb identifier name_equ then one_numeric name_equ Equ arguments
  else Err (UnrecognizedDirective input_identifier).

(** directive.rs:178-184 *)
Definition directive_size (d : directive) : N :=
  match d with
  | Org _ => 0
  | Db data => N.of_nat (length data)
  | Equ _ => 0
  end.

(** directive.rs:190-196 *)
Definition directive_into_vec (d : directive) : list byte :=
  match d with
  | Org _ => []
  | Db data => data
  | Equ _ => []
  end.
