(** * SpecBytes: tokens with their texts as bytes. *)

From Verif Require Import Base Text Token Parser DataRange Directive Opcode Instruction Assembler Scanner Main.
Open Scope N_scope.

(** The texts in a token, as UTF-8. *)
Definition error_bytes (e : scan_error) : scan_error :=
  match e with
  | DecimalLiteralOutOfRange s => DecimalLiteralOutOfRange (utf8 s)
  | BinaryLiteralOutOfRange s => BinaryLiteralOutOfRange (utf8 s)
  | e => e
  end.

Definition token_bytes (t : token) : token :=
  match t with
  | SingleLineComment s l => SingleLineComment (utf8 s) l
  | Identifier s l => Identifier (utf8 s) l
  | StringLiteral s l => StringLiteral (utf8 s) l
  | ErrorToken e l => ErrorToken (error_bytes e) l
  | t => t
  end.

(** An error of the parser, with its texts as UTF-8. *)
Definition syntax_error_bytes (e : parse_error) : parse_error :=
  match e with
  | UnexpectedEndOfFile expected => UnexpectedEndOfFile expected
  | UnexpectedToken expected t => UnexpectedToken expected (token_bytes t)
  end.

(** A syntax list with its strings as UTF-8. *)
Definition literal_bytes (l : literal) : literal :=
  match l with LString s => LString (utf8 s) | LNumeric n => LNumeric n end.

Definition node_bytes (nd : node) : node :=
  match nd with NDirective l id args => NDirective l id (map literal_bytes args) | nd => nd end.

(** What the tool makes of a text: an error of syntax, another error, or data. *)
Inductive makes (file text : str) : result parse_error (result semantic_error (list data_range)) -> Prop :=
| makes_syntax : forall ts e, scan file text = Done ts -> parse ts = Done (Err e) -> makes file text (Err e)
| makes_rest : forall ts p r, scan file text = Done ts -> parse ts = Done (Ok p) -> assemble p = Done r -> makes file text (Ok r).

Definition outcome_bytes (r : result parse_error (result semantic_error (list data_range)))
  : result parse_error (result semantic_error (list data_range)) :=
  match r with Err e => Err (syntax_error_bytes e) | Ok r => Ok r end.

(** The same surroundings, with the name of the program in bytes. *)
Definition env_bytes (e : env) : env :=
  mk_env (utf8 (e_program e)) (e_options e) (e_usage e) (e_open_error e) (e_read_error e) (e_create_error e) (e_write_error e) (e_not_found e) (e_invalid_utf8 e).
