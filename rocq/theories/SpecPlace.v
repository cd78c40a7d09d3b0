(** * SpecPlace: tokens, statements and errors with other places; lines without statements. *)

From Verif Require Import Base Text Location Token Parser Assembler SpecLex.
Open Scope N_scope.

(** Every place replaced by its image. *)
Definition token_via (g : loc -> loc) (t : token) : token :=
  match t with
  | SingleLineComment s l => SingleLineComment s (g l)
  | DirectiveMarker l => DirectiveMarker (g l)
  | Identifier id l => Identifier id (g l)
  | LabelMarker l => LabelMarker (g l)
  | StringLiteral s l => StringLiteral s (g l)
  | NumericLiteral v l => NumericLiteral v (g l)
  | Comma l => Comma (g l)
  | Newline l => Newline (g l)
  | ErrorToken e l => ErrorToken e (g l)
  end.

Definition node_via (g : loc -> loc) (n : node) : node :=
  match n with
  | NDirective l id args => NDirective (g l) id args
  | NLabel l id => NLabel (g l) id
  | NInstruction l m fields => NInstruction (g l) m fields
  end.

Definition syntax_error_via (g : loc -> loc) (e : parse_error) : parse_error :=
  match e with
  | UnexpectedEndOfFile expected => UnexpectedEndOfFile expected
  | UnexpectedToken expected t => UnexpectedToken expected (token_via g t)
  end.

Definition semantic_error_via (g : loc -> loc) (e : semantic_error) : semantic_error :=
  match e with
  | DirectiveInvalid l r => DirectiveInvalid (g l) r
  | DirectiveTooLarge l d => DirectiveTooLarge (g l) d
  | DirectiveWouldOverflow l d => DirectiveWouldOverflow (g l) d
  | InstructionWouldOverflow l => InstructionWouldOverflow (g l)
  | RedefinitionOfLabel l label => RedefinitionOfLabel (g l) label
  | AssemblyFailed l r => AssemblyFailed (g l) r
  | ConstantWithoutLabel l => ConstantWithoutLabel (g l)
  end.

(** The same outcome, up to what is done to errors and to results. *)
Definition outcome_via {E A} (f : E -> E) (h : A -> A) (r : run (result E A)) : run (result E A) :=
  match r with
  | Done (Ok x) => Done (Ok (h x))
  | Done (Err e) => Done (Err (f e))
  | Crash why => Crash why
  end.

(** The same line and columns, [k] lines further down in the file of another name. *)
Definition further (file : str) (k : N) (l : loc) : loc :=
  mk_loc file (l_line l + k) (l_location l) (l_length l).

(** [k] lines, each with blanks and perhaps a comment. *)
Inductive idle_lines : N -> str -> Prop :=
| idle_none : idle_lines 0 []
| idle_blank : forall k w rest, forallb blank w = true -> idle_lines k rest ->
    idle_lines (k + 1) (w ++ LF :: rest)
| idle_comment : forall k w text rest, forallb blank w = true -> existsb (N.eqb LF) text = false ->
    idle_lines k rest -> idle_lines (k + 1) (w ++ c_ ";" :: text ++ LF :: rest).
