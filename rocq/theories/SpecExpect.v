(** * SpecExpect: what a syntax error says was expected.

    The messages of parser.rs (24-48) list kinds of tokens by the names of
    token.rs:67-81; 'instruction field' stands for a number or a name
    (parser.rs:445-449). *)

From Verif Require Import Base Text Token Parser SpecLex SpecGrammar.
Open Scope N_scope.

(** The names under which a token can be listed. *)
Definition names (t : token) : list str :=
  match t with
  | NumericLiteral _ _ => [u "numeric literal"; u "instruction field"]
  | Identifier _ _ => [u "identifier"; u "instruction field"]
  | StringLiteral _ _ => [u "string literal"]
  | DirectiveMarker _ => [u "directive marker"]
  | LabelMarker _ => [u "label marker"]
  | Comma _ => [u "comma"]
  | Newline _ => [u "newline"]
  | SingleLineComment _ _ => [u "single-line comment"]
  | ErrorToken _ _ => []
  end.

Definition listed (expected : list str) (t : token) : Prop :=
  exists n, In n (names t) /\ In n expected.

(** [t] can stand after [before]: some program begins so. *)
Definition can_follow (before : list token) (t : token) : Prop :=
  exists after ns, program (before ++ t :: after) ns.

(** Tokens that can follow but are never listed: the end of the line, except after the
    '.' of a directive; a comment, except also among literals; the comma after an operand
    that could also be the last; the colon after a first name. *)
Definition ends_in (kinds : token -> Prop) (ts : list token) : Prop :=
  exists b t, ts = b ++ [t] /\ kinds t.

Definition is_operand (t : token) : Prop :=
  match t with NumericLiteral _ _ | StringLiteral _ _ | Identifier _ _ => True | _ => False end.
Definition is_name (t : token) : Prop := match t with Identifier _ _ => True | _ => False end.

Inductive passed_over (before : list token) (expected : list str) : token -> Prop :=
| po_newline : forall l, expected <> [u "identifier"] -> passed_over before expected (Newline l)
| po_comment : forall c l,
    In (u "instruction field") expected \/ In (u "directive marker") expected ->
    passed_over before expected (SingleLineComment c l)
| po_comma : forall l, In (u "directive marker") expected -> ends_in is_operand before ->
    passed_over before expected (Comma l)
| po_colon : forall l, In (u "instruction field") expected -> ends_in is_name before ->
    passed_over before expected (LabelMarker l).
