(** * SpecKind: tokens of the same kind, statements of the same shape. *)

From Verif Require Import Base Text Location Token Parser.
Open Scope N_scope.

(** Nothing but the kind of token is the same. *)
Inductive same_sort : token -> token -> Prop :=
| so_comment : forall c c' l l', same_sort (SingleLineComment c l) (SingleLineComment c' l')
| so_dot : forall l l', same_sort (DirectiveMarker l) (DirectiveMarker l')
| so_name : forall x x' l l', same_sort (Identifier x l) (Identifier x' l')
| so_colon : forall l l', same_sort (LabelMarker l) (LabelMarker l')
| so_string : forall b b' l l', same_sort (StringLiteral b l) (StringLiteral b' l')
| so_number : forall v v' l l', same_sort (NumericLiteral v l) (NumericLiteral v' l')
| so_comma : forall l l', same_sort (Comma l) (Comma l')
| so_newline : forall l l', same_sort (Newline l) (Newline l')
| so_error : forall e e' l l', same_sort (ErrorToken e l) (ErrorToken e' l').

(** Directives with literals of the same kinds, labels, instructions with numbers at the same positions. *)
Inductive same_literal_sort : literal -> literal -> Prop :=
| sl_string : forall b b', same_literal_sort (LString b) (LString b')
| sl_number : forall v v', same_literal_sort (LNumeric v) (LNumeric v').

Inductive same_operand_sort : field -> field -> Prop :=
| sf_number : forall v v', same_operand_sort (FNumeric v) (FNumeric v')
| sf_name : forall f f', (forall v, f <> FNumeric v) -> (forall v, f' <> FNumeric v) -> same_operand_sort f f'.

Inductive same_shape : node -> node -> Prop :=
| sh_directive : forall l l' id id' args args', Forall2 same_literal_sort args args' ->
    same_shape (NDirective l id args) (NDirective l' id' args')
| sh_label : forall l l' id id', same_shape (NLabel l id) (NLabel l' id')
| sh_instruction : forall l l' m m' fs fs', Forall2 same_operand_sort fs fs' ->
    same_shape (NInstruction l m fs) (NInstruction l' m' fs').
