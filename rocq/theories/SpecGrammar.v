(** * SpecGrammar: the grammar of programs, over tokens.

    Transcribed from the grammar comments of parser.rs (238-244, 255-259, 282-287,
    309-313, 330-334, 350-357, 432-436, 445-449, 472-476), not from the code: a
    relation between a token list and the syntax list it stands for. *)

From Verif Require Import Base Text Location Token Parser SpecLex.
Open Scope N_scope.

(** ** Operands *)

Definition special_operands : list (str * field) :=
  [ (u "dt", FDelayTimer); (u "DT", FDelayTimer);
    (u "st", FSoundTimer); (u "ST", FSoundTimer);
    (u "i", FIndex); (u "I", FIndex);
    (u "[i]", FIndexIndirect); (u "[I]", FIndexIndirect);
    (u "k", FKeypad); (u "K", FKeypad);
    (u "b", FBcd); (u "B", FBcd);
    (u "f", FSprite); (u "F", FSprite) ].

(** v0 ... vf, in either case *)
Definition register_operands : list (str * field) :=
  flat_map (fun v => map (fun d => ([v; d], FRegister (digit d))) (u hexadecimal_digits)) (u "vV").

Fixpoint assoc {A : Type} (k : str) (l : list (str * A)) : option A :=
  match l with
  | [] => None
  | (k', a) :: r => if list_eq_dec N.eq_dec k k' then Some a else assoc k r
  end.

(** What a name means as an operand. *)
Definition operand (id : str) : field :=
  match assoc id (special_operands ++ register_operands) with
  | Some f => f
  | None => FIdentifier id
  end.

(** ** Literals and fields *)

Inductive literal_token : token -> literal -> Prop :=
| lt_string : forall s l, literal_token (StringLiteral s l) (LString s)
| lt_number : forall n l, literal_token (NumericLiteral n l) (LNumeric n).

(** The scanner's numbers are at most 4095, for which [n mod 4096] is [n]. *)
Inductive field_token : token -> field -> Prop :=
| ft_number : forall n l, field_token (NumericLiteral n l) (FNumeric (n mod 4096))
| ft_name : forall id l, field_token (Identifier id l) (operand id).

(** ** Lists.  [literals ts args rest]: [ts] begins with a literal list standing for
    [args], and [rest] follows.  A list may be empty, or end in a comma, only before
    the end of the line -- for fields, also before a comment. *)

Inductive literals : list token -> list literal -> list token -> Prop :=
| ls_none : forall l rest, literals (Newline l :: rest) [] (Newline l :: rest)
| ls_one : forall t a rest, literal_token t a -> literals (t :: rest) [a] rest
| ls_more : forall t a l ts args rest,
    literal_token t a -> literals ts args rest ->
    literals (t :: Comma l :: ts) (a :: args) rest.

Inductive fields : list token -> list field -> list token -> Prop :=
| fs_none : forall l rest, fields (Newline l :: rest) [] (Newline l :: rest)
| fs_none_comment : forall c l rest,
    fields (SingleLineComment c l :: rest) [] (SingleLineComment c l :: rest)
| fs_one : forall t a rest, field_token t a -> fields (t :: rest) [a] rest
| fs_more : forall t a l ts args rest,
    field_token t a -> fields ts args rest ->
    fields (t :: Comma l :: ts) (a :: args) rest.

(** ** Programs *)

Inductive program : list token -> list node -> Prop :=
| pr_end : program [] []
| pr_newline : forall l ts ns, program ts ns -> program (Newline l :: ts) ns
| pr_comment : forall c l ts ns, program ts ns -> program (SingleLineComment c l :: ts) ns
| pr_directive : forall l0 id l ts args rest ns,
    literals ts args rest -> program rest ns ->
    program (DirectiveMarker l0 :: Identifier id l :: ts) (NDirective l id args :: ns)
| pr_label : forall id l l1 ts ns,
    program ts ns ->
    program (Identifier id l :: LabelMarker l1 :: ts) (NLabel l id :: ns)
| pr_instruction : forall id l ts args rest ns,
    fields ts args rest -> program rest ns ->
    program (Identifier id l :: ts) (NInstruction l id args :: ns).
