(** * SpecRefusal: which instructions are refused, and with which error.

    Of instruction.rs only the error type is used here. *)

From Verif Require Import Base Text Parser Instruction SpecOpcode.
Open Scope N_scope.

(** How the operands are listed in the "no matching instruction" message. *)
Definition listed (fields : list field) : option str :=
  match fields with
  | [] => None
  | _ => Some (join (u ", ") (map field_fmt fields))
  end.

(** [operand_is row fields operand f]: the field standing at the place of the row's
    operand. *)
Definition operand_is (row : string * string * list string) (fields : list field)
  (operand : string) (f : field) : Prop :=
  let '(_, _, operands) := row in In (operand, f) (combine operands fields).

Inductive refuses (lookup : str -> option N) (m : str) (fields : list field)
  : instruction_error -> Prop :=
| refuses_label : forall row label,
    row_for m fields row -> In (FIdentifier label) fields -> lookup label = None ->
    refuses lookup m fields (UnableToResolveLabel label)
| refuses_byte : forall row f v,
    row_for m fields row -> operand_is row fields "nn" f -> value_of lookup f = Some v -> 255 < v ->
    refuses lookup m fields (ExpectingEightBitValue v)
| refuses_nibble : forall row f v,
    row_for m fields row -> operand_is row fields "n" f -> value_of lookup f = Some v -> 15 < v ->
    refuses lookup m fields (ExpectingFourBitValue v)
| refuses_unknown :
    (forall row, ~ row_for m fields row) ->
    refuses lookup m fields (NoMatchingFormat m (listed fields)).
