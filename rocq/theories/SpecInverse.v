(** * SpecInverse: reading an instruction back from its word.

    Only the patterns of the README's tables are used. *)

From Verif Require Import Base Parser SpecOpcode SpecDisasm.
Open Scope N_scope.

(** [read_back lookup w operand f]: the field is what the word says the operand is. *)
Definition read_back (lookup : str -> option N) (w : N) (operand : string) (f : field) : Prop :=
  fits operand f /\
  (operand = "Vx"%string -> f = FRegister (x_of w)) /\
  (operand = "Vy"%string -> f = FRegister (y_of w)) /\
  (operand = "addr"%string -> value_of lookup f = Some (w mod 4096)) /\
  (operand = "nn"%string -> value_of lookup f = Some (w mod 256)) /\
  (operand = "n"%string -> value_of lookup f = Some (w mod 16)).

(** The same operand in two programs, each with its labels: the same field, or two
    fields which stand for the same number. *)
Definition same_operand (lookup lookup' : str -> option N) (f f' : field) : Prop :=
  f = f' /\ is_value f = false \/
  is_value f = true /\ is_value f' = true /\ exists v, value_of lookup f = Some v /\ value_of lookup' f' = Some v.

(** The words of the table.  A shift has the digit y in its pattern, but not among its
    operands. *)
Definition in_table (w : N) : Prop :=
  exists pattern name operands,
    In (pattern, name, operands) table /\ matches pattern w /\
    (In (c_ "y") (u pattern) -> ~ In "Vy"%string operands -> y_of w = 0).
