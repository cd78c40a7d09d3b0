(** * SpecConstant: definitions of constants, and labels of one value. *)

From Verif Require Import Base Text Parser SpecOpcode SpecRefusal SpecLayout.
Open Scope N_scope.

(** The statements [d] define the constant [id]. *)
Inductive defining (id : str) (v : N) : list node -> Prop :=
| defining_equ : forall l l' equ, ascii equ -> names equ "EQU" = true -> v <= 4095 ->
    defining id v [NLabel l id; NDirective l' equ [LNumeric v]].

(** No '.equ' comes next, which a label before it would take its value from. *)
Definition free_to_insert (rest : list node) : Prop := forall n r, rest = n :: r -> constant n = None.

(** Some labels replaced by labels with the same value. *)
Inductive same_value (lookup : str -> option N) : field -> field -> Prop :=
| sv_same : forall f, same_value lookup f f
| sv_label : forall a b v, lookup a = Some v -> lookup b = Some v -> same_value lookup (FIdentifier a) (FIdentifier b).

Inductive exchanged (lookup : str -> option N) : node -> node -> Prop :=
| ex_same : forall n, exchanged lookup n n
| ex_operands : forall l m fields fields', Forall2 (same_value lookup) fields fields' ->
    exchanged lookup (NInstruction l m fields) (NInstruction l m fields').
