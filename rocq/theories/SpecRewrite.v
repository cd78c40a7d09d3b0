(** * SpecRewrite: further changes to a program, and what they should not change. *)

From Verif Require Import Base Text Parser Instruction DataRange Assembler SpecLayout.
Open Scope N_scope.

(** ** Labels replaced by their values *)

(** The operand [g] is [f], or the number the label [f] is defined as. *)
Inductive replaced (lookup : str -> option N) : field -> field -> Prop :=
| replaced_same : forall f, replaced lookup f f
| replaced_label : forall l v, lookup l = Some v -> replaced lookup (FIdentifier l) (FNumeric v).

(** The statement [n'] is [n] with some such operands replaced. *)
Inductive inlined (lookup : str -> option N) : node -> node -> Prop :=
| inlined_same : forall n, inlined lookup n n
| inlined_operands : forall l m fields fields', Forall2 (replaced lookup) fields fields' ->
    inlined lookup (NInstruction l m fields) (NInstruction l m fields').

(** An outcome, but for the operands listed in the message that there is no such instruction. *)
Definition operands_aside (r : run (result semantic_error (list data_range))) :=
  match r with
  | Done (Err (AssemblyFailed l (NoMatchingFormat m _))) => Done (Err (AssemblyFailed l (NoMatchingFormat m None)))
  | _ => r
  end.

(** ** Outcomes with the same bytes at the same addresses, or the same error *)

Definition same_memory (r r' : run (result semantic_error (list data_range))) : Prop :=
  match r, r' with
  | Done (Ok rs), Done (Ok rs') => memory rs = memory rs'
  | Done (Err e), Done (Err e') => e = e'
  | _, _ => False
  end.

(** ** Errors which later statements cannot mend *)

(** A later statement may define the label. *)
Definition about_undefined (e : semantic_error) : bool :=
  match e with AssemblyFailed _ (UnableToResolveLabel _) => true | _ => false end.

Definition about_instruction (e : semantic_error) : bool :=
  match e with AssemblyFailed _ _ => true | _ => false end.
