(** * SpecRename: what a diagnostic says once the labels have other names *)

From Verif Require Import Base Text Location Parser Directive Instruction Assembler SpecRefusal SpecMeta.

(** [error_renamed f p e e']: the error [e] found in [p] reads [e'] once the labels of [p] are
    renamed by [f].  Labels occur in three errors; the operands listed by the last of them are
    those of an instruction of [p]. *)
Inductive error_renamed (f : str -> str) (p : list node) : semantic_error -> semantic_error -> Prop :=
| renamed_twice : forall l x, error_renamed f p (RedefinitionOfLabel l x) (RedefinitionOfLabel l (f x))
| renamed_unknown : forall l x,
    error_renamed f p (AssemblyFailed l (UnableToResolveLabel x)) (AssemblyFailed l (UnableToResolveLabel (f x)))
| renamed_no_match : forall l m fields, In (NInstruction l m fields) p ->
    error_renamed f p (AssemblyFailed l (NoMatchingFormat m (listed fields)))
                      (AssemblyFailed l (NoMatchingFormat m (listed (map (rename_field f) fields))))
| renamed_byte : forall l v,
    error_renamed f p (AssemblyFailed l (ExpectingEightBitValue v)) (AssemblyFailed l (ExpectingEightBitValue v))
| renamed_nibble : forall l v,
    error_renamed f p (AssemblyFailed l (ExpectingFourBitValue v)) (AssemblyFailed l (ExpectingFourBitValue v))
| renamed_invalid : forall l r, error_renamed f p (DirectiveInvalid l r) (DirectiveInvalid l r)
| renamed_large : forall l d, error_renamed f p (DirectiveTooLarge l d) (DirectiveTooLarge l d)
| renamed_directive : forall l d, error_renamed f p (DirectiveWouldOverflow l d) (DirectiveWouldOverflow l d)
| renamed_instruction : forall l, error_renamed f p (InstructionWouldOverflow l) (InstructionWouldOverflow l)
| renamed_constant : forall l, error_renamed f p (ConstantWithoutLabel l) (ConstantWithoutLabel l).
