(** * SpecOut: texts and their lines. *)

From Verif Require Import Base.
Open Scope N_scope.

(** The complete lines of a text: everything up to its last newline. *)
Definition complete_lines (text lines : list byte) : Prop :=
  exists rest, text = lines ++ rest /\ ~ In 10 rest /\ (lines = [] \/ exists l, lines = l ++ [10]).
