(** * SpecTool: what the tool is for, from a source file to memory. *)

From Verif Require Import Base Location Token Parser DataRange Assembler SpecUtf8 SpecLex SpecGrammar SpecLayout.
Open Scope N_scope.

(** [compiles file s rs]: the text [s] of the file named [file] is a program, and its
    blocks [rs] share no address. *)
Definition compiles (file s : str) (rs : list data_range) : Prop :=
  exists ts p, lexes file [] s ts /\ program ts p /\ well_formed p /\ output p rs /\
    NoDup (map fst (memory rs)).
