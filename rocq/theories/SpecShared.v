(** * SpecShared: runs that do not get into each other's way. *)

From Verif Require Import Base Text Main MainProofs.
Open Scope N_scope.

(** No run writes what another one reads or writes.  A run may write its own input. *)
Definition separate (runs : list env) : Prop :=
  forall i j e e' input output input' output', i <> j -> nth_error runs i = Some e -> nth_error runs j = Some e' ->
    asks e input output -> asks e' input' output' -> output <> u "-" -> output <> input' /\ output <> output'.

(** A run writes this file. *)
Definition writes (runs : list env) (path : str) : Prop :=
  exists e input, In e runs /\ asks e input path /\ path <> u "-".
