(** * SpecWidth: texts which do not depend on the word size. *)

From Verif Require Import Base Text SpecLex.
Open Scope N_scope.

(** After every '%' the digits make a number of at most [bits] bits. *)
Definition narrow (bits : N) (s : str) : Prop :=
  forall before d rest, s = before ++ c_ "%" :: d ++ rest -> forallb (among "01.") d = true ->
  positional 2 (undot d) < 2 ^ bits.
