(** * SpecWork: what a search in a text has to look at (C100). *)

From Verif Require Import Base Text SpecRegex.
Open Scope N_scope.

(** [p] can be continued to something the pattern matches from beginning to end. *)
Definition viable (pattern : string) (p : str) : Prop := exists t, regex_find pattern (p ++ t) = Some ([], p ++ t).

(** [look s] is the number of the first characters of [s] which have to be looked at by a search that goes on as
    long as a match is possible: those that can be continued, and the one after them (or the end of [s]). *)
Definition looks (pattern : string) (look : str -> N) : Prop :=
  forall s k, (k <= length s)%nat -> (viable pattern (firstn k s) <-> N.of_nat k < look s).
