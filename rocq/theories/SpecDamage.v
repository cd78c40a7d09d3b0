(** * SpecDamage: a text with one character wrong. *)

From Verif Require Import Base.
Open Scope N_scope.

(** One character changed, lost or added. *)
Inductive one_wrong : str -> str -> Prop :=
| wrong_changed : forall a c c' b, c <> c' -> one_wrong (a ++ c :: b) (a ++ c' :: b)
| wrong_lost : forall a c b, one_wrong (a ++ c :: b) (a ++ b)
| wrong_added : forall a c b, one_wrong (a ++ b) (a ++ c :: b).
