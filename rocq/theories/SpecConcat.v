(** * SpecConcat: programs that have nothing to do with each other. *)

From Verif Require Import Base Text Parser SpecMeta.

Definition defines (p : list node) (x : str) : Prop := exists l, In (NLabel l x) p.

(** No label of the one is mentioned in the other. *)
Definition independent (p q : list node) : Prop :=
  forall x, (defines p x -> ~ mentioned q x) /\ (defines q x -> ~ mentioned p x).
