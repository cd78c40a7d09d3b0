(** * SpecStream: what an iterator delivers. *)

From Verif Require Import Base Token.

(** The answers to [n] calls of [next]. *)
Fixpoint pulls {I : Type} (next : I -> run (option token * I)) (n : nat) (i : I)
  : run (list (option token) * I) :=
  match n with
  | O => Done ([], i)
  | S n =>
      let* (t, i) := next i in
      let* (ts, i) := pulls next n i in
      Done (t :: ts, i)
  end.

(** The tokens [ts], and then [None] however often it is asked. *)
Definition delivers {I : Type} (next : I -> run (option token * I)) (i : I) (ts : list token) : Prop :=
  forall n, exists i', pulls next n i = Done (map Some (firstn n ts) ++ repeat None (n - length ts), i').
