(** * SpecMend: taking out the statement that an error is about. *)

From Verif Require Import Base Text Parser Directive Instruction DataRange Assembler SpecOpcode SpecRefusal SpecLayout.
Open Scope nat_scope.

(** The statement of index [i] is the one reported, in the first or the second pass over the program. *)
Inductive fault (p : list node) : nat -> nat -> semantic_error -> Prop :=
| fault_first : forall i e, first (violates p) i e -> fault p 1 i e
| fault_second : forall i e, (forall j e', ~ violates p j e') -> first (unencodable p) i e -> fault p 2 i e.

(** The program without the statement of index [i]. *)
Definition without {A} (i : nat) (p : list A) : list A := firstn i p ++ skipn (S i) p.

(** Errors come one after the other: a pass over the program and then another, each from the beginning to the end. *)
Definition no_sooner (x y : nat * nat) : Prop := fst x < fst y \/ fst x = fst y /\ snd x <= snd y.

(** [mended p l q]: by taking out, again and again, the statement reported, until no error is reported, [p] becomes [q]; [l] lists
    the passes and the indices. *)
Inductive mended : list node -> list (nat * nat) -> list node -> Prop :=
| mended_none : forall p rs, assemble p = Done (Ok rs) -> mended p [] p
| mended_one : forall p k i e l q, assemble p = Done (Err e) -> fault p k i e -> mended (without i p) l q ->
    mended p ((k, i) :: l) q.

(** Each is no sooner than the one before. *)
Fixpoint in_order (l : list (nat * nat)) : Prop :=
  match l with
  | x :: r => match r with [] => True | y :: _ => no_sooner x y end /\ in_order r
  | [] => True
  end.
