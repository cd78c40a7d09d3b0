(** * SpecDepth: what the recursion of the parser may depend on *)

From Verif Require Import Base Text Token Parser.

Definition commas (ts : list token) : nat :=
  length (filter (fun t => match t with Comma _ => true | _ => false end) ts).

Definition one_line (ts : list token) : Prop := forall l, ~ In (Newline l) ts.

(** No line has more than [k] commas. *)
Definition commas_per_line (k : nat) (ts : list token) : Prop :=
  forall a c b, ts = a ++ c ++ b -> one_line c -> (commas c <= k)%nat.

(** The number of operands of a statement. *)
Definition operands (n : node) : nat :=
  match n with
  | NDirective _ _ args => length args
  | NLabel _ _ => 0
  | NInstruction _ _ fields => length fields
  end.
