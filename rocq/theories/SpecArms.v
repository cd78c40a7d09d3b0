(** * SpecArms: how many arms of a match would do. *)

From Coq Require Import List NArith.
Import ListNotations.

Definition answers {T} (arms : list (option T)) : list T := flat_map (fun r => match r with Some t => [t] | None => [] end) arms.

(** No two arms of the match apply. *)
Definition at_most_one {T} (arms : list (option T)) : Prop := (length (answers arms) <= 1)%nat.
