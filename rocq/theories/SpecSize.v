(** * SpecSize: how much there is of things. *)

From Verif Require Import Base DataRange.
Open Scope N_scope.

(** The bytes of all the blocks together. *)
Fixpoint bytes_in (rs : list data_range) : N :=
  match rs with
  | [] => 0
  | r :: rest => N.of_nat (length (dr_data r)) + bytes_in rest
  end.

(** The records of the HEX file: one for every 16 bytes, or fewer at the end of a block. *)
Fixpoint records_in (rs : list data_range) : N :=
  match rs with
  | [] => 0
  | r :: rest => (N.of_nat (length (dr_data r)) + 15) / 16 + records_in rest
  end.
