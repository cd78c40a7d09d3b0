(** * SpecRecords: where the records of a HEX file start. *)

From Verif Require Import Base Parser DataRange SpecLayout.
Open Scope N_scope.

(** A record starts at the beginning of each block, and after every 16 bytes of it. *)
Definition record_starts (rs : list data_range) (x : N) : Prop :=
  exists r k, In r rs /\ x = dr_start r + 16 * k /\ 16 * k < N.of_nat (length (dr_data r)).

(** The bytes since the last '.org' of [p], and those of [q] before its first. *)
Definition open_bytes (p : list node) : N :=
  fold_left (fun k n => match origin n with Some _ => 0 | None => k + size n end) p 0.

Fixpoint next_bytes (q : list node) : N :=
  match q with
  | [] => 0
  | n :: rest => match origin n with Some _ => 0 | None => size n + next_bytes rest end
  end.
