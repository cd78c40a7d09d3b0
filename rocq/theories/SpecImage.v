(** * SpecImage: contents of memory, and a text for them. *)

From Verif Require Import Base Text DataRange SpecLex SpecWrite.
Open Scope N_scope.

(** A block a program can have: not empty, its bytes are bytes, and it ends before the
    last address. *)
Definition possible (r : data_range) : Prop :=
  dr_data r <> [] /\ Forall (fun b => b < 256) (dr_data r) /\
  dr_start r + N.of_nat (length (dr_data r)) <= 4095.

(** An '.org' and a '.db' for each block. *)
Definition block_text (r : data_range) : str :=
  u ".org " ++ write_number (dr_start r) ++ [LF] ++
  u ".db " ++ separated (map write_number (dr_data r)) ++ [LF].

Definition image_text (rs : list data_range) : str := flat_map block_text rs.
