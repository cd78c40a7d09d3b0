(** * SpecHexFile: HEX files, record by record. *)

From Verif Require Import Base Text DataRange SpecHex SpecImage.
Open Scope N_scope.

(** The text has one line for each record, in order, and the end record. *)
Definition hex_file (records : list data_range) (text : str) : Prop :=
  exists ls, Forall2 (fun r line => data_line (dr_start r) (dr_data r) line) records ls /\
    text = end_lines (ls ++ [end_line]).

(** One to sixteen bytes, which end before the last address. *)
Definition record_fits (r : data_range) : Prop := possible r /\ (length (dr_data r) <= 16)%nat.
