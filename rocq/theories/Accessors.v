(** * Accessors: small functions of the data types; elsewhere their results are written out *)

From Verif Require Import Base Text U12 Opcode Instruction DataRange.
Open Scope N_scope.

(** instruction.rs:371 *)
Definition instruction_size (o : opcode) : N := 2.

(** opcode.rs:207-211 *)
Definition opcode_fmt (o : opcode) : str := to_assembly_string o.

(** data_range.rs:51-53 *)
Definition range_data (r : data_range) : list byte := dr_data r.
