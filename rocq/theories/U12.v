(** * U12: the external crate [twelve_bit] 0.1 (Cargo.toml), as used by /repo.
    Not part of /repo: trusted base.  A [U12] is an [N] below 4096.  Uses:
    parser.rs:370, directive.rs:114,164, assembler.rs:117,137,144,185,
    data_range.rs:59,65,87, instruction.rs:83,93, opcode.rs:67. *)

From Verif Require Import Base.
Open Scope N_scope.

Notation U12 := N (only parsing).
(** [U12::max_value()] of the crate twelve_bit, directive.rs:13 *)
Definition u12_max : U12 := 0xFFF.

(** [x.unchecked_into() : U12] truncates to the low 12 bits. *)
Definition u12_unchecked_into (x : N) : U12 := x mod 4096.

(** [x.failable_into() : Option<U12>] *)
Definition u12_failable_into (x : N) : option U12 :=
  if x <=? u12_max then Some x else None.

(** [U12::checked_add] *)
Definition u12_checked_add (a b : U12) : option U12 :=
  if a + b <=? u12_max then Some (a + b) else None.

(** [U12::wrapping_add] *)
Definition u12_wrapping_add (a b : U12) : U12 := (a + b) mod 4096.

(** [U12 -> Option<u8>] *)
Definition u8_failable_from_u12 (x : U12) : option byte :=
  if x <=? 0xFF then Some x else None.
