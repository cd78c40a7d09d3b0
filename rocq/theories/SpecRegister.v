(** * SpecRegister: other registers in place of those of a program. *)

From Verif Require Import Base Text Location Parser Directive Opcode Instruction DataRange Assembler SpecOpcode SpecLayout SpecRun.
Open Scope N_scope.

(** One of the sixteen registers for each; V0, which one instruction needs, for itself alone. *)
Definition exchanges (f : N -> N) : Prop := forall r, r <= 15 -> f r <= 15 /\ (f r = 0 <-> r = 0).

Definition exchange_field (f : N -> N) (x : field) : field :=
  match x with FRegister r => FRegister (f r) | _ => x end.

Definition exchange (f : N -> N) (n : node) : node :=
  match n with NInstruction l m fields => NInstruction l m (map (exchange_field f) fields) | _ => n end.

(** The digits of an opcode that are registers: none, the second and third, or the second, by the first digit. *)
Definition exchange_word (f : N -> N) (w : N) : N :=
  let d3 := w / 4096 in
  let d2 := w / 256 mod 16 in
  let d1 := w / 16 mod 16 in
  let d0 := w mod 16 in
  if existsb (N.eqb d3) [0; 1; 2; 10; 11] then w
  else if existsb (N.eqb d3) [5; 8; 9; 13] then d3 * 4096 + f d2 * 256 + f d1 * 16 + d0
  else d3 * 4096 + f d2 * 256 + d1 * 16 + d0.

(** The bytes of a statement, with these digits changed if it is an instruction. *)
Definition exchange_bytes (f : N -> N) (n : node) (bytes : list byte) : list byte :=
  match n, bytes with
  | NInstruction _ _ _, [a; b] => let w := exchange_word f (a * 256 + b) in [w / 256; w mod 256]
  | _, _ => bytes
  end.

(** What an instruction says, of other registers. *)
Definition exchange_operand (f : N -> N) (o : operand) : operand :=
  match o with Register r => Register (f r) | _ => o end.

Definition exchange_meaning (f : N -> N) (i : meaning) : meaning := (fst i, map (exchange_operand f) (snd i)).

(** A range of the same addresses. *)
Definition same_place (r r' : data_range) : Prop := dr_start r' = dr_start r /\ length (dr_data r') = length (dr_data r).

(** The same error; but of an instruction which does not exist the operands are listed. *)
Inductive same_error : semantic_error -> semantic_error -> Prop :=
| same_itself : forall e, same_error e e
| same_unknown : forall l m x y, same_error (AssemblyFailed l (NoMatchingFormat m x)) (AssemblyFailed l (NoMatchingFormat m y)).
