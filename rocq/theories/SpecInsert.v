(** * SpecInsert: statements inserted into a program. *)

From Verif Require Import Base Text Parser Instruction DataRange SpecOpcode SpecLayout.
Open Scope N_scope.

(** An instruction or a '.db'. *)
Definition plain (n : node) : Prop := origin n = None /\ constant n = None /\ is_label n = false.

(** The bytes a list of statements emits. *)
Definition extent (m : list node) : N := fold_right (fun n k => size n + k) 0 m.

(** [p] goes on at its own address, or is empty. *)
Definition placed (p : list node) : Prop := forall n r, p = n :: r -> exists o, origin n = Some o.

(** [p] does not start with the '.equ' of a label before it. *)
Definition detached (p : list node) : Prop := forall n r, p = n :: r -> constant n = None.

(** The label [x] of [b] is an address there. *)
Definition address_of (b : list node) (x : str) : Prop :=
  exists b1 l b2, b = b1 ++ NLabel l x :: b2 /\ detached b2.

(** No instruction of [p] refers to an address in [b]. *)
Definition apart_from (b p : list node) : Prop :=
  forall l m fields x, In (NInstruction l m fields) p -> In (FIdentifier x) fields -> ~ address_of b x.

(** The same bytes, [k] further up. *)
Definition up (k : N) (c : N * byte) : N * byte := (fst c + k, snd c).
