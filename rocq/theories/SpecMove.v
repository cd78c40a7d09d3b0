(** * SpecMove: a program loaded at another place. *)

From Verif Require Import Base Text Parser Instruction DataRange SpecLayout.
Open Scope N_scope.

(** [k] added to the address of an '.org'; other statements as they are. *)
Definition move (k : N) (n : node) : node :=
  match n with
  | NDirective l id [LNumeric a] => if names id "ORG" then NDirective l id [LNumeric (a + k)] else n
  | _ => n
  end.

Definition moved (k : N) (p : list node) : list node := map (move k) p.

(** The same bytes, [k] further up. *)
Definition raise (k : N) (r : data_range) : data_range := mk_range (dr_start r + k) (dr_data r).

(** There is room: the address after each statement can be moved too. *)
Definition room (k : N) (p : list node) : Prop :=
  forall i, (0 < i <= length p)%nat -> address p i + k <= 4095.

(** The label [x] is not an address: each definition is followed by its '.equ'. *)
Definition fixed (p : list node) (x : str) : Prop :=
  forall i l, nth_error p i = Some (NLabel l x) ->
  exists n c, nth_error p (S i) = Some n /\ constant n = Some c.

(** No instruction refers to an address. *)
Definition position_independent (p : list node) : Prop :=
  forall l m fields x, In (NInstruction l m fields) p -> In (FIdentifier x) fields -> fixed p x.
