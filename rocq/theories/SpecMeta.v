(** * SpecMeta: changes to a program which should not matter *)

From Verif Require Import Base Text Parser Directive SpecOpcode.

(** ** Renaming labels *)

Definition rename_field (f : str -> str) (x : field) : field :=
  match x with FIdentifier label => FIdentifier (f label) | _ => x end.

Definition rename (f : str -> str) (n : node) : node :=
  match n with
  | NDirective l id args => n
  | NLabel l id => NLabel l (f id)
  | NInstruction l m fields => NInstruction l m (map (rename_field f) fields)
  end.

(** The label [x] is defined or referenced by a statement. *)
Definition mentions (n : node) (x : str) : Prop :=
  match n with
  | NDirective _ _ _ => False
  | NLabel _ id => id = x
  | NInstruction _ _ fields => In (FIdentifier x) fields
  end.

Definition mentioned (p : list node) (x : str) : Prop := exists n, In n p /\ mentions n x.

(** No two labels of the program become one. *)
Definition keeps_apart (f : str -> str) (p : list node) : Prop :=
  forall x y, mentioned p x -> mentioned p y -> f x = f y -> x = y.

(** ** Sections *)

(** A section starts with its '.org'. *)
Definition section_starts (s : list node) : Prop :=
  exists l id a rest, s = NDirective l id [LNumeric a] :: rest /\ map upper id = u "ORG".
