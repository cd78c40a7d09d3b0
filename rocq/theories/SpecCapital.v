(** * SpecCapital: texts which differ in the case of their letters. *)

From Verif Require Import Base Text Location Token Parser SpecLex SpecOpcode.
Open Scope N_scope.

(** The same characters, except that an ASCII letter may stand for its other case. *)
Definition same_but_case (s s' : str) : Prop := map upper s = map upper s'.

Definition lower (c : char) : char := if (65 <=? c) && (c <=? 90) then c + 32 else c.

Definition has_spelling (t : token) : bool :=
  match t with SingleLineComment _ _ | StringLiteral _ _ | Identifier _ _ => true | _ => false end.

(** The same token at the same place, spelled with characters related by [R]. *)
Inductive respelled (R : char -> char -> Prop) : token -> token -> Prop :=
| rs_token : forall t, has_spelling t = false -> respelled R t t
| rs_comment : forall m m' l, Forall2 R m m' -> respelled R (SingleLineComment m l) (SingleLineComment m' l)
| rs_string : forall b b' l, Forall2 R b b' -> respelled R (StringLiteral b l) (StringLiteral b' l)
| rs_name : forall m m' l, Forall2 R m m' -> respelled R (Identifier m l) (Identifier m' l).

(** No name is one of the four which the tool reads in lower and in upper case but not so. *)
Definition no_mixed_names (ts : list token) : Prop :=
  forall id l, In (Identifier id l) ts -> ~ In id [u "Dt"; u "dT"; u "St"; u "sT"].

(** The same operand, or two labels whose names are related by [R]. *)
Inductive respelled_field (R : char -> char -> Prop) : field -> field -> Prop :=
| rf_same : forall f, (forall x, f <> FIdentifier x) -> respelled_field R f f
| rf_label : forall m m', Forall2 R m m' -> respelled_field R (FIdentifier m) (FIdentifier m').

(** The same statement at the same place, with names related by [R]. *)
Inductive respelled_node (R : char -> char -> Prop) : node -> node -> Prop :=
| rn_directive : forall l id id' args, Forall2 R id id' ->
    respelled_node R (NDirective l id args) (NDirective l id' args)
| rn_label : forall l id id', Forall2 R id id' -> respelled_node R (NLabel l id) (NLabel l id')
| rn_instruction : forall l m m' fs fs', Forall2 R m m' -> Forall2 (respelled_field R) fs fs' ->
    respelled_node R (NInstruction l m fs) (NInstruction l m' fs').

(** The labels defined or referenced, in the order of the text. *)
Definition label_mentions (p : list node) : list str :=
  flat_map (fun n =>
    match n with
    | NDirective _ _ _ => []
    | NLabel _ id => [id]
    | NInstruction _ _ fs => flat_map (fun f => match f with FIdentifier x => [x] | _ => [] end) fs
    end) p.
