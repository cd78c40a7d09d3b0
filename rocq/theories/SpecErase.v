(** * SpecErase: tokens, syntax lists and results without source locations.

    Used to say that two texts stand for the same program. *)

From Verif Require Import Base Text Location Token Parser Assembler SpecLex SpecGrammar.
Open Scope N_scope.

Definition nowhere : loc := mk_loc [] 0 0 0.

(** A token without its location; comments also lose their text. *)
Definition bare (t : token) : token :=
  match t with
  | SingleLineComment _ _ => SingleLineComment [] nowhere
  | DirectiveMarker _ => DirectiveMarker nowhere
  | Identifier id _ => Identifier id nowhere
  | LabelMarker _ => LabelMarker nowhere
  | StringLiteral s _ => StringLiteral s nowhere
  | NumericLiteral v _ => NumericLiteral v nowhere
  | Comma _ => Comma nowhere
  | Newline _ => Newline nowhere
  | ErrorToken e _ => ErrorToken e nowhere
  end.

(** A statement without its location. *)
Definition bare_node (n : node) : node :=
  match n with
  | NDirective _ id args => NDirective nowhere id args
  | NLabel _ id => NLabel nowhere id
  | NInstruction _ m fields => NInstruction nowhere m fields
  end.

(** An error without its location. *)
Definition bare_error (e : semantic_error) : semantic_error :=
  match e with
  | DirectiveInvalid _ r => DirectiveInvalid nowhere r
  | DirectiveTooLarge _ d => DirectiveTooLarge nowhere d
  | DirectiveWouldOverflow _ d => DirectiveWouldOverflow nowhere d
  | InstructionWouldOverflow _ => InstructionWouldOverflow nowhere
  | RedefinitionOfLabel _ l => RedefinitionOfLabel nowhere l
  | AssemblyFailed _ r => AssemblyFailed nowhere r
  | ConstantWithoutLabel _ => ConstantWithoutLabel nowhere
  end.

Definition same_tokens (ts ts' : list token) : Prop := map bare ts = map bare ts'.
Definition same_program (p p' : list node) : Prop := map bare_node p = map bare_node p'.

(** The text [s] of the file stands for the syntax list [p]. *)
Definition stands_for (file s : str) (p : list node) : Prop :=
  exists ts, lexes file [] s ts /\ program ts p.

(** The texts stand for the same program, or neither for any. *)
Definition same_text (file s s' : str) : Prop :=
  (forall p, stands_for file s p -> exists p', stands_for file s' p' /\ same_program p p') /\
  (forall p', stands_for file s' p' -> exists p, stands_for file s p /\ same_program p p').
