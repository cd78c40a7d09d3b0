(** * SpecWrite: writing a syntax list as source text. *)

From Verif Require Import Base Text Location Token Parser SpecLex SpecGrammar.
Open Scope N_scope.

Definition hex_digit (d : N) : char := nth (N.to_nat d) (u "0123456789ABCDEF") 0.

(** '$' and three digits *)
Definition write_number (v : N) : str :=
  [c_ "$"; hex_digit (v / 256); hex_digit (v / 16 mod 16); hex_digit (v mod 16)].

Definition write_field (f : field) : str :=
  match f with
  | FNumeric v => write_number v
  | FIdentifier id => id
  | FRegister r => [c_ "v"; hex_digit r]
  | FDelayTimer => u "dt"
  | FSoundTimer => u "st"
  | FIndex => u "i"
  | FIndexIndirect => u "[i]"
  | FKeypad => u "k"
  | FBcd => u "b"
  | FSprite => u "f"
  end.

Definition write_literal (a : literal) : str :=
  match a with
  | LNumeric v => write_number v
  | LString s => QUOTE :: s ++ [QUOTE]
  end.

Fixpoint separated (l : list str) : str :=
  match l with
  | [] => []
  | [a] => a
  | a :: r => a ++ u ", " ++ separated r
  end.

(** One statement on each line. *)
Definition write_node (n : node) : str :=
  match n with
  | NDirective _ id args => u "." ++ id ++ u " " ++ separated (map write_literal args) ++ [LF]
  | NLabel _ id => id ++ u ":" ++ [LF]
  | NInstruction _ m fields => m ++ u " " ++ separated (map write_field fields) ++ [LF]
  end.

Definition write (p : list node) : str := flat_map write_node p.

(** ** What can be written *)

Definition name (id : str) : Prop := rmatch (pattern KIdentifier) id \/ rmatch (pattern KIndirect) id.

(** A string body: no bare quote, backslashes paired with the character after them. *)
Definition quotable (s : str) : Prop := rmatch (pattern KString) (QUOTE :: s ++ [QUOTE]).

Definition writable_field (f : field) : Prop :=
  match f with
  | FNumeric v => v <= 4095
  | FRegister r => r <= 15
  | FIdentifier id => name id /\ operand id = FIdentifier id
  | _ => True
  end.

Definition writable_literal (a : literal) : Prop :=
  match a with LNumeric v => v <= 4095 | LString s => quotable s end.

Definition writable_node (n : node) : Prop :=
  match n with
  | NDirective _ id args => name id /\ Forall writable_literal args
  | NLabel _ id => name id
  | NInstruction _ m fields => name m /\ Forall writable_field fields
  end.
