(** * SpecBlank: texts which differ in their blanks. *)

From Verif Require Import Base Text Location Token SpecLex.
Open Scope N_scope.

(** The same characters, except that a blank may stand for another. *)
Definition same_but_blanks (s s' : str) : Prop :=
  Forall2 (fun c c' => c = c' \/ (blank c = true /\ blank c' = true)) s s'.

(** The same token at the same place, except for blanks in comments and strings. *)
Inductive same_but_text : token -> token -> Prop :=
| same_token : forall t, same_but_text t t
| same_comment : forall m m' l, same_but_blanks m m' ->
    same_but_text (SingleLineComment m l) (SingleLineComment m' l)
| same_string : forall b b' l, same_but_blanks b b' ->
    same_but_text (StringLiteral b l) (StringLiteral b' l).

(** The contents of the strings. *)
Definition strings (ts : list token) : list str :=
  flat_map (fun t => match t with StringLiteral b _ => [b] | _ => [] end) ts.

(** The marks other systems put at the end of a line: CR, VT, FF, NEL, LS, PS. *)
Definition line_marks : list char := [13; 11; 12; 0x85; 0x2028; 0x2029].

(** The text with every newline replaced. *)
Definition with_line_mark (mark : char) (s : str) : str :=
  map (fun c => if c =? LF then mark else c) s.

(** The byte order mark, as a character. *)
Definition byte_order_mark : char := 0xFEFF.
