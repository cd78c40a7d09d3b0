(** * SpecDos: texts with the line ends of DOS. *)

From Verif Require Import Base Location Token SpecLex.
Open Scope N_scope.

Definition CR : char := 13.

(** Each newline becomes carriage return, newline. *)
Definition dos (s : str) : str := flat_map (fun c => if c =? LF then [CR; LF] else [c]) s.

(** What becomes of a token: nothing, unless it is a string. *)
Definition dos_token (t : token) : token :=
  match t with
  | StringLiteral b l => StringLiteral (dos b) l
  | _ => t
  end.

(** No string goes on to the next line. *)
Definition one_line_strings (ts : list token) : Prop :=
  forall b l, In (StringLiteral b l) ts -> ~ In LF b.
