(** * SpecDisasm: words and their spelling, from the tables of the README.

    Only [table], with its patterns, is used. *)

From Verif Require Import Base SpecOpcode.
Open Scope N_scope.

(** The nibbles of a word. *)
Definition x_of (w : N) : N := w / 256 mod 16.
Definition y_of (w : N) : N := w / 16 mod 16.

(** [matches pattern w]: the word has the digits of the pattern. *)
Definition matches (pattern : string) (w : N) : Prop := word (x_of w) (y_of w) (w mod 4096) (u pattern) = w.

(** ** Spelling *)

Definition hex_digit (n : N) : char := nth (N.to_nat n) (u "0123456789abcdef") 0.

(** A number in a field of the given width, spaces in front. *)
Definition in_field (width : nat) (v : N) : str :=
  match width with
  | 3%nat =>
      if 256 <=? v then [hex_digit (v / 256); hex_digit (v / 16 mod 16); hex_digit (v mod 16)]
      else if 16 <=? v then [c_ " "; hex_digit (v / 16); hex_digit (v mod 16)]
      else [c_ " "; c_ " "; hex_digit v]
  | 2%nat =>
      if 16 <=? v then [hex_digit (v / 16); hex_digit (v mod 16)] else [c_ " "; hex_digit v]
  | _ => [hex_digit v]
  end.

(** An operand of a row, for the word. *)
Definition show_operand (w : N) (operand : string) : str :=
  if String.eqb operand "Vx" then c_ "v" :: in_field 1 (x_of w)
  else if String.eqb operand "Vy" then c_ "v" :: in_field 1 (y_of w)
  else if String.eqb operand "addr" then c_ "$" :: in_field 3 (w mod 4096)
  else if String.eqb operand "nn" then c_ "$" :: in_field 2 (w mod 256)
  else if String.eqb operand "n" then c_ "$" :: in_field 1 (w mod 16)
  else map (fun c => if (65 <=? c) && (c <=? 90) then c + 32 else c) (u operand).

(** The row for the word, in small letters. *)
Definition show_row (w : N) (row : string * string * list string) : str :=
  let '(_, name, operands) := row in
  map (fun c => if (65 <=? c) && (c <=? 90) then c + 32 else c) (u name) ++
  match operands with
  | [] => []
  | o :: os => c_ " " :: show_operand w o ++ flat_map (fun o' => c_ "," :: c_ " " :: show_operand w o') os
  end.
