(** * SpecGlue: which lexemes are read on into the next character. *)

From Verif Require Import Base SpecLex.
Open Scope N_scope.

(** A word goes on with letters, digits and '_'; a decimal number with digits; a hexadecimal number with hexadecimal
    digits, up to three; a binary number with '0', '1' and '.'.  All else ends where it ends. *)
Definition joins (m : str) (c : char) : bool :=
  match m with
  | [] => false
  | f :: _ =>
      if among letters f || among "_" f then among letters c || among decimal_digits c || among "_" c
      else if among decimal_digits f then among decimal_digits c
      else if among "$#" f then among hexadecimal_digits c && negb (Nat.eqb (length m) 4)
      else if among "%" f then among "01." c
      else false
  end.
