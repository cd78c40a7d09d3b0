(** * SpecNumeral: the ways to write a number. *)

From Verif Require Import Base SpecLex.
Open Scope N_scope.

(** [m] is a way to write [v]. *)
Inductive writes (v : N) : str -> Prop :=
| writes_decimal : forall d, d <> [] -> forallb (among decimal_digits) d = true -> positional 10 d = v -> writes v d
| writes_hexadecimal : forall p d, among "$#" p = true -> (1 <= length d <= 3)%nat ->
    forallb (among hexadecimal_digits) d = true -> positional 16 d = v -> writes v (p :: d)
| writes_binary : forall d, d <> [] -> forallb (among "01.") d = true -> positional 2 (undot d) = v ->
    writes v (c_ "%" :: d).

(** A character that can continue a number. *)
Definition continues (c : char) : bool := among hexadecimal_digits c || among "." c.

Definition number_ends (b : str) : Prop := match b with [] => True | c :: _ => continues c = false end.
