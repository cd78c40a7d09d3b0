(** * Location: src/assembler/source_file_location.rs *)

From Verif Require Import Base Text.
Open Scope N_scope.

(** source_file_location.rs:13-22 *)
Record loc : Type := mk_loc {
  l_file : str;
  l_line : N;
  l_location : N;
  l_length : N
}.

(** source_file_location.rs:41-49; the assertion is line 42 *)
Definition loc_new (file : str) (line location length : N) : run loc :=
  let* _ := assert_ ((0 <? line) && (0 <? location) && (0 <? length)) in
  Done (mk_loc file line location length).

(** source_file_location.rs:25-30.  [location + length - 1] cannot underflow as
    [loc_new] makes all three positive; the model's [N] subtraction agrees. *)
Definition loc_fmt (l : loc) : str :=
  if l_length l =? 1
  then l_file l ++ u ":" ++ fmt_dec (l_line l) ++ u ":" ++ fmt_dec (l_location l)
  else l_file l ++ u ":" ++ fmt_dec (l_line l) ++ u ":" ++ fmt_dec (l_location l)
         ++ u "-" ++ fmt_dec (l_location l + l_length l - 1).
