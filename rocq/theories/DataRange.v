(** * DataRange: src/assembler/data_range.rs *)

From Verif Require Import Base Text U12.
Open Scope N_scope.

(** data_range.rs:18-23 *)
Record data_range : Type := mk_range {
  dr_start : U12;
  dr_data : list byte
}.

(** data_range.rs:38-43 *)
Definition range_new (start_address : U12) : data_range := mk_range start_address [].

(** data_range.rs:46-48 *)
Definition range_len (r : data_range) : N := N.of_nat (length (dr_data r)).

(** data_range.rs:56-61: the end wraps at 4096 *)
Definition address_range (r : data_range) : U12 * U12 :=
  (dr_start r, u12_wrapping_add (dr_start r) (u12_unchecked_into (range_len r))).

(** data_range.rs:25-32; [usize] subtraction panics on underflow *)
Definition range_fmt (r : data_range) : run str :=
  let '(first, end_) := address_range r in
  if 1 <=? end_
  then Done (u "$" ++ pad_left (c_ "0") 3 (fmt_hex true first) ++ u "...$"
               ++ pad_left (c_ "0") 3 (fmt_hex true (end_ - 1))
               ++ u " (" ++ fmt_dec (range_len r) ++ u " bytes)")
  else Crash ArithOverflow.

(** data_range.rs:64-67; both subtractions panic on underflow *)
Definition bytes_remaining (r : data_range) : run N :=
  if dr_start r <=? u12_max then
    let total_space_in_range := (u12_max - dr_start r) + 1 in
    if range_len r <=? total_space_in_range
    then Done (total_space_in_range - range_len r)
    else Crash ArithOverflow
  else Crash ArithOverflow.

(** data_range.rs:72-79: the result and the range afterwards *)
Definition range_append (r : data_range) (data : list byte) : run (bool * data_range) :=
  let* remaining := bytes_remaining r in
  if N.of_nat (length data) <=? remaining
  then Done (true, mk_range (dr_start r) (dr_data r ++ data))
  else Done (false, r).

(** data_range.rs:82-88 *)
Definition intersects (a b : data_range) : bool :=
  let '(lhs_start, lhs_end) := address_range a in
  let '(rhs_start, rhs_end) := address_range b in
  N.max lhs_start rhs_start <? N.min lhs_end rhs_end.

(** data_range.rs:95-115; the index loops [i], [j] with [i < j] as list recursion *)
Fixpoint find_overlapping_ranges (ranges : list data_range) : list (data_range * data_range) :=
  match ranges with
  | [] => []
  | lhs :: rest =>
      map (fun rhs => (lhs, rhs)) (filter (intersects lhs) rest)
        ++ find_overlapping_ranges rest
  end.
