(** * PropCounter: property C87, with instances. *)

From Verif Require Import Base Text Location Token Scanner ScannerW ScannerO SpecLex SpecWidth BaseFacts LexProofs ScanProofs
  LexTheorems WidthProofs CounterProofs.
Open Scope N_scope.

(** ** C87: the counters of the scanner.

    [scan_o bits] is the scanner in which every position, line and column is a [usize] of [bits] bits and every
    addition and subtraction panics when its result does not fit.  A text held in memory has at most
    [2^(bits-1) - 1] bytes. *)

(** The unbounded counters of the other models are right, for all texts up to two bytes below the word size. *)
Theorem C87_counters : forall bits file s, 12 <= bits -> byte_len s + 1 < 2 ^ bits ->
  scan_o bits file s = scan_w bits file s.
Proof. exact scan_fits. Qed.
Print Assumptions C87_counters.

(** No text in the memory of the machine makes the scanner panic. *)
Theorem C87_memory : forall file s, byte_len s < 2 ^ 63 ->
  exists ts, scan_o 64 file s = Done ts /\ scan file s = Done ts.
Proof.
  intros file s B. destruct (scan_total file s) as (ts & E). exists ts. split; [|exact E].
  rewrite scan_fits; [rewrite scan_64; exact E | lia |]. rewrite pow2_64. change (2 ^ 63) with 9223372036854775808 in B. lia.
Qed.
Print Assumptions C87_memory.

(** Nor does it on a machine of half the word size, if it has no binary number beyond that size (C72). *)
Theorem C87_memory_32 : forall file s, byte_len s < 2 ^ 31 -> narrow 32 s -> narrow 64 s ->
  exists ts, scan_o 32 file s = Done ts /\ scan file s = Done ts.
Proof.
  intros file s B N N'. destruct (scan_total file s) as (ts & E). exists ts. split; [|exact E].
  change (2 ^ 31) with 2147483648 in B. rewrite scan_fits; [|lia | change (2 ^ 32) with 4294967296; lia].
  rewrite (scan_same 32 64) by (assumption || lia). rewrite scan_64. exact E.
Qed.
Print Assumptions C87_memory_32.

(** The columns in a message, [location + length - 1], do not overflow either. *)
Theorem C87_locations : forall file s ts t, byte_len s < 2 ^ 63 -> scan file s = Done ts -> In t ts ->
  loc_fmt_o 64 (token_location t) = Done (loc_fmt (token_location t)).
Proof.
  intros file s ts t B S I. apply In_nth_error in I. destruct I as (i & I).
  destruct (scan_location _ _ _ _ _ S I) as (before & m & after & -> & Hm & -> & _).
  apply (location_fits 64 file before m after Hm). rewrite pow2_64. change (2 ^ 63) with 9223372036854775808 in B. lia.
Qed.
Print Assumptions C87_locations.

(** The bound cannot be raised: one more newline, and the line counter overflows. *)
Theorem C87_limit : forall bits file, 2 <= bits ->
  scan_o bits file (repeat LF (N.to_nat (2 ^ bits - 1))) = Crash ArithOverflow.
Proof. exact scan_lines_overflow. Qed.
Print Assumptions C87_limit.

(** Sixteen-bit counters are enough for this text, four-bit counters are not: they stop in the third line. *)
Definition counted_text : str := u "LD V1, $F" ++ [LF] ++ u ";" ++ [LF] ++ u "DRW V0".

Example C87_instance : byte_len counted_text = 18 /\
  scan_o 16 [] counted_text = scan [] counted_text /\
  (exists ts, scan [] counted_text = Done ts /\ length ts = 9%nat) /\
  scan_o 4 [] counted_text = Crash ArithOverflow /\
  scan_o 4 [] (repeat LF 14) = scan [] (repeat LF 14) /\
  scan_o 4 [] (repeat LF 15) = Crash ArithOverflow.
Proof.
  split; [vm_compute; reflexivity|]. split; [vm_compute; reflexivity|].
  split; [eexists; split; [vm_compute; reflexivity | reflexivity]|].
  split; [vm_compute; reflexivity|]. split; vm_compute; reflexivity.
Qed.
