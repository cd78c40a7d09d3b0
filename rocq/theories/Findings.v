(** * Findings: the observations of DESIGN.md that no property theorem carries, each with
    a concrete case. *)

From Verif Require Import Base Text U12 Location Token Scanner Parser Directive Opcode
  Instruction DataRange Assembler IHex Main.
Open Scope string_scope.
Open Scope list_scope.
Open Scope N_scope.

(** R8.  [Display] of a data range subtracts 1 from its end, which is 0 for an empty range
    at 0 and for a range that ends with memory. *)
Theorem R8_display : exists r, dr_start r = 0 /\ dr_data r = [] /\ range_fmt r = Crash ArithOverflow.
Proof. exists (range_new 0). repeat split; reflexivity. Qed.
Print Assumptions R8_display.

Theorem R8_display_end : exists r, dr_start r = 0xFFF /\ length (dr_data r) = 1%nat /\
  range_fmt r = Crash ArithOverflow.
Proof. exists (mk_range 0xFFF [7]). repeat split; reflexivity. Qed.
Print Assumptions R8_display_end.

(** R11.  A [.db] of exactly 4096 bytes does not exceed 4096 bytes, but the message for
    one that does is given: [DirectiveTooLarge] prints "exceeds 4096 bytes". *)
Theorem R11_size : forall l bytes, length bytes = 4096%nat -> Forall (fun b => b < 128) bytes ->
  define_labels [NDirective l (u "db") [LString bytes]] = Err (DirectiveTooLarge l (Db bytes)).
Proof.
  intros l bytes L F.
  assert (E : utf8 bytes = bytes).
  { clear L. unfold utf8. induction F as [|b r B F IH]; [reflexivity|]. cbn [flat_map]. rewrite IH.
    unfold utf8_char. replace (b <? 0x80) with true by (symmetry; apply N.ltb_lt; exact B). reflexivity. }
  unfold define_labels. cbn [define_labels_loop].
  replace (directive_from (u "db") [LString bytes]) with (@Ok directive_error directive (Db bytes))
    by (rewrite <- E at 1; reflexivity).
  cbn [map_err rbind].
  replace (directive_size (Db bytes)) with 4096 by (unfold directive_size; rewrite L; reflexivity).
  reflexivity.
Qed.
Print Assumptions R11_size.

Example R11_instance : length (repeat 65 4096) = 4096%nat /\
  Forall (fun b => b < 128) (repeat 65 4096).
Proof.
  split; [apply repeat_length|]. apply Forall_forall. intros x H.
  apply repeat_spec in H. subst x. reflexivity.
Qed.

(** R12.  [[i]:] is a label, which no operand can refer to. *)
Theorem R12_bracket :
  (exists l, (let* ts := scan (u "f") (u "[i]:") in parse ts) = Done (Ok [NLabel l (u "[i]")])) /\
  identifier_field (u "[i]") = Done FIndexIndirect.
Proof. split; [eexists; vm_compute; reflexivity | reflexivity]. Qed.
Print Assumptions R12_bracket.

(** R13.  Statements need not be on lines of their own. *)
Theorem R13_one_line : exists l1 l2,
  (let* ts := scan (u "f") (u "ld v0, v1 cls" ++ [10]) in parse ts) =
  Done (Ok [NInstruction l1 (u "ld") [FRegister 0; FRegister 1]; NInstruction l2 (u "cls") []]).
Proof. do 2 eexists. vm_compute. reflexivity. Qed.
Print Assumptions R13_one_line.

(** R15.  /repo/tests/test_directives.S ends in an [.equ] that follows another one and has no
    label; it is refused, so test_directives.hex cannot be the output of this commit. *)
Theorem R15_test_directives : exists l,
  (let* ts := scan (u "f") (u "
.org $200
natural_label: ; Value should be $200
  jp CONSTANT
CONSTANT: .equ $FFE
  .equ $FFF
") in
   let* r := parse ts in
   match r with Ok p => Done (define_labels p) | Err _ => Crash ExplicitPanic end)
  = Done (Err (ConstantWithoutLabel l)).
Proof. eexists. vm_compute. reflexivity. Qed.
Print Assumptions R15_test_directives.
