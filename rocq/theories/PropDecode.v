(** * PropDecode: property C49, with instances. *)

From Verif Require Import Base Text U12 Parser Opcode Instruction Assembler SpecLex SpecOpcode SpecDisasm
  BaseFacts OpcodeProofs InstructionProofs InstructionTheorems DecodeProofs PropInstr.
Open Scope N_scope.

(** A word decodes to an instruction exactly when it has the digits of a row of the
    README (the undocumented NOP aside). *)
Theorem C49_known : forall w, w < 65536 ->
  (from_instruction w <> NOP <->
   exists pattern name operands, In (pattern, name, operands) table /\ matches pattern w /\ name <> "NOP"%string).
Proof.
  intros w L. split; [apply decode_known; exact L|].
  intros (pattern & name & operands & I & M & Nn). exact (proj1 (decode_row w _ _ _ L I M Nn)).
Qed.
Print Assumptions C49_known.

(** It has the digits of one row only. *)
Theorem C49_unique : forall w pattern name operands pattern' name' operands', w < 65536 ->
  In (pattern, name, operands) table -> In (pattern', name', operands') table ->
  matches pattern w -> matches pattern' w -> (pattern, name, operands) = (pattern', name', operands').
Proof. intros w p n o p' n' o' L I I' M M'. exact (rows_apart w (p, n, o) (p', n', o') L I I' M M'). Qed.
Print Assumptions C49_unique.

(** The instruction is spelled as in that row. *)
Theorem C49_text : forall w pattern name operands, w < 65536 ->
  In (pattern, name, operands) table -> matches pattern w -> name <> "NOP"%string ->
  to_assembly_string (from_instruction w) = show_row w (pattern, name, operands).
Proof. intros w p n o L I M Nn. exact (proj2 (decode_row w p n o L I M Nn)). Qed.
Print Assumptions C49_text.

(** An instruction that assembles is displayed as the row it was written by. *)
Theorem C49_assembled : forall m fields labels o pattern name operands,
  ascii m -> Forall field_ok fields -> labels_ok labels ->
  row_for m fields (pattern, name, operands) -> name <> "NOP"%string ->
  instruction_from m fields labels = Ok o ->
  exists w, instruction_into_vec o = Done [w / 256; w mod 256] /\ matches pattern w /\
    to_assembly_string o = show_row w (pattern, name, operands).
Proof.
  intros m fields labels o pattern name operands A F L R Nn Ho.
  pose proof (row_instruction m fields labels _ _ _ A F L R) as H.
  destruct (row_value labels operands fields) as [v|e] eqn:E; [|congruence].
  destruct H as (o' & Ho' & T & Nr & Wo). assert (o' = o) by congruence. subst o'. clear Ho'.
  assert (B : forall os fs, Forall field_ok fs -> row_x os fs <= 15 /\ row_y os fs <= 15).
  { clear. induction os as [|q os IH]; intros [|f fs] F; cbn [row_x row_y]; try lia.
    inversion F as [|? ? Ff Fr]; subst. specialize (IH fs Fr).
    assert (G : reg f <= 15) by (destruct f; cbn [reg field_ok] in *; lia).
    destruct (String.eqb q "Vx"), (String.eqb q "Vy"); lia. }
  destruct (B operands fields F) as [Bx By]. pose proof (proj1 R) as I.
  destruct (word_matches (pattern, name, operands) _ _ v I Bx By) as [M Lt].
  cbn [pattern_of fst] in M, Lt. rewrite <- Wo in M, Lt. exists (opcode_word o).
  split; [apply into_vec_word; assumption|]. split; [exact M|].
  rewrite <- (decode_opcode_word o T Nr) at 1. exact (proj2 (decode_row _ _ _ _ Lt I M Nn)).
Qed.
Print Assumptions C49_assembled.

Example C49_instance :
  In ("Dxyn", "DRW", ["Vx"; "Vy"; "n"])%string table /\ matches "Dxyn" 0xD4A7 /\
  show_row 0xD4A7 ("Dxyn", "DRW", ["Vx"; "Vy"; "n"])%string = u "drw v4, va, $7" /\
  show_row 0x6305 ("6xkk", "LD", ["Vx"; "nn"])%string = u "ld v3, $ 5" /\ matches "6xkk" 0x6305 /\
  ~ (exists row, In row table /\ matches (fst (fst row)) 0x8AB8) /\ from_instruction 0x8AB8 = NOP.
Proof.
  split; [apply (nth_error_In table 22); reflexivity|]. split; [vm_compute; reflexivity|].
  split; [vm_compute; reflexivity|]. split; [vm_compute; reflexivity|]. split; [vm_compute; reflexivity|].
  split; [|vm_compute; reflexivity].
  intros (row & I & M).
  assert (X : forallb (fun row => negb (word (x_of 0x8AB8) (y_of 0x8AB8) (0x8AB8 mod 4096) (u (fst (fst row))) =? 0x8AB8)) table = true)
    by (vm_compute; reflexivity).
  rewrite forallb_forall in X. specialize (X row I). unfold matches in M. rewrite M, N.eqb_refl in X. discriminate.
Qed.

Example C49_instance_assembled :
  row_for (u "Drw") [FRegister 4; FRegister 10; FIdentifier (u "small")] ("Dxyn", "DRW", ["Vx"; "Vy"; "n"])%string /\
  instruction_from (u "Drw") [FRegister 4; FRegister 10; FIdentifier (u "small")] sample_labels = Ok (DRW 4 10 7).
Proof.
  split; [|vm_compute; reflexivity]. split; [apply (nth_error_In table 22); reflexivity|]. split; [vm_compute; reflexivity|].
  constructor; [apply fits_x|]. constructor; [apply fits_y|]. constructor; [|constructor].
  apply fits_value; [right; right; left; reflexivity | reflexivity].
Qed.
