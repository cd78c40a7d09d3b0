(** * PropDisasm: property C26, with instances. *)

From Verif Require Import Base Text U12 Location Token Scanner Parser Opcode Instruction Directive DataRange Assembler Main
  SpecLex SpecGrammar SpecErase SpecCode SpecWrite
  BaseFacts LexProofs ScanProofs LexTheorems ParseProofs OpcodeProofs LexAppend GrammarLines TextProofs TextCode WriteProofs FmtProofs
  DisasmProofs PropOutput.
Open Scope N_scope.

(** The line displayed for a word, as a source text. *)
Definition line_of (w : N) : str := to_assembly_string (from_instruction w) ++ [LF].

Definition reassembles_to (file : str) (w w' : N) : Prop :=
  exists p, parsed file (line_of w) p /\ assemble p = Done (Ok [mk_range 0 [w' / 256; w' mod 256]]).

(** Words with a number displayed with spaces in front. *)
Definition number_padded (w : N) : Prop :=
  (In (w / 4096) [1; 2; 10; 11] /\ w mod 4096 < 256) \/ (In (w / 4096) [3; 4; 6; 7; 12] /\ w mod 256 < 16).

(** Shifts with a second register, which is not displayed. *)
Definition shift_with_y (w : N) : Prop :=
  w / 4096 = 8 /\ In (w mod 16) [6; 14] /\ w / 16 mod 16 <> 0.

Lemma padded_word : forall o, well_typed o -> nibbles_in_range o ->
  (padded o = true <-> number_padded (opcode_word o)).
Proof.
  intros o (T1 & T2 & T3) R. unfold nibbles_in_range, number_padded in *.
  destruct o; cbn [nibble_fields byte_fields address_fields padded opcode_word In] in *; forall_inv; lia.
Qed.

Lemma displayed_word : forall o, well_typed o -> nibbles_in_range o ->
  if (opcode_word o / 4096 =? 8) && ((opcode_word o mod 16 =? 6) || (opcode_word o mod 16 =? 14))
  then opcode_word (displayed o) = opcode_word o - opcode_word o / 16 mod 16 * 16
  else opcode_word (displayed o) = opcode_word o.
Proof.
  intros o (T1 & T2 & T3) R. unfold nibbles_in_range in *.
  destruct o; cbn [nibble_fields byte_fields address_fields displayed opcode_word] in *; forall_inv;
    match goal with |- if ?b then _ else _ => destruct b eqn:E end; lia.
Qed.

Lemma from_word : forall w, w < 65536 -> from_instruction w <> NOP -> opcode_word (from_instruction w) = w.
Proof.
  intros w L N. destruct (decode_well_typed w L) as [T R]. pose proof (decode_encode w L N) as E.
  rewrite as_instruction_word in E by assumption. injection E as E. exact E.
Qed.

Lemma reassembles_det : forall file w w1 w2, w1 < 65536 -> w2 < 65536 ->
  reassembles_to file w w1 -> reassembles_to file w w2 -> w1 = w2.
Proof.
  intros file w w1 w2 L1 L2 (p & (ts & L & P) & A) (p' & (ts' & L' & P') & A').
  rewrite L in L'. injection L' as <-.
  rewrite P in P'. injection P' as <-. rewrite A in A'. injection A' as E1 E2. lia.
Qed.

(** The claim is false: a small number, and the second register of a shift. *)
Theorem C26_refuted : exists file w, w < 65536 /\ from_instruction w <> NOP /\ ~ reassembles_to file w w.
Proof.
  exists (u "a.s"), 0x6007. split; [lia|]. split; [vm_compute; discriminate|].
  intros (p & S & _). apply parsed_stands in S. refine (disassembly_rejected _ _ _ _ _ S); [lia | vm_compute; reflexivity].
Qed.
Print Assumptions C26_refuted.

(** Words that come back, exactly. *)
Theorem C26_words_partial : forall file w, w < 65536 -> from_instruction w <> NOP ->
  (reassembles_to file w w <-> ~ number_padded w /\ ~ shift_with_y w).
Proof.
  intros file w L N. destruct (decode_well_typed w L) as [T R]. pose proof (from_word w L N) as W.
  pose proof (padded_word _ T R) as P. rewrite W in P.
  pose proof (displayed_word _ T R) as D. rewrite W in D.
  split.
  - intros H. assert (Np : ~ number_padded w).
    { intros Pw. destruct H as (p & S & _). apply parsed_stands in S. apply (disassembly_rejected file w p L); [apply P; exact Pw | exact S]. }
    split; [exact Np|]. intros (H8 & H6 & Hy).
    destruct (padded (from_instruction w)) eqn:Pd; [apply Np, P; reflexivity|].
    destruct (disassembly_assembles file w L Pd) as (p & S & A). apply parsed_stands in S. cbv zeta in A.
    destruct (displayed_typed _ T R) as [T' R'].
    assert (E := reassembles_det file w w (opcode_word (displayed (from_instruction w))) L
      (opcode_word_lt _ T' R') H (ex_intro _ p (conj S A))).
    cbn [In] in H6. replace ((w / 4096 =? 8) && ((w mod 16 =? 6) || (w mod 16 =? 14))) with true in D by lia. lia.
  - intros [Np Ns]. destruct (padded (from_instruction w)) eqn:Pd; [exfalso; apply Np, P; reflexivity|].
    destruct (disassembly_assembles file w L Pd) as (p & S & A). apply parsed_stands in S. cbv zeta in A.
    assert (E : opcode_word (displayed (from_instruction w)) = w).
    { destruct ((w / 4096 =? 8) && ((w mod 16 =? 6) || (w mod 16 =? 14))) eqn:B; [|exact D].
      unfold shift_with_y in Ns. cbn [In] in Ns. lia. }
    rewrite E in A. exists p. auto.
Qed.
Print Assumptions C26_words_partial.

(** The others: a padded number is a lexical error, and the second register of a shift is lost. *)
Theorem C26_padded : forall file w p, w < 65536 -> from_instruction w <> NOP -> number_padded w ->
  ~ parsed file (line_of w) p.
Proof.
  intros file w p L N Pw. rewrite parsed_stands. destruct (decode_well_typed w L) as [T R]. unfold line_of. apply disassembly_rejected; [exact L|].
  apply (padded_word _ T R). rewrite (from_word w L N). exact Pw.
Qed.
Print Assumptions C26_padded.

Theorem C26_shift : forall file w, w < 65536 -> from_instruction w <> NOP -> shift_with_y w ->
  reassembles_to file w (w - w / 16 mod 16 * 16).
Proof.
  intros file w L N (H8 & H6 & Hy). destruct (decode_well_typed w L) as [T R]. pose proof (from_word w L N) as W.
  pose proof (displayed_word _ T R) as D. rewrite W in D. cbn [In] in H6.
  replace ((w / 4096 =? 8) && ((w mod 16 =? 6) || (w mod 16 =? 14))) with true in D by lia.
  destruct (padded (from_instruction w)) eqn:Pd.
  - apply (padded_word _ T R) in Pd. rewrite W in Pd. exfalso. unfold number_padded in Pd. cbn [In] in Pd. lia.
  - destruct (disassembly_assembles file w L Pd) as (p & S & A). apply parsed_stands in S. cbv zeta in A. rewrite D in A. exists p. auto.
Qed.
Print Assumptions C26_shift.

Example C26_instance :
  line_of 0x7A1F = u "add va, $1f" ++ [LF] /\ from_instruction 0x7A1F <> NOP /\ ~ number_padded 0x7A1F /\ ~ shift_with_y 0x7A1F /\
  line_of 0x1234 = u "jp $234" ++ [LF] /\ line_of 0x1034 = u "jp $ 34" ++ [LF] /\ number_padded 0x1034 /\
  line_of 0x8A36 = u "shr va" ++ [LF] /\ shift_with_y 0x8A36.
Proof.
  unfold number_padded, shift_with_y.
  evaluate; try discriminate; cbn [In]; try lia.
Qed.
