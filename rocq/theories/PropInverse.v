(** * PropInverse: property C60, with an instance. *)

From Verif Require Import Base Text U12 Parser Opcode Instruction Assembler SpecLex SpecOpcode SpecDisasm SpecInverse BaseFacts
  OpcodeProofs InstructionProofs InstructionTheorems DecodeProofs InverseProofs PropInstr.
Open Scope N_scope.

(** ** C60: an instruction can be read back from its word.  The word has the digits of
    the row it was written by, and each operand is where the pattern says. *)
Theorem C60_operands : forall m fields labels o w,
  ascii m -> Forall field_ok fields -> labels_ok labels -> w < 65536 ->
  instruction_from m fields labels = Ok o -> instruction_into_vec o = Done [w / 256; w mod 256] ->
  exists pattern name operands,
    row_for m fields (pattern, name, operands) /\ matches pattern w /\
    Forall2 (read_back (label_get labels) w) operands fields.
Proof.
  intros m fields labels o w A F L Lt Ho Hv.
  assert (E : encodes (label_get labels) m fields w)
    by (apply instruction_table; try assumption; split; [exact Lt|]; exists o; split; assumption).
  destruct (encodes_read_back _ _ _ _ F E) as (p & n & os & R & M & _ & _ & B).
  exists p, n, os. split; [exact R|]. split; [exact M | exact B].
Qed.
Print Assumptions C60_operands.

Lemma same_fits : forall lookup lookup' o f f', fits o f -> same_operand lookup lookup' f f' -> fits o f'.
Proof.
  intros lookup lookup' o f f' F [[<- _]|(V & V' & _)]; [exact F|].
  inversion F; subst; try discriminate. apply fits_value; assumption.
Qed.

Lemma same_binds : forall lookup lookup' x y v o f f', fits o f -> binds lookup x y v o f -> same_operand lookup lookup' f f' ->
  binds lookup' x y v o f'.
Proof.
  intros lookup lookup' x y v o f f' F (X & Y & B) S. split; [|split].
  - intros E. specialize (X E). subst f. destruct S as [[<- _]|(V & _)]; [reflexivity | discriminate].
  - intros E. specialize (Y E). subst f. destruct S as [[<- _]|(V & _)]; [reflexivity | discriminate].
  - intros E. destruct (B E) as [Ev Lv]. split; [|exact Lv]. destruct S as [[<- V]|(_ & _ & q & Eq & Eq')].
    + destruct f; discriminate.
    + congruence.
Qed.

Lemma same_encodes : forall lookup lookup' m m' fields fields' w,
  map upper m = map upper m' -> Forall2 (same_operand lookup lookup') fields fields' ->
  encodes lookup m fields w -> encodes lookup' m' fields' w.
Proof.
  intros lookup lookup' m m' fields fields' w U S (p & n & os & x & y & v & (I & Nm & Fi) & B & Y & E).
  exists p, n, os, x, y, v. assert (G : Forall2 fits os fields' /\ Forall2 (binds lookup' x y v) os fields').
  { clear - S Fi B. revert os Fi B. induction S as [|f f' fs fs' Sf S IH]; intros os Fi B.
    - inversion Fi; subst. split; constructor.
    - inversion Fi as [|o ? os' ? Fo Fr]; subst. inversion B as [|? ? ? ? Bo Br]; subst.
      destruct (IH os' Fr Br) as [G1 G2].
      split; (constructor; [|assumption]); [eapply same_fits | eapply same_binds]; eassumption. }
  destruct G as [G1 G2]. split; [|split; [exact G2 | split; [exact Y | exact E]]].
  split; [exact I|]. split; [unfold named in *; congruence | exact G1].
Qed.

(** Two accepted instructions have the same bytes exactly if they are the same
    instruction: the same mnemonic, the same registers, the same numbers. *)
Theorem C60_distinct : forall m m' fields fields' labels labels' o o',
  ascii m -> ascii m' -> Forall field_ok fields -> Forall field_ok fields' -> labels_ok labels -> labels_ok labels' ->
  instruction_from m fields labels = Ok o -> instruction_from m' fields' labels' = Ok o' ->
  (instruction_into_vec o = instruction_into_vec o' <->
   map upper m = map upper m' /\ Forall2 (same_operand (label_get labels) (label_get labels')) fields fields').
Proof.
  intros m m' fields fields' labels labels' o o' A A' F F' L L' Ho Ho'.
  destruct (instruction_bytes _ _ _ _ A F L Ho) as (w & Lt & Hv & E).
  destruct (instruction_bytes _ _ _ _ A' F' L' Ho') as (w' & Lt' & Hv' & E').
  split.
  - intros Eq. rewrite Hv, Hv' in Eq. assert (w' = w) by (inversion Eq; lia). subst w'.
    destruct (encodes_read_back _ _ _ _ F E) as (p & n & os & R & M & _ & _ & B).
    destruct (encodes_read_back _ _ _ _ F' E') as (p' & n' & os' & R' & M' & _ & _ & B').
    pose proof (rows_apart w (p, n, os) (p', n', os') Lt (proj1 R) (proj1 R') M M') as Er.
    injection Er as <- <- <-. destruct R as (I & Nm & _), R' as (_ & Nm' & _).
    split; [unfold named in *; congruence|].
    exact (read_back_all _ _ w os _ _ (table_operands _ _ _ I) B B').
  - intros [U S]. pose proof (same_encodes _ _ _ _ _ _ w U S E) as E2.
    apply instruction_table in E2; try assumption. destruct E2 as (_ & o2 & Ho2 & Hv2). rewrite Ho2 in Ho'.
    injection Ho' as <-. congruence.
Qed.
Print Assumptions C60_distinct.

(** The words there are: those of the table, with the digit y of a shift 0. *)
Theorem C60_words : forall w, w < 65536 ->
  ((exists m fields labels o, ascii m /\ Forall field_ok fields /\ labels_ok labels /\
      instruction_from m fields labels = Ok o /\ instruction_into_vec o = Done [w / 256; w mod 256]) <->
   in_table w).
Proof.
  intros w Lt. split.
  - intros (m & fields & labels & o & A & F & L & Ho & Hv).
    assert (E : encodes (label_get labels) m fields w)
      by (apply instruction_table; try assumption; split; [exact Lt|]; exists o; split; assumption).
    destruct (encodes_read_back _ _ _ _ F E) as (p & n & os & R & M & _ & Y & _). exists p, n, os.
    split; [exact (proj1 R)|]. split; [exact M | exact Y].
  - intros (p & n & os & I & M & Y).
    pose proof (encodes_written (label_get []) w p n os Lt I M Y) as E.
    assert (A : ascii (u n)).
    { assert (C : forallb (fun row => forallb (fun c => c <? 128) (u (snd (fst row)))) table = true) by (vm_compute; reflexivity).
      rewrite forallb_forall in C. specialize (C _ I). cbn [fst snd] in C. rewrite forallb_forall in C.
      apply Forall_forall. intros c Ic. apply N.ltb_lt, C, Ic. }
    assert (L : labels_ok []) by (intros l v X; discriminate).
    apply instruction_table in E; try assumption; [|apply written_ok].
    destruct E as (_ & o & Ho & Hv). exists (u n), (map (written w) os), [], o.
    split; [exact A|]. split; [apply written_ok|]. split; [exact L|]. split; assumption.
Qed.
Print Assumptions C60_words.

(** DRW with a label, read back; SKP and SKNP of the same register are told apart; 8126
    is a row of the table, but no instruction writes it. *)
Example C60_instance :
  instruction_from (u "drw") [FRegister 4; FRegister 10; FIdentifier (u "small")] sample_labels = Ok (DRW 4 10 7) /\
  instruction_into_vec (DRW 4 10 7) = Done [0xD4A7 / 256; 0xD4A7 mod 256] /\
  x_of 0xD4A7 = 4 /\ y_of 0xD4A7 = 10 /\ 0xD4A7 mod 16 = 7 /\
  Forall2 (same_operand (label_get sample_labels) (label_get []))
    [FRegister 4; FRegister 10; FIdentifier (u "small")] [FRegister 4; FRegister 10; FNumeric 7] /\
  instruction_from (u "DRW") [FRegister 4; FRegister 10; FNumeric 7] [] = Ok (DRW 4 10 7) /\
  instruction_into_vec (SE_K 3) <> instruction_into_vec (SNE_K 3) /\
  in_table 0x8106 /\ matches "8xy6" 0x8126 /\ ~ in_table 0x8126.
Proof.
  split; [vm_compute; reflexivity|]. split; [vm_compute; reflexivity|]. split; [vm_compute; reflexivity|].
  split; [vm_compute; reflexivity|]. split; [vm_compute; reflexivity|]. split.
  { constructor; [left; split; reflexivity|]. constructor; [left; split; reflexivity|]. constructor; [|constructor].
    right. split; [reflexivity|]. split; [reflexivity|]. exists 7. split; vm_compute; reflexivity. }
  split; [vm_compute; reflexivity|]. split; [vm_compute; discriminate|]. split.
  { exists "8xy6"%string, "SHR"%string, ["Vx"%string]. split; [apply (nth_error_In table 15); reflexivity|].
    split; vm_compute; reflexivity. }
  split; [vm_compute; reflexivity|].
  intros (p & n & os & I & M & Y).
  assert (Ir : In ("8xy6", "SHR", ["Vx"])%string table) by (apply (nth_error_In table 15); reflexivity).
  assert (Er : (p, n, os) = ("8xy6", "SHR", ["Vx"])%string)
    by (apply (rows_apart 0x8126); [reflexivity | exact I | exact Ir | exact M | vm_compute; reflexivity]).
  injection Er as -> -> ->. assert (X : y_of 0x8126 = 0); [|discriminate X].
  apply Y; [vm_compute; tauto|]. intros [X|[]]. discriminate X.
Qed.
