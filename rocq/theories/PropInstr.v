(** * PropInstr: properties C20-C25, with an instance of each. *)

From Verif Require Import Base Text U12 Location Parser Directive Opcode Instruction DataRange Assembler
  SpecLex SpecOpcode SpecRefusal BaseFacts OpcodeProofs InstructionProofs InstructionTheorems CaseProofs.
Open Scope N_scope.

(** A label table for the instances: sprite = $2F0, small = 7. *)
Definition sample_labels : label_map := [(u "sprite", 0x2F0); (u "small", 7)].

Example sample_labels_ok : labels_ok sample_labels.
Proof.
  intros l v H. cbn [label_get sample_labels] in H.
  destruct (str_eqb (u "sprite") l); [injection H as <-; lia|].
  destruct (str_eqb (u "small") l); [injection H as <-; lia | discriminate].
Qed.

(** ** C20: the tables of the README.  The two bytes of an accepted instruction are
    the word its row stands for. *)
Theorem C20_table : forall m fields labels w,
  ascii m -> Forall field_ok fields -> labels_ok labels ->
  (encodes (label_get labels) m fields w <->
   w < 65536 /\ exists o, instruction_from m fields labels = Ok o /\
                          instruction_into_vec o = Done [w / 256; w mod 256]).
Proof. exact instruction_table. Qed.
Print Assumptions C20_table.

Example C20_instance :
  ascii (u "Drw") /\ Forall field_ok [FRegister 10; FRegister 3; FIdentifier (u "small")] /\
  encodes (label_get sample_labels) (u "Drw") [FRegister 10; FRegister 3; FIdentifier (u "small")] 0xDA37 /\
  instruction_from (u "Drw") [FRegister 10; FRegister 3; FIdentifier (u "small")] sample_labels
    = Ok (DRW 10 3 7) /\
  instruction_into_vec (DRW 10 3 7) = Done [0xDA; 0x37].
Proof.
  assert (A : ascii (u "Drw")) by (repeat constructor).
  assert (F : Forall field_ok [FRegister 10; FRegister 3; FIdentifier (u "small")]).
  { repeat constructor; cbn [field_ok]; lia. }
  repeat split; try assumption; try (vm_compute; reflexivity).
  apply C20_table; try assumption; [apply sample_labels_ok|]. split; [reflexivity|].
  exists (DRW 10 3 7). split; vm_compute; reflexivity.
Qed.

(** ** C21: values which do not fit are refused, with the value; accepted ones are
    encoded in full. *)
Theorem C21_refused : forall m fields labels row operand f v,
  ascii m -> Forall field_ok fields -> labels_ok labels ->
  row_for m fields row -> operand_is row fields operand f ->
  value_operand operand -> value_of (label_get labels) f = Some v -> limit operand < v ->
  instruction_from m fields labels =
    Err (if String.eqb operand "nn" then ExpectingEightBitValue v else ExpectingFourBitValue v).
Proof.
  intros m fields labels row o f v A F L R I V E G. apply instruction_errors; try assumption.
  destruct V as [<-|[<-|[<-|[]]]].
  - exfalso. change (limit "addr") with 4095 in G. destruct row as [[pat name] operands].
    apply in_combine_r in I. rewrite Forall_forall in F. specialize (F f I).
    destruct f; cbn [value_of field_ok] in *; try discriminate; [injection E as <-; lia|].
    specialize (L _ _ E). lia.
  - eapply refuses_byte; eassumption.
  - eapply refuses_nibble; eassumption.
Qed.
Print Assumptions C21_refused.

(** Which errors there are, and when. *)
Theorem C21_errors : forall m fields labels e,
  ascii m -> Forall field_ok fields -> labels_ok labels ->
  (instruction_from m fields labels = Err e <-> refuses (label_get labels) m fields e).
Proof. exact instruction_errors. Qed.
Print Assumptions C21_errors.

Example C21_instance :
  row_for (u "ld") [FRegister 1; FIdentifier (u "sprite")] ("6xkk", "LD", ["Vx"; "nn"])%string /\
  operand_is ("6xkk", "LD", ["Vx"; "nn"])%string [FRegister 1; FIdentifier (u "sprite")] "nn" (FIdentifier (u "sprite")) /\
  value_of (label_get sample_labels) (FIdentifier (u "sprite")) = Some 0x2F0 /\ limit "nn" < 0x2F0 /\
  instruction_from (u "ld") [FRegister 1; FIdentifier (u "sprite")] sample_labels = Err (ExpectingEightBitValue 0x2F0).
Proof.
  repeat split; try (vm_compute; reflexivity).
  - unfold table. repeat (first [left; reflexivity | right]).
  - constructor; [constructor|]. constructor; [|constructor].
    apply fits_value; [right; left; reflexivity | reflexivity].
  - right. left. reflexivity.
Qed.

(** ** C22: a label means its value.  ([unlisted] forgets the list of operands in the
    message of an instruction that matches no format.) *)
Theorem C22_label : forall m labels fields fields',
  Forall2 (inlines (label_get labels)) fields fields' ->
  unlisted (instruction_from m fields' labels) = unlisted (instruction_from m fields labels).
Proof. exact label_means_value. Qed.
Print Assumptions C22_label.

Example C22_instance :
  Forall2 (inlines (label_get sample_labels)) [FRegister 0; FIdentifier (u "sprite")] [FRegister 0; FNumeric 0x2F0] /\
  instruction_from (u "jp") [FRegister 0; FIdentifier (u "sprite")] sample_labels = Ok (JP_V0 0x2F0).
Proof. split; [repeat constructor | vm_compute; reflexivity]. Qed.

(** ** C23: undefined labels. *)
Theorem C23_undefined : forall m fields labels row label,
  ascii m -> Forall field_ok fields -> labels_ok labels ->
  row_for m fields row -> In (FIdentifier label) fields -> label_get labels label = None ->
  instruction_from m fields labels = Err (UnableToResolveLabel label).
Proof. intros. apply instruction_errors; try assumption. eapply refuses_label; eassumption. Qed.
Print Assumptions C23_undefined.

Theorem C23_defined : forall m fields labels label,
  ascii m -> Forall field_ok fields -> labels_ok labels ->
  instruction_from m fields labels = Err (UnableToResolveLabel label) ->
  In (FIdentifier label) fields /\ label_get labels label = None.
Proof.
  intros m fields labels label A F L H. apply instruction_errors in H; try assumption.
  inversion H; subst. auto.
Qed.
Print Assumptions C23_defined.

Example C23_instance :
  row_for (u "CALL") [FIdentifier (u "nowhere")] ("2nnn", "CALL", ["addr"])%string /\
  label_get sample_labels (u "nowhere") = None /\
  instruction_from (u "CALL") [FIdentifier (u "nowhere")] sample_labels = Err (UnableToResolveLabel (u "nowhere")).
Proof.
  repeat split; try (vm_compute; reflexivity).
  - unfold table. repeat (first [left; reflexivity | right]).
  - constructor; [|constructor]. apply fits_value; [left; reflexivity | reflexivity].
Qed.

(** ** C24: letter case. *)
Theorem C24_case : forall p p', Forall2 same_node p p' -> same_run (assemble p) (assemble p').
Proof. exact assemble_case. Qed.
Print Assumptions C24_case.

Example C24_instance :
  let at_ := fun n => mk_loc (u "f") n 1 1 in
  let p := [NDirective (at_ 1) (u "org") [LNumeric 0x200]; NInstruction (at_ 2) (u "Ld") [FRegister 1; FNumeric 2]] in
  let p' := [NDirective (at_ 1) (u "OrG") [LNumeric 0x200]; NInstruction (at_ 2) (u "lD") [FRegister 1; FNumeric 2]] in
  Forall2 same_node p p' /\ assemble p = Done (Ok [mk_range 0x200 [0x61; 2]]) /\ assemble p' = assemble p.
Proof. repeat split; try (vm_compute; reflexivity). repeat constructor. Qed.

(** ** C25: encoding and decoding opcodes. *)
Theorem C25_encode : forall o, well_typed o -> nibbles_in_range o ->
  exists w, as_instruction o = Done w /\ w < 65536 /\ from_instruction w = o.
Proof. exact encode_decode. Qed.
Print Assumptions C25_encode.

Theorem C25_decode : forall w, w < 65536 ->
  from_instruction w <> NOP -> as_instruction (from_instruction w) = Done w.
Proof. exact decode_encode. Qed.
Print Assumptions C25_decode.

Theorem C25_panics : forall o, well_typed o ->
  ((exists w, as_instruction o = Done w) <-> nibbles_in_range o).
Proof. exact encode_panics. Qed.
Print Assumptions C25_panics.

Example C25_instance :
  well_typed (ADD_IMMEDIATE 15 0x80) /\ nibbles_in_range (ADD_IMMEDIATE 15 0x80) /\
  as_instruction (ADD_IMMEDIATE 15 0x80) = Done 0x7F80 /\ from_instruction 0x7F80 = ADD_IMMEDIATE 15 0x80 /\
  well_typed (SE_K 16) /\ (exists why, as_instruction (SE_K 16) = Crash why).
Proof.
  repeat split; try (vm_compute; reflexivity);
    try (repeat constructor; cbn; lia). eexists. vm_compute. reflexivity.
Qed.
