(** * C116: what the specifications say, of the text of the source.

    C107 to C111 say that the text, executed, does what the model does; C12, C20, C21, C25,
    C29, C30, C32, C36, C37, C39 and C49 say what the model does, in terms of the small
    specifications SpecLex.v, SpecGrammar.v, SpecOpcode.v, SpecRefusal.v, SpecLayout.v and
    SpecHex.v.  Here both are put together: no function of the model is left in between.

    [answers f args v]: executing the function [f] of the text on [args] returns [v] and
    leaves [args] as they are. *)

From Coq Require Import String List NArith Bool Lia.
From Verif Require Import Base Text U12 Location Token Scanner Parser Directive Opcode Instruction DataRange Assembler IHex
  SpecLex SpecGrammar SpecOpcode SpecRefusal SpecDisasm SpecLayout SpecHex SpecTool SpecUtf8 BaseFacts LexTheorems ParseProofs
  OpcodeProofs InstructionProofs InstructionTheorems DecodeProofs LayoutProofs EmitProofs PipelineProofs DataRangeProofs
  OutputProofs AddressProofs HexProofs MainProofs PropInstr PropDecode PropLayout PropOutput
  SrcText SrcLex SrcParse SrcRun SrcCode SrcEnc SrcFacts SrcOpcodeProofs SrcInstructionProofs SrcRangeProofs SrcAssemblerProofs
  PropSource PropSourceAssembler PropSourceParser PropSourceHex.
Import ListNotations.
Open Scope string_scope.
Open Scope list_scope.
Open Scope N_scope.

Definition answers (f : string) (args : list value) (v : value) : Prop :=
  forall K, reaches c8s (Call f args K) (Back v args K).
Definition panics (f : string) (args : list value) : Prop :=
  exists why, forall K, reaches c8s (Call f args K) (Panic why).

(** One answer, and none for a panic *)
Theorem C116_one : forall f args v,
  answers f args v -> (forall v', answers f args v' -> v' = v) /\ ~ panics f args.
Proof.
  intros f args v A. split.
  - intros v' A'. pose proof (C107_one_end c8s _ (Back v' args []) (Back v args []) eq_refl eq_refl (A' []) (A [])) as E.
    congruence.
  - intros (why & P). pose proof (C107_one_end c8s _ (Panic why) (Back v args []) eq_refl eq_refl (P []) (A [])) as E.
    discriminate E.
Qed.
Print Assumptions C116_one.

(** The values of the machine tell the values of the model apart. *)
Lemma map_inj {A B} (f : A -> B) : (forall x y, f x = f y -> x = y) -> forall l l', map f l = map f l' -> l = l'.
Proof.
  intros I l. induction l as [|x l IH]; intros [|y l'] E; cbn [map] in E; try discriminate E; [reflexivity|].
  injection E as E E'. f_equal; auto.
Qed.
Lemma e_bytes_inj l l' : e_bytes l = e_bytes l' -> l = l'.
Proof. unfold e_bytes, enc. intro E. injection E as E. revert E. apply map_inj. unfold e_u8. congruence. Qed.
Lemma e_range_inj r r' : e_range r = e_range r' -> r = r'.
Proof.
  destruct r as [a l], r' as [a' l']. unfold e_range, e_u12. cbn [dr_start dr_data]. intro E.
  injection E as E E'. subst a'. f_equal. apply e_bytes_inj. unfold e_bytes. congruence.
Qed.
Lemma e_loc_inj l l' : e_loc l = e_loc l' -> l = l'.
Proof. destruct l, l'. unfold e_loc, e_usize. cbn [Location.l_file Location.l_line Location.l_location Location.l_length]. congruence. Qed.
Lemma e_instruction_error_inj e e' : e_instruction_error e = e_instruction_error e' -> e = e'.
Proof.
  destruct e as [| | |m [f|]], e' as [| | |m' [f'|]]; cbn [e_instruction_error]; unfold e_usize, some_, none_; congruence.
Qed.
Lemma e_directive_error_inj e e' : e_directive_error e = e_directive_error e' -> e = e'.
Proof. destruct e, e'; cbn [e_directive_error]; unfold e_usize; congruence. Qed.
Lemma e_directive_inj d d' : e_directive d = e_directive d' -> d = d'.
Proof.
  destruct d, d'; cbn [e_directive]; unfold e_u12; intro E; try discriminate E; try congruence.
  f_equal. apply e_bytes_inj. congruence.
Qed.
Lemma two_inj k k' (a b a' b' : value) : VCon k [("0", a); ("1", b)] = VCon k' [("0", a'); ("1", b')] -> a = a' /\ b = b'.
Proof. intro E. split; congruence. Qed.
Lemma one_inj k k' (a a' : value) : VCon k [("0", a)] = VCon k' [("0", a')] -> a = a'.
Proof. congruence. Qed.
Lemma e_semantic_error_inj e e' : e_semantic_error e = e_semantic_error e' -> e = e'.
Proof.
  destruct e, e'; cbn [e_semantic_error]; intro E; try discriminate E;
    first [apply two_inj in E; destruct E as [E E'] | apply one_inj in E]; apply e_loc_inj in E; subst;
    try apply e_directive_error_inj in E'; try apply e_directive_inj in E'; try apply e_instruction_error_inj in E'; congruence.
Qed.

(** ** opcode.rs *)
(** Every word there is: what it is decoded to is encoded as that word again, or it is the
    [NOP] that all unknown words are decoded to.  And decoding once more gives the same. *)
Theorem C116_round_trip : forall w, w < 65536 -> exists o w',
  answers "Opcode::from_instruction" [VInt IU16 w] o /\
  answers "Opcode::as_instruction" [o] (VInt IU16 w') /\
  (w' = w \/ o = VCon "Opcode::NOP" [] /\ w' = 0) /\
  answers "Opcode::from_instruction" [VInt IU16 w'] o.
Proof.
  intros w L. exists (e_opcode (from_instruction w)).
  assert (D : forall v, answers "Opcode::from_instruction" [VInt IU16 v] (e_opcode (from_instruction v)))
    by (intros v K; apply C107_from_instruction).
  assert (E : forall o v, as_instruction o = Done v -> answers "Opcode::as_instruction" [e_opcode o] (VInt IU16 v))
    by (intros o v A K; generalize (C107_as_instruction o K); rewrite A; exact (fun H => H)).
  assert (X : from_instruction w = NOP \/ from_instruction w <> NOP) by (destruct (from_instruction w); auto; right; discriminate).
  destruct X as [X|X].
  - exists 0. split; [apply D|]. rewrite X. split; [apply E; reflexivity|]. split; [right; split; reflexivity|].
    exact (D 0).
  - exists w. split; [apply D|]. split; [apply E, C25_decode; assumption|]. split; [left; reflexivity|]. apply D.
Qed.
Print Assumptions C116_round_trip.

(** A word of the table is decoded to something that is spelled as the table says. *)
Theorem C116_disassembly : forall w pattern name operands, w < 65536 ->
  In (pattern, name, operands) table -> matches pattern w -> name <> "NOP" ->
  exists o, answers "Opcode::from_instruction" [VInt IU16 w] o /\
            answers "Opcode::to_assembly_string" [o] (VStr (show_row w (pattern, name, operands))).
Proof.
  intros w pattern name operands L I M Nn. exists (e_opcode (from_instruction w)). split.
  - intro K. apply C107_from_instruction.
  - intro K. rewrite <- (C49_text w pattern name operands L I M Nn). apply C107_to_assembly_string.
Qed.
Print Assumptions C116_disassembly.

(** ** instruction.rs *)
(** The text assembles an instruction to two bytes just if the table has that word for it, *)
Theorem C116_encodes : forall m fields labels w, ascii m -> Forall field_ok fields -> labels_ok labels ->
  (encodes (label_get labels) m fields w <->
   w < 65536 /\ exists i,
     answers "Instruction::from_mnemonic_and_parameters" [VStr m; VVec (map e_field fields); e_labels labels]
             (VCon "Ok" [("0", i)]) /\
     answers "Instruction::into_vec" [i] (VVec [VInt IU8 (w / 256); VInt IU8 (w mod 256)])).
Proof.
  intros m fields labels w A F L. rewrite (C20_table m fields labels w A F L).
  split; intros (W & H); (split; [exact W|]).
  - destruct H as (o & H & V). exists (VCon "Instruction" [("0", e_opcode o)]). split.
    + intro K. generalize (C107_instruction_from m fields labels K). rewrite H. exact (fun H => H).
    + intro K. generalize (C107_instruction_into_vec o K). rewrite V. exact (fun H => H).
  - destruct H as (i & H & V). destruct (instruction_from m fields labels) as [o|e] eqn:E.
    + exists o. split; [reflexivity|].
      assert (Hi : i = VCon "Instruction" [("0", e_opcode o)]).
      { assert (H' : answers "Instruction::from_mnemonic_and_parameters" [VStr m; VVec (map e_field fields); e_labels labels]
                       (VCon "Ok" [("0", VCon "Instruction" [("0", e_opcode o)])])).
        { intro K. generalize (C107_instruction_from m fields labels K). rewrite E. exact (fun H => H). }
        apply C116_one in H'. destruct H' as [H' _]. specialize (H' _ H). congruence. }
      subst i. destruct (instruction_into_vec o) as [l|why] eqn:V'.
      * assert (V'' : answers "Instruction::into_vec" [VCon "Instruction" [("0", e_opcode o)]] (VVec (map (VInt IU8) l))).
        { intro K. generalize (C107_instruction_into_vec o K). rewrite V'. exact (fun H => H). }
        apply C116_one in V''. destruct V'' as [V'' _]. specialize (V'' _ V).
        assert (Q : map (VInt IU8) [w / 256; w mod 256] = map (VInt IU8) l) by (cbn [map]; congruence).
        apply map_inj in Q; [rewrite Q; reflexivity|]. intros x y Exy. congruence.
      * exfalso. apply C116_one in V. apply (proj2 V). exists why. intro K.
        generalize (C107_instruction_into_vec o K). rewrite V'. exact (fun H => H).
    + exfalso. assert (H' : answers "Instruction::from_mnemonic_and_parameters" [VStr m; VVec (map e_field fields); e_labels labels]
                       (VCon "Err" [("0", e_instruction_error e)])).
      { intro K. generalize (C107_instruction_from m fields labels K). rewrite E. exact (fun H => H). }
      apply C116_one in H'. destruct H' as [H' _]. specialize (H' _ H). discriminate H'.
Qed.
Print Assumptions C116_encodes.

(** and refuses it just with the error that is said to be due. *)
Theorem C116_refuses : forall m fields labels e, ascii m -> Forall field_ok fields -> labels_ok labels ->
  (refuses (label_get labels) m fields e <->
   answers "Instruction::from_mnemonic_and_parameters" [VStr m; VVec (map e_field fields); e_labels labels]
           (VCon "Err" [("0", e_instruction_error e)])).
Proof.
  intros m fields labels e A F L. rewrite <- (C21_errors m fields labels e A F L). split; intro H.
  - intro K. generalize (C107_instruction_from m fields labels K). rewrite H. exact (fun H => H).
  - apply C116_one in H. destruct H as [H _].
    assert (H' := H _ (fun K => C107_instruction_from m fields labels K)).
    destruct (instruction_from m fields labels) as [o|e']; [discriminate H'|].
    f_equal. apply e_instruction_error_inj. congruence.
Qed.
Print Assumptions C116_refuses.

(** Whatever instruction there is: it says it has two bytes, and if it is written at all it has. *)
Theorem C116_size : forall o, answers "Instruction::size" [VCon "Instruction" [("0", e_opcode o)]] (VInt IUsize 2) /\
  forall v, answers "Instruction::into_vec" [VCon "Instruction" [("0", e_opcode o)]] v ->
    exists a b, v = VVec [VInt IU8 a; VInt IU8 b].
Proof.
  intro o. split; [exact (src_instruction_size o)|]. intros v A.
  assert (V := C107_instruction_into_vec o). destruct (instruction_into_vec o) as [l|why] eqn:E.
  - apply C116_one in A. destruct A as [A _]. specialize (A _ V). rewrite <- A.
    unfold instruction_into_vec in E. destruct (as_instruction o) as [w|]; [|discriminate E]. cbn [bind] in E.
    injection E as <-. cbn [map]. eauto.
  - exfalso. apply C116_one in A. apply (proj2 A). exists why. exact V.
Qed.
Print Assumptions C116_size.

(** An instruction is displayed as it is spelled. *)
Theorem C116_display : forall o s, answers "Opcode::to_assembly_string" [e_opcode o] (VStr s) ->
  forall K, reaches c8s (Call "Opcode::fmt" [e_opcode o; VStr []] K) (Back (VCon "Ok" [("0", VTup [])]) [e_opcode o; VStr s] K).
Proof.
  intros o s A K. apply C116_one in A. destruct A as [A _].
  specialize (A _ (C107_to_assembly_string o)). injection A as <-. exact (src_opcode_fmt o K).
Qed.
Print Assumptions C116_display.

(** ** data_range.rs *)
Definition changes (f : string) (args : list value) (v : value) (args' : list value) : Prop :=
  forall K, reaches c8s (Call f args K) (Back v args' K).

Theorem C116_range : forall r, in_memory r ->
  answers "DataRange::new" [VInt IU12 (dr_start r)] (e_range (mk_range (dr_start r) [])) /\
  answers "DataRange::len" [e_range r] (VInt IUsize (N.of_nat (length (dr_data r)))) /\
  answers "DataRange::data" [e_range r] (VVec (map (VInt IU8) (dr_data r))) /\
  answers "DataRange::bytes_remaining" [e_range r] (VInt IUsize (4096 - (dr_start r + N.of_nat (length (dr_data r))))).
Proof.
  intros r M. split; [|split; [|split]]; intro K.
  - exact (src_range_new (dr_start r) K).
  - exact (src_range_len r K).
  - exact (src_range_data r K).
  - generalize (src_bytes_remaining r K). destruct M as [M M']. unfold bytes_remaining, u12_max. change (4096 - 1) with 4095.
    fold (range_len r).
    rewrite (proj2 (N.leb_le _ _) M). cbv zeta.
    assert (X : range_len r <=? 4095 - dr_start r + 1 = true) by lia.
    assert (Y : 4095 - dr_start r + 1 - range_len r = 4096 - (dr_start r + range_len r)) by lia.
    rewrite X, Y. exact (fun H => H).
Qed.
Print Assumptions C116_range.

Theorem C116_append : forall r bytes, in_memory r ->
  changes "DataRange::append" [e_range r; VVec (map (VInt IU8) bytes)]
    (VBool (dr_start r + N.of_nat (length (dr_data r)) + N.of_nat (length bytes) <=? 4096))
    [if dr_start r + N.of_nat (length (dr_data r)) + N.of_nat (length bytes) <=? 4096
     then e_range (mk_range (dr_start r) (dr_data r ++ bytes)) else e_range r;
     VVec (map (VInt IU8) bytes)].
Proof.
  intros r l M K. generalize (C108_append r l K). generalize (C36_append r l M). unfold range_len.
  destruct (_ <=? 4096); intros ->; exact (fun H => H).
Qed.
Print Assumptions C116_append.

(** The pairs of ranges that have an address in common, in order *)
Theorem C116_overlaps : forall rs, Forall (fun r => dr_start r + N.of_nat (length (dr_data r)) <= 4095) rs ->
  exists ps, increasing ps /\
    (forall i j, In (i, j) ps <->
       (i < j)%nat /\ exists a b x, nth_error rs i = Some a /\ nth_error rs j = Some b /\ covers a x /\ covers b x) /\
    answers "find_overlapping_ranges" [VVec (map e_range rs)]
      (VVec (map (fun p => VTup [e_range (nth_range rs (fst p)); e_range (nth_range rs (snd p))]) ps)).
Proof.
  intros rs F. destruct (C37_report rs F) as (ps & I & _ & H & E). exists ps. split; [exact I|]. split; [exact H|].
  intro K. generalize (C108_find_overlapping_ranges rs K). rewrite E, map_map. exact (fun H => H).
Qed.
Print Assumptions C116_overlaps.

(** ** From the text of a program to its ranges *)
Definition parses_as (file input : str) (v : value) : Prop := exists self,
  answers "Scanner::new" [VStr file; VStr input] self /\ answers "parse" [self] v.
Definition assembles_as (file input : str) (v : value) : Prop := exists nodes,
  parses_as file input (VCon "Ok" [("0", nodes)]) /\ answers "assemble" [nodes] v.

Lemma parses_once file input v v' : parses_as file input v -> parses_as file input v' -> v' = v.
Proof.
  intros (s & N & P) (s' & N' & P'). apply C116_one in N. rewrite (proj1 N _ N') in P'. apply C116_one in P. exact (proj1 P _ P').
Qed.
Lemma assembles_once file input v v' : assembles_as file input v -> assembles_as file input v' -> v' = v.
Proof.
  intros (s & N & P) (s' & N' & P'). pose proof (parses_once _ _ _ _ N N') as E. injection E as ->.
  apply C116_one in P. exact (proj1 P _ P').
Qed.

Lemma e_field_inj f f' : e_field f = e_field f' -> f = f'.
Proof. destruct f, f'; cbn [e_field]; unfold e_u12, e_u8; congruence. Qed.
Lemma e_literal_inj l l' : e_literal l = e_literal l' -> l = l'.
Proof. destruct l, l'; cbn [e_literal]; unfold e_usize; congruence. Qed.
Lemma e_node_inj n n' : e_node n = e_node n' -> n = n'.
Proof.
  destruct n as [l i a|l i|l m f], n' as [l' i' a'|l' i'|l' m' f']; cbn [e_node]; unfold enc; intro E; try discriminate E.
  - assert (Q : e_loc l = e_loc l') by congruence. apply e_loc_inj in Q.
    assert (Q' : map e_literal a = map e_literal a') by congruence. apply (map_inj _ e_literal_inj) in Q'. congruence.
  - assert (Q : e_loc l = e_loc l') by congruence. apply e_loc_inj in Q. congruence.
  - assert (Q : e_loc l = e_loc l') by congruence. apply e_loc_inj in Q.
    assert (Q' : map e_field f = map e_field f') by congruence. apply (map_inj _ e_field_inj) in Q'. congruence.
Qed.

(** What is done with a text: the parser refuses it, or the assembler does, or there are ranges. *)
Lemma text_run file input : exists ts, lexes file [] input ts /\
  ((exists e, parses_as file input (VCon "Err" [("0", e)]) /\ forall p, ~ SpecGrammar.program ts p) \/
   exists p, SpecGrammar.program ts p /\ Forall node_ok p /\ parses_as file input (VCon "Ok" [("0", VVec (map e_node p))]) /\
     ((exists rs, well_formed p /\ output p rs /\ assembles_as file input (VCon "Ok" [("0", VVec (map e_range rs))])) \/
      (exists e, reported p e /\ assembles_as file input (VCon "Err" [("0", e_semantic_error e)])))).
Proof.
  destruct (C110_text file input) as (self & ts & r & N & P & L & _ & G). exists ts. split; [exact L|].
  destruct r as [p|e].
  - right. exists p. assert (Pr : SpecGrammar.program ts p) by (apply G; reflexivity).
    pose proof (program_node_ok ts p Pr (lexes_token_ok _ _ _ _ L)) as F.
    assert (PA : parses_as file input (VCon "Ok" [("0", VVec (map e_node p))])) by (exists self; split; [exact N|exact P]).
    split; [exact Pr|]. split; [exact F|]. split; [exact PA|].
    destruct (assemble_spec p F) as [(rs & A & W & O)|(e & A & R)].
    + left. exists rs. split; [exact W|]. split; [exact O|]. eexists. split; [exact PA|].
      intro K. generalize (C108_assemble p K). rewrite A. exact (fun H => H).
    + right. exists e. split; [exact R|]. eexists. split; [exact PA|].
      intro K. generalize (C108_assemble p K). rewrite A. exact (fun H => H).
  - left. exists (e_parse_error e). split; [exists self; split; [exact N|exact P]|].
    intros p X. apply G in X. discriminate X.
Qed.

Theorem C116_parses : forall file input p,
  parses_as file input (VCon "Ok" [("0", VVec (map e_node p))]) <->
  exists ts, lexes file [] input ts /\ SpecGrammar.program ts p.
Proof.
  intros file input p. destruct (text_run file input) as (ts & L & [(e & P & U)|(q & Q & _ & P & _)]); split.
  - intro P'. pose proof (parses_once _ _ _ _ P P') as E. discriminate E.
  - intros (ts' & L' & X). rewrite (lexes_det _ _ _ _ L _ L') in U. destruct (U p X).
  - intro P'. pose proof (parses_once _ _ _ _ P P') as E. assert (E' : map e_node p = map e_node q) by congruence.
    apply (map_inj _ e_node_inj) in E'. subst q. exists ts. auto.
  - intros (ts' & L' & X). rewrite <- (lexes_det _ _ _ _ L _ L') in X. apply parse_program in X. apply parse_program in Q.
    assert (p = q) by congruence. subst q. exact P.
Qed.
Print Assumptions C116_parses.

Theorem C116_accepts : forall file input rs,
  assembles_as file input (VCon "Ok" [("0", VVec (map e_range rs))]) <->
  exists ts p, lexes file [] input ts /\ SpecGrammar.program ts p /\ well_formed p /\ output p rs.
Proof.
  intros file input rs. split.
  - intro A. destruct (text_run file input) as (ts & L & [(e & P & U)|(q & Q & F & P & [(rs' & W & O & A')|(e & R & A')])]).
    + destruct A as (nodes & P' & _). pose proof (parses_once _ _ _ _ P P') as E. discriminate E.
    + pose proof (assembles_once _ _ _ _ A A') as E. assert (E' : map e_range rs = map e_range rs') by congruence.
      apply (map_inj _ e_range_inj) in E'. subst rs'. exists ts, q. auto.
    + pose proof (assembles_once _ _ _ _ A A') as E. discriminate E.
  - intros (ts & p & L & Q & W & O). exists (VVec (map e_node p)). split; [apply C116_parses; exists ts; auto|].
    pose proof (program_node_ok ts p Q (lexes_token_ok _ _ _ _ L)) as F.
    assert (A : assemble p = Done (Ok rs)) by (apply C32_output; auto).
    intro K. generalize (C108_assemble p K). rewrite A. exact (fun H => H).
Qed.
Print Assumptions C116_accepts.

Theorem C116_reports : forall file input e,
  assembles_as file input (VCon "Err" [("0", e_semantic_error e)]) <->
  exists ts p, lexes file [] input ts /\ SpecGrammar.program ts p /\ reported p e.
Proof.
  intros file input e. split.
  - intro A. destruct (text_run file input) as (ts & L & [(e' & P & U)|(q & Q & F & P & [(rs' & W & O & A')|(e' & R & A')])]).
    + destruct A as (nodes & P' & _). pose proof (parses_once _ _ _ _ P P') as E. discriminate E.
    + pose proof (assembles_once _ _ _ _ A A') as E. discriminate E.
    + pose proof (assembles_once _ _ _ _ A A') as E. assert (E' : e_semantic_error e = e_semantic_error e') by congruence.
      apply e_semantic_error_inj in E'. subst e'. exists ts, q. auto.
  - intros (ts & p & L & Q & R). exists (VVec (map e_node p)). split; [apply C116_parses; exists ts; auto|].
    pose proof (program_node_ok ts p Q (lexes_token_ok _ _ _ _ L)) as F.
    assert (A : assemble p = Done (Err e)) by (apply C30_reported; auto).
    intro K. generalize (C108_assemble p K). rewrite A. exact (fun H => H).
Qed.
Print Assumptions C116_reports.

(** One of the three happens to every text. *)
Theorem C116_total : forall file input,
  (exists e, parses_as file input (VCon "Err" [("0", e)])) \/
  (exists rs, assembles_as file input (VCon "Ok" [("0", VVec (map e_range rs))])) \/
  (exists e, assembles_as file input (VCon "Err" [("0", e_semantic_error e)])).
Proof.
  intros file input. destruct (text_run file input) as (ts & L & [(e' & P & U)|(q & Q & F & P & [(rs' & W & O & A')|(e' & R & A')])]); eauto.
Qed.
Print Assumptions C116_total.

(** ** From the text of a program to the memory of the machine *)
(** The bytes of the statements at their addresses *)
Definition image (p : list Parser.node) (bs : list (list byte)) : list (N * byte) :=
  concat (map (fun i => SpecLayout.place (address p i) (nth i bs [])) (seq 0 (length p))).

(** A well-formed program assembles; its statements have bytes; if no two of these are at
    one address the HEX text holds them, and if two are there is no HEX text *)
Theorem C116_memory : forall file input ts p, Forall scalar input ->
  lexes file [] input ts -> SpecGrammar.program ts p -> well_formed p ->
  exists ranges bs,
    assembles_as file input (VCon "Ok" [("0", ranges)]) /\ Forall2 (node_bytes (lookup p)) p bs /\
    (NoDup (map fst (image p bs)) -> exists hex,
       answers "ihex_representation_of_data_ranges" [ranges] (VStr hex) /\ read_hex hex = Some (image p bs)) /\
    (~ NoDup (map fst (image p bs)) -> panics "ihex_representation_of_data_ranges" [ranges]).
Proof.
  intros file input ts p S L Q W.
  pose proof (program_node_ok ts p Q (lexes_token_ok _ _ _ _ L)) as F.
  pose proof (program_scalar ts p Q (lexes_scalar _ _ _ _ L S)) as Fs.
  destruct (proj2 (C29_accepts p F) W) as (rs & A). pose proof (proj1 (C32_output p rs F) A) as (_ & O).
  destruct (C32_image p rs F A) as (bs & B & M & _). destruct (memory_bounds p rs W O) as [_ Bd].
  exists (VVec (map e_range rs)), bs. split; [apply C116_accepts; exists ts, p; auto|]. split; [exact B|].
  fold (image p bs) in M. rewrite <- M. rewrite <- (no_overlap_nodup rs Bd). split.
  - intro N. destruct (C111_loads rs (output_writable p rs F Fs W O) N) as (hex & H & R & _). exists hex. auto.
  - intro N. exact (C111_overlap rs N).
Qed.
Print Assumptions C116_memory.

(** ** Cases *)
Definition ran (f : string) (args : list value) : state := steps c8s 3000 (Call f args []).

(** A word the table has, with its spelling; and one it has not *)
Example C116_instance_word :
  (0xD4A7 < 65536 /\ In ("Dxyn", "DRW", ["Vx"; "Vy"; "n"]) table /\ matches "Dxyn" 0xD4A7 /\
   show_row 0xD4A7 ("Dxyn", "DRW", ["Vx"; "Vy"; "n"]) = u "drw v4, va, $7") /\
  (let o := VCon "Opcode::DRW" [("register_x", VInt IU8 4); ("register_y", VInt IU8 10); ("bytes", VInt IU8 7)] in
   ran "Opcode::from_instruction" [VInt IU16 0xD4A7] = Back o [VInt IU16 0xD4A7] [] /\
   ran "Opcode::as_instruction" [o] = Back (VInt IU16 0xD4A7) [o] [] /\
   ran "Opcode::to_assembly_string" [o] = Back (VStr (u "drw v4, va, $7")) [o] []) /\
  (0xFFFF < 65536 /\ ran "Opcode::from_instruction" [VInt IU16 0xFFFF] = Back (VCon "Opcode::NOP" []) [VInt IU16 0xFFFF] [] /\
   ran "Opcode::as_instruction" [VCon "Opcode::NOP" []] = Back (VInt IU16 0) [VCon "Opcode::NOP" []] []).
Proof.
  split; [|split].
  - split; [reflexivity|]. split; [apply (nth_error_In table 22); reflexivity|]. split; [vm_compute; reflexivity|vm_compute; reflexivity].
  - split; [vm_compute; reflexivity|]. split; [vm_compute; reflexivity|vm_compute; reflexivity].
  - split; [reflexivity|]. split; [vm_compute; reflexivity|vm_compute; reflexivity].
Qed.

(** An instruction with a label, in small and large letters; and one with a number too large *)
Example C116_instance_instruction :
  let drw := [FRegister 10; FRegister 3; FIdentifier (u "small")] in
  let o := VCon "Instruction" [("0", VCon "Opcode::DRW" [("register_x", VInt IU8 10); ("register_y", VInt IU8 3); ("bytes", VInt IU8 7)])] in
  let args := [VStr (u "Drw"); VVec (map e_field drw); e_labels sample_labels] in
  let bad := [FRegister 10; FRegister 3; FIdentifier (u "sprite")] in
  let bad_args := [VStr (u "Drw"); VVec (map e_field bad); e_labels sample_labels] in
  (ascii (u "Drw") /\ labels_ok sample_labels) /\
  (Forall field_ok drw /\ encodes (label_get sample_labels) (u "Drw") drw 0xDA37 /\
   ran "Instruction::from_mnemonic_and_parameters" args = Back (VCon "Ok" [("0", o)]) args [] /\
   ran "Instruction::into_vec" [o] = Back (VVec [VInt IU8 0xDA; VInt IU8 0x37]) [o] []) /\
  (Forall field_ok bad /\ refuses (label_get sample_labels) (u "Drw") bad (ExpectingFourBitValue 0x2F0) /\
   ran "Instruction::from_mnemonic_and_parameters" bad_args
   = Back (VCon "Err" [("0", VCon "instruction::Error::ExpectingFourBitValue" [("0", VInt IUsize 0x2F0)])]) bad_args []).
Proof.
  cbv zeta.
  assert (A : ascii (u "Drw")) by (repeat constructor).
  assert (F : Forall field_ok [FRegister 10; FRegister 3; FIdentifier (u "small")]) by (repeat constructor; cbn [field_ok]; lia).
  assert (F' : Forall field_ok [FRegister 10; FRegister 3; FIdentifier (u "sprite")]) by (repeat constructor; cbn [field_ok]; lia).
  split; [split; [exact A|apply sample_labels_ok]|]. split; (split; [assumption|]).
  - split; [exact (proj1 (proj2 (proj2 C20_instance)))|]. split; [vm_compute; reflexivity|vm_compute; reflexivity].
  - split; [apply C21_errors; [exact A|exact F'|apply sample_labels_ok|vm_compute; reflexivity]|vm_compute; reflexivity].
Qed.

Example C116_instance_display :
  let o := e_opcode (ADD_I_X 3) in
  answers "Opcode::to_assembly_string" [o] (VStr (u "add i, v3")) /\
  ran "Opcode::fmt" [o; VStr []] = Back (VCon "Ok" [("0", VTup [])]) [o; VStr (u "add i, v3")] [] /\
  ran "Instruction::size" [VCon "Instruction" [("0", o)]] = Back (VInt IUsize 2) [VCon "Instruction" [("0", o)]] [] /\
  ran "Instruction::into_vec" [VCon "Instruction" [("0", o)]] = Back (VVec [VInt IU8 0xF3; VInt IU8 0x1E]) [VCon "Instruction" [("0", o)]] [].
Proof.
  cbv zeta. split; [exact (C107_to_assembly_string (ADD_I_X 3))|].
  split; [vm_compute; reflexivity|]. split; [vm_compute; reflexivity|vm_compute; reflexivity].
Qed.

(** A range with two bytes left, and the bytes that are still taken *)
Example C116_instance_range :
  let r := mk_range 0xFFC [1; 2] in
  in_memory r /\
  ran "DataRange::bytes_remaining" [e_range r] = Back (VInt IUsize 2) [e_range r] [] /\
  ran "DataRange::append" [e_range r; VVec [VInt IU8 3; VInt IU8 4]]
  = Back (VBool true) [e_range (mk_range 0xFFC [1; 2; 3; 4]); VVec [VInt IU8 3; VInt IU8 4]] [] /\
  ran "DataRange::append" [e_range r; VVec [VInt IU8 3; VInt IU8 4; VInt IU8 5]]
  = Back (VBool false) [e_range r; VVec [VInt IU8 3; VInt IU8 4; VInt IU8 5]] [].
Proof.
  cbv zeta. split; [split; vm_compute; discriminate|].
  split; [vm_compute; reflexivity|]. split; [vm_compute; reflexivity|vm_compute; reflexivity].
Qed.

Example C116_instance_overlaps :
  let a := mk_range 5 [1; 2] in let b := mk_range 7 [3] in let c := mk_range 6 [4; 5] in
  Forall (fun r => dr_start r + N.of_nat (length (dr_data r)) <= 4095) [a; b; c] /\
  ran "find_overlapping_ranges" [VVec (map e_range [a; b; c])]
  = Back (VVec [VTup [e_range a; e_range c]; VTup [e_range b; e_range c]]) [VVec (map e_range [a; b; c])] [].
Proof. cbv zeta. split; [repeat constructor; vm_compute; discriminate|vm_compute; reflexivity]. Qed.

(** The text of C110_instance, and one with two bytes at one address *)
Definition twice : str := u ".org 5" ++ [10] ++ u ".db 1" ++ [10] ++ u ".org 5" ++ [10] ++ u ".db 2".
Definition placed (s : str) (bytes : list (N * byte)) : Prop :=
  Forall scalar s /\ exists ts p bs, lexes (u "a.s") [] s ts /\ SpecGrammar.program ts p /\ well_formed p /\
    Forall2 (node_bytes (lookup p)) p bs /\ image p bs = bytes.
Lemma placed_by s ts p rs : forallb (fun c => c <? 128) s = true -> scan (u "a.s") s = Done ts -> parse ts = Done (Ok p) ->
  assemble p = Done (Ok rs) -> placed s (memory rs).
Proof.
  intros Sc S P A. split.
  - apply Forall_forall. intros c I. rewrite forallb_forall in Sc. specialize (Sc c I). unfold scalar. lia.
  - pose proof (parsed_node_ok _ _ _ _ S P) as F. destruct (C32_image p rs F A) as (bs & B & M & _).
    exists ts, p, bs. split; [apply scan_lexes; exact S|]. split; [apply parse_program; exact P|].
    split; [apply C29_accepts; [exact F|exists rs; exact A]|]. split; [exact B|]. symmetry. exact M.
Qed.
Example C116_instance_memory :
  placed PropSourceParser.text [(0x200, 0x61); (0x201, 0x12); (0x202, 0x12); (0x203, 0x00)] /\
  ran "ihex_representation_of_data_ranges" [VVec [e_range (mk_range 0x200 [0x61; 0x12; 0x12; 0x00])]]
  = Back (VStr (u ":0402000061121200" ++ u "75" ++ [10] ++ u ":00000001FF" ++ [10]))
         [VVec [e_range (mk_range 0x200 [0x61; 0x12; 0x12; 0x00])]] [] /\
  placed twice [(5, 1); (5, 2)] /\
  outcome_of c8s twice = VCon "Ok" [("0", VVec [e_range (mk_range 5 [1]); e_range (mk_range 5 [2])])] /\
  ran "ihex_representation_of_data_ranges" [VVec [e_range (mk_range 5 [1]); e_range (mk_range 5 [2])]] = Panic AssertFailed.
Proof.
  split; [|split; [|split; [|split]]].
  - eapply (placed_by _ _ _ [mk_range 0x200 [0x61; 0x12; 0x12; 0x00]]); [|vm_compute; reflexivity|vm_compute; reflexivity|]; vm_compute; reflexivity.
  - vm_compute. reflexivity.
  - eapply (placed_by _ _ _ [mk_range 5 [1]; mk_range 5 [2]]); [|vm_compute; reflexivity|vm_compute; reflexivity|]; vm_compute; reflexivity.
  - vm_compute. reflexivity.
  - vm_compute. reflexivity.
Qed.
