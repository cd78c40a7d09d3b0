(** * PropRecords: property C93, with instances. *)

From Verif Require Import Base Text U12 Location Token Scanner Parser Directive Opcode Instruction DataRange Assembler
  IHex Main SpecLex SpecErase SpecCode SpecOpcode SpecLayout SpecHex SpecTool SpecUtf8 SpecMeta SpecRewrite SpecInsert SpecRecords BaseFacts
  LexTheorems ParseProofs LayoutProofs EmitProofs PipelineProofs HexProofs MainProofs RewriteProofs TextProofs FirstProofs TextCode PropLayout PropOutput PropText PropConcat
  EditProofs RecordProofs.
Open Scope string_scope.
Open Scope list_scope.
Open Scope N_scope.

Lemma text_blocks : forall e file s rs text, Forall scalar s -> assemble_text e file s = Done (Ok text) -> compiles file s rs ->
  ihex_representation rs = Done text.
Proof.
  intros e file s rs text Sc H C.
  destruct (assemble_text_spec e file s Sc) as [(t & rs' & E & C' & I)|(m & E & _)]; rewrite H in E; [|discriminate E].
  injection E as <-. enough (rs' = rs) by (subst rs'; exact I).
  destruct C as (ts & p & L1 & P & W1 & O & _), C' as (ts' & p' & L1' & P' & W1' & O' & _).
  pose proof (lexes_det _ _ _ _ L1 _ L1'). subst ts'. pose proof P as P2.
  apply parse_program in P2. apply parse_program in P'. rewrite P2 in P'. injection P' as <-.
  pose proof (program_node_ok ts p P (lexes_token_ok _ _ _ _ L1)) as F.
  eapply output_det; try eassumption. intros i err V. exact (violation_not_wf _ _ _ W1 V).
Qed.

(** ** C93: when two HEX files are the same.

    Two accepted sources give the same file exactly if they put the same bytes at the same addresses, in the
    same order, and the same addresses are those of a block or a multiple of 16 bytes after one. *)
Theorem C93_exact : forall e e' file file' s s' rs rs' text text', Forall scalar s -> Forall scalar s' ->
  compiles file s rs -> compiles file' s' rs' ->
  assemble_text e file s = Done (Ok text) -> assemble_text e' file' s' = Done (Ok text') ->
  (text = text' <-> memory rs = memory rs' /\ forall x, record_starts rs x <-> record_starts rs' x).
Proof.
  intros e e' file file' s s' rs rs' text text' Sc Sc' C C' H H'.
  pose proof (text_blocks _ _ _ _ _ Sc H C) as I. pose proof (text_blocks _ _ _ _ _ Sc' H' C') as I'.
  destruct (compiles_writable _ _ _ Sc C) as [W N]. destruct (compiles_writable _ _ _ Sc' C') as [W' N'].
  destruct C as (_ & _ & _ & _ & _ & _ & D). rewrite <- (same_file rs rs' W N W' N' D), I, I'.
  split; [intros ->; reflexivity | intros E; injection E as E; exact E].
Qed.
Print Assumptions C93_exact.

(** An '.org' line to the address where it stands: accepted if the file was, with the same bytes at the same
    addresses; and the very same file exactly if a multiple of 16 bytes come before it in its block, or
    none after it. *)
Theorem C93_org : forall e file before line after a b l id text,
  Forall scalar (before ++ line ++ after) -> lined before -> lined line ->
  parsed file before a -> parsed file line [NDirective l id [LNumeric (counter 0 a)]] -> parsed file after b ->
  names id "ORG" = true -> detached b ->
  assemble_text e file (before ++ after) = Done (Ok text) ->
  exists text', assemble_text e file (before ++ line ++ after) = Done (Ok text') /\
    read_hex text' = read_hex text /\
    (text' = text <-> open_bytes a mod 16 = 0 \/ next_bytes b = 0).
Proof.
  intros e file before line after a b l id text Sc Lb Ll Pa Pl Pb Nm De H.
  destruct (three_texts file before line after a _ b Lb Ll Pa Pl Pb) as (w' & W' & S').
  destruct (C62_text file before after a b Lb Pa Pb) as (w & W & S).
  assert (Sc0 : Forall scalar (before ++ after)) by (rewrite !Forall_app in *; tauto).
  pose proof (parsed_ok _ _ _ Pa) as Oa. pose proof (parsed_ok _ _ _ Pb) as Ob. pose proof (parsed_ok _ _ _ Pl) as Ol.
  assert (As : ascii id) by (inversion Ol; assumption). cbn [app] in S'.
  destruct (text_memory _ _ _ _ _ Sc0 W H) as (rs & A & R & D). pose proof A as A1. apply (assemble_same_ok _ _ _ S) in A.
  pose proof (assemble_here_same a b l id Oa Ob As Nm De) as M. rewrite A in M.
  destruct (assemble (a ++ NDirective l id [LNumeric (counter 0 a)] :: b)) as [[rs'|err]|c] eqn:A'; cbn [same_memory] in M; try contradiction.
  assert (A2 : assemble w' = Done (Ok rs')) by (apply (assemble_same_ok _ _ _ (same_program_sym _ _ S')); exact A').
  assert (D' : NoDup (map fst (memory rs'))) by (rewrite <- M; exact D).
  destruct (memory_text e file _ _ _ Sc W' A2 D') as (text' & T').
  destruct (text_memory _ _ _ _ _ Sc W' T') as (rs2 & A3 & R' & _). rewrite A2 in A3. injection A3 as <-.
  exists text'. split; [exact T'|]. split; [rewrite R, R', M; reflexivity|].
  assert (C : forall s p rs, parsed file s p -> assemble p = Done (Ok rs) -> NoDup (map fst (memory rs)) -> compiles file s rs).
  { intros s p r (ts & L & P) X Y. pose proof (parsed_node_ok _ _ _ _ L P) as Z. apply (assemble_ok _ _ Z) in X.
    exists ts, p. apply scan_lexes in L. apply parse_program in P. tauto. }
  rewrite (C93_exact e e file file _ _ rs' rs text' text Sc Sc0 (C _ _ _ W' A2 D') (C _ _ _ W A1 D) T' H).
  apply assemble_ok in A; [|apply Forall_app; split; assumption].
  apply assemble_ok in A'; [|apply Forall_app; split; [exact Oa | constructor; [inversion Ol; assumption | exact Ob]]].
  destruct A as [_ O], A' as [_ O'].
  rewrite <- (starts_org a b (NDirective l id [LNumeric (counter 0 a)]) rs rs');
    [|cbn [origin]; rewrite Nm; reflexivity | exact O | exact O' | exact D].
  split; [intros [_ E] x; symmetry; apply E | intros E; split; [symmetry; exact M | intros x; symmetry; apply E]].
Qed.
Print Assumptions C93_org.

(** 16 bytes before the '.org': nothing changes.  With 15: two short records. *)
Definition records_before : str := lines [".org $200"; ".db 1,2,3,4,5,6,7,8"; ".db 1,2,3,4,5,6,7"].
Definition records_more : str := lines [".db 8"].
Definition records_after : str := lines ["cls"].

Example C93_instance :
  lined records_before /\ lined (lines [".org $20F"]) /\ parsed (u "f") records_before (nodes records_before) /\
  parsed (u "f") (lines [".org $20F"]) (nodes (lines [".org $20F"])) /\ parsed (u "f") records_after (nodes records_after) /\
  counter 0 (nodes records_before) = 527 /\ open_bytes (nodes records_before) = 15 /\ next_bytes (nodes records_after) = 2 /\
  assemble_text sample_env (u "f") (records_before ++ records_after) =
    Done (Ok (lines [":1002000001020304050607080102030405060700AE"; ":01021000E00D"; ":00000001FF"])) /\
  assemble_text sample_env (u "f") (records_before ++ lines [".org $20F"] ++ records_after) =
    Done (Ok (lines [":0F020000010203040506070801020304050607AF"; ":02020F0000E00D"; ":00000001FF"])).
Proof.
  split; [right; exists (removelast records_before); vm_compute; reflexivity|].
  split; [right; exists (removelast (lines [".org $20F"])); vm_compute; reflexivity|].
  split; [eexists; split; [vm_compute; reflexivity | vm_compute; reflexivity]|].
  split; [eexists; split; [vm_compute; reflexivity | vm_compute; reflexivity]|].
  split; [eexists; split; [vm_compute; reflexivity | vm_compute; reflexivity]|].
  split; [vm_compute; reflexivity|]. split; [vm_compute; reflexivity|]. split; [vm_compute; reflexivity|].
  split; [vm_compute; reflexivity|]. vm_compute; reflexivity.
Qed.

Example C93_invisible :
  open_bytes (nodes (records_before ++ records_more)) = 16 /\
  assemble_text sample_env (u "f") (records_before ++ records_more ++ lines [".org $210"] ++ records_after) =
  assemble_text sample_env (u "f") (records_before ++ records_more ++ records_after) /\
  exists text, assemble_text sample_env (u "f") (records_before ++ records_more ++ records_after) = Done (Ok text).
Proof. split; [vm_compute; reflexivity|]. split; [vm_compute; reflexivity|]. eexists. vm_compute. reflexivity. Qed.

(** The order counts: the same bytes at the same addresses, but another file. *)
Example C93_order :
  exists text text',
    assemble_text sample_env (u "f") (lines [".db 1"; ".org $10"; ".db 2"]) = Done (Ok text) /\
    assemble_text sample_env (u "f") (lines [".org $10"; ".db 2"; ".org 0"; ".db 1"]) = Done (Ok text') /\
    text <> text' /\ forall x v, (exists m, read_hex text = Some m /\ In (x, v) m) <-> (exists m, read_hex text' = Some m /\ In (x, v) m).
Proof.
  do 2 eexists. split; [vm_compute; reflexivity|]. split; [vm_compute; reflexivity|]. split; [intros E; discriminate E|].
  intros x v. split; intros (m & R & I); vm_compute in R; injection R as <-; (eexists; split; [vm_compute; reflexivity|]);
    cbn [In] in *; tauto.
Qed.
