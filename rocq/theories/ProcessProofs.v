(** * ProcessProofs: the tool as a process (C76, C77). *)

From Verif Require Import Base Text U12 Location Token Scanner Parser Directive Opcode Instruction DataRange Assembler
  IHex Main Getopts Process SpecLex SpecGrammar SpecLayout SpecUtf8 SpecTool SpecHex SpecArgs SpecProcess
  BaseFacts UtfProofs LexProofs LexTheorems ParseProofs LayoutProofs EmitProofs PipelineProofs DataRangeProofs HexProofs MainProofs.
Open Scope string_scope.
Open Scope list_scope.
Open Scope N_scope.

(** ** Arguments *)

Lemma collect_ok : forall argv args, collect_args argv = Done args <-> arguments_are argv args.
Proof.
  induction argv as [|a argv IH]; intros args; cbn [collect_args].
  - split; [intros E; injection E as <-; constructor | intros F; inversion F; reflexivity].
  - split.
    + destruct (utf8_decode a) as [s|] eqn:D; [|discriminate]. destruct (collect_args argv) as [l|] eqn:C; [|discriminate].
      cbn [bind]. intros E. injection E as <-. constructor; [apply decode_encoding; exact D | apply IH; reflexivity].
    + intros F. inversion F as [|s ? args' ? E F' X Y]; subst. apply decode_encoding in E. rewrite E.
      apply IH in F'. rewrite F'. reflexivity.
Qed.

Lemma collect_crash : forall argv, (exists why, collect_args argv = Crash why) <-> exists a, In a argv /\ forall s, ~ encoding s a.
Proof.
  induction argv as [|a argv IH]; cbn [collect_args].
  - split; [intros (w & E); discriminate E | intros (a & [] & _)].
  - destruct (utf8_decode a) as [s|] eqn:D.
    + split.
      * intros (w & E). destruct (collect_args argv) as [l|] eqn:C; [discriminate E|].
        destruct (proj1 IH (ex_intro _ _ eq_refl)) as (b & I & N). exists b. split; [right; exact I | exact N].
      * intros (b & [<-|I] & N); [exfalso; apply (N s), decode_encoding, D|].
        destruct (proj2 IH (ex_intro _ b (conj I N))) as (w & C). rewrite C. exists w. reflexivity.
    + split; [|intros _; exists UnwrapFailed; reflexivity]. intros _. exists a. split; [left; reflexivity|].
      intros s E. apply decode_encoding in E. congruence.
Qed.

Lemma main_on_total : forall e d d', exists o, main_on e d d' = Done o.
Proof.
  intros e d d'. unfold main_on, assemble_file_on, fail_on. destruct (e_options e) as [m|r]; [|eauto].
  destruct (m_help m); [eauto|]. destruct (m_version m); [eauto|]. destruct (m_free m) as [|i [|]]; eauto.
  destruct (read_input_spec e (content d) i) as [(s & R & Rs)|(t & R & _)]; rewrite R; [|eauto].
  destruct (assemble_text_spec e i s (reads_scalar _ _ _ _ Rs)) as [(text & rs & E & _)|(t & E & _)]; rewrite E; cbn [bind]; [|eauto].
  unfold write_output_on, fail_on. destruct (str_eqb _ _); [destruct (e_write_error e) as [[]|]; eauto|].
  destruct (e_create_error e); [eauto|]. destruct (create _ _) as [[]|]; [|eauto]. destruct (e_write_error e) as [[]|]; eauto.
Qed.

(** ** Files *)

Lemma created : forall d path i d1 bytes, sound_disk d -> create d path = Some (i, d1) ->
  only_changed path bytes d (append d1 i bytes).
Proof.
  intros d path i d1 bytes So C. unfold create in C. destruct (d_entry d path) as [x|] eqn:Ex; [|discriminate].
  destruct (d_file d x) as [j|] eqn:Fx.
  - injection C as <- <-. split.
    + intros q (x' & y & P & Q & Same). rewrite Ex in P. injection P as <-. unfold content, append. cbn [d_entry d_file d_data].
      rewrite Q. destruct Same as [-> | (i & A & B)].
      * rewrite Fx, N.eqb_refl. reflexivity.
      * rewrite B. rewrite Fx in A. injection A as ->. rewrite N.eqb_refl. reflexivity.
    + intros q No. unfold content, append. cbn [d_entry d_file d_data]. destruct (d_entry d q) as [y|] eqn:Ey; [|reflexivity].
      destruct (d_file d y) as [k|] eqn:Fy; [|reflexivity]. destruct (k =? j) eqn:K; [|reflexivity]. apply N.eqb_eq in K. subst k.
      exfalso. apply No. exists x, y. split; [exact Ex|]. split; [exact Ey|]. right. exists j. auto.
  - injection C as <- <-. split.
    + intros q (x' & y & P & Q & Same). rewrite Ex in P. injection P as <-. unfold content, append. cbn [d_entry d_file d_data].
      rewrite Q. destruct Same as [<- | (i & A & B)]; [|congruence]. rewrite !N.eqb_refl. reflexivity.
    + intros q No. unfold content, append. cbn [d_entry d_file d_data]. destruct (d_entry d q) as [y|] eqn:Ey; [|reflexivity].
      destruct (y =? x) eqn:Y.
      * apply N.eqb_eq in Y. subst y. exfalso. apply No. exists x, x. auto.
      * destruct (d_file d y) as [k|] eqn:Fy; [|reflexivity]. destruct (k =? d_fresh d) eqn:K; [|reflexivity].
        apply N.eqb_eq in K. exfalso. exact (So y k Fy K).
Qed.

Lemma create_some : forall d path, create d path = None <-> d_entry d path = None.
Proof. intros d path. unfold create. destruct (d_entry d path) as [x|]; [|tauto]. destruct (d_file d x); split; discriminate. Qed.

Lemma main_on_asks : forall e d d' input output, asks e input output -> main_on e d d' = assemble_file_on e d d' input output.
Proof. intros e d d' i o (m & E & H & V & F & ->). unfold main_on. rewrite E, H, V, F. reflexivity. Qed.

Lemma on_refuses : forall e d d' input output, asks e input output ->
  (forall s rs, reads e (content d) input s -> ~ compiles input s rs) ->
  exists out, main_on e d d' = Done (mk_ended out 1 d') /\ out <> [].
Proof.
  intros e d d' input output A N. rewrite (main_on_asks _ _ _ _ _ A). unfold assemble_file_on, fail_on.
  destruct (read_input_spec e (content d) input) as [(s & R & Rs)|(t & R & Ne & _)]; rewrite R;
    [|eexists; split; [reflexivity | apply utf8_nonempty, Ne]].
  destruct (assemble_text_spec e input s (reads_scalar _ _ _ _ Rs)) as [(text & rs & E & C & _)|(t & E & Ne & _)]; rewrite E; cbn [bind].
  - exfalso. exact (N s rs Rs C).
  - eexists. split; [reflexivity | apply utf8_nonempty, Ne].
Qed.

Lemma on_writes : forall e d d' input output s rs, asks e input output ->
  reads e (content d) input s -> compiles input s rs ->
  exists text, ihex_representation rs = Done text /\ read_hex text = Some (memory rs) /\ utf8 text = text /\
    main_on e d d' = write_output_on e d' output text.
Proof.
  intros e d d' input output s rs A R C. rewrite (main_on_asks _ _ _ _ _ A). unfold assemble_file_on.
  pose proof (reads_scalar _ _ _ _ R) as Sc. destruct (compiles_writable _ _ _ Sc C) as [W N].
  destruct (ihex_loads rs W N) as (text & E & L). exists text. split; [exact E|]. split; [exact L|].
  split; [exact (ihex_ascii rs text W N E)|].
  destruct (read_input_spec e (content d) input) as [(s' & E' & R')|(m & E' & _ & R')]; [|exfalso; exact (R' s R)].
  rewrite E'. rewrite (reads_det _ _ _ _ _ R' R).
  destruct (assemble_text_spec e input s Sc) as [(t & rs' & Et & C' & Eh)|(m & Et & _ & No)]; [|exfalso; exact (No rs C)].
  assert (rs' = rs).
  { destruct C as (ts & p & L1 & P & W1 & O & _), C' as (ts' & p' & L1' & P' & W1' & O' & _).
    pose proof (lexes_det _ _ _ _ L1 _ L1'). subst ts'. pose proof P as P2.
    apply parse_program in P2. apply parse_program in P'. rewrite P2 in P'. injection P' as <-.
    pose proof (program_node_ok ts p P (lexes_token_ok _ _ _ _ L1)) as F.
    eapply output_det; try eassumption. intros i err V. exact (violation_not_wf _ _ _ W1 V). }
  subst rs'. rewrite E in Eh. injection Eh as <-. rewrite Et. reflexivity.
Qed.
