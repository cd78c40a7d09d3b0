(** * MainProofs: the whole tool (C38, C41 to C43). *)

From Verif Require Import Base Text U12 Location Token Scanner Parser Directive Opcode Instruction DataRange
  Assembler IHex Main SpecUtf8 SpecLex SpecGrammar SpecOpcode SpecRefusal SpecLayout SpecHex SpecTool
  BaseFacts LexTheorems ParseProofs InstructionTheorems LayoutProofs EmitProofs PipelineProofs UtfProofs DataRangeProofs
  OutputProofs HexProofs.
Open Scope N_scope.

(** ** The bytes of a program are bytes *)

Definition token_scalar (t : token) : Prop :=
  match t with StringLiteral s _ => Forall scalar s | _ => True end.

Definition node_scalar (n : node) : Prop :=
  match n with
  | NDirective _ _ args => Forall (fun a => match a with LString s => Forall scalar s | LNumeric _ => True end) args
  | _ => True
  end.

Lemma lexes_scalar : forall file before s ts, lexes file before s ts -> Forall scalar s -> Forall token_scalar ts.
Proof.
  intros file before s ts H.
  induction H as [before | before c s ts Hb H IH | before s k m rest t ts L T H IH
                  | before s k m rest e L B | before c s Hb St]; intros F.
  - constructor.
  - inversion F; auto.
  - destruct L as (-> & _ & _). apply Forall_app in F. destruct F as [Fm Fr]. constructor; [|auto].
    inversion T; subst; cbn [token_scalar]; auto. inversion Fm as [|? ? _ Fb]; subst. apply Forall_app in Fb. tauto.
  - repeat constructor.
  - repeat constructor.
Qed.

Lemma literals_scalar : forall ts args rest, literals ts args rest -> Forall token_scalar ts ->
  Forall (fun a => match a with LString s => Forall scalar s | LNumeric _ => True end) args /\ Forall token_scalar rest.
Proof.
  assert (G : forall t a, literal_token t a -> token_scalar t ->
                match a with LString s => Forall scalar s | LNumeric _ => True end).
  { intros t a H. destruct H; cbn [token_scalar]; auto. }
  induction 1 as [l rest|t a rest H|t a l ts args rest H _ IH]; intros F.
  - auto.
  - inversion F; subst. split; [constructor; [eapply G; eassumption | constructor] | assumption].
  - inversion F as [|? ? Ht F1]; subst. inversion F1; subst. destruct IH as [A B]; [assumption|].
    split; [constructor; [eapply G; eassumption | exact A] | exact B].
Qed.

Lemma fields_scalar : forall ts fs rest, fields ts fs rest -> Forall token_scalar ts -> Forall token_scalar rest.
Proof.
  induction 1 as [l rest|c l rest|t a rest H|t a l ts args rest H _ IH]; intros F; auto.
  - inversion F; assumption.
  - inversion F as [|? ? _ F1]; subst. inversion F1; subst. auto.
Qed.

Lemma program_scalar : forall ts p, program ts p -> Forall token_scalar ts -> Forall node_scalar p.
Proof.
  induction 1 as [|l ts ns H IH|c l ts ns H IH|l0 id l ts args rest ns L H IH|id l l1 ts ns H IH
                  |id l ts args rest ns L H IH]; intros F.
  - constructor.
  - inversion F; auto.
  - inversion F; auto.
  - inversion F as [|? ? _ F1]; subst. inversion F1 as [|? ? A F2]; subst.
    destruct (literals_scalar _ _ _ L F2). constructor; auto.
  - inversion F as [|? ? _ F1]; subst. inversion F1 as [|? ? _ F2]; subst. constructor; [exact I | auto].
  - inversion F as [|? ? A F1]; subst. constructor; [exact I|]. apply IH. eapply fields_scalar; eassumption.
Qed.

Lemma node_bytes_byte : forall p n b, Forall node_ok p -> well_formed p -> node_ok n -> node_scalar n ->
  node_bytes (lookup p) n b -> Forall (fun x => x < 256) b.
Proof.
  intros p n b F W O Sc H. destruct H as [l m fs w E|l id args bytes M|l id args a M|l id args c M|l id];
    try constructor.
  - destruct (table_exists p F) as (labels & LO & LG).
    { intros i e V. exact (violation_not_wf _ _ _ W V). }
    apply (encodes_ext _ (label_get labels)) in E; [|intros; symmetry; apply LG].
    destruct O as [A Fo]. apply instruction_table in E; try assumption. destruct E as [E _]. lia.
  - destruct O as [A Fo].
    destruct (table_exists p F) as (labels & LO & LG).
    { intros i e V. exact (violation_not_wf _ _ _ W V). }
    apply (encodes_ext _ (label_get labels)) in E; [|intros; symmetry; apply LG].
    apply instruction_table in E; try assumption. destruct E as [E _]. constructor; [lia | constructor].
  - inversion M as [| |? ? _ _ B]; subst. cbn [node_scalar] in Sc. clear M O.
    induction args as [|[s|v] args IH]; [constructor| |]; cbn [flat_map literal_bytes];
      inversion B; subst; inversion Sc; subst; apply Forall_app; (split; [|auto]).
    + apply utf8_byte. assumption.
    + constructor; [cbn [byte_literal] in *; lia | constructor].
Qed.

Lemma place_bytes : forall bytes a, map snd (place a bytes) = bytes.
Proof. induction bytes as [|b bytes IH]; intros a; [reflexivity|]. cbn [place map snd]. rewrite IH. reflexivity. Qed.

Theorem output_writable : forall p rs, Forall node_ok p -> Forall node_scalar p -> well_formed p -> output p rs ->
  Forall writable rs.
Proof.
  intros p rs F Sc W O. destruct (memory_bounds p rs W O) as [_ B]. destruct (output_image p rs W O) as (bs & Fb & M).
  assert (X : Forall (fun x => x < 256) (map snd (memory rs))).
  { rewrite M. clear M. generalize 0. revert F Sc Fb.
    assert (G : forall q cs, Forall node_ok q -> Forall node_scalar q -> incl q p -> Forall2 (node_bytes (lookup p)) q cs ->
                  Forall node_ok p -> forall a, Forall (fun x => x < 256) (map snd (image a q cs))).
    { intros q cs Fq Sq Iq H Fp. induction H as [|n b q cs Nb H IH]; intros a; [constructor|]. cbn [image].
      rewrite map_app, place_bytes. inversion Fq; subst. inversion Sq; subst. apply Forall_app. split.
      - apply (node_bytes_byte p n b); assumption.
      - apply IH; auto. intros x I. apply Iq. right. exact I. }
    intros F Sc Fb a. apply G; auto. apply incl_refl. }
  apply Forall_forall. intros r I. rewrite Forall_forall in B. specialize (B r I). split; [lia|].
  rewrite Forall_forall in X |- *. intros b Ib. apply X. unfold memory.
  rewrite flat_map_concat_map, concat_map, map_map, in_concat. exists (dr_data r). split; [|exact Ib].
  apply in_map_iff. exists r. split; [apply place_bytes | exact I].
Qed.

(** ** From text to HEX *)

Lemma overlap_report_total : forall e l, (forall a b, In (a, b) l -> intersects a b = true) ->
  exists s, overlap_report e l = Done s.
Proof.
  intros e. induction l as [|[a b] l IH]; intros H; [eexists; reflexivity|]. cbn [overlap_report].
  destruct (intersects_fmt a b) as [(sa & Ea) (sb & Eb)]; [apply H; left; reflexivity|].
  rewrite Ea, Eb. cbn [bind]. destruct IH as (s & E); [intros; apply H; right; assumption|]. rewrite E. eexists. reflexivity.
Qed.

Lemma overlapping_intersect : forall rs a b, In (a, b) (find_overlapping_ranges rs) -> intersects a b = true.
Proof.
  induction rs as [|r rs IH]; intros a b I; [destruct I|]. cbn [find_overlapping_ranges] in I.
  apply in_app_iff in I. destruct I as [I|I]; [|apply IH; exact I].
  apply in_map_iff in I. destruct I as (x & E & I). injection E as <- <-. apply filter_In in I. tauto.
Qed.

(** [assemble_text] refuses with a message, or gives the HEX text of the program. *)
Theorem assemble_text_spec : forall e path s, Forall scalar s ->
  (exists text rs, assemble_text e path s = Done (Ok text) /\ compiles path s rs /\
     ihex_representation rs = Done text) \/
  (exists message, assemble_text e path s = Done (Err message) /\ message <> [] /\ forall rs, ~ compiles path s rs).
Proof.
  intros e path s Sc. unfold assemble_text. destruct (scan_total path s) as (ts & E). rewrite E. cbn [bind].
  apply scan_lexes in E. destruct (parse_total ts) as ([p|err] & P); rewrite P; cbn [bind].
  2:{ right. destruct (parse_error_fmt_total ts err P) as (m & Em). rewrite Em. cbn [bind].
      eexists. split; [reflexivity|]. split; [destruct m; discriminate|].
      intros rs (ts' & p & L & Pr & _). pose proof (lexes_det _ _ _ _ E _ L). subst ts'.
      apply parse_program in Pr. congruence. }
  apply parse_program in P. pose proof (program_node_ok ts p P (lexes_token_ok _ _ _ _ E)) as F.
  pose proof (program_scalar ts p P (lexes_scalar _ _ _ _ E Sc)) as Fs.
  assert (U : forall rs, compiles path s rs -> well_formed p /\ output p rs /\ NoDup (map fst (memory rs))).
  { intros rs (ts' & p' & L & Pr & W & O & N). pose proof (lexes_det _ _ _ _ E _ L). subst ts'.
    apply parse_program in Pr. apply parse_program in P. rewrite P in Pr. injection Pr as <-. auto. }
  destruct (assemble_spec p F) as [(rs & A & W & O)|(err & A & R)]; rewrite A; cbn [bind].
  2:{ right. eexists. split; [reflexivity|]. split; [destruct (semantic_error_fmt err); discriminate|].
      intros rs C. destruct (U rs C) as (W & O & _). exact (wf_not_reported p err F W R). }
  destruct (memory_bounds p rs W O) as [_ B].
  destruct (Nat.ltb_spec 0 (length (find_overlapping_ranges rs))) as [L|L].
  - right. destruct (overlap_report_total e (find_overlapping_ranges rs) (overlapping_intersect rs)) as (m & Em).
    rewrite Em. cbn [bind]. eexists. split; [reflexivity|]. split.
    + unfold program_error. intros X. apply (f_equal (@length N)) in X. rewrite !app_length in X. cbn [length] in X. lia.
    + intros rs' C. destruct (U rs' C) as (_ & O' & N).
      assert (rs' = rs).
      { eapply output_det; try eassumption. intros i err V. exact (violation_not_wf _ _ _ W V). }
      subst rs'. apply no_overlap_nodup in N; [|exact B]. rewrite N in L. cbn in L. lia.
  - left. assert (N : find_overlapping_ranges rs = []) by (destruct (find_overlapping_ranges rs); [reflexivity | cbn in L; lia]).
    destruct (ihex_exact rs (output_writable p rs F Fs W O) N) as (ls & Eh & _). rewrite Eh. cbn [bind].
    eexists. exists rs. split; [reflexivity|]. split; [|exact Eh].
    exists ts, p. repeat split; try assumption; try apply W. apply no_overlap_nodup; assumption.
Qed.

Lemma compiles_writable : forall file s rs, Forall scalar s -> compiles file s rs ->
  Forall writable rs /\ find_overlapping_ranges rs = [].
Proof.
  intros file s rs Sc (ts & p & L & P & W & O & N).
  pose proof (program_node_ok ts p P (lexes_token_ok _ _ _ _ L)) as F.
  pose proof (program_scalar ts p P (lexes_scalar _ _ _ _ L Sc)) as Fs. split.
  - eapply output_writable; eassumption.
  - apply no_overlap_nodup; [|exact N]. eapply memory_bounds; eassumption.
Qed.

(** ** The text is ASCII, so its bytes are its characters *)

Lemma utf8_ascii : forall s, Forall (fun c => c < 128) s -> utf8 s = s.
Proof.
  unfold utf8. induction 1 as [|c s C F IH]; [reflexivity|]. cbn [flat_map]. rewrite IH.
  unfold utf8_char. replace (c <? 128) with true by lia. reflexivity.
Qed.

Lemma hex_text_ascii : forall bytes s, hex_text bytes s -> Forall (fun c => c < 128) s.
Proof.
  induction 1 as [|b h l bytes s H L T IH]; [constructor|]. unfold upper_digit in *.
  constructor; [lia|]. constructor; [lia | exact IH].
Qed.

Lemma block_ascii : forall a l ls, block_lines a l ls -> Forall (Forall (fun c => c < 128)) ls.
Proof.
  assert (G : forall a d l, data_line a d l -> Forall (fun c => c < 128) l).
  { intros a d l (check & digits & -> & T & _). constructor; [lia|]. eapply hex_text_ascii. exact T. }
  induction 1; constructor; eauto.
Qed.

Lemma ihex_ascii : forall rs s, Forall writable rs -> find_overlapping_ranges rs = [] ->
  ihex_representation rs = Done s -> utf8 s = s.
Proof.
  intros rs s W O E. destruct (ihex_exact rs W O) as (ls & E' & B). rewrite E in E'. injection E' as ->.
  apply utf8_ascii. unfold end_lines. rewrite flat_map_concat_map. apply Forall_concat, Forall_map, Forall_app.
  assert (G : Forall (Forall (fun c => c < 128)) ls).
  { clear - B. induction B as [|r rs ls E B IH|r rs ls ls' D B IH]; [constructor | exact IH |].
    apply Forall_app. split; [eapply block_ascii; exact D | exact IH]. }
  split.
  - eapply Forall_impl; [|exact G]. intros l Hl. apply Forall_app. split; [exact Hl|]. constructor; [lia | constructor].
  - repeat constructor; lia.
Qed.

(** ** The tool *)

(** The text read from the input file, if there is one. *)
Definition reads (e : env) (f : fs) (path s : str) : Prop :=
  e_open_error e = None /\ e_read_error e = None /\ exists bytes, f path = Some bytes /\ encoding s bytes.

Lemma read_input_spec : forall e f path,
  (exists s, read_input e f path = Ok s /\ reads e f path s) \/
  (exists m, read_input e f path = Err m /\ m <> [] /\ forall s, ~ reads e f path s).
Proof.
  intros e f path. unfold read_input, reads.
  assert (G : forall a b, program_error e a ++ program_error e b <> []).
  { intros a b X. unfold program_error in X. apply (f_equal (@length N)) in X. rewrite !app_length in X. cbn [length] in X. lia. }
  destruct (e_open_error e) as [r|]; [right; eexists; split; [reflexivity|]; split; [apply G | intros s (X & _); discriminate]|].
  destruct (f path) as [bytes|];
    [|right; eexists; split; [reflexivity|]; split; [apply G | intros s (_ & _ & b & X & _); discriminate]].
  destruct (e_read_error e) as [r|];
    [right; eexists; split; [reflexivity|]; split; [apply G | intros s (_ & X & _); discriminate]|].
  destruct (utf8_decode bytes) as [s|] eqn:D.
  - left. exists s. split; [reflexivity|]. apply decode_encoding in D. repeat split; eauto.
  - right. eexists. split; [reflexivity|]. split; [apply G|]. intros s (_ & _ & b & X & En). injection X as <-.
    apply decode_encoding in En. congruence.
Qed.

Lemma reads_scalar : forall e f path s, reads e f path s -> Forall scalar s.
Proof. intros e f path s (_ & _ & b & _ & E). apply encoding_utf8 in E. tauto. Qed.

Lemma reads_det : forall e f path s s', reads e f path s -> reads e f path s' -> s = s'.
Proof.
  intros e f path s s' (_ & _ & b & E & D) (_ & _ & b' & E' & D'). rewrite E in E'. injection E' as <-.
  apply decode_encoding in D. apply decode_encoding in D'. congruence.
Qed.

Lemma utf8_nonempty : forall s, s <> [] -> utf8 s <> [].
Proof.
  intros [|c s] N; [contradiction|]. unfold utf8. cbn [flat_map]. unfold utf8_char.
  repeat destruct (_ <? _); discriminate.
Qed.

(** The run asked for: no help, no version, one input. *)
Definition asks (e : env) (input output : str) : Prop :=
  exists m, e_options e = Ok m /\ m_help m = false /\ m_version m = false /\ m_free m = [input] /\
    output = match m_output m with Some p => p | None => u "a.hex" end.

Lemma main_asks : forall e f input output, asks e input output -> main e f = assemble_file e f input output.
Proof. intros e f i o (m & E & H & V & F & ->). unfold main. rewrite E, H, V, F. reflexivity. Qed.

(** C41 *)
Theorem main_refuses : forall e f input output, asks e input output ->
  (forall s rs, reads e f input s -> ~ compiles input s rs) ->
  exists out, main e f = Done (mk_outcome out 1 f) /\ out <> [].
Proof.
  intros e f input output A H. rewrite (main_asks _ _ _ _ A). unfold assemble_file, fail.
  destruct (read_input_spec e f input) as [(s & E & R)|(m & E & Nm & R)]; rewrite E.
  - destruct (assemble_text_spec e input s (reads_scalar _ _ _ _ R)) as [(t & rs & Et & C & _)|(m & Et & Nm & _)].
    + exfalso. exact (H s rs R C).
    + rewrite Et. cbn [bind]. eexists. split; [reflexivity|]. apply utf8_nonempty. exact Nm.
  - eexists. split; [reflexivity|]. apply utf8_nonempty. exact Nm.
Qed.

(** C42: what is written. *)
Theorem main_writes : forall e f input output s rs, asks e input output ->
  reads e f input s -> compiles input s rs ->
  exists text, ihex_representation rs = Done text /\ read_hex text = Some (memory rs) /\
    main e f =
    if str_eqb output (u "-") then
      match e_write_error e with
      | None => Done (mk_outcome text 0 f)
      | Some (reason, n) =>
          Done (mk_outcome (firstn n text ++ utf8 (program_error e
            (u "Unable to write result to output file '" ++ output ++ u "'") ++ program_error e reason)) 1 f)
      end
    else
      match e_create_error e, e_write_error e with
      | Some reason, _ =>
          Done (mk_outcome (utf8 (program_error e (u "Unable to create output file '" ++ output ++ u "'")
            ++ program_error e reason)) 1 f)
      | None, Some (reason, n) =>
          Done (mk_outcome (utf8 (program_error e (u "Unable to write result to output file '" ++ output ++ u "'")
            ++ program_error e reason)) 1 (fs_set f output (firstn n text)))
      | None, None => Done (mk_outcome [] 0 (fs_set f output text))
      end.
Proof.
  intros e f input output s rs A R C. pose proof (reads_scalar _ _ _ _ R) as Sc.
  destruct (compiles_writable _ _ _ Sc C) as [W N].
  destruct (ihex_loads rs W N) as (text & E & L). exists text. split; [exact E|]. split; [exact L|].
  rewrite (main_asks _ _ _ _ A). unfold assemble_file.
  destruct (read_input_spec e f input) as [(s' & E' & R')|(m & E' & _ & R')]; [|exfalso; exact (R' s R)].
  rewrite E'. rewrite (reads_det _ _ _ _ _ R' R).
  destruct (assemble_text_spec e input s Sc) as [(t & rs' & Et & C' & Eh)|(m & Et & _ & No)]; [|exfalso; exact (No rs C)].
  assert (rs' = rs).
  { destruct C as (ts & p & L1 & P & W1 & O & _), C' as (ts' & p' & L1' & P' & W1' & O' & _).
    pose proof (lexes_det _ _ _ _ L1 _ L1'). subst ts'. pose proof P as P2.
    apply parse_program in P2. apply parse_program in P'. rewrite P2 in P'. injection P' as <-.
    pose proof (program_node_ok ts p P (lexes_token_ok _ _ _ _ L1)) as F.
    eapply output_det; try eassumption. intros i err V. exact (violation_not_wf _ _ _ W1 V). }
  subst rs'. rewrite E in Eh. injection Eh as <-. rewrite Et. cbn [bind]. unfold write_output. cbv zeta.
  rewrite (ihex_ascii rs text W N E). unfold fail.
  destruct (str_eqb output (u "-")).
  - destruct (e_write_error e) as [[reason n]|]; reflexivity.
  - destruct (e_create_error e); [reflexivity|]. destruct (e_write_error e) as [[reason n]|]; reflexivity.
Qed.

(** C43 *)
Theorem main_total : forall e f, exists o, main e f = Done o.
Proof.
  intros e f. unfold main, fail. destruct (e_options e) as [m|r]; [|eexists; reflexivity].
  destruct (m_help m); [eexists; reflexivity|]. destruct (m_version m); [eexists; reflexivity|].
  destruct (m_free m) as [|input [|x y]]; try (eexists; reflexivity).
  unfold assemble_file, fail. destruct (read_input_spec e f input) as [(s & E & R)|(m' & E & _)]; rewrite E; [|eexists; reflexivity].
  destruct (assemble_text_spec e input s (reads_scalar _ _ _ _ R)) as [(t & rs & Et & _)|(m' & Et & _)]; rewrite Et;
    cbn [bind]; [|eexists; reflexivity].
  unfold write_output, fail. cbv zeta. destruct (str_eqb _ _).
  - destruct (e_write_error e) as [[r n]|]; eexists; reflexivity.
  - destruct (e_create_error e); [eexists; reflexivity|]. destruct (e_write_error e) as [[r n]|]; eexists; reflexivity.
Qed.
