(** * PropTool: property C59, with instances. *)

From Verif Require Import Base Text U12 Location Token Scanner Parser Directive DataRange Assembler IHex Main
  SpecUtf8 SpecLex SpecGrammar SpecLayout SpecHex SpecTool BaseFacts LexProofs LexTheorems LexAppend ParseProofs
  UtfProofs HexProofs MainProofs PropOutput.
Open Scope N_scope.

(** ** C59: the tool depends on one file and changes one. *)

(** What else is in the file system does not matter: the same output and exit status, and
    the same files written. *)
Theorem C59_input : forall e f f' input output o o', asks e input output -> f input = f' input ->
  main e f = Done o -> main e f' = Done o' ->
  o_stdout o = o_stdout o' /\ o_exit o = o_exit o' /\
  ((forall p, o_fs o p = f p) /\ (forall p, o_fs o' p = f' p) \/
   (o_fs o output = o_fs o' output /\ forall p, p <> output -> o_fs o p = f p /\ o_fs o' p = f' p)).
Proof.
  intros e f f' input output o o' A E H H'. rewrite (main_asks _ _ _ _ A) in H. rewrite (main_asks _ _ _ _ A) in H'.
  unfold assemble_file, fail in H, H'.
  assert (R : read_input e f input = read_input e f' input) by (unfold read_input; rewrite E; reflexivity).
  rewrite R in H. destruct (read_input e f' input) as [s|m].
  2:{ injection H as <-. injection H' as <-. cbn [o_stdout o_exit o_fs]. auto. }
  destruct (assemble_text e input s) as [[text|m]|c]; cbn [bind] in H, H'; try discriminate.
  2:{ injection H as <-. injection H' as <-. cbn [o_stdout o_exit o_fs]. auto. }
  unfold write_output, fail in H, H'. cbv zeta in H, H'.
  assert (G : forall g bytes, fs_set g output bytes output = Some bytes)
    by (intros; unfold fs_set; rewrite str_eqb_refl; reflexivity).
  assert (K : forall g bytes p, p <> output -> fs_set g output bytes p = g p)
    by (intros g bytes p D; unfold fs_set; apply str_eqb_neq in D; rewrite D; reflexivity).
  destruct (str_eqb output (u "-")).
  - destruct (e_write_error e) as [[r n]|]; injection H as <-; injection H' as <-;
      cbn [o_stdout o_exit o_fs]; auto.
  - destruct (e_create_error e) as [r|]; [injection H as <-; injection H' as <-; cbn [o_stdout o_exit o_fs]; auto|].
    destruct (e_write_error e) as [[r n]|]; injection H as <-; injection H' as <-;
      cbn [o_stdout o_exit o_fs]; rewrite !G; auto 8.
Qed.
Print Assumptions C59_input.

(** Without an input file it depends on none, and changes none. *)
Theorem C59_other : forall e f f' o o', (forall input output, ~ asks e input output) ->
  main e f = Done o -> main e f' = Done o' ->
  o_stdout o = o_stdout o' /\ o_exit o = o_exit o' /\ o_fs o = f /\ o_fs o' = f'.
Proof.
  intros e f f' o o' N H H'.
  split; [|split; [|split; [exact (C41_other e f o H N) | exact (C41_other e f' o' H' N)]]];
    unfold main, fail in H, H'; (destruct (e_options e) as [m|r] eqn:E; [|injection H as <-; injection H' as <-; reflexivity]);
    (destruct (m_help m) eqn:Eh; [injection H as <-; injection H' as <-; reflexivity|]);
    (destruct (m_version m) eqn:Ev; [injection H as <-; injection H' as <-; reflexivity|]);
    (destruct (m_free m) as [|i [|x y]] eqn:Ef; try (injection H as <-; injection H' as <-; reflexivity));
    exfalso; eapply N; exists m; repeat split; eassumption.
Qed.
Print Assumptions C59_other.

(** Run again it does the same again, unless it has overwritten its input. *)
Theorem C59_again : forall e f input output o, asks e input output -> output <> input -> main e f = Done o ->
  exists o', main e (o_fs o) = Done o' /\ o_stdout o' = o_stdout o /\ o_exit o' = o_exit o /\
    forall p, o_fs o' p = o_fs o p.
Proof.
  intros e f input output o A D H. destruct (main_total e (o_fs o)) as (o' & H'). exists o'. split; [exact H'|].
  assert (I : o_fs o input = f input).
  { destruct (C59_input e f f input output o o A eq_refl H H) as (_ & _ & [[S _]|[_ S]]); [apply S|].
    destruct (S input) as [S' _]; [congruence | exact S']. }
  destruct (C59_input e (o_fs o) f input output o' o A I H' H) as (So & Se & [[S1 S2]|[S1 S2]]).
  - auto.
  - split; [exact So|]. split; [exact Se|]. intros p.
    destruct (list_eq_dec N.eq_dec p output) as [->|Dp]; [exact S1 | apply S2; exact Dp].
Qed.
Print Assumptions C59_again.

(** A HEX file is not a program. *)
Lemma hex_colon : forall s image, read_hex s = Some image -> exists r, s = 58 :: r.
Proof.
  intros [|c s] image H; unfold read_hex in H; cbn [lines] in H; [discriminate|].
  destruct (lines s) as [ls|]; [|discriminate]. destruct (c =? 10) eqn:E; [discriminate|].
  destruct ls as [|l ls]; [discriminate|]. cbn [read_records read_record] in H.
  destruct (c =? 58) eqn:Ec; [|discriminate]. apply N.eqb_eq in Ec. subst c. exists s. reflexivity.
Qed.

Lemma colon_first : forall file r ts p, lexes file [] (58 :: r) ts -> ~ program ts p.
Proof.
  intros file r ts p L P.
  assert (Lx : lexeme KColon [58] r ([58] ++ r)).
  { apply lexeme_closed; [apply rmatch_lit; reflexivity | destruct r; reflexivity]. }
  destruct (lexes_cons_inv _ _ _ _ _ _ _ Lx L) as [(t & ts' & -> & T & _)|(e & -> & B)]; [|inversion B].
  inversion T; subst. inversion P.
Qed.

Theorem C59_hex : forall file s image ts p, read_hex s = Some image -> lexes file [] s ts -> ~ program ts p.
Proof.
  intros file s image ts p H L. destruct (hex_colon s image H) as (r & ->). eapply colon_first. exact L.
Qed.
Print Assumptions C59_hex.

Lemma utf8_colon : forall s r, utf8 s = 58 :: r -> exists s', s = 58 :: s'.
Proof.
  intros [|c s] r H; [discriminate|]. unfold utf8 in H. cbn [flat_map] in H. exists s. f_equal.
  apply (f_equal (hd 0)) in H. unfold utf8_char in H.
  destruct (c <? 0x80); [exact H|]. destruct (c <? 0x800); [|destruct (c <? 0x10000)]; cbn [app hd] in H; lia.
Qed.

(** When the output is the input, the second run refuses. *)
Theorem C59_itself : forall e f path s rs, asks e path path -> path <> u "-" ->
  reads e f path s -> compiles path s rs -> e_create_error e = None -> e_write_error e = None ->
  exists o out, main e f = Done o /\ o_exit o = 0 /\
    main e (o_fs o) = Done (mk_outcome out 1 (o_fs o)) /\ out <> [].
Proof.
  intros e f path s rs A D R C Ec Ew. destruct (C42_file e f path path s rs A R C D Ec Ew) as (text & E & H & M).
  destruct (hex_colon _ _ H) as (r & Et).
  eexists. destruct (main_refuses e (fs_set f path text) path path A) as (out & M' & No).
  - intros s' rs' (_ & _ & bytes & Rb & Eb) (ts & p & L & P & _). unfold fs_set in Rb. rewrite str_eqb_refl in Rb.
    injection Rb as <-. apply encoding_utf8 in Eb. destruct Eb as [_ Eb]. rewrite Et in Eb.
    destruct (utf8_colon s' r (eq_sym Eb)) as (s'' & ->). exact (colon_first path s'' ts p L P).
  - exists out. split; [exact M|]. cbn [o_exit o_fs]. auto.
Qed.
Print Assumptions C59_itself.

(** The file 'in.s', assembled into 'out.hex' and again; then into itself. *)
Definition itself_env : env :=
  mk_env (u "c8s") (Ok (mk_matches false false (Some (u "in.s")) [u "in.s"])) (fun s => s)
         None None None None (u "not found") (u "not UTF-8").

Example C59_instance : exists o o',
  asks sample_env (u "in.s") (u "out.hex") /\ u "out.hex" <> u "in.s" /\
  main sample_env (sample_fs (u "start: .db 1")) = Done o /\ o_exit o = 0 /\
  o_fs o (u "out.hex") = Some (u ":0100000001FE" ++ [10] ++ u ":00000001FF" ++ [10]) /\
  asks itself_env (u "in.s") (u "in.s") /\
  main itself_env (sample_fs (u "start: .db 1")) = Done o' /\ o_exit o' = 0 /\
  option_map o_stdout (match main itself_env (o_fs o') with Done x => Some x | Crash _ => None end) =
    Some (u "in.s:1:1: error: Unexpected token found: label marker, expecting one of: directive marker, identifier." ++ [10]).
Proof.
  do 2 eexists. split; [exact sample_asks|]. split; [discriminate|]. split; [vm_compute; reflexivity|].
  split; [reflexivity|]. split; [vm_compute; reflexivity|].
  split; [eexists; split; [reflexivity|]; repeat split; reflexivity|].
  split; [vm_compute; reflexivity|]. split; [reflexivity|]. vm_compute. reflexivity.
Qed.

(** A file of records begins with a label marker. *)
Example C59_instance_hex : exists ts x,
  read_hex (u ":0100000001FE" ++ [10] ++ u ":00000001FF" ++ [10]) = Some x /\ length x = 1%nat /\
  lexes (u "f") [] (u ":0100000001FE" ++ [10] ++ u ":00000001FF" ++ [10]) ts /\ length ts = 2%nat.
Proof.
  do 2 eexists. split; [vm_compute; reflexivity|]. split; [reflexivity|].
  split; [apply scan_lexes; vm_compute; reflexivity | reflexivity].
Qed.
