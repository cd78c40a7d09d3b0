(** * PropOutput: properties C10 ('.db') and C36-C43, with an instance of each. *)

From Verif Require Import Base Text U12 Location Token Scanner Parser Directive DataRange Assembler IHex Main
  SpecUtf8 SpecLex SpecGrammar SpecOpcode SpecLayout SpecHex SpecTool
  BaseFacts LexTheorems ParseProofs LayoutProofs EmitProofs PipelineProofs UtfProofs DataRangeProofs OutputProofs
  HexProofs MainProofs.
Open Scope N_scope.

Ltac evaluate := cbv zeta; repeat match goal with |- _ /\ _ => split end; try (vm_compute; reflexivity).

(** ** C10: '.db'. *)

(** The bytes of an argument. *)
Inductive emits : literal -> list byte -> Prop :=
| emits_string : forall s bytes, encoding s bytes -> emits (LString s) bytes
| emits_number : forall v, v <= 255 -> emits (LNumeric v) [v].

Theorem C10_db : forall id args bytes, ascii id -> names id "DB" = true ->
  (forall s, In (LString s) args -> Forall scalar s) ->
  (directive_from id args = Ok (Db bytes) <->
   args <> [] /\ exists parts, Forall2 emits args parts /\ bytes = concat parts).
Proof.
  intros id args bytes A N Sc. rewrite (directive_means id args _ A). split.
  - intros M. inversion M as [| |? ? _ Ne B]; subst. split; [exact Ne|].
    exists (map literal_bytes args). split; [|apply flat_map_concat_map].
    clear M Ne. induction B as [|a args Ba B IH]; [constructor|]. cbn [map]. constructor.
    + destruct a as [s|v]; cbn [literal_bytes byte_literal] in *.
      * constructor. apply encoding_utf8. split; [apply Sc; left; reflexivity | reflexivity].
      * constructor. exact Ba.
    + apply IH. intros s I. apply Sc. right. exact I.
  - intros (Ne & parts & F & ->).
    assert (G : Forall byte_literal args /\ concat parts = flat_map literal_bytes args).
    { clear Sc Ne. induction F as [|a part args parts H F [IH1 IH2]]; [split; constructor|].
      cbn [concat flat_map]. rewrite IH2. destruct H as [s bytes E|v L].
      - apply encoding_utf8 in E. destruct E as [_ ->]. split; [constructor; [exact I | exact IH1] | reflexivity].
      - split; [constructor; [exact L | exact IH1] | reflexivity]. }
    destruct G as [G ->]. constructor; assumption.
Qed.
Print Assumptions C10_db.

Example C10_instance :
  ascii (u "Db") /\ names (u "Db") "DB" = true /\
  directive_from (u "Db") [LString (u "a" ++ [0xE9]); LNumeric 0; LString (u "\""")] = Ok (Db [97; 0xC3; 0xA9; 0; 92; 34]).
Proof. evaluate. repeat constructor. Qed.

(** ** C05: no output for a text with a lexical error. *)
Theorem C05_output : forall e path s ts, Forall scalar s -> scan path s = Done ts -> existsb is_error ts = true ->
  exists message, assemble_text e path s = Done (Err message) /\ message <> [].
Proof.
  intros e path s ts Sc S E. destruct (assemble_text_spec e path s Sc) as [(t & rs & _ & (ts' & p & L & P & _) & _)|(m & A & N & _)].
  - exfalso. apply scan_lexes in S. pose proof (lexes_det _ _ _ _ S _ L). subst ts'.
    apply existsb_exists in E. destruct E as (x & I & T). destruct x; try discriminate T.
    eapply program_no_error; eassumption.
  - eauto.
Qed.
Print Assumptions C05_output.

(** ** C36: appending to a range. *)
Theorem C36_append : forall r data, in_memory r ->
  if dr_start r + range_len r + N.of_nat (length data) <=? 4096
  then range_append r data = Done (true, mk_range (dr_start r) (dr_data r ++ data))
  else range_append r data = Done (false, r).
Proof. exact append_exact. Qed.
Print Assumptions C36_append.

Theorem C36_history : forall a datas, a <= 4095 ->
  let oks := accepted (4096 - a) datas in
  let r := mk_range a (concat (keep oks datas)) in
  append_all (range_new a) datas = Done (oks, r) /\ in_memory r.
Proof. exact append_history. Qed.
Print Assumptions C36_history.

Example C36_instance :
  append_all (range_new 0xFFC) [[1; 2]; [3; 4; 5]; [6]; [7]; [8]; []]
    = Done ([true; false; true; true; false; true], mk_range 0xFFC [1; 2; 6; 7]).
Proof. vm_compute. reflexivity. Qed.

(** ** C37: overlaps, for the ranges the assembler produces (C34). *)
Theorem C37_intersects : forall a b,
  dr_start a + range_len a <= 4095 -> dr_start b + range_len b <= 4095 ->
  (intersects a b = true <-> exists x, covers a x /\ covers b x).
Proof. exact intersects_exact. Qed.
Print Assumptions C37_intersects.

Theorem C37_report : forall rs,
  Forall (fun r => dr_start r + range_len r <= 4095) rs ->
  exists ps,
    increasing ps /\ NoDup ps /\
    (forall i j, In (i, j) ps <->
       (i < j)%nat /\ exists a b x, nth_error rs i = Some a /\ nth_error rs j = Some b /\ covers a x /\ covers b x) /\
    find_overlapping_ranges rs = map (fun p => (nth_range rs (fst p), nth_range rs (snd p))) ps.
Proof. exact overlaps_exact. Qed.
Print Assumptions C37_report.

(** The two functions called by themselves, on ranges which end with the memory, miss
    overlaps: the end address wraps to 0. *)
Theorem C37_api_refuted : exists a b, in_memory a /\ in_memory b /\
  intersects a b = false /\ exists x, covers a x /\ covers b x.
Proof.
  exists (mk_range 0xFFF [1]), (mk_range 0xFFF [2]).
  unfold in_memory, covers, range_len. cbn [dr_start dr_data length].
  split; [lia|]. split; [lia|]. split; [vm_compute; reflexivity|]. exists 0xFFF. lia.
Qed.
Print Assumptions C37_api_refuted.

Example C37_instance :
  let a := mk_range 0x200 [1; 2; 3] in let b := mk_range 0x202 [4] in let c := mk_range 0x203 [5] in
  find_overlapping_ranges [a; b; c; a] = [(a, b); (a, a); (b, a)].
Proof. vm_compute. reflexivity. Qed.

(** ** C38: each address is written at most once. *)
Theorem C38_written : forall e path s text, Forall scalar s ->
  assemble_text e path s = Done (Ok text) ->
  exists image, read_hex text = Some image /\ NoDup (map fst image).
Proof.
  intros e path s text Sc H.
  destruct (assemble_text_spec e path s Sc) as [(t & rs & E & C & I)|(m & E & _)]; rewrite H in E; [|discriminate].
  injection E as <-. destruct (compiles_writable _ _ _ Sc C) as [W N].
  destruct (ihex_loads rs W N) as (t & I' & R). rewrite I in I'. injection I' as <-.
  exists (memory rs). split; [exact R|]. destruct C as (ts & p & _ & _ & _ & _ & D). exact D.
Qed.
Print Assumptions C38_written.

Theorem C38_overlap : forall e path s ts p rs, Forall scalar s ->
  scan path s = Done ts -> parse ts = Done (Ok p) -> assemble p = Done (Ok rs) ->
  ~ NoDup (map fst (memory rs)) ->
  exists message, assemble_text e path s = Done (Err message) /\ message <> [].
Proof.
  intros e path s ts p rs Sc S P A D.
  destruct (assemble_text_spec e path s Sc) as [(t & rs' & E & (ts' & p' & L & Pr & W & O & N) & I)|(m & E & M & _)]; [|eauto].
  exfalso. apply scan_lexes in L. rewrite S in L. injection L as <-. apply parse_program in Pr. rewrite P in Pr.
  injection Pr as <-. pose proof (parsed_node_ok _ _ _ _ S P) as F.
  assert (A' : assemble p = Done (Ok rs')) by (apply assemble_ok; auto). rewrite A in A'. injection A' as <-.
  contradiction.
Qed.
Print Assumptions C38_overlap.

(** Two sections at the same place. *)
Definition overlapping_source : str :=
  u ".org $202 .db 1" ++ [LF] ++ u ".org $200 .db 2, 3, 4" ++ [LF].

Example C38_instance : exists ts p rs,
  scan (u "f") overlapping_source = Done ts /\ parse ts = Done (Ok p) /\ assemble p = Done (Ok rs) /\
  ~ NoDup (map fst (memory rs)).
Proof.
  do 3 eexists. split; [vm_compute; reflexivity|]. split; [vm_compute; reflexivity|].
  split; [vm_compute; reflexivity|]. cbn. intros N. inversion N as [|? ? I _]; subst. apply I. cbn. tauto.
Qed.

(** ** C39: the HEX text loads to the image. *)
Theorem C39_loads : forall rs, Forall writable rs -> find_overlapping_ranges rs = [] ->
  exists s, ihex_representation rs = Done s /\ read_hex s = Some (memory rs).
Proof. exact ihex_loads. Qed.
Print Assumptions C39_loads.

(** All data ranges are writable: their bytes are bytes, and lie in memory. *)
Theorem C39_ranges : forall r, in_memory r -> Forall (fun b => b < 256) (dr_data r) -> writable r.
Proof. intros r [S L] B. split; [lia | exact B]. Qed.
Print Assumptions C39_ranges.

Definition sample_ranges : list data_range :=
  [mk_range 0xFFC [1; 2; 255; 0]; mk_range 0x10 []; mk_range 0x200 (repeat 7 18)].

Example C39_instance :
  Forall writable sample_ranges /\ find_overlapping_ranges sample_ranges = [] /\
  ihex_representation sample_ranges = Done (
    u ":040FFC000102FF00EF" ++ [LF] ++
    u ":10020000070707070707070707070707070707077E" ++ [LF] ++
    u ":020210000707DE" ++ [LF] ++ u ":00000001FF" ++ [LF]).
Proof.
  evaluate. unfold sample_ranges, writable, range_len. cbn [repeat].
  repeat constructor; cbn [dr_start dr_data length]; lia.
Qed.

(** ** C40: the form of the HEX text. *)
Theorem C40_form : forall rs, Forall writable rs -> find_overlapping_ranges rs = [] ->
  exists ls, ihex_representation rs = Done (end_lines (ls ++ [end_line])) /\ blocks rs ls.
Proof. exact ihex_exact. Qed.
Print Assumptions C40_form.

(** Overlapping ranges are refused by an assertion (which main.rs rules out, C43). *)
Theorem C40_overlap : forall rs, find_overlapping_ranges rs <> [] ->
  exists why, ihex_representation rs = Crash why.
Proof. exact ihex_overlap. Qed.
Print Assumptions C40_overlap.

Example C40_instance : Forall writable sample_ranges /\ find_overlapping_ranges sample_ranges = [] /\
  end_line = u ":00000001FF".
Proof. split; [exact (proj1 C39_instance)|]. split; vm_compute; reflexivity. Qed.

(** ** C41: nothing is written unless everything succeeded. *)
Theorem C41_refuses : forall e f input output, asks e input output ->
  (forall s rs, reads e f input s -> ~ compiles input s rs) ->
  exists out, main e f = Done (mk_outcome out 1 f) /\ out <> [].
Proof. exact main_refuses. Qed.
Print Assumptions C41_refuses.

(** Bad command lines, and requests for help and version, write nothing either. *)
Theorem C41_other : forall e f o, main e f = Done o -> (forall input output, ~ asks e input output) ->
  o_fs o = f.
Proof.
  intros e f o H N. unfold main, fail in H. destruct (e_options e) as [m|r] eqn:E; [|injection H as <-; reflexivity].
  destruct (m_help m) eqn:Eh; [injection H as <-; reflexivity|].
  destruct (m_version m) eqn:Ev; [injection H as <-; reflexivity|].
  destruct (m_free m) as [|i [|x y]] eqn:Ef; try (injection H as <-; reflexivity).
  exfalso. eapply N. exists m. repeat split; try eassumption.
Qed.
Print Assumptions C41_other.

(** A run on the file [src], named 'in.s', which is the only one. *)
Definition sample_env : env :=
  mk_env (u "c8s") (Ok (mk_matches false false (Some (u "out.hex")) [u "in.s"])) (fun s => s)
         None None None None (u "not found") (u "not UTF-8").
Definition sample_fs (src : list byte) : fs := fs_set (fun _ => None) (u "in.s") src.

Example sample_asks : asks sample_env (u "in.s") (u "out.hex").
Proof. eexists. split; [reflexivity|]. repeat split; reflexivity. Qed.

Lemma sample_reads : forall s, Forall scalar s -> reads sample_env (sample_fs (utf8 s)) (u "in.s") s.
Proof.
  intros s F. split; [reflexivity|]. split; [reflexivity|]. exists (utf8 s).
  split; [unfold sample_fs, fs_set; rewrite str_eqb_refl; reflexivity|].
  apply encoding_utf8. auto.
Qed.

Example C41_instance :
  asks sample_env (u "in.s") (u "out.hex") /\
  (forall s rs, reads sample_env (sample_fs overlapping_source) (u "in.s") s -> ~ compiles (u "in.s") s rs).
Proof.
  split; [exact sample_asks|]. intros s rs R (ts & p & L & P & W & O & N).
  assert (F : Forall scalar overlapping_source) by (repeat constructor; unfold scalar; lia).
  pose proof (sample_reads overlapping_source F) as R'.
  replace (utf8 overlapping_source) with overlapping_source in R' by (vm_compute; reflexivity).
  rewrite (reads_det _ _ _ _ _ R R') in *.
  apply scan_lexes in L. apply parse_program in P. pose proof (parsed_node_ok _ _ _ _ L P) as Fo.
  assert (A : assemble p = Done (Ok rs)) by (apply assemble_ok; auto).
  vm_compute in L. injection L as <-. vm_compute in P. injection P as <-. vm_compute in A. injection A as <-.
  cbn in N. inversion N as [|? ? I _]; subst. apply I. cbn. tauto.
Qed.

(** ** C42: on success the HEX text is written to the output. *)
Theorem C42_file : forall e f input output s rs, asks e input output ->
  reads e f input s -> compiles input s rs -> output <> u "-" ->
  e_create_error e = None -> e_write_error e = None ->
  exists text, ihex_representation rs = Done text /\ read_hex text = Some (memory rs) /\
    main e f = Done (mk_outcome [] 0 (fs_set f output text)).
Proof.
  intros e f input output s rs A R C D Ec Ew.
  destruct (main_writes e f input output s rs A R C) as (text & E & L & M). exists text.
  split; [exact E|]. split; [exact L|]. rewrite M, Ec, Ew. apply str_eqb_neq in D. rewrite D. reflexivity.
Qed.
Print Assumptions C42_file.

Theorem C42_stdout : forall e f input s rs, asks e input (u "-") ->
  reads e f input s -> compiles input s rs -> e_write_error e = None ->
  exists text, ihex_representation rs = Done text /\ read_hex text = Some (memory rs) /\
    main e f = Done (mk_outcome text 0 f).
Proof.
  intros e f input s rs A R C Ew.
  destruct (main_writes e f input (u "-") s rs A R C) as (text & E & L & M). exists text.
  split; [exact E|]. split; [exact L|]. rewrite M, Ew. reflexivity.
Qed.
Print Assumptions C42_stdout.

(** When writing fails, the status is 1 and only the output can have changed. *)
Theorem C42_failed : forall e f input output s rs, asks e input output ->
  reads e f input s -> compiles input s rs ->
  (e_write_error e <> None \/ (output <> u "-" /\ e_create_error e <> None)) ->
  exists o, main e f = Done o /\ o_exit o = 1 /\ o_stdout o <> [] /\
    forall p, p <> output -> o_fs o p = f p.
Proof.
  intros e f input output s rs A R C X.
  destruct (main_writes e f input output s rs A R C) as (text & E & L & M). rewrite M.
  assert (G : forall a b, utf8 (program_error e a ++ program_error e b) <> []).
  { intros a b. apply utf8_nonempty. unfold program_error. intros Y. apply (f_equal (@length N)) in Y.
    rewrite !app_length in Y. cbn [length] in Y. lia. }
  assert (K : forall x y : list N, y <> [] -> x ++ y <> []) by (intros [|z x] y Hy; [exact Hy | discriminate]).
  destruct (str_eqb output (u "-")) eqn:Eo.
  - apply str_eqb_eq in Eo. destruct (e_write_error e) as [[r n]|]; [|destruct X as [X|[X _]]; congruence].
    eexists. split; [reflexivity|]. cbn [o_exit o_stdout o_fs]. split; [reflexivity|].
    split; [apply K; apply G | reflexivity].
  - apply str_eqb_neq in Eo. destruct (e_create_error e) as [r|].
    + eexists. split; [reflexivity|]. cbn [o_exit o_stdout o_fs]. split; [reflexivity|]. split; [apply G | reflexivity].
    + destruct (e_write_error e) as [[r n]|]; [|destruct X as [X|[_ X]]; congruence].
      eexists. split; [reflexivity|]. cbn [o_exit o_stdout o_fs]. split; [reflexivity|]. split; [apply G|].
      intros p D. unfold fs_set. apply str_eqb_neq in D. rewrite D. reflexivity.
Qed.
Print Assumptions C42_failed.

Example C42_instance : exists rs o,
  main sample_env (sample_fs (u "cls v0")) = Done o /\ o_exit o = 1 /\
  main sample_env (sample_fs (u "start: .db 1")) =
    Done (mk_outcome [] 0 (fs_set (sample_fs (u "start: .db 1")) (u "out.hex")
      (u ":0100000001FE" ++ [LF] ++ u ":00000001FF" ++ [LF]))) /\
  compiles (u "in.s") (u "start: .db 1") rs.
Proof.
  exists [mk_range 0 [1]]. eexists. split; [vm_compute; reflexivity|].
  split; [reflexivity|]. split; [vm_compute; reflexivity|].
  eexists. eexists. split; [apply scan_lexes; vm_compute; reflexivity|].
  split; [apply parse_program; vm_compute; reflexivity|].
  apply and_assoc. split.
  - apply assemble_ok; [repeat constructor|]. vm_compute. reflexivity.
  - repeat constructor. intros [].
Qed.

(** ** C43: the tool does not panic. *)
Theorem C43_total : forall e f, exists o, main e f = Done o.
Proof. exact main_total. Qed.
Print Assumptions C43_total.

Example C43_instance : exists o, main sample_env (sample_fs [0x63; 0xFF]) = Done o /\ o_exit o = 1.
Proof. eexists. split; vm_compute; reflexivity. Qed.
