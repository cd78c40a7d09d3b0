(** * C119: what is printed, of the executed source.

    [complaint h input output s out]: the text of main.rs, executed from [main] on any files
    where [input] holds the text [s] and with enough room, prints [out], ends with status 1
    and leaves every file as it is.  What C30, C41, C44, C58 and C66 say of the model is said
    here of the text. *)

From Coq Require Import String List NArith Bool Lia.
From Verif Require Import Base BaseFacts Text Location Token Scanner Parser Instruction DataRange Assembler IHex Main MainIO
  SpecUtf8 SpecLex SpecGrammar SpecLayout SpecHex SpecTool SpecErase SpecCode SpecPlace
  LexTheorems ParseProofs UtfProofs LayoutProofs EmitProofs PipelineProofs HexProofs TextProofs MainProofs IoProofs Description
  PropLayout PropOutput PropText PropMessage PropPlace PropRewrite
  SrcText SrcLex SrcParse SrcRun SrcCode SrcEnc SrcFacts SrcTool SrcAssemblerProofs SrcMainProofs PropSourceMain PropSourceErrors PropSourceSpec PropSourceTool
  PropSourceChanges.
Import ListNotations.
Open Scope string_scope.
Open Scope list_scope.
Open Scope N_scope.

Definition complaint (h : host) (input output s : str) (out : list byte) : Prop :=
  Forall scalar s /\
  forall f bytes, f input = Some bytes -> encoding s bytes -> leaves h f (mk_outcome out 1 f).

Lemma complaint_text h input output s out : called h input output -> Forall scalar s ->
  (complaint h input output s out <-> exists msg, assemble_text (env_of h) input s = Done (Err msg) /\ out = utf8 msg).
Proof.
  intros (W & N & Ho & Hr & Hc & Hw) Sc. pose proof N as Nd. apply str_eqb_neq in N.
  assert (D : steady h) by (intros i _; exact Hw).
  assert (G : forall f bytes, f input = Some bytes -> encoding s bytes ->
    main (env_of h) f = (let* r := assemble_text (env_of h) input s in
      match r with Err message => Main.fail message f | Ok result => Done (mk_outcome [] 0 (fs_set f output (utf8 result))) end)).
  { intros f bytes F E. rewrite (main_asks _ _ _ _ (wants_asks _ _ _ W)). unfold assemble_file.
    destruct (read_input_spec (env_of h) f input) as [(s' & R & Rd)|(m & R & _ & Nr)].
    - rewrite R. assert (Rd' : reads (env_of h) f input s) by (split; [exact Ho|]; split; [exact Hr|]; exists bytes; auto).
      rewrite (reads_det _ _ _ _ _ Rd Rd'). unfold write_output. rewrite N. cbn [env_of e_create_error e_write_error].
      rewrite Hc, Hw. reflexivity.
    - exfalso. apply (Nr s). split; [exact Ho|]. split; [exact Hr|]. exists bytes. auto. }
  split.
  - intros (_ & O). pose (f := fs_set (fun _ => None) input (utf8 s)).
    assert (F : f input = Some (utf8 s)) by (unfold f, fs_set; rewrite str_eqb_refl; reflexivity).
    assert (E : encoding s (utf8 s)) by (apply encoding_utf8; auto).
    specialize (O f _ F E). apply C117_leaves in O; [|exact D]. destruct O as (o' & M & S & X & Fs).
    rewrite (G f _ F E) in M. destruct (assemble_text _ _ _) as [[t|t]|]; cbn [bind] in M; [| |discriminate].
    + exfalso. injection M as <-. cbn [o_exit] in X. discriminate.
    + exists t. split; [reflexivity|]. unfold Main.fail in M. injection M as <-. cbn [o_stdout] in S. congruence.
  - intros (t & A & ->). split; [exact Sc|]. intros f bytes F E. apply C117_leaves; [exact D|].
    eexists. split; [rewrite (G f bytes F E), A; reflexivity|]. repeat split.
Qed.

(** Either an object file is written or something is printed, and not both. *)
Theorem C119_either : forall h input output s, called h input output -> Forall scalar s ->
  ((exists hex, object h input output s hex) \/ (exists out, complaint h input output s out /\ out <> [])) /\
  ~ ((exists hex, object h input output s hex) /\ exists out, complaint h input output s out).
Proof.
  intros h input output s C S. split.
  - destruct (assemble_text_spec (env_of h) input s S) as [(t & rs & T & _)|(m & T & N & _)].
    + left. exists (utf8 t). apply object_text; eauto.
    + right. exists (utf8 m). split; [apply complaint_text; eauto|apply utf8_nonempty; exact N].
  - intros ((hex & O) & out & K). apply object_text in O; auto. apply complaint_text in K; auto.
    destruct O as (t & T & _), K as (m & M & _). congruence.
Qed.
Print Assumptions C119_either.

(** An object file is written just for a text that means something, and holds what it means. *)
Theorem C119_object : forall h input output s, called h input output -> Forall scalar s ->
  (forall hex, object h input output s hex -> exists ranges, compiles input s ranges /\ read_hex hex = Some (memory ranges)) /\
  (forall ranges, compiles input s ranges -> exists hex, object h input output s hex /\ read_hex hex = Some (memory ranges)).
Proof.
  intros h input output s C S.
  assert (G : forall t rs, compiles input s rs -> ihex_representation rs = Done t -> read_hex t = Some (memory rs) /\ utf8 t = t).
  { intros t rs K I. destruct (compiles_writable _ _ _ S K) as (W & N). destruct (ihex_loads rs W N) as (t' & E & L).
    assert (t' = t) by congruence. subst t'. split; [exact L|exact (ihex_ascii rs t W N I)]. }
  destruct (assemble_text_spec (env_of h) input s S) as [(t & rs & T & K & I)|(m & T & _ & No)].
  - destruct (G t rs K I) as (L & U). split.
    + intros hex O. apply object_text in O; auto. destruct O as (t' & T' & ->). exists rs. split; [exact K|].
      assert (t' = t) by congruence. subst t'. rewrite U. exact L.
    + intros rs' K'. exists t. assert (R : rs' = rs).
      { destruct K as (ts & p & L1 & P & W1 & O & _), K' as (ts' & p' & L1' & P' & W1' & O' & _).
        pose proof (lexes_det _ _ _ _ L1 _ L1'). subst ts'.
        pose proof (parsed_node_ok input s ts p (proj2 (scan_lexes _ _ _) L1) (proj2 (parse_program _ _) P)) as F.
        apply parse_program in P. apply parse_program in P'. rewrite P in P'. injection P' as <-.
        assert (A : assemble p = Done (Ok rs)) by (apply assemble_ok; auto).
        assert (A' : assemble p = Done (Ok rs')) by (apply assemble_ok; auto). congruence. }
      subst rs'. split; [|exact L]. apply object_text; auto. exists t. split; [exact T|]. symmetry. exact U.
  - split; [|intros rs K; exfalso; exact (No rs K)].
    intros hex O. apply object_text in O; auto. destruct O as (t' & T' & _). congruence.
Qed.
Print Assumptions C119_object.

(** The first error is printed, as its [Display] writes it, and the place printed is that of
    the name in the statement concerned. *)
Theorem C119_statement : forall h input output s p e, called h input output -> Forall scalar s ->
  reads_as input s p -> reported p e ->
  exists msg i n before after,
    changes "SemanticError::fmt" [e_semantic_error e; VStr []] (VCon "Ok" [("0", VTup [])]) [e_semantic_error e; VStr msg] /\
    complaint h input output s (utf8 (msg ++ [10])) /\
    nth_error p i = Some n /\ (first (violates p) i e \/ first (unencodable p) i e) /\
    s = before ++ node_name n ++ after /\ about input before (node_name n) msg.
Proof.
  intros h input output s p e C S P R. apply reads_parsed in P. destruct P as (ts & L & P).
  pose proof (parsed_node_ok _ _ _ _ L P) as F.
  assert (A : assemble p = Done (Err e)) by (apply C30_reported; auto).
  destruct (C44_statement _ _ _ _ _ L P A) as (i & n & before & after & Ni & Fi & E & B).
  exists (semantic_error_fmt e), i, n, before, after. split; [|split; [|auto]].
  - intro K. refine (C113_display (ESemantic e) K _). pose proof (assemble_placed _ _ _ _ _ L P A) as Z. destruct e; exact Z.
  - apply complaint_text; auto. eexists. split; [|reflexivity]. unfold assemble_text. rewrite L. cbn [bind].
    rewrite P. cbn [bind]. rewrite A. reflexivity.
Qed.
Print Assumptions C119_statement.

(** What is printed is of three kinds, and the place in it is that of a piece of the text. *)
Theorem C119_place : forall h input output s out, called h input output -> complaint h input output s out ->
  (exists rest, out = utf8 (u "error: Unexpected end-of-file reached, expecting " ++ rest)) \/
  (exists before m after msg, s = before ++ m ++ after /\ m <> [] /\ about input before m msg /\ out = utf8 msg) \/
  (exists rest, out = utf8 (h_program h ++ u ": error: Input file specifies overlapping data ranges." ++ rest)).
Proof.
  intros h input output s out C K. pose proof (proj1 K) as S. apply complaint_text in K; auto. destruct K as (m & M & ->).
  destruct (C44_text _ _ _ _ S M) as [(r & ->)|[(b & x & a & E & N & B)|(r & ->)]].
  - left. exists r. reflexivity.
  - right. left. exists b, x, a, m. auto.
  - right. right. unfold program_error. cbn [env_of e_program]. repeat rewrite <- app_assoc. eexists. reflexivity.
Qed.
Print Assumptions C119_place.

(** With idle lines before the text, the same is printed with another line number. *)
Theorem C119_moved : forall h input output s out k pre, called h input output -> idle_lines k pre -> Forall scalar pre ->
  complaint h input output s out ->
  (exists line first last here there parts,
     PropMessage.place input line first last here /\ PropMessage.place input (line + k) first last there /\
     out = utf8 (fill (None :: parts) here) /\ complaint h input output (pre ++ s) (utf8 (fill (None :: parts) there))) \/
  (complaint h input output (pre ++ s) out /\
   exists rest, out = utf8 (u "error: Unexpected end-of-file reached" ++ rest) \/
     out = utf8 (program_error (env_of h) (u "Input file specifies overlapping data ranges.") ++ rest)).
Proof.
  intros h input output s out k pre C I Sp K. pose proof (proj1 K) as S. apply complaint_text in K; auto. destruct K as (m & M & ->).
  assert (S' : Forall scalar (pre ++ s)) by (apply Forall_app; auto).
  destruct (C66_message _ _ _ _ input _ _ I M) as [(line & a & b & x & y & parts & X & Y & E & M')|(M' & r & E)].
  - left. exists line, a, b, x, y, parts. split; [exact X|]. split; [exact Y|]. split; [rewrite E; reflexivity|].
    apply complaint_text; eauto.
  - right. split; [apply complaint_text; eauto|]. exists r. destruct E as [->| ->]; auto.
Qed.
Print Assumptions C119_moved.

(** ** Cases *)
Ltac a_complaint := apply complaint_text; [exact to_b_called|apply scalars_ok; vm_compute; reflexivity|];
  eexists; split; [vm_compute; reflexivity|vm_compute; reflexivity].
Definition nowhere_text : str := lines ["cls"; "  jp nowhere"].
Example C119_instance :
  called to_b (u "f") (u "b.hex") /\ Forall scalar nowhere_text /\ Forall scalar two_idle /\ idle_lines 2 two_idle /\
  reads_as (u "f") nowhere_text (listed (u "f") nowhere_text) /\
  (exists l, reported (listed (u "f") nowhere_text) (AssemblyFailed l (UnableToResolveLabel (u "nowhere")))) /\
  complaint to_b (u "f") (u "b.hex") nowhere_text (lines ["f:2:3-4: error: Unable to resolve label nowhere."]) /\
  complaint to_b (u "f") (u "b.hex") (two_idle ++ nowhere_text) (lines ["f:4:3-4: error: Unable to resolve label nowhere."]) /\
  complaint to_b (u "f") (u "b.hex") (u "cls") (lines ["error: Unexpected end-of-file reached, expecting instruction field."]) /\
  complaint to_b (u "f") (u "b.hex") (lines [".db 1"; ".org 0"; ".db 2"])
    (lines ["c8s: error: Input file specifies overlapping data ranges.";
            "c8s: error: Data from one section has overflowed into the adjacent.";
            "c8s: error:   range $000...$000 (1 bytes) overlaps with:";
            "c8s: error:   range $000...$000 (1 bytes)"]) /\
  object to_b (u "f") (u "b.hex") (lines ["cls"]) (lines [":0200000000E01E"; ":00000001FF"]).
Proof.
  split; [exact to_b_called|]. split; [apply scalars_ok; vm_compute; reflexivity|]. split; [apply scalars_ok; vm_compute; reflexivity|].
  split; [exact (proj1 C66_instance)|]. split; [apply reads_listed; vm_compute; reflexivity|].
  split.
  { assert (P : parsed (u "f") nowhere_text (listed (u "f") nowhere_text)) by (apply reads_parsed, reads_listed; vm_compute; reflexivity).
    destruct P as (ts & L & P). eexists. apply C30_reported; [exact (parsed_node_ok _ _ _ _ L P)|]. vm_compute. reflexivity. }
  split; [a_complaint|]. split; [a_complaint|]. split; [a_complaint|]. split; [a_complaint|]. an_object.
Qed.

(** By steps, from [main] on *)
Example C119_instance_run :
  ends c8s [u "a.s"] nowhere_text 100 (u "a.hex") = Some (lines ["a.s:2:3-4: error: Unable to resolve label nowhere."], 1, None) /\
  ends c8s [u "a.s"] (two_idle ++ nowhere_text) 100 (u "a.hex") = Some (lines ["a.s:4:3-4: error: Unable to resolve label nowhere."], 1, None).
Proof. split; vm_compute; reflexivity. Qed.
