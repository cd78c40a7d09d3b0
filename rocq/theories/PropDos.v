(** * PropDos: property C61, with instances. *)

From Verif Require Import Base Text U12 Location Token Scanner Parser Directive DataRange Assembler IHex Main
  SpecLex SpecGrammar SpecErase SpecCode SpecDos SpecUtf8 BaseFacts LexTheorems ParseProofs TextProofs TextCode DosProofs
  PropOutput PropText.
Open Scope string_scope.
Open Scope list_scope.
Open Scope N_scope.

(** ** C61: line ends may be those of DOS.  The tokens are the same but for the strings,
    which get the carriage returns. *)
Theorem C61_tokens : forall file s ts, scan file s = Done ts -> existsb is_error_token ts = false ->
  exists ts', scan file (dos s) = Done ts' /\ same_tokens ts' (map dos_token ts).
Proof.
  intros file s ts S Ne. apply scan_lexes in S. destruct (dos_lexes _ _ _ _ S Ne file []) as (ts' & L & E).
  exists ts'. split; [apply scan_lexes; exact L|]. unfold same_tokens. rewrite E, map_map. reflexivity.
Qed.
Print Assumptions C61_tokens.

Lemma one_line_map : forall ts, one_line_strings ts -> map dos_token ts = ts.
Proof.
  induction ts as [|t ts IH]; intros O; [reflexivity|]. cbn [map]. rewrite IH by (intros b l I; apply (O b l); right; exact I).
  destruct t; try reflexivity. cbn [dos_token]. rewrite dos_id; [reflexivity|]. eapply O. left. reflexivity.
Qed.

Lemma one_line_same : forall ts ts', same_tokens ts' (map dos_token ts) -> one_line_strings ts' -> one_line_strings ts.
Proof.
  intros ts ts' S O b l I. assert (Ib : In (StringLiteral (dos b) nowhere) (map bare ts')).
  { rewrite S, map_map. apply in_map_iff. exists (StringLiteral b l). split; [reflexivity | exact I]. }
  apply in_map_iff in Ib. destruct Ib as (t & E & It). destruct t; try discriminate. cbn [bare] in E. injection E as ->.
  specialize (O _ _ It). rewrite dos_in_lf in O. exact O.
Qed.

(** If no string goes on to the next line, the text is read as the same program, or
    refused in both forms. *)
Theorem C61_reading : forall file s ts', scan file (dos s) = Done ts' -> one_line_strings ts' ->
  same_reading file s (dos s).
Proof.
  intros file s ts' S' O. apply alike_same. destruct (scan_total file s) as (ts & S).
  pose proof (proj1 (scan_lexes _ _ _) S) as L. pose proof (proj1 (scan_lexes _ _ _) S') as L'.
  destruct (existsb is_error ts) eqn:Er.
  - (* both have an error *)
    assert (Er' : existsb is_error ts' = true).
    { destruct (dos_errors _ _ _ _ L Er _ _ _ L') as [X|(t & I & X)]; [exact X|].
      destruct t; cbn [long_string] in X; try contradiction. exfalso. exact (O _ _ I X). }
    split; intros p (ts0 & L0 & P); apply program_errors in P.
    + rewrite (lexes_det _ _ _ _ L _ L0) in Er. congruence.
    + rewrite (lexes_det _ _ _ _ L' _ L0) in Er'. congruence.
  - destruct (C61_tokens file s ts S Er) as (ts2 & S2 & E). assert (ts2 = ts') by congruence. subst ts2.
    pose proof (one_line_same _ _ E O) as Ot. rewrite (one_line_map _ Ot) in E.
    apply (same_text_tokens file s (dos s) ts ts' ts L L' E); intros p P; exists p; split; try exact P; reflexivity.
Qed.
Print Assumptions C61_reading.

(** So the HEX text is the same. *)
Theorem C61_output : forall e file s ts' text, Forall scalar s -> scan file (dos s) = Done ts' -> one_line_strings ts' ->
  (assemble_text e file s = Done (Ok text) <-> assemble_text e file (dos s) = Done (Ok text)).
Proof.
  intros e file s ts' text Sc S O. apply C15_output; [exact Sc| |exact (C61_reading _ _ _ S O)].
  clear - Sc. induction Sc as [|c s Hc _ IH]; [constructor|]. destruct (N.eq_dec c LF) as [->|N].
  - rewrite dos_lf. constructor; [exact (or_introl eq_refl)|]. constructor; assumption.
  - rewrite dos_cons by exact N. constructor; assumption.
Qed.
Print Assumptions C61_output.

(** Comments, blank lines, directives and instructions. *)
Definition dos_sample : str := lines [".org $200"; "; start"; "go: ld v0, 1 ; one"; ""; "jp go"; ".db ""ab"", 7"].

Example C61_instance : exists ts',
  scan (u "in.s") (dos dos_sample) = Done ts' /\ length (dos dos_sample) = (length dos_sample + 6)%nat /\
  one_line_strings ts' /\
  assemble_text sample_env (u "in.s") (dos dos_sample) = assemble_text sample_env (u "in.s") dos_sample /\
  match assemble_text sample_env (u "in.s") dos_sample with Done (Ok _) => True | _ => False end.
Proof.
  destruct (scan (u "in.s") (dos dos_sample)) as [ts'|] eqn:S; [|revert S; vm_compute; discriminate].
  exists ts'. split; [reflexivity|]. split; [vm_compute; reflexivity|]. split.
  { intros b l I. assert (F : forallb (fun t => match t with StringLiteral b _ => negb (existsb (N.eqb LF) b) | _ => true end) ts' = true).
    { revert S. vm_compute. intros S. injection S as <-. reflexivity. }
    rewrite forallb_forall in F. specialize (F _ I). cbn beta iota in F. apply negb_true_iff in F.
    apply existsb_lf. exact F. }
  split; vm_compute; [reflexivity | exact I].
Qed.

(** The condition is needed: a string over two lines gets the carriage return, and after
    a backslash a carriage return may stand where a newline may not. *)
Definition two_lines : str := u ".db ""a" ++ [LF] ++ u "b""" ++ [LF].
Definition two_lines_escaped : str := u ".db ""a\" ++ [LF] ++ u "b""" ++ [LF].

Example C61_strings :
  assemble_text sample_env (u "in.s") two_lines = Done (Ok (lines [":03000000610A6230"; ":00000001FF"])) /\
  assemble_text sample_env (u "in.s") (dos two_lines) = Done (Ok (lines [":04000000610D0A6222"; ":00000001FF"])) /\
  match assemble_text sample_env (u "in.s") two_lines_escaped with Done (Err _) => True | _ => False end /\
  assemble_text sample_env (u "in.s") (dos two_lines_escaped) = Done (Ok (lines [":05000000615C0D0A62C5"; ":00000001FF"])).
Proof.
  split; [vm_compute; reflexivity|]. split; [vm_compute; reflexivity|]. split; [vm_compute; exact I | vm_compute; reflexivity].
Qed.
