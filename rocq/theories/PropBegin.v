(** * PropBegin: property C85, with instances. *)

From Verif Require Import Base Text U12 Location Token Scanner Parser Directive Opcode Instruction DataRange Assembler IHex Main
  SpecLex SpecGrammar SpecErase SpecCode SpecOpcode SpecRefusal SpecLayout SpecUtf8 SpecTool BaseFacts LexTheorems LexAppend ParseProofs
  LayoutProofs LocalProofs EmitProofs DataRangeProofs PipelineProofs MainProofs TextProofs FirstProofs PropOutput PropText PropLayout PropRewrite.
Open Scope string_scope.
Open Scope list_scope.
Open Scope N_scope.

(** ** C85: the beginning of an accepted text. *)

(** A newline is never inside a statement. *)
Lemma literals_newline : forall ts args rest, literals ts args rest -> forall a l q, ts = a ++ Newline l :: q ->
  exists a', rest = a' ++ Newline l :: q /\ literals (a ++ [Newline l]) args (a' ++ [Newline l]).
Proof.
  induction 1 as [l0 rest | t x rest T | t x l0 ts args rest T _ IH]; intros a l q E.
  - exists a. split; [exact E|]. destruct a as [|y a]; cbn [app] in *; injection E as <- E; apply ls_none.
  - destruct a as [|y a]; cbn [app] in *; injection E as -> E; [inversion T|].
    exists a. split; [exact E | apply ls_one; exact T].
  - destruct a as [|y [|z a]]; cbn [app] in E.
    + injection E as E _. subst t. inversion T.
    + discriminate E.
    + injection E as <- <- E. destruct (IH a l q E) as (a' & E' & L). exists a'. split; [exact E'|].
      cbn [app]. apply ls_more; assumption.
Qed.

Lemma fields_newline : forall ts args rest, fields ts args rest -> forall a l q, ts = a ++ Newline l :: q ->
  exists a', rest = a' ++ Newline l :: q /\ fields (a ++ [Newline l]) args (a' ++ [Newline l]).
Proof.
  induction 1 as [l0 rest | c l0 rest | t x rest T | t x l0 ts args rest T _ IH]; intros a l q E.
  - exists a. split; [exact E|]. destruct a as [|y a]; cbn [app] in *; injection E as <- E; apply fs_none.
  - exists a. split; [exact E|]. destruct a as [|y a]; cbn [app] in *; [discriminate E|]. injection E as <- E. apply fs_none_comment.
  - destruct a as [|y a]; cbn [app] in *; injection E as -> E; [inversion T|].
    exists a. split; [exact E | apply fs_one; exact T].
  - destruct a as [|y [|z a]]; cbn [app] in E.
    + injection E as E _. subst t. inversion T.
    + discriminate E.
    + injection E as <- <- E. destruct (IH a l q E) as (a' & E' & L). exists a'. split; [exact E'|].
      cbn [app]. apply fs_more; assumption.
Qed.

Lemma program_cut : forall ts ns, program ts ns -> forall a l q, ts = a ++ Newline l :: q ->
  exists ns1 ns2, ns = ns1 ++ ns2 /\ program (a ++ [Newline l]) ns1 /\ program q ns2.
Proof.
  induction 1 as [ | l' ts ns P IH | c l' ts ns P IH | l' i li ts xs r ns L P IH | i li l' ts ns P IH | i li ts xs r ns F P IH];
    intros a l q E.
  - destruct a; discriminate E.
  - destruct a as [|y a]; cbn [app] in E; injection E as <- E.
    + subst ts. exists [], ns. split; [reflexivity|]. split; [apply pr_newline, pr_end | exact P].
    + destruct (IH a l q E) as (n1 & n2 & -> & P1 & P2). exists n1, n2. split; [reflexivity|]. split; [apply pr_newline; exact P1 | exact P2].
  - destruct a as [|y a]; cbn [app] in E; [discriminate E|]. injection E as <- E.
    destruct (IH a l q E) as (n1 & n2 & -> & P1 & P2). exists n1, n2. split; [reflexivity|]. split; [apply pr_comment; exact P1 | exact P2].
  - destruct a as [|y [|z a]]; cbn [app] in E; try discriminate E. injection E as <- <- E.
    destruct (literals_newline _ _ _ L a l q E) as (a' & E' & L'). destruct (IH a' l q E') as (n1 & n2 & -> & P1 & P2).
    exists (NDirective li i xs :: n1), n2. split; [reflexivity|]. split; [|exact P2]. cbn [app]. eapply pr_directive; eassumption.
  - destruct a as [|y [|z a]]; cbn [app] in E; try discriminate E. injection E as <- <- E.
    destruct (IH a l q E) as (n1 & n2 & -> & P1 & P2). exists (NLabel li i :: n1), n2. split; [reflexivity|].
    split; [apply pr_label; exact P1 | exact P2].
  - destruct a as [|y a]; cbn [app] in E; [discriminate E|]. injection E as <- E.
    destruct (fields_newline _ _ _ F a l q E) as (a' & E' & L'). destruct (IH a' l q E') as (n1 & n2 & -> & P1 & P2).
    exists (NInstruction li i xs :: n1), n2. split; [reflexivity|]. split; [|exact P2]. cbn [app]. eapply pr_instruction; eassumption.
Qed.

(** The addresses written by the beginning of a program are written by the program. *)
Lemma place_addresses : forall bytes bytes' a, length bytes = length bytes' -> map fst (place a bytes) = map fst (place a bytes').
Proof.
  induction bytes as [|b bytes IH]; intros [|b' bytes'] a E; try discriminate E; [reflexivity|].
  cbn [place map fst]. rewrite (IH bytes' (a + 1)) by (injection E as E; exact E). reflexivity.
Qed.

Lemma beginning_addresses : forall p q rs rs', Forall node_ok (p ++ q) -> assemble p = Done (Ok rs') -> assemble (p ++ q) = Done (Ok rs) ->
  exists more, map fst (memory rs) = map fst (memory rs') ++ more.
Proof.
  intros p q rs rs' O A' A. pose proof O as O'. apply Forall_app in O'. destruct O' as [Op _].
  destruct (C32_image _ _ O A) as (bs & B & M & _). destruct (C32_image _ _ Op A') as (bs' & B' & M' & _).
  apply Forall2_app_inv_l in B. destruct B as (b1 & b2 & B1 & _ & ->). rewrite M, M'.
  rewrite app_length, seq_app, map_app, concat_app, map_app. eexists. f_equal.
  assert (Len : forall i, length (nth i b1 []) = length (nth i bs' [])).
  { intros i. clear - B1 B'. revert B1 B'. generalize (lookup (p ++ q)), (lookup p). intros f g B1. revert bs' i.
    induction B1 as [|n b p0 b0 N _ IH]; intros bs' i B'; inversion B' as [|n' c p1 c0 N' B0]; subst; [reflexivity|].
    destruct i as [|i]; cbn [nth]; [|apply IH; exact B0].
    pose proof (bytes_size _ _ _ N) as X. pose proof (bytes_size _ _ _ N') as Y. lia. }
  assert (L1 : length b1 = length p) by (clear - B1; induction B1; cbn [length]; congruence).
  rewrite !concat_map, !map_map. f_equal. apply map_ext_in. intros i I. apply in_seq in I.
  rewrite app_nth1 by (rewrite L1; lia).
  unfold address. rewrite firstn_app. replace (i - length p)%nat with 0%nat by lia. cbn [firstn]. rewrite app_nil_r.
  apply place_addresses. apply Len.
Qed.

Theorem C85_lines : forall e file a b text, Forall scalar (a ++ LF :: b) -> assemble_text e file (a ++ LF :: b) = Done (Ok text) ->
  (exists text', assemble_text e file (a ++ [LF]) = Done (Ok text')) \/
  (* a string goes on in the next line *)
  (exists ts l, scan file (a ++ [LF]) = Done (ts ++ [ErrorToken InvalidStringLiteral l])) \/
  (* a label is defined later *)
  (exists p l id, parsed file (a ++ [LF]) p /\ assemble p = Done (Err (AssemblyFailed l (UnableToResolveLabel id)))) \/
  (* the last label has its value in the next line *)
  (exists p l id, parsed file (a ++ [LF]) (p ++ [NLabel l id]) /\
     exists ts q n c, scan file (a ++ LF :: b) = Done ts /\ parse ts = Done (Ok (p ++ NLabel l id :: n :: q)) /\ constant n = Some c).
Proof.
  intros e file a b text Sc H.
  assert (Sa : Forall scalar (a ++ [LF])).
  { apply Forall_app in Sc. destruct Sc as [Sa Sb]. apply Forall_app. split; [exact Sa|]. inversion Sb; subst. constructor; [assumption | constructor]. }
  destruct (assemble_text_spec e file _ Sc) as [(t & rs & _ & C & _)|(m & Em & _)]; [|rewrite H in Em; discriminate Em].
  destruct C as (ts & ns & L & P & W & Out & Nd).
  destruct (scan_total file (a ++ [LF])) as (ts1 & S1). pose proof (proj1 (scan_lexes _ _ _) S1) as L1.
  pose proof (program_errors _ _ P) as Ne.
  assert (L' : lexes file [] ((a ++ [LF]) ++ b) ts) by (rewrite <- app_assoc; exact L).
  destruct (lexes_lines _ _ _ _ L1 (or_intror (ex_intro _ a eq_refl)) b ts L') as [(ts2 & ->)|(x & l & y & -> & _)];
    [|right; left; exists x, l; exact S1].
  rewrite existsb_app in Ne. apply orb_false_iff in Ne. destruct Ne as [Ne1 _].
  destruct (final_newline _ _ _ _ L1 a eq_refl Ne1) as (x & E & _). cbn [app] in E.
  remember (located file a [LF]) as lf eqn:Elf. subst ts1.
  destruct (program_cut _ _ P x lf ts2) as (p & q & -> & Pp & _); [rewrite <- app_assoc; reflexivity|].
  pose proof (program_node_ok _ _ P (lexes_token_ok _ _ _ _ L)) as O. pose proof O as O'. apply Forall_app in O'. destruct O' as [Op Oq].
  assert (Pd : parsed file (a ++ [LF]) p) by (exists (x ++ [Newline lf]); split; [exact S1 | apply parse_program; exact Pp]).
  assert (A : assemble (p ++ q) = Done (Ok rs)) by (apply assemble_ok; [exact O | split; assumption]).
  destruct q as [|n q].
  - left. rewrite app_nil_r in *. destruct (assemble_text_spec e file _ Sa) as [(t' & rs' & E' & _)|(m & _ & _ & Nc)]; [exists t'; exact E'|].
    exfalso. apply (Nc rs). exists (x ++ [Newline lf]), p. split; [exact L1|]. split; [exact Pp|]. split; [exact W|]. split; assumption.
  - destruct (constant n) as [c|] eqn:Cn.
    + (* an .equ: the label is the last statement *)
      right. right. right.
      destruct n as [ln idn args | |]; try discriminate Cn. cbn [constant] in Cn.
      destruct args as [|[|v] [|]]; try discriminate Cn.
      destruct (names idn "EQU" && (v <=? 4095)) eqn:Eq; [|discriminate Cn]. apply andb_true_iff in Eq. destruct Eq as [Eq Ev].
      injection Cn as <-. apply N.leb_le in Ev.
      destruct (wf_constants _ W (length p) ln idn [LNumeric v] v) as (j & l & id & Ej & Hj);
        [rewrite nth_error_app2 by lia; rewrite Nat.sub_diag; reflexivity | apply means_equ; assumption|].
      destruct p as [|n0 p0] using rev_ind; [discriminate Ej|]. clear IHp0.
      rewrite app_length in Ej. cbn [length] in Ej. rewrite <- app_assoc, nth_error_app2 in Hj by lia.
      replace (j - length p0)%nat with 0%nat in Hj by lia. cbn [nth_error app] in Hj. injection Hj as ->.
      exists p0, l, id. split; [exact Pd|]. exists ((x ++ [Newline lf]) ++ ts2), q, (NDirective ln idn [LNumeric v]), v.
      split; [apply scan_lexes; exact L|]. split; [apply parse_program; rewrite <- !app_assoc; rewrite <- !app_assoc in P; exact P|].
      cbn [constant]. rewrite Eq. destruct (v <=? 4095) eqn:X; [reflexivity | apply N.leb_gt in X; lia].
    + destruct (C53_beginning p (n :: q) rs O) as [(rs' & A')|(l & id & U)];
        [intros n0 r E0; injection E0 as <- <-; exact Cn | exact A | | right; right; left; exists p, l, id; split; assumption].
      left. destruct (assemble_text_spec e file _ Sa) as [(t' & rs2 & E' & _)|(m & _ & _ & Nc)]; [exists t'; exact E'|].
      exfalso. apply (Nc rs'). destruct (proj1 (assemble_ok _ _ Op) A') as [W' Out'].
      exists (x ++ [Newline lf]), p. split; [exact L1|]. split; [exact Pp|]. split; [exact W'|]. split; [exact Out'|].
      destruct (beginning_addresses p (n :: q) rs rs' O A' A) as (more & M). rewrite M in Nd.
      apply nodup_app in Nd. exact (proj1 Nd).
Qed.
Print Assumptions C85_lines.

(** The four cases. *)
Definition begin_first : str := u "start:" ++ [10; 9] ++ u "LD V0, 5".
Definition begin_string : str := u "x:" ++ [10] ++ u ".db ""a".
Definition begin_later : str := u "here:" ++ [10; 9] ++ u "JP done".
Definition begin_constant : str := u ".org $300" ++ [10; 9] ++ u "LD V0, five" ++ [10] ++ u "five:".

Definition accepted (s : str) : bool :=
  match assemble_text sample_env (u "a") s with Done (Ok _) => true | _ => false end.

Example C85_instance :
  accepted (begin_first ++ LF :: u "done:") = true /\ accepted (begin_first ++ [LF]) = true.
Proof. split; vm_compute; reflexivity. Qed.

Example C85_string : accepted (begin_string ++ LF :: u "b""") = true /\ accepted (begin_string ++ [LF]) = false.
Proof. split; vm_compute; reflexivity. Qed.

Example C85_later : accepted (begin_later ++ LF :: u "done:") = true /\ accepted (begin_later ++ [LF]) = false.
Proof. split; vm_compute; reflexivity. Qed.

Example C85_constant : accepted (begin_constant ++ LF :: u ".equ 5" ++ [LF]) = true /\ accepted (begin_constant ++ [LF]) = false.
Proof. split; vm_compute; reflexivity. Qed.
