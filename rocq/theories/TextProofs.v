(** * TextProofs: what changes of the source text leave the program alone (C09, C15 to C17). *)

From Verif Require Import Base Text U12 Location Token Scanner Parser Directive Opcode Instruction DataRange
  Assembler IHex Main SpecUtf8 SpecLex SpecGrammar SpecOpcode SpecRefusal SpecLayout SpecHex SpecTool SpecErase
  BaseFacts LexProofs LexTheorems ParseProofs InstructionTheorems LayoutProofs EmitProofs PipelineProofs DataRangeProofs
  OutputProofs HexProofs MainProofs LexAppend GrammarLines.
Open Scope N_scope.

(** ** The assembler does not look at locations *)

Definition bare_result {A : Type} (r : result semantic_error A) : result semantic_error A :=
  match r with Ok a => Ok a | Err e => Err (bare_error e) end.

Definition bare_run {A : Type} (r : run (result semantic_error A)) : run (result semantic_error A) :=
  match r with Done r => Done (bare_result r) | Crash c => Crash c end.

Lemma peek_bare : forall p, peek_constant (map bare_node p) = peek_constant p.
Proof. intros [|[] p]; reflexivity. Qed.

Lemma define_bare : forall p labels a,
  bare_result (define_labels_loop labels a (map bare_node p)) = bare_result (define_labels_loop labels a p).
Proof.
  assert (G : forall n p, (length p <= n)%nat -> forall labels a,
    bare_result (define_labels_loop labels a (map bare_node p)) = bare_result (define_labels_loop labels a p)).
  2: { intros p. eapply G. reflexivity. }
  induction n as [|n IH]; intros [|x p] L labels a; try reflexivity; cbn [length] in L; [lia|].
  destruct x as [l id args|l id|l m fs]; cbn [map bare_node define_labels_loop].
  - destruct (directive_from id args) as [d|e]; cbn [map_err rbind]; [|reflexivity].
    destruct (u12_failable_into (directive_size d)) as [s|]; cbn [ok_or rbind]; [|reflexivity].
    destruct (u12_checked_add a s) as [b|]; cbn [ok_or rbind]; [|reflexivity].
    destruct d; [apply IH; lia | apply IH; lia | reflexivity].
  - destruct p as [|y p]; cbn [map].
    + destruct (contains_key labels id); [reflexivity | apply (IH []); cbn; lia].
    + change (bare_node y :: map bare_node p) with (map bare_node (y :: p)). rewrite peek_bare.
      destruct (peek_constant (y :: p)).
      * destruct (contains_key labels id); [reflexivity | apply IH; cbn [length] in L; lia].
      * destruct (contains_key labels id); [reflexivity | apply (IH (y :: p)); lia].
  - destruct (u12_checked_add a bytes_per_instruction) as [b|]; cbn [ok_or rbind]; [|reflexivity].
    apply IH. lia.
Qed.

Lemma emit_bare : forall p labels ranges current,
  bare_run (emit_loop labels ranges current (map bare_node p)) = bare_run (emit_loop labels ranges current p).
Proof.
  induction p as [|x p IH]; intros labels ranges current; [reflexivity|].
  destruct x as [l id args|l id|l m fs]; cbn [map bare_node emit_loop].
  - destruct (directive_from id args) as [d|e]; [|reflexivity].
    destruct d; try apply IH;
      match goal with |- bare_run (bind ?x _) = _ => destruct x as [r|c]; cbn [bind] end;
      try apply IH; reflexivity.
  - apply IH.
  - destruct (instruction_from m fs labels) as [o|e]; [|reflexivity].
    destruct (instruction_into_vec o) as [b|c]; cbn [bind]; [|reflexivity].
    destruct (append_asserted current b) as [r|c]; cbn [bind]; [apply IH | reflexivity].
Qed.

Lemma assemble_bare : forall p, bare_run (assemble (map bare_node p)) = bare_run (assemble p).
Proof.
  intros p. unfold assemble, define_labels. pose proof (define_bare p [] 0) as D.
  destruct (define_labels_loop [] 0 (map bare_node p)) as [m|e], (define_labels_loop [] 0 p) as [m'|e'];
    try discriminate; cbn [bare_result] in D; injection D as D; subst.
  - apply emit_bare.
  - cbn. rewrite D. reflexivity.
Qed.

Lemma assemble_same : forall p p', same_program p p' -> bare_run (assemble p) = bare_run (assemble p').
Proof. intros p p' S. rewrite <- assemble_bare, <- (assemble_bare p'), S. reflexivity. Qed.

Lemma assemble_same_ok : forall p p' rs, same_program p p' -> assemble p = Done (Ok rs) -> assemble p' = Done (Ok rs).
Proof.
  intros p p' rs S A. apply assemble_same in S. rewrite A in S. cbn in S.
  destruct (assemble p') as [[rs'|e]|c]; try discriminate. injection S as <-. reflexivity.
Qed.

(** Texts which stand for the same program compile to the same bytes. *)
Lemma same_compiles : forall file s s' rs, same_text file s s' -> compiles file s rs -> compiles file s' rs.
Proof.
  intros file s s' rs [S _] (ts & p & L & P & W & O & N).
  destruct (S p) as (p' & (ts' & L' & P') & E); [exists ts; auto|].
  exists ts', p'. split; [exact L'|]. split; [exact P'|]. rewrite <- and_assoc. split; [|exact N].
  apply (assemble_ok p' rs).
  - apply (parsed_node_ok file s' ts'); [apply scan_lexes; exact L' | apply parse_program; exact P'].
  - eapply assemble_same_ok; [exact E|]. apply assemble_ok; [|auto].
    apply (parsed_node_ok file s ts); [apply scan_lexes; exact L | apply parse_program; exact P].
Qed.

Lemma same_text_sym : forall file s s', same_text file s s' -> same_text file s' s.
Proof.
  intros file s s' [A B]. split.
  - intros p H. destruct (B p H) as (p' & H' & E). exists p'. split; [exact H' | symmetry; exact E].
  - intros p H. destruct (A p H) as (p' & H' & E). exists p'. split; [exact H' | symmetry; exact E].
Qed.

Lemma same_text_refl : forall file s, same_text file s s.
Proof. intros file s. split; intros p H; exists p; (split; [exact H | reflexivity]). Qed.

(** The tool gives the same HEX text for both, if any. *)
Lemma same_output : forall e file s s' text, Forall scalar s -> Forall scalar s' -> same_text file s s' ->
  assemble_text e file s = Done (Ok text) -> assemble_text e file s' = Done (Ok text).
Proof.
  intros e file s s' text Sc Sc' S H.
  destruct (assemble_text_spec e file s Sc) as [(t & rs & E & C & I)|(m & E & _)]; rewrite H in E; [|discriminate].
  injection E as <-. apply (same_compiles _ _ _ _ S) in C.
  destruct (assemble_text_spec e file s' Sc') as [(t & rs' & E & C' & I')|(m & E & _ & X)]; [|exfalso; exact (X _ C)].
  rewrite E. destruct C as (ts & p & L & P & W & O & N), C' as (ts' & p' & L' & P' & W' & O' & N').
  rewrite (lexes_det _ _ _ _ L' _ L) in P'.
  apply parse_program in P, P'. rewrite P in P'. injection P' as <-.
  pose proof (proj2 (scan_lexes _ _ _) L) as Sn. pose proof (parsed_node_ok _ _ _ _ Sn P) as F.
  assert (A : assemble p = Done (Ok rs)) by (apply assemble_ok; auto).
  assert (A' : assemble p = Done (Ok rs')) by (apply assemble_ok; auto).
  rewrite A in A'. injection A' as <-. rewrite I in I'. injection I' as <-. reflexivity.
Qed.

(** ** Token lists and texts *)

(** [a ++ b] is cut between tokens after [a]: the tokens of [a] are the first ones. *)
Definition boundary (file a b : str) (ts1 ts2 : list token) : Prop :=
  lexes file [] a ts1 /\ lexes file [] (a ++ b) (ts1 ++ ts2) /\ existsb is_error ts1 = false.

Lemma stands_iff : forall file s ts p, lexes file [] s ts -> (stands_for file s p <-> program ts p).
Proof.
  intros file s ts p L. split; [|intros P; exists ts; auto].
  intros (ts' & L' & P). rewrite (lexes_det _ _ _ _ L _ L'). exact P.
Qed.

Lemma same_tokens_text : forall file s s' ts ts', lexes file [] s ts -> lexes file [] s' ts' ->
  (forall p, program ts p <-> program ts' p) -> same_text file s s'.
Proof.
  intros file s s' ts ts' L L' H. split; intros p S.
  - apply (stands_iff _ _ _ _ L) in S. exists p. split; [|reflexivity]. apply (stands_iff _ _ _ _ L'), H, S.
  - apply (stands_iff _ _ _ _ L') in S. exists p. split; [|reflexivity]. apply (stands_iff _ _ _ _ L), H, S.
Qed.

(** The general form: [ts'] is [ts2] up to locations, and [ts2] and [ts] stand for the
    same programs. *)
Lemma same_text_tokens : forall file s s' ts ts' ts2, lexes file [] s ts -> lexes file [] s' ts' ->
  same_tokens ts' ts2 ->
  (forall p, program ts p -> exists p', program ts2 p' /\ same_program p p') ->
  (forall p, program ts2 p -> exists p', program ts p' /\ same_program p p') -> same_text file s s'.
Proof.
  intros file s s' ts ts' ts2 L L' S H1 H2. split; intros p P.
  - apply (stands_iff _ _ _ _ L) in P. destruct (H1 p P) as (p2 & P2 & E).
    destruct (program_same _ _ P2 ts' (same_sym _ _ S)) as (p' & P' & E').
    exists p'. split; [apply (stands_iff _ _ _ _ L'); exact P' | unfold same_program in *; congruence].
  - apply (stands_iff _ _ _ _ L') in P. destruct (program_same _ _ P ts2 S) as (p2 & P2 & E).
    destruct (H2 p2 P2) as (p' & P' & E').
    exists p'. split; [apply (stands_iff _ _ _ _ L); exact P' | unfold same_program in *; congruence].
Qed.

Lemma program_same_self : forall ts ts', same_tokens ts ts' ->
  forall p, program ts p -> exists p', program ts' p' /\ same_program p p'.
Proof. intros ts ts' S p P. exact (program_same _ _ P _ S). Qed.

(** ** Blanks *)

Lemma blanks_tokens : forall file a b w ts1 ts2, boundary file a b ts1 ts2 -> forallb blank w = true ->
  exists ts', lexes file [] (a ++ w ++ b) ts' /\ same_tokens ts' (ts1 ++ ts2).
Proof.
  intros file a b w ts1 ts2 (La & L & Ne) B.
  destruct (boundary_cut _ _ _ _ La Ne _ _ L) as [C L2]. cbn [app] in *.
  destruct (lexes_moved _ _ _ _ L2 file (a ++ w)) as (ts2' & L2' & S2).
  destruct (cut_blanks _ _ _ _ _ C w ts2' B L2') as (ts' & L' & S). exists ts'. split; [exact L'|].
  unfold same_tokens in *. rewrite S, !map_app, S2. reflexivity.
Qed.

Theorem blanks_same : forall file a b w ts1 ts2, boundary file a b ts1 ts2 -> forallb blank w = true ->
  same_text file (a ++ b) (a ++ w ++ b).
Proof.
  intros file a b w ts1 ts2 Bd B. destruct (blanks_tokens _ _ _ _ _ _ Bd B) as (ts' & L' & S).
  destruct Bd as (_ & L & _).
  eapply same_text_tokens; [exact L | exact L' | exact S | |]; intros p P; exists p; (split; [exact P | reflexivity]).
Qed.

(** ** Lines *)

(** A line without statements: blanks, and perhaps a comment, and a newline. *)
Definition idle_line (x : str) : Prop :=
  exists y, x = y ++ [LF] /\ (forallb blank y = true \/ trailing_comment y).

(** Its tokens. *)
Definition idle_tokens (ts : list token) : Prop :=
  exists l, ts = [Newline l] \/ exists c l', ts = [SingleLineComment c l'; Newline l].

Lemma newline_match : rmatch (pattern KNewline) [LF].
Proof. apply rmatch_lit. reflexivity. Qed.

Lemma idle_cut : forall file before x, idle_line x -> exists ts, idle_tokens ts /\ forall b, cut file b before x ts.
Proof.
  intros file before x (y & -> & H).
  assert (Nl : forall before, forall b, cut file b before [LF] [Newline (located file before [LF])]).
  { intros bf b. change [LF] with ([LF] ++ []). eapply (cut_token _ _ _ KNewline);
      [apply newline_match | destruct b; reflexivity | constructor | constructor]. }
  assert (Bl : forall w before s ts, forallb blank w = true -> (forall b, cut file b (before ++ w) s ts) ->
                 forall b, cut file b before (w ++ s) ts).
  { induction w as [|c w IH]; intros bf s ts B C b; [rewrite app_nil_r in C; apply C|].
    cbn [forallb] in B. apply andb_true_iff in B. destruct B as [Bc B]. cbn [app]. constructor; [exact Bc|].
    apply IH; [exact B|]. intros b'. rewrite <- app_assoc. apply C. }
  destruct H as [B|(w & text & -> & B & F)].
  - eexists. split; [eexists; left; reflexivity|]. apply Bl; [exact B | apply Nl].
  - eexists. split; [eexists; right; do 2 eexists; reflexivity|]. rewrite <- app_assoc. cbn [app].
    apply Bl; [exact B|]. intros b. change (c_ ";" :: text ++ [LF]) with ((c_ ";" :: text) ++ [LF]).
    eapply (cut_token _ _ _ KComment); [apply comment_match; exact F | reflexivity | constructor | apply Nl].
Qed.

Lemma idle_program : forall ts b p, idle_tokens ts -> (program (ts ++ b) p <-> program b p).
Proof.
  intros ts b p (l & [->|(c & l' & ->)]); cbn [app].
  - apply program_newline.
  - rewrite program_comment. apply program_newline.
Qed.

(** At the beginning. *)
Theorem first_line_same : forall file b x, idle_line x -> same_text file b (x ++ b).
Proof.
  intros file b x I. destruct (scan_total file b) as (ts & E). apply scan_lexes in E.
  destruct (idle_cut file [] x I) as (ti & It & C).
  destruct (lexes_moved _ _ _ _ E file x) as (ts' & L' & S).
  pose proof (cut_lexes _ _ _ _ _ (C b) ts' L') as L2.
  eapply (same_text_tokens _ _ _ _ _ (ti ++ ts)); [exact E | exact L2 | | |].
  - apply same_app; [reflexivity | exact S].
  - intros p P. exists p. split; [apply idle_program; assumption | reflexivity].
  - intros p P. exists p. split; [apply (idle_program ti); assumption | reflexivity].
Qed.

(** After a newline. *)
Theorem line_same : forall file a b x ts1 ts2, boundary file a (LF :: b) ts1 ts2 -> idle_line x ->
  same_text file (a ++ LF :: b) (a ++ LF :: x ++ b).
Proof.
  intros file a b x ts1 ts2 (La & L & Ne) I.
  destruct (boundary_cut _ _ _ _ La Ne _ _ L) as [C L2]. cbn [app] in *.
  assert (Nl : forall b ts, lexes file (a ++ [LF]) b ts ->
                 lexes file a (LF :: b) (Newline (located file a [LF]) :: ts)).
  { intros b' ts H. apply (lex_token _ _ _ KNewline [LF] b').
    - apply (lexeme_closed KNewline [LF]); [apply newline_match|]. destruct b'; reflexivity.
    - constructor.
    - exact H. }
  destruct (lexes_cons_inv file a (LF :: b) KNewline [LF] b ts2) as [(t & ts3 & -> & T & L3)|(e & _ & Bd)];
    [apply (lexeme_closed KNewline [LF]); [apply newline_match | destruct b; reflexivity] | exact L2 | | inversion Bd].
  inversion T; subst. cbn [app] in L3.
  destruct (idle_cut file (a ++ [LF]) x I) as (ti & It & Ci).
  destruct (lexes_moved _ _ _ _ L3 file ((a ++ [LF]) ++ x)) as (ts3' & L3' & S3).
  pose proof (cut_lexes _ _ _ _ _ (Ci b) _ L3') as L4. apply Nl in L4.
  pose proof (cut_lexes _ _ _ _ _ (cut_newline _ _ _ _ _ C (x ++ b)) _ L4) as L5.
  eapply (same_text_tokens _ _ _ _ _ (ts1 ++ Newline (located file a [LF]) :: ti ++ ts3)); [exact L | exact L5 | | |].
  - apply same_app; [reflexivity|]. apply (same_app [_] [_]); [reflexivity|]. apply same_app; [reflexivity | exact S3].
  - intros p P. exists p. split; [|reflexivity]. apply program_line in P. destruct P as (p1 & p2 & -> & P1 & P2).
    apply program_line. exists p1, p2. split; [reflexivity|]. split; [exact P1|]. apply idle_program; assumption.
  - intros p P. exists p. split; [|reflexivity]. apply program_line in P. destruct P as (p1 & p2 & -> & P1 & P2).
    apply program_line. exists p1, p2. split; [reflexivity|]. split; [exact P1|]. exact (proj1 (idle_program ti ts3 p2 It) P2).
Qed.

(** ** Comments at the end of a line *)

Definition line_ends (b : str) : Prop := b = [] \/ exists b', b = LF :: b'.

Lemma line_ends_starts : forall b, line_ends b -> starts (fun c => negb (c =? LF)) b = false.
Proof. intros b [->|(b' & ->)]; reflexivity. Qed.

(** The tokens with the comment. *)
Lemma comment_tokens : forall file a b x ts1 ts2, boundary file a b ts1 ts2 -> line_ends b -> trailing_comment x ->
  exists ts' l, lexes file [] (a ++ x ++ b) ts' /\
    (same_tokens ts' (ts1 ++ SingleLineComment [] l :: ts2) \/
     (ends_in_comment ts1 /\ same_tokens ts' (ts1 ++ ts2))).
Proof.
  intros file a b x ts1 ts2 (La & L & Ne) E X.
  destruct (boundary_cut _ _ _ _ La Ne _ _ L) as [C L2]. cbn [app] in *.
  destruct (lexes_moved _ _ _ _ L2 file (a ++ x)) as (ts2' & L2' & S2).
  destruct (cut_comment _ _ _ _ _ C (line_ends_starts _ E) x ts2' X L2') as (ts' & l & L' & S).
  exists ts', l. split; [exact L'|]. unfold same_tokens in *. destruct S as [S|[K S]].
  - left. rewrite S, !map_app. cbn [map]. rewrite S2. reflexivity.
  - right. split; [exact K|]. rewrite S, !map_app, S2. reflexivity.
Qed.

Lemma newline_first : forall file a b ts, lexes file a (LF :: b) ts ->
  exists ts3, ts = Newline (located file a [LF]) :: ts3.
Proof.
  intros file a b ts L.
  destruct (lexes_cons_inv file a (LF :: b) KNewline [LF] b ts) as [(t & ts3 & -> & T & L3)|(e & _ & Bd)];
    [apply (lexeme_closed KNewline [LF]); [apply newline_match | destruct b; reflexivity] | exact L | | inversion Bd].
  inversion T; subst. eauto.
Qed.

Lemma boundary_newline : forall file a b ts1 ts2, boundary file a (LF :: b) ts1 ts2 ->
  exists ts3, ts2 = Newline (located file a [LF]) :: ts3.
Proof.
  intros file a b ts1 ts2 (La & L & Ne). destruct (boundary_cut _ _ _ _ La Ne _ _ L) as [C L2].
  apply newline_first in L2. exact L2.
Qed.

(** Adding a comment at the end of a line is possible unless a directive's list is open. *)
Theorem comment_same : forall file a b x ts1 ts2, boundary file a (LF :: b) ts1 ts2 -> trailing_comment x ->
  ~ open_directive ts1 -> same_text file (a ++ LF :: b) (a ++ x ++ LF :: b).
Proof.
  intros file a b x ts1 ts2 Bd X O.
  destruct (comment_tokens _ _ _ _ _ _ Bd (or_intror (ex_intro _ b eq_refl)) X) as (ts' & l & L' & S).
  destruct (boundary_newline _ _ _ _ _ Bd) as (ts3 & ->). pose proof Bd as (_ & L & _).
  destruct S as [S|[_ S]].
  - eapply same_text_tokens; [exact L | exact L' | exact S | |]; intros p P; exists p; (split; [|reflexivity]).
    + apply program_line in P. destruct P as (p1 & p2 & -> & P1 & P2).
      change (SingleLineComment [] l :: Newline (located file a [LF]) :: ts3)
        with ([SingleLineComment [] l] ++ Newline (located file a [LF]) :: ts3). rewrite app_assoc.
      apply program_line. exists p1, p2. split; [reflexivity|]. split; [|exact P2].
      rewrite <- app_assoc. apply comment_added; assumption.
    + change (SingleLineComment [] l :: Newline (located file a [LF]) :: ts3)
        with ([SingleLineComment [] l] ++ Newline (located file a [LF]) :: ts3) in P. rewrite app_assoc in P.
      apply program_line in P. destruct P as (p1 & p2 & -> & P1 & P2).
      apply program_line. exists p1, p2. split; [reflexivity|]. split; [|exact P2].
      rewrite <- app_assoc in P1. eapply comment_removed. exact P1.
  - eapply same_text_tokens; [exact L | exact L' | exact S | |]; intros p P; exists p; (split; [exact P | reflexivity]).
Qed.

(** And impossible in that case. *)
Theorem comment_wrong : forall file a b x ts1 ts2 p, boundary file a b ts1 ts2 -> line_ends b -> trailing_comment x ->
  open_directive ts1 -> ~ stands_for file (a ++ x ++ b) p.
Proof.
  intros file a b x ts1 ts2 p Bd E X O P.
  destruct (comment_tokens _ _ _ _ _ _ Bd E X) as (ts' & l & L' & S).
  apply (stands_iff _ _ _ _ L') in P. destruct S as [S|[(ts0 & c & l' & ->) S]].
  - destruct (program_same _ _ P _ S) as (p' & P' & _).
    destruct (comment_refused _ _ _ _ O P') as [K|(l' & K)]; discriminate.
  - destruct O as (bf & l0 & id & l1 & xs & E1 & [F [->|(ys & l2 & ->)]]).
    + apply (f_equal (@rev token)) in E1. rewrite !rev_app_distr in E1. cbn in E1. discriminate.
    + change (DirectiveMarker l0 :: Identifier id l1 :: ys ++ [Comma l2])
        with ((DirectiveMarker l0 :: Identifier id l1 :: ys) ++ [Comma l2]) in E1.
      rewrite app_assoc in E1. apply app_inj_tail in E1. destruct E1 as [_ E1]. discriminate.
Qed.

(** At the end of the text. *)
Theorem last_comment : forall file a x p, trailing_comment x -> stands_for file a p ->
  exists p', stands_for file (a ++ x) p' /\ same_program p p'.
Proof.
  intros file a x p X (ts & L & P).
  assert (Ne : existsb is_error ts = false).
  { destruct (existsb is_error ts) eqn:E; [|reflexivity]. exfalso. apply existsb_exists in E.
    destruct E as (t & I & T). destruct t; try discriminate. eapply program_no_error; eassumption. }
  assert (Bd : boundary file a [] ts []).
  { split; [exact L|]. rewrite !app_nil_r. auto. }
  destruct (comment_tokens _ _ _ _ _ _ Bd (or_introl eq_refl) X) as (ts' & l & L' & S).
  rewrite app_nil_r in L'. assert (P2 : program (ts ++ [SingleLineComment [] l]) p).
  { rewrite <- (app_nil_r p). apply program_app; [exact P | apply pr_comment; constructor]. }
  destruct S as [S|[_ S]].
  - destruct (program_same _ _ P2 _ (same_sym _ _ S)) as (p' & P' & E). exists p'. split; [exists ts'; auto | exact E].
  - rewrite app_nil_r in S. destruct (program_same _ _ P _ (same_sym _ _ S)) as (p' & P' & E).
    exists p'. split; [exists ts'; auto | exact E].
Qed.

(** ** The final newline *)

Lemma program_errors : forall ts p, program ts p -> existsb is_error ts = false.
Proof.
  intros ts p P. destruct (existsb is_error ts) eqn:E; [|reflexivity]. exfalso. apply existsb_exists in E.
  destruct E as (t & I & T). destruct t; try discriminate. eapply program_no_error; eassumption.
Qed.

Theorem newline_final : forall file s p, stands_for file (s ++ [LF]) p ->
  exists ts l, lexes file [] s ts /\ lexes file [] (s ++ [LF]) (ts ++ [Newline l]) /\
    ((needs_newline ts /\ forall p', ~ stands_for file s p') \/
     (~ needs_newline ts /\ stands_for file s p)).
Proof.
  intros file s p (ts & L & P). pose proof (program_errors _ _ P) as Ne.
  destruct (final_newline _ _ _ _ L s eq_refl Ne) as (ts1 & -> & C).
  pose proof (cut_lexes _ _ _ _ _ (cut_nothing _ _ _ _ _ C) [] (lex_end file _)) as L1. rewrite !app_nil_r in L1.
  exists ts1. eexists. split; [exact L1|]. split; [exact L|].
  destruct (newline_dropped _ _ _ P) as [P1|N].
  - right. split; [intros N; exact (newline_needed _ _ N P1) | exists ts1; auto].
  - left. split; [exact N|]. intros p' P'. apply (stands_iff _ _ _ _ L1) in P'. exact (newline_needed _ _ N P').
Qed.

(** Adding one is always possible. *)
Theorem newline_added : forall file s p, stands_for file s p -> stands_for file (s ++ [LF]) p.
Proof.
  intros file s p (ts & L & P). pose proof (program_errors _ _ P) as Ne.
  exists (ts ++ [Newline (located file s [LF])]). split.
  - assert (Bd : lexes file [] (s ++ []) (ts ++ [])) by (rewrite !app_nil_r; exact L).
    destruct (boundary_cut _ _ _ _ L Ne _ _ Bd) as [C _].
    apply (cut_lexes _ _ _ _ _ (cut_newline _ _ _ _ _ C [])).
    apply (lex_token _ _ _ KNewline [LF] []); [apply (lexeme_closed KNewline [LF] []); [apply newline_match | reflexivity] | constructor | constructor].
  - rewrite <- (app_nil_r p). apply program_app; [exact P | apply pr_newline; constructor].
Qed.

(** ** Hexadecimal numerals of more than three digits *)

(** The numeral ends after three digits. *)
Lemma long_hex_cut : forall file a p d b ts1 ts2, boundary file a (p :: d ++ b) ts1 ts2 ->
  among "$#" p = true -> forallb (among hexadecimal_digits) d = true -> length d = 3%nat ->
  exists t ts3, is_number t = true /\ ts2 = t :: ts3 /\ boundary file (a ++ p :: d) b (ts1 ++ [t]) ts3.
Proof.
  intros file a p d b ts1 ts2 (La & L & Ne) Hp Hd Hl.
  destruct (boundary_cut _ _ _ _ La Ne _ _ L) as [C L2]. cbn [app] in *.
  destruct (hex_exact file a p d b ts2 Hp ltac:(lia) Hd (or_introl Hl) L2) as (V & ts3 & -> & L3).
  eexists. exists ts3. split; [|split; [reflexivity|]]; [reflexivity|]. split; [|split].
  - destruct (scan_total file (p :: d)) as (t0 & E0). apply scan_lexes in E0.
    destruct (lexes_moved _ _ _ _ E0 file a) as (t1 & E1 & _).
    rewrite <- (app_nil_r d) in E1.
    destruct (hex_exact file a p d [] t1 Hp ltac:(lia) Hd (or_introl Hl) E1) as (_ & t2 & -> & E2).
    apply lexes_nil in E2. subst t2. rewrite app_nil_r in E1.
    refine (cut_lexes _ _ _ _ _ (cut_next _ _ _ _ _ _ C _) _ E1). intros k m K. exact K.
  - rewrite <- !app_assoc. cbn [app]. exact L.
  - rewrite existsb_app, Ne. reflexivity.
Qed.

(** A fourth digit among 0 to 9 makes the text wrong. *)
Theorem long_hex_digit : forall file a p d c b ts1 ts2 q, boundary file a (p :: d ++ c :: b) ts1 ts2 ->
  among "$#" p = true -> forallb (among hexadecimal_digits) d = true -> length d = 3%nat ->
  among decimal_digits c = true -> ~ stands_for file (a ++ p :: d ++ c :: b) q.
Proof.
  intros file a p d c b ts1 ts2 q Bd Hp Hd Hl Hc P. pose proof Bd as (_ & L & _).
  destruct (long_hex_cut _ _ _ _ _ _ _ Bd Hp Hd Hl) as (t & ts3 & T & -> & Bd').
  apply (stands_iff _ _ _ _ L) in P. pose proof (program_errors _ _ P) as Ne.
  destruct Bd' as (La & L' & Ne'). destruct (boundary_cut _ _ _ _ La Ne' _ _ L') as [_ L3].
  destruct (take_while_split (among decimal_digits) (c :: b)) as (r & Er & Hr).
  set (m := take_while (among decimal_digits) (c :: b)) in *.
  assert (M : m <> []) by (unfold m; cbn [take_while]; rewrite Hc; discriminate).
  rewrite Er in L3.
  assert (D := decimal_exact file ([] ++ a ++ p :: d) m r ts3 M (take_while_all _ _)).
  specialize (D ltac:(destruct r; [reflexivity | exact Hr]) L3).
  rewrite existsb_app in Ne. cbn [existsb] in Ne. apply orb_false_iff in Ne. destruct Ne as [_ Ne].
  apply orb_false_iff in Ne. destruct Ne as [_ Ne].
  destruct (positional 10 m <=? 4095); [|subst ts3; discriminate].
  destruct D as (ts' & -> & _). eapply (program_numbers _ _ P ts1 t); [reflexivity | exact T | reflexivity].
Qed.

(** A letter starts a name: the text means the same with blanks before it. *)
Theorem long_hex_letter : forall file a p d c b w ts1 ts2, boundary file a (p :: d ++ c :: b) ts1 ts2 ->
  among "$#" p = true -> forallb (among hexadecimal_digits) d = true -> length d = 3%nat ->
  forallb blank w = true -> same_text file (a ++ p :: d ++ c :: b) (a ++ p :: d ++ w ++ c :: b).
Proof.
  intros file a p d c b w ts1 ts2 Bd Hp Hd Hl B.
  destruct (long_hex_cut _ _ _ _ _ _ _ Bd Hp Hd Hl) as (t & ts3 & T & -> & Bd').
  pose proof (blanks_same _ _ _ w _ _ Bd' B) as S. rewrite <- !app_assoc in S. exact S.
Qed.
