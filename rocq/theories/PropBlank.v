(** * PropBlank: properties C80 and C81, with instances. *)

From Verif Require Import Base Text U12 Location Token Scanner Parser Directive DataRange Assembler IHex Main
  SpecLex SpecGrammar SpecErase SpecCode SpecUtf8 SpecPlace SpecBlank BaseFacts LexProofs ScanProofs LexTheorems LexAppend
  ParseProofs TextProofs TextCode MainProofs DosProofs BlankProofs PropOutput PropText.
Open Scope string_scope.
Open Scope list_scope.
Open Scope N_scope.

(** ** C80: a blank may stand for another. *)

(** The tokens are the same, at the same places; comments and strings have the blanks of their text. *)
Theorem C80_tokens : forall file s s' ts, same_but_blanks s s' -> scan file s = Done ts ->
  exists ts', scan file s' = Done ts' /\ Forall2 same_but_text ts ts'.
Proof.
  intros file s s' ts B S. apply scan_lexes in S.
  destruct (lexes_blanks_alike _ _ _ _ S [] s' (sbb_refl _) B) as (ts' & L & F).
  exists ts'. split; [apply scan_lexes; exact L | exact F].
Qed.
Print Assumptions C80_tokens.

(** The tool says the same, whether it accepts the text or not. *)
Theorem C80_outcome : forall e file s s' ts ts', same_but_blanks s s' -> scan file s = Done ts -> scan file s' = Done ts' ->
  strings ts = strings ts' -> assemble_text e file s = assemble_text e file s'.
Proof.
  intros e file s s' ts ts' B S S' E. destruct (C80_tokens file s s' ts B S) as (ts2 & S2 & F).
  rewrite S' in S2. injection S2 as <-. pose proof (uncomment_same _ _ F E) as U.
  assert (P : outcome_via syntax_error_uncomment (fun x => x) (parse ts) =
              outcome_via syntax_error_uncomment (fun x => x) (parse ts')) by (rewrite <- !parse_uncomment, U; reflexivity).
  unfold assemble_text. rewrite S, S'. cbn [bind].
  destruct (parse ts) as [[p|err]|], (parse ts') as [[p'|err']|]; cbn [outcome_via] in P; try discriminate P; cbn [bind].
  - injection P as ->. reflexivity.
  - injection P as P. rewrite <- (message_uncomment err), P, message_uncomment. reflexivity.
  - injection P as ->. reflexivity.
Qed.
Print Assumptions C80_outcome.

(** A text without quotes has no strings. *)
Corollary C80_without_strings : forall e file s s', same_but_blanks s s' -> ~ In QUOTE s ->
  assemble_text e file s = assemble_text e file s'.
Proof.
  intros e file s s' B Q.
  destruct (scan_total file s) as (ts & S). destruct (scan_total file s') as (ts' & S').
  assert (N : forall t x, ~ In QUOTE t -> scan file t = Done x -> strings x = []).
  { intros t x Nq Sx. destruct (strings x) as [|b r] eqn:E; [reflexivity|]. exfalso. apply Nq.
    assert (I : In b (strings x)) by (rewrite E; left; reflexivity).
    unfold strings in I. apply in_flat_map in I. destruct I as (tk & It & Ib).
    destruct tk as [| | | |b' l| | | |]; try contradiction Ib.
    apply In_nth_error in It. destruct It as (i & It).
    destruct (scan_location _ _ _ _ _ Sx It) as (before & m & after & -> & _ & _ & _ & T).
    specialize (T eq_refl). inversion T; subst m. apply in_or_app. right. apply in_or_app. left. left. reflexivity. }
  apply (C80_outcome e file s s' ts ts' B S S'). rewrite (N s ts Q S), (N s' ts'); [reflexivity| |exact S'].
  intros I. apply Q. clear - B I. induction B as [|c c' s s' C _ IH]; [exact I|].
  destruct I as [->|I]; [left; destruct C as [-> | [_ C]]; [reflexivity | discriminate C] | right; exact (IH I)].
Qed.
Print Assumptions C80_without_strings.

(** Tabs and a no-break space for spaces, in a program and in one which is refused; a string
    keeps its blanks. *)
Definition spaced : str := lines [".org $200"; " go: ld v0, 1 ; one two"; "jp go"].
Definition tabbed : str :=
  u ".org" ++ [9] ++ u "$200" ++ [LF] ++ [0xA0] ++ u "go:" ++ [12] ++ u "ld v0," ++ [9] ++ u "1 ; one" ++ [9] ++ u "two" ++ [LF] ++
  u "jp" ++ [0x3000] ++ u "go" ++ [LF].

Ltac by_blanks := repeat first [apply Forall2_nil | apply Forall2_cons; [first [left; reflexivity | right; split; reflexivity]|]].

Example C80_instance :
  same_but_blanks spaced tabbed /\ spaced <> tabbed /\ ~ In QUOTE spaced /\
  assemble_text sample_env (u "in.s") tabbed = Done (Ok (lines [":040200006001120087"; ":00000001FF"])) /\
  same_but_blanks (u ".db 1, ; a b") (u ".db" ++ [9] ++ u "1, ; a" ++ [9] ++ u "b") /\
  match assemble_text sample_env (u "in.s") (u ".db 1, ; a b") with Done (Err _) => True | _ => False end.
Proof.
  split; [vm_compute; by_blanks|]. split; [vm_compute; discriminate|]. split.
  { intros I. assert (F : existsb (N.eqb QUOTE) spaced = true) by (apply existsb_exists; exists QUOTE; split; [exact I | reflexivity]).
    revert F. vm_compute. discriminate. }
  split; [vm_compute; reflexivity|]. split; [vm_compute; by_blanks | vm_compute; exact I].
Qed.

Example C80_in_a_string :
  same_but_blanks (u ".db ""a b""") (u ".db ""a" ++ [9] ++ u "b""") /\
  assemble_text sample_env (u "in.s") (u ".db ""a b""") = Done (Ok (lines [":030000006120621A"; ":00000001FF"])) /\
  assemble_text sample_env (u "in.s") (u ".db ""a" ++ [9] ++ u "b""") = Done (Ok (lines [":0300000061096231"; ":00000001FF"])).
Proof. split; [vm_compute; by_blanks|]. split; vm_compute; reflexivity. Qed.

(** ** C81: files from other systems. *)

(** False: of the marks only the newline ends a line.  Behind a comment the next line is lost. *)
Theorem C81_lines_refuted : exists e file s, forall mark, In mark line_marks ->
  assemble_text e file s = Done (Ok (lines [":020000000102FB"; ":00000001FF"])) /\
  assemble_text e file (with_line_mark mark s) = Done (Ok (lines [":0100000001FE"; ":00000001FF"])).
Proof.
  exists sample_env, (u "in.s"), (lines [".db 1 ; one"; ".db 2"]). intros mark M.
  split; [vm_compute; reflexivity|].
  cbn [line_marks In] in M. destruct M as [<-|[<-|[<-|[<-|[<-|[<-|[]]]]]]]; vm_compute; reflexivity.
Qed.
Print Assumptions C81_lines_refuted.

(** In general, all of the text behind the first comment is lost. *)
Theorem C81_lost_partial : forall e file a x mark b text, In mark line_marks -> Forall scalar (a ++ c_ ";" :: x ++ mark :: b) ->
  ~ In LF x -> ~ In LF b -> assemble_text e file a = Done (Ok text) ->
  assemble_text e file (a ++ c_ ";" :: x ++ mark :: b) = Done (Ok text).
Proof.
  intros e file a x mark b text M Sc Nx Nb H.
  assert (Sa : Forall scalar a) by (apply Forall_app in Sc; tauto).
  destruct (assemble_text_spec e file _ Sa) as [(t & rs & _ & (ts & p & L & P & _) & _)|(m & Em & _)];
    [|rewrite H in Em; discriminate Em].
  assert (X : trailing_comment (c_ ";" :: x ++ mark :: b)).
  { exists [], (x ++ mark :: b). split; [reflexivity|]. split; [reflexivity|].
    apply existsb_lf. intros I. apply in_app_or in I. destruct I as [I|[->|I]]; [exact (Nx I) | | exact (Nb I)].
    revert M. cbn [line_marks In]. unfold LF. intuition discriminate. }
  destruct (last_comment file a _ p X (ex_intro _ ts (conj L P))) as (p' & P' & S).
  apply (same_output e file a); [exact Sa | exact Sc | | exact H]. split; intros q Q.
  - apply last_comment; assumption.
  - exists p. split; [exists ts; auto|].
    destruct Q as (ts1 & L1 & Q1). destruct P' as (ts2 & L2 & P2).
    pose proof (lexes_det _ _ _ _ L1 _ L2). subst ts2. unfold same_program in *.
    apply parse_program in Q1, P2. rewrite Q1 in P2. injection P2 as ->. exact S.
Qed.
Print Assumptions C81_lost_partial.

(** Each mark is a blank: within the text it does what a space does. *)
Theorem C81_space_partial : forall e file s mark ts ts', In mark line_marks ->
  scan file (with_line_mark mark s) = Done ts -> scan file (with_line_mark 32 s) = Done ts' -> strings ts = strings ts' ->
  assemble_text e file (with_line_mark mark s) = assemble_text e file (with_line_mark 32 s).
Proof.
  intros e file s mark ts ts' M S S' E. refine (C80_outcome e file _ _ ts ts' _ S S' E).
  assert (B : blank mark = true)
    by (cbn [line_marks In] in M; destruct M as [<-|[<-|[<-|[<-|[<-|[<-|[]]]]]]]; reflexivity).
  clear - B. unfold with_line_mark. induction s as [|c s IH]; cbn [map]; constructor; [|exact IH].
  destruct (c =? LF); [right; split; [exact B | reflexivity] | left; reflexivity].
Qed.
Print Assumptions C81_space_partial.

(** Every token is said to be on the first line. *)
Theorem C81_first_line_partial : forall file s mark ts t, In mark line_marks ->
  scan file (with_line_mark mark s) = Done ts -> In t ts -> l_line (token_location t) = 1.
Proof.
  intros file s mark ts t M S I. apply In_nth_error in I. destruct I as (i & I).
  destruct (scan_location _ _ _ _ _ S I) as (before & m & after & E & _ & El & _). rewrite El. cbn [located l_line].
  assert (N : ~ In LF (with_line_mark mark s)).
  { clear - M. unfold with_line_mark. intros I. apply in_map_iff in I. destruct I as (c & E & _).
    destruct (c =? LF) eqn:C; [|apply N.eqb_neq in C; exact (C E)]. subst mark.
    revert M. cbn [line_marks In]. unfold LF. intuition discriminate. }
  assert (Z : ~ In LF before) by (intros I'; apply N; rewrite E; apply in_or_app; left; exact I').
  unfold newlines. apply (count_occ_not_In N.eq_dec) in Z. rewrite Z. reflexivity.
Qed.
Print Assumptions C81_first_line_partial.

(** False also for the byte order mark. *)
Theorem C81_mark_refuted : exists e file s text, assemble_text e file s = Done (Ok text) /\
  forall text', assemble_text e file (byte_order_mark :: s) <> Done (Ok text').
Proof.
  exists sample_env, (u "in.s"), (u ".db 1"), (lines [":0100000001FE"; ":00000001FF"]).
  split; [vm_compute; reflexivity|]. intros text'. vm_compute. discriminate.
Qed.
Print Assumptions C81_mark_refuted.

(** With it no text is accepted. *)
Theorem C81_mark_partial : forall e file s,
  scan file (byte_order_mark :: s) =
    Done [ErrorToken (InvalidCharacter byte_order_mark) (mk_loc file 1 1 1)] /\
  exists msg, assemble_text e file (byte_order_mark :: s) = Done (Err msg).
Proof.
  intros e file s.
  assert (S : scan file (byte_order_mark :: s) =
    Done [ErrorToken (InvalidCharacter byte_order_mark) (mk_loc file 1 1 1)]).
  { apply scan_lexes. apply (lex_stuck file [] byte_order_mark s); [reflexivity|].
    intros k m rest E R. destruct (first_char _ _ R) as (c & x & -> & O). cbn [app] in E. injection E as <- _.
    destruct k; revert O; vm_compute; discriminate. }
  split; [exact S|]. unfold assemble_text. rewrite S. cbn [bind].
  eexists. vm_compute. reflexivity.
Qed.
Print Assumptions C81_mark_partial.

(** Inside a line the mark separates nothing more than a space does: two statements there are
    two statements, but an instruction without operands takes the next word for one. *)
Example C81_instance :
  let s := lines ["cls"; "ret"] in let s' := lines [".db 1"; ".db 2"] in
  In 13 line_marks /\
  match assemble_text sample_env (u "in.s") (with_line_mark 13 s) with Done (Err _) => True | _ => False end /\
  assemble_text sample_env (u "in.s") (with_line_mark 13 s') = Done (Ok (lines [":020000000102FB"; ":00000001FF"])) /\
  assemble_text sample_env (u "in.s") (with_line_mark 32 s') = Done (Ok (lines [":020000000102FB"; ":00000001FF"])).
Proof.
  cbn zeta. split; [left; reflexivity|]. split; [vm_compute; exact I|]. split; vm_compute; reflexivity.
Qed.

(** A comment that a line separator was to end swallows the statement after it; a tab and a carriage return between
    statements are blanks. *)
Example C81_instance_lost :
  let a := lines [".db 1"] in let x := u " one" in let b := u ".db 2" in
  let s := a ++ c_ ";" :: x ++ 0x2028 :: b in
  In 0x2028 line_marks /\ Forall scalar s /\ ~ In LF x /\ ~ In LF b /\
  assemble_text sample_env (u "in.s") a = Done (Ok (lines [":0100000001FE"; ":00000001FF"])) /\
  assemble_text sample_env (u "in.s") s = Done (Ok (lines [":0100000001FE"; ":00000001FF"])).
Proof.
  cbn zeta. split; [right; right; right; right; left; reflexivity|].
  split; [apply Forall_forall; intros c I; vm_compute in I; repeat (destruct I as [<-|I]; [unfold scalar; lia|]); contradiction|].
  split; [intros I; vm_compute in I; repeat (destruct I as [I|I]; [discriminate I|]); contradiction|].
  split; [intros I; vm_compute in I; repeat (destruct I as [I|I]; [discriminate I|]); contradiction|].
  split; vm_compute; reflexivity.
Qed.

Example C81_instance_space : exists ts ts',
  let s := lines [".db 1"; ".db ""two"""] in
  scan (u "in.s") (with_line_mark 13 s) = Done ts /\ scan (u "in.s") (with_line_mark 32 s) = Done ts' /\
  strings ts = strings ts' /\ length (strings ts) = 1%nat /\ ts <> [].
Proof. do 2 eexists. cbn zeta. split; [vm_compute; reflexivity|]. split; [vm_compute; reflexivity|]. repeat split; discriminate. Qed.
