(** * LexTheorems: consequences for whole texts. *)

From Verif Require Import Base Text Location Token Scanner SpecLex BaseFacts LexProofs ScanProofs.
Open Scope N_scope.

(** ** One call of [next] *)

Inductive next_spec (file before s : str) : run (option token * scanner) -> Prop :=
| next_none : forall sc, forallb blank s = true -> finished sc ->
    next_spec file before s (Done (None, sc))
| next_some : forall w s' k m rest t,
    s = w ++ s' -> forallb blank w = true -> s' = m ++ rest ->
    lexeme k m rest s' -> token_of file (before ++ w) k m t ->
    next_spec file before s (Done (Some t, at_ file ((before ++ w) ++ m) rest))
| next_bad : forall w s' k m rest e sc,
    s = w ++ s' -> forallb blank w = true ->
    lexeme k m rest s' -> bad_lexeme k m e -> finished sc ->
    next_spec file before s (Done (Some (ErrorToken e (located file (before ++ w) m)), sc))
| next_stuck : forall w c s' sc,
    s = w ++ c :: s' -> forallb blank w = true -> blank c = false ->
    (forall k m rest, c :: s' = m ++ rest -> ~ rmatch (pattern k) m) -> finished sc ->
    next_spec file before s
      (Done (Some (ErrorToken (no_lexeme_error c) (located file (before ++ w) [c])), sc)).

Lemma at_finished : forall file before, finished (at_ file before []).
Proof. intros. unfold finished, at_. cbn [sc_position sc_input]. rewrite app_nil_r. reflexivity. Qed.

Lemma next_token_spec : forall file before s,
  next_spec file before s (next_token (at_ file before s)).
Proof.
  intros file before s. unfold next_token.
  destruct (consume_whitespace_at file before s) as (w & s' & E & Hw & Hs' & ->). cbn [bind].
  rewrite at_end. destruct s' as [|c s'].
  - apply next_none; [subst s; rewrite app_nil_r; exact Hw | apply at_finished].
  - rewrite at_char. cbn [bind]. pose proof (consume_token_at_spec file (before ++ w) c s' Hs') as H.
    destruct H as [k m rest t Em L T | k m rest e sc L B F | c0 s0 sc Ec Hc N F]; cbn [bind].
    + eapply next_some; eauto.
    + eapply next_bad; eauto.
    + inversion Ec; subst c0 s0. eapply next_stuck; eauto.
Qed.

(** ** The whole text *)

Lemma lexes_blanks : forall file w before s ts, forallb blank w = true ->
  lexes file (before ++ w) s ts -> lexes file before (w ++ s) ts.
Proof.
  induction w as [|c w IH]; intros before s ts H L.
  - rewrite app_nil_r in L. exact L.
  - cbn in H. apply andb_true_iff in H. destruct H as [Hc Hw]. cbn [app].
    apply lex_blank; [exact Hc|]. apply IH; [exact Hw|].
    rewrite <- app_assoc. exact L.
Qed.

Lemma lexeme_nonempty : forall k m rest s, lexeme k m rest s -> m <> [].
Proof.
  intros k m rest s (_ & R & _) ->. destruct (first_char _ _ R) as (c & m' & E & _). discriminate.
Qed.

Lemma scan_fuel_finished : forall n sc, finished sc -> scan_fuel (S n) sc = Done [].
Proof. intros n sc H. cbn [scan_fuel]. rewrite next_finished by exact H. reflexivity. Qed.

Lemma scan_fuel_lexes : forall n file before s, (length s < n)%nat ->
  exists ts, scan_fuel n (at_ file before s) = Done ts /\ lexes file before s ts.
Proof.
  induction n as [|n IH]; intros file before s L; [lia|]. cbn [scan_fuel].
  pose proof (next_token_spec file before s) as H. destruct H as
    [sc B F | w s' k m rest t -> Hw -> Lx T | w s' k m rest e sc -> Hw Lx B F
     | w c s' sc -> Hw Hc St F]; cbn [bind].
  - exists []. split; [reflexivity|]. rewrite <- (app_nil_r s).
    apply lexes_blanks; [exact B | constructor].
  - pose proof (lexeme_nonempty _ _ _ _ Lx) as Hm. rewrite !app_length in L.
    destruct (IH file ((before ++ w) ++ m) rest) as (ts & -> & Lt).
    { destruct m; [contradiction | cbn in L; lia]. }
    cbn [bind]. eexists. split; [reflexivity|].
    apply lexes_blanks; [exact Hw|]. eapply lex_token; eauto.
  - pose proof (lexeme_nonempty _ _ _ _ Lx) as Hm. destruct Lx as (-> & R & Mx).
    destruct n as [|n]; [rewrite !app_length in L; destruct m; [contradiction | cbn in L; lia]|].
    rewrite scan_fuel_finished by exact F. cbn [bind]. eexists. split; [reflexivity|].
    apply lexes_blanks; [exact Hw|]. eapply lex_bad; [|exact B]. split; [reflexivity|]. split; eassumption.
  - destruct n as [|n]; [rewrite !app_length in L; cbn in L; lia|].
    rewrite scan_fuel_finished by exact F. cbn [bind]. eexists. split; [reflexivity|].
    apply lexes_blanks; [exact Hw|]. apply lex_stuck; assumption.
Qed.

(** The grammar is unambiguous. *)

Lemma lexeme_det : forall k m rest k' m' rest' s,
  lexeme k m rest s -> lexeme k' m' rest' s -> k = k' /\ m = m' /\ rest = rest'.
Proof.
  intros k m rest k' m' rest' s L L'. pose proof (lexeme_find _ _ _ _ L) as F.
  pose proof (lexeme_find _ _ _ _ L') as F'.
  destruct (find_first _ _ _ F) as (c & ? & ? & Ec & _ & O).
  destruct (find_first _ _ _ F') as (c' & ? & ? & Ec' & _ & O').
  assert (c = c') by congruence. subst c'.
  assert (k = k') by (eapply first_ok_inj; eassumption). subst k'.
  assert (m = m') by congruence. subst m'. repeat split.
  destruct L as (E & _). destruct L' as (E' & _). rewrite E in E'.
  eapply app_inv_head. exact E'.
Qed.

Lemma lexeme_not_blank : forall k m rest c s, lexeme k m rest (c :: s) -> blank c = false.
Proof.
  intros k m rest c s L. apply lexeme_find in L.
  destruct (find_first _ _ _ L) as (c' & ? & ? & Ec & _ & O). inversion Ec; subst.
  eapply first_not_blank. exact O.
Qed.

Lemma token_of_det : forall file before k m t t',
  token_of file before k m t -> token_of file before k m t' -> t = t'.
Proof.
  intros file before k m t t' H H'. inversion H; subst; inversion H'; subst; try reflexivity.
  apply app_inv_tail in H0. subst. reflexivity.
Qed.

Lemma token_not_bad : forall file before k m t e,
  token_of file before k m t -> bad_lexeme k m e -> False.
Proof.
  intros file before k m t e H B. inversion B; subst; inversion H; subst.
  - eapply N.lt_irrefl. eapply N.lt_le_trans; eassumption.
  - eapply N.lt_irrefl. eapply N.lt_le_trans; eassumption.
Qed.

Lemma bad_det : forall k m e e', bad_lexeme k m e -> bad_lexeme k m e' -> e = e'.
Proof. intros k m e e' H H'. inversion H; subst; inversion H'; subst; reflexivity. Qed.

Lemma lexes_det : forall file before s ts, lexes file before s ts ->
  forall ts', lexes file before s ts' -> ts = ts'.
Proof.
  intros file before s ts H.
  induction H as [before | before c s ts Hb H IH | before s k m rest t ts L T H IH
                  | before s k m rest e L B | before c s Hb St]; intros ts' H'.
  - inversion H'; subst; try reflexivity;
      match goal with
      | L : lexeme _ _ _ [] |- _ =>
          exfalso; apply (lexeme_nonempty _ _ _ _ L);
          destruct L as (E & _); symmetry in E; apply app_eq_nil in E; apply E
      end.
  - inversion H'; subst.
    + apply IH. assumption.
    + exfalso. match goal with L : lexeme _ _ _ _ |- _ => apply lexeme_not_blank in L end. congruence.
    + exfalso. match goal with L : lexeme _ _ _ _ |- _ => apply lexeme_not_blank in L end. congruence.
    + congruence.
  - inversion H'; subst.
    + exfalso. apply (lexeme_nonempty _ _ _ _ L).
      destruct L as (E & _). symmetry in E. apply app_eq_nil in E. apply E.
    + exfalso. apply lexeme_not_blank in L. congruence.
    + match goal with L' : lexeme _ _ _ _ |- _ =>
        destruct (lexeme_det _ _ _ _ _ _ _ L L') as (<- & <- & <-) end.
      f_equal; [eapply token_of_det; eassumption | apply IH; assumption].
    + exfalso. match goal with L' : lexeme _ _ _ _, B : bad_lexeme _ _ _ |- _ =>
        destruct (lexeme_det _ _ _ _ _ _ _ L L') as (<- & <- & <-) end.
      eapply token_not_bad; eassumption.
    + exfalso. destruct L as (E & R & _).
      match goal with St : forall _ _ _, _ -> ~ _ |- _ => eapply St; eassumption end.
  - inversion H'; subst.
    + exfalso. apply (lexeme_nonempty _ _ _ _ L).
      destruct L as (E & _). symmetry in E. apply app_eq_nil in E. apply E.
    + exfalso. apply lexeme_not_blank in L. congruence.
    + exfalso. match goal with L' : lexeme _ _ _ _, B : bad_lexeme _ _ _ |- _ =>
        destruct (lexeme_det _ _ _ _ _ _ _ L L') as (<- & <- & <-) end.
      eapply token_not_bad; eassumption.
    + match goal with L' : lexeme _ _ _ _ |- _ =>
        destruct (lexeme_det _ _ _ _ _ _ _ L L') as (<- & <- & <-) end.
      repeat f_equal. eapply bad_det; eassumption.
    + exfalso. destruct L as (E & R & _).
      match goal with St : forall _ _ _, _ -> ~ _ |- _ => eapply St; eassumption end.
  - inversion H'; subst.
    + congruence.
    + exfalso. match goal with L : lexeme _ _ _ _ |- _ => destruct L as (E & R & _) end.
      eapply St; eassumption.
    + exfalso. match goal with L : lexeme _ _ _ _ |- _ => destruct L as (E & R & _) end.
      eapply St; eassumption.
    + reflexivity.
Qed.

Theorem scan_total : forall file s, exists ts, scan file s = Done ts.
Proof.
  intros. unfold scan. rewrite at_new.
  destruct (scan_fuel_lexes (S (length s)) file [] s ltac:(lia)) as (ts & E & _). eauto.
Qed.

Theorem scan_lexes : forall file s ts, scan file s = Done ts <-> lexes file [] s ts.
Proof.
  intros file s ts. unfold scan. rewrite at_new.
  destruct (scan_fuel_lexes (S (length s)) file [] s ltac:(lia)) as (ts' & E & L). rewrite E.
  split.
  - intros H. inversion H; subst. exact L.
  - intros H. f_equal. eapply lexes_det; eassumption.
Qed.

(** ** The iterator: any number of calls of [next] *)

(** The answers to the first [n] calls, and the scanner after them. *)
Fixpoint nexts (n : nat) (sc : scanner) : run (list (option token) * scanner) :=
  match n with
  | O => Done ([], sc)
  | S m =>
      let* (t, sc') := next_token sc in
      let* (ts, sc'') := nexts m sc' in
      Done (t :: ts, sc'')
  end.

Lemma nexts_finished : forall n sc, finished sc -> nexts n sc = Done (repeat None n, sc).
Proof.
  induction n as [|n IH]; intros sc H; [reflexivity|]. cbn [nexts].
  rewrite next_finished by exact H. cbn [bind]. rewrite IH by exact H. reflexivity.
Qed.

Lemma nexts_at : forall n file before s ts, lexes file before s ts ->
  exists sc, nexts n (at_ file before s)
             = Done (map Some (firstn n ts) ++ repeat None (n - length ts), sc).
Proof.
  induction n as [|n IH]; intros file before s ts L; [eexists; reflexivity|]. cbn [nexts].
  pose proof (next_token_spec file before s) as H. destruct H as
    [sc B F | w s' k m rest t -> Hw -> Lx T | w s' k m rest e sc -> Hw Lx B F
     | w c s' sc -> Hw Hc St F]; cbn [bind].
  - rewrite nexts_finished by exact F. cbn [bind].
    assert (ts = []).
    { eapply lexes_det; [exact L|]. rewrite <- (app_nil_r s). apply lexes_blanks;
        [exact B | constructor]. }
    subst ts. eexists. reflexivity.
  - destruct (scan_fuel_lexes (S (length rest)) file ((before ++ w) ++ m) rest ltac:(lia))
      as (ts' & _ & L').
    assert (ts = t :: ts').
    { eapply lexes_det; [exact L|]. apply lexes_blanks; [exact Hw|]. eapply lex_token; eauto. }
    subst ts. destruct (IH _ _ _ _ L') as (sc & ->). cbn [bind]. eexists. reflexivity.
  - assert (ts = [ErrorToken e (located file (before ++ w) m)]).
    { eapply lexes_det; [exact L|]. apply lexes_blanks; [exact Hw|]. eapply lex_bad; eauto. }
    subst ts. rewrite nexts_finished by exact F. cbn [bind].
    eexists. cbn [firstn map length app]. rewrite firstn_nil.
    replace (S n - 1)%nat with n by lia. reflexivity.
  - assert (ts = [ErrorToken (no_lexeme_error c) (located file (before ++ w) [c])]).
    { eapply lexes_det; [exact L|]. apply lexes_blanks; [exact Hw|]. apply lex_stuck; assumption. }
    subst ts. rewrite nexts_finished by exact F. cbn [bind].
    eexists. cbn [firstn map length app]. rewrite firstn_nil.
    replace (S n - 1)%nat with n by lia. reflexivity.
Qed.

(** Draining the iterator as the parser does -- interleaved with its own work, and
    going on after the first [None] -- sees the tokens of [scan], then only [None]. *)
Theorem next_token_fused : forall file s, exists ts,
  scan file s = Done ts /\
  forall n, exists sc, nexts n (scanner_new file s)
    = Done (map Some (firstn n ts) ++ repeat None (n - length ts), sc).
Proof.
  intros file s. destruct (scan_total file s) as (ts & E). exists ts. split; [exact E|].
  intros n. rewrite at_new. apply nexts_at. apply scan_lexes. exact E.
Qed.

(** ** Partition of the text *)

(** The text a token stands for. *)
Inductive text_of : token -> str -> Prop :=
| x_comment : forall m l, text_of (SingleLineComment m l) m
| x_dot : forall l, text_of (DirectiveMarker l) (u ".")
| x_colon : forall l, text_of (LabelMarker l) (u ":")
| x_comma : forall l, text_of (Comma l) (u ",")
| x_newline : forall l, text_of (Newline l) [LF]
| x_string : forall b l, text_of (StringLiteral b l) (QUOTE :: b ++ [QUOTE])
| x_number : forall v l k m, In k [KHex; KBin; KDec] -> rmatch (pattern k) m ->
                             text_of (NumericLiteral v l) m
| x_identifier : forall m l, text_of (Identifier m l) m.

(** [partition ts s]: blanks, text of the first token, blanks, text of the second... *)
Inductive partition : list token -> str -> Prop :=
| part_end : forall w, forallb blank w = true -> partition [] w
| part_token : forall w t m ts s,
    forallb blank w = true -> text_of t m -> m <> [] -> partition ts s ->
    partition (t :: ts) (w ++ m ++ s).

Definition is_error (t : token) : bool := match t with ErrorToken _ _ => true | _ => false end.

Lemma token_text : forall file before k m rest s t,
  lexeme k m rest s -> token_of file before k m t -> text_of t m.
Proof.
  intros file before k m rest s t (_ & R & _) T. inversion T; subst; try constructor;
    try (cbn [pattern] in R; apply rmatch_lit in R; subst; constructor).
  - apply (x_number _ _ KHex); [cbn; auto | exact R].
  - apply (x_number _ _ KBin); [cbn; auto | exact R].
  - apply (x_number _ _ KDec); [cbn; auto | exact R].
Qed.

Lemma token_not_error : forall file before k m t, token_of file before k m t -> is_error t = false.
Proof. intros file before k m t T. inversion T; reflexivity. Qed.

Lemma token_loc : forall file before k m t, token_of file before k m t ->
  token_location t = located file before m.
Proof. intros file before k m t T. inversion T; reflexivity. Qed.

Lemma partition_blank : forall c ts s, blank c = true -> partition ts s -> partition ts (c :: s).
Proof.
  intros c ts s Hc H. inversion H; subst.
  - constructor. cbn [forallb]. rewrite Hc. cbn [andb]. assumption.
  - change (c :: w ++ m ++ s0) with ((c :: w) ++ m ++ s0). constructor; auto.
    cbn [forallb]. rewrite Hc. cbn [andb]. assumption.
Qed.

Theorem scan_partition : forall file s ts,
  scan file s = Done ts -> existsb is_error ts = false -> partition ts s.
Proof.
  intros file s ts H. apply scan_lexes in H.
  induction H as [before | before c s ts Hb H IH | before s k m rest t ts L T H IH
                  | before s k m rest e L B | before c s Hb St]; intros NE; try discriminate.
  - constructor. reflexivity.
  - apply partition_blank; auto.
  - cbn in NE. apply orb_false_iff in NE. destruct NE as [_ NE].
    pose proof (lexeme_nonempty _ _ _ _ L) as Hm. pose proof (token_text _ _ _ _ _ _ _ L T) as Tx.
    destruct L as (-> & _). change (m ++ rest) with ([] ++ m ++ rest). constructor; auto.
Qed.

(** ** Locations *)

(** A lexeme stays the longest when the text after it is cut off. *)
Lemma lexeme_cut : forall k m rest s, lexeme k m rest s ->
  forall p q, rest = p ++ q -> lexeme k m p (m ++ p).
Proof.
  intros k m rest s (-> & R & Mx) p q ->. repeat split; [exact R|].
  intros k' m' rest' E R'. apply (Mx k' m' (rest' ++ q)); [|exact R'].
  rewrite app_assoc, E, <- app_assoc. reflexivity.
Qed.

Lemma lexes_location : forall file before s ts, lexes file before s ts ->
  forall i t, nth_error ts i = Some t ->
  exists b m after,
    s = b ++ m ++ after /\ m <> [] /\
    token_location t = located file (before ++ b) m /\
    lexes file before b (firstn i ts) /\
    (is_error t = false -> text_of t m).
Proof.
  intros file before s ts H.
  induction H as [before | before c s ts Hb H IH | before s k m rest t ts L T H IH
                  | before s k m rest e L B | before c s Hb St]; intros i t' Ht.
  - destruct i; discriminate.
  - destruct (IH _ _ Ht) as (b & m & after & -> & Hm & El & Lx & Tx).
    exists (c :: b), m, after. repeat split; try assumption.
    + rewrite <- app_assoc in El. exact El.
    + apply lex_blank; assumption.
  - destruct i as [|i]; cbn in Ht.
    + inversion Ht; subst. exists [], m, rest. repeat split.
      * apply L.
      * eapply lexeme_nonempty; exact L.
      * rewrite app_nil_r. eapply token_loc; exact T.
      * constructor.
      * intros _. eapply token_text; eassumption.
    + destruct (IH _ _ Ht) as (b & m' & after & -> & Hm & El & Lx & Tx).
      exists (m ++ b), m', after. repeat split; try assumption.
      * destruct L as (-> & _). rewrite <- app_assoc. reflexivity.
      * rewrite <- app_assoc in El. exact El.
      * cbn [firstn]. eapply lex_token; [|exact T|exact Lx].
        eapply lexeme_cut; [exact L|]. reflexivity.
  - destruct i as [|[|]]; cbn in Ht; try discriminate. inversion Ht; subst.
    exists [], m, rest. repeat split.
    + apply L.
    + eapply lexeme_nonempty; exact L.
    + rewrite app_nil_r. reflexivity.
    + constructor.
    + discriminate.
  - destruct i as [|[|]]; cbn in Ht; try discriminate. inversion Ht; subst.
    exists [], [c], s. repeat split.
    + discriminate.
    + rewrite app_nil_r. reflexivity.
    + constructor.
    + discriminate.
Qed.

Theorem scan_location : forall file s ts i t,
  scan file s = Done ts -> nth_error ts i = Some t ->
  exists before m after,
    s = before ++ m ++ after /\ m <> [] /\
    token_location t = located file before m /\
    scan file before = Done (firstn i ts) /\
    (is_error t = false -> text_of t m).
Proof.
  intros file s ts i t H Ht. apply scan_lexes in H.
  destruct (lexes_location _ _ _ _ H _ _ Ht) as (b & m & after & E & Hm & El & Lx & Tx).
  exists b, m, after. repeat split; try assumption. apply scan_lexes. exact Lx.
Qed.

(** ** Errors *)

Theorem scan_error_last : forall file s ts i t,
  scan file s = Done ts -> nth_error ts i = Some t -> is_error t = true -> length ts = S i.
Proof.
  intros file s ts i t H. apply scan_lexes in H. revert i.
  induction H as [before | before c s ts Hb H IH | before s k m rest t' ts L T H IH
                  | before s k m rest e L B | before c s Hb St]; intros i Ht He.
  - destruct i; discriminate.
  - apply IH; assumption.
  - destruct i as [|i]; cbn in Ht.
    + inversion Ht; subst. rewrite (token_not_error _ _ _ _ _ T) in He. discriminate.
    + cbn. f_equal. apply IH; assumption.
  - destruct i as [|[|]]; cbn in Ht; try discriminate. reflexivity.
  - destruct i as [|[|]]; cbn in Ht; try discriminate. reflexivity.
Qed.

(** ** Numerals, in any context *)

Definition starts (p : char -> bool) (s : str) : bool :=
  match s with [] => false | c :: _ => p c end.

Lemma lexes_cons_inv : forall file before s k m rest ts, lexeme k m rest s ->
  lexes file before s ts ->
  (exists t ts', ts = t :: ts' /\ token_of file before k m t /\ lexes file (before ++ m) rest ts')
  \/ (exists e, ts = [ErrorToken e (located file before m)] /\ bad_lexeme k m e).
Proof.
  intros file before s k m rest ts L H. inversion H; subst.
  - exfalso. apply (lexeme_nonempty _ _ _ _ L).
    destruct L as (E & _). symmetry in E. apply app_eq_nil in E. apply E.
  - exfalso. apply lexeme_not_blank in L. congruence.
  - destruct (lexeme_det _ _ _ _ _ _ _ L H0) as (<- & <- & <-). left. eauto.
  - destruct (lexeme_det _ _ _ _ _ _ _ L H0) as (<- & <- & <-). right. eauto.
  - exfalso. destruct L as (E & R & _). eapply H1; eassumption.
Qed.

Lemma decimal_lexeme : forall d rest, d <> [] -> forallb (among decimal_digits) d = true ->
  starts (among decimal_digits) rest = false -> lexeme KDec d rest (d ++ rest).
Proof.
  intros d rest Hn Ha Hr.
  assert (F : find KDec (d ++ rest) = Some d).
  { cbn [find]. unfold find_decimal_literal.
    rewrite (take_while_ext _ _ _ is_digit_spec). rewrite take_while_app.
    - destruct d; [contradiction | reflexivity].
    - exact Ha.
    - destruct rest; [trivial | exact Hr]. }
  destruct (find_lexeme _ _ _ F) as (r & E & L). apply app_inv_head in E. subst. exact L.
Qed.

Theorem decimal_exact : forall file before d rest ts,
  d <> [] -> forallb (among decimal_digits) d = true ->
  starts (among decimal_digits) rest = false ->
  lexes file before (d ++ rest) ts ->
  if positional 10 d <=? 4095
  then exists ts', ts = NumericLiteral (positional 10 d) (located file before d) :: ts'
                   /\ lexes file (before ++ d) rest ts'
  else ts = [ErrorToken (DecimalLiteralOutOfRange d) (located file before d)].
Proof.
  intros file before d rest ts Hn Ha Hr H.
  destruct (lexes_cons_inv _ _ _ _ _ _ _ (decimal_lexeme d rest Hn Ha Hr) H)
    as [(t & ts' & -> & T & L) | (e & -> & B)].
  - inversion T; subst. rewrite (proj2 (N.leb_le _ _)) by assumption. eauto.
  - inversion B; subst. rewrite (proj2 (N.leb_gt _ _)) by assumption. reflexivity.
Qed.

Lemma binary_lexeme : forall d rest, d <> [] -> forallb (among "01.") d = true ->
  starts (among "01.") rest = false -> lexeme KBin (c_ "%" :: d) rest (c_ "%" :: d ++ rest).
Proof.
  intros d rest Hn Ha Hr.
  assert (F : find KBin (c_ "%" :: d ++ rest) = Some (c_ "%" :: d)).
  { cbn [find]. unfold find_bin_literal. rewrite N.eqb_refl.
    rewrite (take_while_ext _ _ _ is_bin_digit_spec). rewrite take_while_app.
    - destruct d; [contradiction | reflexivity].
    - exact Ha.
    - destruct rest; [trivial | exact Hr]. }
  destruct (find_lexeme _ _ _ F) as (r & E & L). cbn in E.
  apply (app_inv_head (c_ "%" :: d)) in E. subst. exact L.
Qed.

(** What the code computes: the value modulo 2^64. *)
Theorem binary_actual : forall file before d rest ts,
  d <> [] -> forallb (among "01.") d = true ->
  starts (among "01.") rest = false ->
  lexes file before (c_ "%" :: d ++ rest) ts ->
  let v := positional 2 (undot d) mod 2 ^ 64 in
  if v <=? 4095
  then exists ts', ts = NumericLiteral v (located file before (c_ "%" :: d)) :: ts'
                   /\ lexes file (before ++ c_ "%" :: d) rest ts'
  else ts = [ErrorToken (BinaryLiteralOutOfRange d) (located file before (c_ "%" :: d))].
Proof.
  intros file before d rest ts Hn Ha Hr H v.
  destruct (lexes_cons_inv _ _ _ _ _ _ _ (binary_lexeme d rest Hn Ha Hr) H)
    as [(t & ts' & -> & T & L) | (e & -> & B)].
  - inversion T; subst. subst v. rewrite (proj2 (N.leb_le _ _)) by assumption. eauto.
  - inversion B; subst. subst v. rewrite (proj2 (N.leb_gt _ _)) by assumption. reflexivity.
Qed.

(** Numerals whose value fits 64 bits -- so all those of at most 64 digits -- are exact. *)
Theorem binary_exact : forall file before d rest ts,
  d <> [] -> forallb (among "01.") d = true -> positional 2 (undot d) < 2 ^ 64 ->
  starts (among "01.") rest = false ->
  lexes file before (c_ "%" :: d ++ rest) ts ->
  if positional 2 (undot d) <=? 4095
  then exists ts', ts = NumericLiteral (positional 2 (undot d)) (located file before (c_ "%" :: d)) :: ts'
                   /\ lexes file (before ++ c_ "%" :: d) rest ts'
  else ts = [ErrorToken (BinaryLiteralOutOfRange d) (located file before (c_ "%" :: d))].
Proof.
  intros file before d rest ts Hn Ha Hv Hr H.
  pose proof (binary_actual file before d rest ts Hn Ha Hr H) as B. cbv zeta in B.
  rewrite N.mod_small in B by exact Hv. exact B.
Qed.

Lemma undot_small : forall d, forallb (among "01.") d = true ->
  positional 2 (undot d) < 2 ^ N.of_nat (length d).
Proof.
  intros d H. rewrite <- (map_length (fun c => if c =? c_ "." then c_ "0" else c) d).
  apply positional_lt; [lia|]. intros c Hc. unfold undot in Hc. apply in_map_iff in Hc.
  destruct Hc as (x & <- & Hx). rewrite forallb_forall in H. specialize (H x Hx).
  rewrite <- is_bin_digit_spec in H. apply undot_digit. exact H.
Qed.

Lemma hex_lexeme : forall p d rest, among "$#" p = true -> (1 <= length d <= 3)%nat ->
  forallb (among hexadecimal_digits) d = true ->
  (length d = 3%nat \/ starts (among hexadecimal_digits) rest = false) ->
  lexeme KHex (p :: d) rest (p :: d ++ rest).
Proof.
  intros p d rest Hp Hl Ha Hr.
  assert (F : find KHex (p :: d ++ rest) = Some (p :: d)).
  { cbn [find]. unfold find_hex_literal.
    assert (E : (p =? c_ "$") || (p =? c_ "#") = true)
      by (unfold among in Hp; cbn in Hp; rewrite orb_false_r in Hp; exact Hp).
    rewrite E. clear E.
    rewrite <- (forallb_ext _ _ d is_hex_digit_spec) in Ha.
    assert (G : forall n d, (length d <= n)%nat -> forallb is_hex_digit d = true ->
      (length d = n \/ starts (among hexadecimal_digits) rest = false) ->
      take_while_max n is_hex_digit (d ++ rest) = d).
    { induction n as [|n IH]; intros d0 L A R.
      - destruct d0; [reflexivity | cbn in L; lia].
      - destruct d0 as [|c d0]; cbn [app take_while_max].
        + destruct R as [R|R]; [discriminate|]. destruct rest as [|c r]; [reflexivity|].
          cbn [starts] in R. rewrite is_hex_digit_spec, R. reflexivity.
        + cbn [forallb] in A. apply andb_true_iff in A. destruct A as [Ac A]. rewrite Ac.
          rewrite IH; [reflexivity | cbn in L; lia | exact A |].
          destruct R as [R|R]; [left; cbn in R; lia | right; exact R]. }
    rewrite (G 3%nat d) by (try assumption; lia).
    destruct d; [cbn in Hl; lia | reflexivity]. }
  destruct (find_lexeme _ _ _ F) as (r & E & L). cbn in E.
  apply (app_inv_head (p :: d)) in E. subst. exact L.
Qed.

Theorem hex_exact : forall file before p d rest ts,
  among "$#" p = true -> (1 <= length d <= 3)%nat ->
  forallb (among hexadecimal_digits) d = true ->
  (length d = 3%nat \/ starts (among hexadecimal_digits) rest = false) ->
  lexes file before (p :: d ++ rest) ts ->
  positional 16 d <= 4095 /\
  exists ts', ts = NumericLiteral (positional 16 d) (located file before (p :: d)) :: ts'
              /\ lexes file (before ++ p :: d) rest ts'.
Proof.
  intros file before p d rest ts Hp Hl Ha Hr H. split.
  - assert (P : positional 16 d < 16 ^ N.of_nat (length d)).
    { apply positional_lt; [lia|]. intros c Hc. rewrite forallb_forall in Ha. specialize (Ha c Hc).
      rewrite <- is_hex_digit_spec in Ha. apply hex_digit_value. exact Ha. }
    assert (16 ^ N.of_nat (length d) <= 16 ^ 3) by (apply N.pow_le_mono_r; lia).
    change (16 ^ 3) with 4096 in *. lia.
  - destruct (lexes_cons_inv _ _ _ _ _ _ _ (hex_lexeme p d rest Hp Hl Ha Hr) H)
      as [(t & ts' & -> & T & L) | (e & -> & B)].
    + inversion T; subst. eauto.
    + inversion B.
Qed.

Theorem hex_invalid : forall file before p rest ts,
  among "$#" p = true -> starts (among hexadecimal_digits) rest = false ->
  lexes file before (p :: rest) ts ->
  ts = [ErrorToken InvalidHexadecimalLiteral (located file before [p])].
Proof.
  intros file before p rest ts Hp Hr H. eapply lexes_det; [exact H|].
  assert (E : (p =? c_ "$") || (p =? c_ "#") = true)
    by (unfold among in Hp; cbn in Hp; rewrite orb_false_r in Hp; exact Hp).
  assert (O : first_ok KHex p = true) by exact E.
  replace InvalidHexadecimalLiteral with (no_lexeme_error p).
  - apply lex_stuck; [eapply first_not_blank; exact O|].
    apply (stuck_only KHex); [exact O|]. cbn [find]. unfold find_hex_literal. rewrite E.
    destruct rest as [|c r]; [reflexivity|]. cbn [starts] in Hr. cbn [take_while_max].
    rewrite is_hex_digit_spec, Hr. reflexivity.
  - unfold no_lexeme_error. rewrite Hp.
    assert (p =? QUOTE = false) by (change (c_ "$") with 36 in E; change (c_ "#") with 35 in E;
                                    unfold QUOTE; lia).
    rewrite H0. reflexivity.
Qed.

(** Conversely, every number token of a text has a numeral of that value behind it,
    and never exceeds 4095. *)
Lemma lexes_number : forall file before s ts, lexes file before s ts ->
  forall v l, In (NumericLiteral v l) ts ->
  v <= 4095 /\
  exists b m after, s = b ++ m ++ after /\ l = located file (before ++ b) m /\
    ((rmatch (pattern KDec) m /\ v = positional 10 m) \/
     (exists p d, m = p :: d /\ rmatch (pattern KHex) m /\ v = positional 16 d) \/
     (exists p d, m = p :: d /\ rmatch (pattern KBin) m /\ v = positional 2 (undot d) mod 2 ^ 64)).
Proof.
  intros file before s ts H.
  induction H as [before | before c s ts Hb H IH | before s k m rest t ts L T H IH
                  | before s k m rest e L B | before c s Hb St]; intros v l Hin.
  - destruct Hin.
  - destruct (IH _ _ Hin) as (V & b & m & after & -> & El & D). split; [exact V|].
    exists (c :: b), m, after. repeat split; [|exact D]. rewrite <- app_assoc in El. exact El.
  - destruct Hin as [->|Hin].
    + destruct L as (E & R & Mx). inversion T; subst.
      * split.
        { cbn [pattern] in R. apply rmatch_cat in R. destruct R as (a & b' & Eab & Ra & Rb).
          apply rmatch_chr in Ra. destruct Ra as (x & -> & Hx). cbn in Eab. inversion Eab; subst.
          apply rmatch_hex_digits in Rb. destruct Rb as [Rb Lb].
          assert (P : positional 16 b' < 16 ^ N.of_nat (length b')).
          { apply positional_lt; [lia|]. intros y Hy. rewrite forallb_forall in Rb.
            specialize (Rb y Hy). rewrite <- is_hex_digit_spec in Rb. apply hex_digit_value. exact Rb. }
          assert (16 ^ N.of_nat (length b') <= 16 ^ 3) by (apply N.pow_le_mono_r; lia).
          change (16 ^ 3) with 4096 in *. lia. }
        exists [], (c :: d), rest. repeat split; [rewrite app_nil_r; reflexivity|].
        right. left. eauto.
      * split; [assumption|]. exists [], (c :: d), rest.
        repeat split; [rewrite app_nil_r; reflexivity|]. right. right. eauto.
      * split; [assumption|]. exists [], m, rest.
        repeat split; [rewrite app_nil_r; reflexivity|]. left. eauto.
    + destruct (IH _ _ Hin) as (V & b & m' & after & -> & El & D). split; [exact V|].
      exists (m ++ b), m', after. repeat split; [| |exact D].
      * destruct L as (-> & _). rewrite <- app_assoc. reflexivity.
      * rewrite <- app_assoc in El. exact El.
  - destruct Hin as [Hin|[]]. discriminate.
  - destruct Hin as [Hin|[]]. discriminate.
Qed.

(** ** Strings *)

(** A string body: no bare quote, backslashes paired with the character after them. *)
Inductive string_body : str -> Prop :=
| sb_nil : string_body []
| sb_char : forall c b, c <> QUOTE -> c <> BACKSLASH -> string_body b -> string_body (c :: b)
| sb_pair : forall c b, c <> LF -> string_body b -> string_body (BACKSLASH :: c :: b).

Lemma string_body_star : forall b, string_body b <-> rmatch (Star string_item) b.
Proof.
  split.
  - induction 1 as [|c b H1 H2 H IH | c b H1 H IH].
    + constructor.
    + change (c :: b) with ([c] ++ b). constructor; [|exact IH]. apply m_alt_l. constructor.
      rewrite noneof_2. lia.
    + change (BACKSLASH :: c :: b) with (([BACKSLASH] ++ [c]) ++ b). constructor; [|exact IH].
      apply m_alt_r. constructor; [apply rmatch_lit; reflexivity | constructor]. rewrite noneof_1. lia.
  - intros H. remember (Star string_item) as p eqn:E. induction H; inversion E; subst.
    + constructor.
    + apply rmatch_alt in H. destruct H as [H|H].
      * apply rmatch_chr in H. destruct H as (c & -> & Hc). rewrite noneof_2 in Hc.
        cbn [app]. constructor; [lia | lia | apply IHrmatch2; reflexivity].
      * apply rmatch_cat in H. destruct H as (s1 & s2 & -> & H1 & H2).
        apply rmatch_lit in H1. apply rmatch_chr in H2. destruct H2 as (c & -> & Hc). subst s1.
        rewrite noneof_1 in Hc. cbn [app]. constructor; [lia | apply IHrmatch2; reflexivity].
Qed.

Theorem string_exact : forall file before b rest ts, string_body b ->
  lexes file before (QUOTE :: b ++ QUOTE :: rest) ts ->
  exists ts', ts = StringLiteral b (located file before (QUOTE :: b ++ [QUOTE])) :: ts'
              /\ lexes file (before ++ QUOTE :: b ++ [QUOTE]) rest ts'.
Proof.
  intros file before b rest ts Hb H. apply string_body_star in Hb.
  assert (F : find KString (QUOTE :: b ++ QUOTE :: rest) = Some (QUOTE :: b ++ [QUOTE])).
  { cbn [find]. unfold find_string_literal. change (QUOTE =? 34) with true. cbn iota.
    rewrite find_string_body_complete by exact Hb. reflexivity. }
  destruct (find_lexeme _ _ _ F) as (r & E & L).
  assert (r = rest).
  { cbn [app] in E. inversion E as [E']. rewrite <- app_assoc in E'. apply app_inv_head in E'.
    inversion E'. reflexivity. }
  subst r.
  destruct (lexes_cons_inv _ _ _ _ _ _ _ L H) as [(t & ts' & -> & T & L') | (e & -> & B)].
  - inversion T; subst. match goal with X : _ ++ [QUOTE] = _ |- _ => apply app_inv_tail in X; subst end.
    eauto.
  - inversion B.
Qed.
