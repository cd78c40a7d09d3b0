(** * GrammarLines: the grammar, line by line. *)

From Verif Require Import Base Text Location Token Parser Assembler SpecLex SpecGrammar SpecErase BaseFacts.
Open Scope N_scope.

(** ** Locations and comment texts do not matter *)

Lemma same_cons : forall t ts ts', same_tokens (t :: ts) ts' ->
  exists t' ts'', ts' = t' :: ts'' /\ bare t = bare t' /\ same_tokens ts ts''.
Proof.
  intros t ts [|t' ts'] H; unfold same_tokens in H; [discriminate|]. cbn [map] in H. injection H as H1 H2.
  exists t', ts'. auto.
Qed.

Lemma same_nil : forall ts, same_tokens [] ts -> ts = [].
Proof. intros [|t ts] H; [reflexivity | discriminate]. Qed.

Lemma same_sym : forall ts ts', same_tokens ts ts' -> same_tokens ts' ts.
Proof. unfold same_tokens. auto. Qed.

Lemma same_app : forall a a' b b', same_tokens a a' -> same_tokens b b' -> same_tokens (a ++ b) (a' ++ b').
Proof. unfold same_tokens. intros a a' b b' H H'. rewrite !map_app, H, H'. reflexivity. Qed.

Ltac same_step :=
  match goal with
  | H : same_tokens (_ :: _) _ |- _ =>
      let t := fresh "t" in let ts := fresh "ts" in let E := fresh "E" in
      apply same_cons in H; destruct H as (t & ts & -> & E & H);
      destruct t; try discriminate E; try (injection E as <-)
  end.

Lemma literals_same : forall ts args rest, literals ts args rest -> forall ts', same_tokens ts ts' ->
  exists rest', literals ts' args rest' /\ same_tokens rest rest'.
Proof.
  induction 1 as [l rest|t a rest H|t a l ts args rest H _ IH]; intros ts' S.
  - pose proof S as S'. same_step.
    eexists. split; [constructor | exact S].
  - inversion H; subst; same_step; eexists; (split; [apply ls_one; constructor | exact S]).
  - inversion H; subst; same_step; same_step; destruct (IH _ S) as (rest' & L & S');
      eexists; (split; [apply ls_more; [constructor | exact L] | exact S']).
Qed.

Lemma fields_same : forall ts args rest, fields ts args rest -> forall ts', same_tokens ts ts' ->
  exists rest', fields ts' args rest' /\ same_tokens rest rest'.
Proof.
  induction 1 as [l rest|c l rest|t a rest H|t a l ts args rest H _ IH]; intros ts' S.
  - pose proof S as S'. same_step.
    eexists. split; [constructor | exact S].
  - pose proof S as S'. same_step.
    eexists. split; [constructor | exact S].
  - inversion H; subst; same_step; eexists; (split; [apply fs_one; constructor | exact S]).
  - inversion H; subst; same_step; same_step; destruct (IH _ S) as (rest' & L & S');
      eexists; (split; [apply fs_more; [constructor | exact L] | exact S']).
Qed.

Lemma program_same : forall ts p, program ts p -> forall ts', same_tokens ts ts' ->
  exists p', program ts' p' /\ same_program p p'.
Proof.
  unfold same_program.
  induction 1 as [|l ts ns _ IH|c l ts ns _ IH|l0 id l ts args rest ns L _ IH|id l l1 ts ns _ IH|id l ts args rest ns F _ IH];
    intros ts' S.
  - apply same_nil in S. subst. exists []. split; [constructor | reflexivity].
  - same_step. destruct (IH _ S) as (p' & P & E'). exists p'. split; [constructor; exact P | exact E'].
  - same_step. destruct (IH _ S) as (p' & P & E'). exists p'. split; [constructor; exact P | exact E'].
  - same_step. same_step. destruct (literals_same _ _ _ L _ S) as (rest' & L' & S').
    destruct (IH _ S') as (p' & P & E'). eexists. split; [eapply pr_directive; eassumption|].
    cbn [map bare_node]. rewrite E'. reflexivity.
  - same_step. same_step. destruct (IH _ S) as (p' & P & E'). eexists. split; [eapply pr_label; eassumption|].
    cbn [map bare_node]. rewrite E'. reflexivity.
  - same_step. destruct (fields_same _ _ _ F _ S) as (rest' & L' & S').
    destruct (IH _ S') as (p' & P & E'). eexists. split; [eapply pr_instruction; eassumption|].
    cbn [map bare_node]. rewrite E'. reflexivity.
Qed.

(** ** A newline separates statements *)

Ltac split_list H :=
  match type of H with
  | _ :: _ = ?a ++ _ :: _ => destruct a as [|? a]; cbn [app] in H; [injection H as H|injection H as H]
  end.

Lemma literals_line : forall ts args rest, literals ts args rest -> forall a l b, ts = a ++ Newline l :: b ->
  exists a', rest = a' ++ Newline l :: b /\
    forall b', literals (a ++ Newline l :: b') args (a' ++ Newline l :: b').
Proof.
  induction 1 as [l0 rest|t x rest H|t x l0 ts args rest H _ IH]; intros a l b E.
  - exists a. split; [exact E|]. intros b'. destruct a as [|y a]; [constructor|].
    cbn [app] in E. injection E as <- E. constructor.
  - destruct a as [|y a]; cbn [app] in E; injection E as E1 E2; subst; [inversion H|].
    exists a. split; [reflexivity|]. intros b'. apply ls_one. exact H.
  - destruct a as [|y [|z a]]; cbn [app] in E;
      [injection E as E1 E2; subst; inversion H | discriminate | injection E as E1 E2 E3; subst].
    destruct (IH a l b eq_refl) as (a' & -> & G). exists a'.
    split; [reflexivity|]. intros b'. apply ls_more; [exact H | apply G].
Qed.

Lemma fields_line : forall ts args rest, fields ts args rest -> forall a l b, ts = a ++ Newline l :: b ->
  exists a', rest = a' ++ Newline l :: b /\
    forall b', fields (a ++ Newline l :: b') args (a' ++ Newline l :: b').
Proof.
  induction 1 as [l0 rest|c l0 rest|t x rest H|t x l0 ts args rest H _ IH]; intros a l b E.
  - exists a. split; [exact E|]. intros b'. destruct a as [|y a]; [constructor|].
    cbn [app] in E. injection E as <- E. constructor.
  - destruct a as [|y a]; cbn [app] in E; [discriminate|]. injection E as <- E.
    exists (SingleLineComment c l0 :: a). subst. split; [reflexivity|]. intros b'. constructor.
  - destruct a as [|y a]; cbn [app] in E; injection E as E1 E2; subst; [inversion H|].
    exists a. split; [reflexivity|]. intros b'. apply fs_one. exact H.
  - destruct a as [|y [|z a]]; cbn [app] in E;
      [injection E as E1 E2; subst; inversion H | discriminate | injection E as E1 E2 E3; subst].
    destruct (IH a l b eq_refl) as (a' & -> & G). exists a'.
    split; [reflexivity|]. intros b'. apply fs_more; [exact H | apply G].
Qed.

Lemma program_line : forall a l b p,
  program (a ++ Newline l :: b) p <->
  exists p1 p2, p = p1 ++ p2 /\ program (a ++ [Newline l]) p1 /\ program b p2.
Proof.
  intros a l b p. split.
  - intros H. remember (a ++ Newline l :: b) as ts eqn:E. revert a E.
    induction H as [|l0 ts ns H IH|c l0 ts ns H IH|l0 id l1 ts args rest ns L H IH|id l0 l1 ts ns H IH|id l0 ts args rest ns F H IH];
      intros a E.
    + destruct a; discriminate.
    + destruct a as [|y a]; cbn [app] in E; injection E as E1 E2; subst.
      * exists [], ns. split; [reflexivity|]. split; [apply pr_newline; constructor | exact H].
      * destruct (IH a eq_refl) as (p1 & p2 & -> & H1 & H2). exists p1, p2.
        split; [reflexivity|]. split; [apply pr_newline; exact H1 | exact H2].
    + destruct a as [|y a]; cbn [app] in E; [discriminate|]; injection E as E1 E2; subst.
      destruct (IH a eq_refl) as (p1 & p2 & -> & H1 & H2). exists p1, p2.
      split; [reflexivity|]. split; [apply pr_comment; exact H1 | exact H2].
    + destruct a as [|y [|z a]]; cbn [app] in E; try discriminate. injection E as E1 E2 E3. subst.
      destruct (literals_line _ _ _ L a l b eq_refl) as (a' & -> & G).
      destruct (IH a' eq_refl) as (p1 & p2 & -> & H1 & H2). eexists (_ :: p1), p2.
      split; [reflexivity|]. split; [eapply pr_directive; [apply G | exact H1] | exact H2].
    + destruct a as [|y [|z a]]; cbn [app] in E; try discriminate. injection E as E1 E2 E3. subst.
      destruct (IH a eq_refl) as (p1 & p2 & -> & H1 & H2). eexists (_ :: p1), p2.
      split; [reflexivity|]. split; [apply pr_label; exact H1 | exact H2].
    + destruct a as [|y a]; cbn [app] in E; [discriminate|]. injection E as E1 E2. subst.
      destruct (fields_line _ _ _ F a l b eq_refl) as (a' & -> & G).
      destruct (IH a' eq_refl) as (p1 & p2 & -> & H1 & H2). eexists (_ :: p1), p2.
      split; [reflexivity|]. split; [eapply pr_instruction; [apply G | exact H1] | exact H2].
  - intros (p1 & p2 & -> & H & H2). remember (a ++ [Newline l]) as ts eqn:E. revert a E.
    induction H as [|l0 ts ns H IH|c l0 ts ns H IH|l0 id l1 ts args rest ns L H IH|id l0 l1 ts ns H IH|id l0 ts args rest ns F H IH];
      intros a E.
    + destruct a; discriminate.
    + destruct a as [|y a]; cbn [app] in E; injection E as E1 E2; subst.
      * inversion H; subst. apply pr_newline. exact H2.
      * apply pr_newline. apply IH. reflexivity.
    + destruct a as [|y a]; cbn [app] in E; [discriminate|]; injection E as E1 E2; subst.
      apply pr_comment. apply IH. reflexivity.
    + destruct a as [|y [|z a]]; cbn [app] in E; try discriminate. injection E as E1 E2 E3. subst.
      destruct (literals_line _ _ _ L a l [] eq_refl) as (a' & -> & G).
      cbn [app]. eapply pr_directive; [apply G | apply IH; reflexivity].
    + destruct a as [|y [|z a]]; cbn [app] in E; try discriminate. injection E as E1 E2 E3. subst.
      cbn [app]. apply pr_label. apply IH. reflexivity.
    + destruct a as [|y a]; cbn [app] in E; [discriminate|]. injection E as E1 E2. subst.
      destruct (fields_line _ _ _ F a l [] eq_refl) as (a' & -> & G).
      cbn [app]. eapply pr_instruction; [apply G | apply IH; reflexivity].
Qed.

Lemma program_newline : forall l b p, program (Newline l :: b) p <-> program b p.
Proof. intros l b p. split; [intros H; inversion H; assumption | apply pr_newline]. Qed.

Lemma program_comment : forall c l b p, program (SingleLineComment c l :: b) p <-> program b p.
Proof. intros c l b p. split; [intros H; inversion H; assumption | apply pr_comment]. Qed.

(** ** A comment at the end of a line *)

Definition literal_or_comma (t : token) : bool :=
  match t with StringLiteral _ _ | NumericLiteral _ _ | Comma _ => true | _ => false end.

(** A literal list which only the end of the line can follow. *)
Definition open_list (ts : list token) : Prop :=
  Forall (fun t => literal_or_comma t = true) ts /\ (ts = [] \/ exists xs l, ts = xs ++ [Comma l]).

(** The tokens end in a directive with such a list. *)
Definition open_directive (ts : list token) : Prop :=
  exists before l0 id l xs,
    ts = before ++ DirectiveMarker l0 :: Identifier id l :: xs /\ open_list xs.

Lemma literal_token_kind : forall t a, literal_token t a -> literal_or_comma t = true.
Proof. intros t a H. inversion H; reflexivity. Qed.

Lemma open_list_more : forall t l xs, literal_or_comma t = true -> open_list xs -> open_list (t :: Comma l :: xs).
Proof.
  intros t l xs T [F D]. split; [repeat constructor; assumption|]. right.
  destruct D as [->|(ys & l' & ->)]; [exists [t], l; reflexivity|].
  exists (t :: Comma l :: ys), l'. reflexivity.
Qed.

(** A literal list is complete, whatever follows, or needs the end of the line. *)
Lemma literals_shape : forall ts args rest, literals ts args rest ->
  exists x, ts = x ++ rest /\
    ((forall r, literals (x ++ r) args r) \/
     (open_list x /\ (exists l r, rest = Newline l :: r) /\
      forall l r, literals (x ++ Newline l :: r) args (Newline l :: r))).
Proof.
  induction 1 as [l0 rest|t x rest H|t x l0 ts args rest H _ (y & -> & IH)].
  - exists []. split; [reflexivity|]. right. split; [split; [constructor | left; reflexivity]|].
    split; [eauto|]. intros l r. constructor.
  - exists [t]. split; [reflexivity|]. left. intros r. apply ls_one. exact H.
  - exists (t :: Comma l0 :: y). split; [reflexivity|]. destruct IH as [IH|(O & R & IH)].
    + left. intros r. apply ls_more; [exact H | apply IH].
    + right. split; [apply open_list_more; [eapply literal_token_kind; exact H | exact O]|].
      split; [exact R|]. intros l r. apply ls_more; [exact H | apply IH].
Qed.

(** What ends a list of operands. *)
Definition ends_line (t : token) : Prop :=
  (exists l, t = Newline l) \/ (exists c l, t = SingleLineComment c l).

Lemma fields_shape : forall ts args rest, fields ts args rest ->
  exists x, ts = x ++ rest /\
    ((forall r, fields (x ++ r) args r) \/
     ((x = [] \/ exists xs l, x = xs ++ [Comma l]) /\ (exists t r, ends_line t /\ rest = t :: r) /\
      forall t r, ends_line t -> fields (x ++ t :: r) args (t :: r))).
Proof.
  assert (N : forall t r, ends_line t -> fields (t :: r) [] (t :: r)).
  { intros t r [(l & ->)|(c & l & ->)]; constructor. }
  induction 1 as [l0 rest|c l0 rest|t x rest H|t x l0 ts args rest H _ (y & -> & IH)].
  - exists []. split; [reflexivity|]. right. split; [left; reflexivity|].
    split; [do 2 eexists; split; [left; eauto | reflexivity]|]. exact N.
  - exists []. split; [reflexivity|]. right. split; [left; reflexivity|].
    split; [do 2 eexists; split; [right; eauto | reflexivity]|]. exact N.
  - exists [t]. split; [reflexivity|]. left. intros r. apply fs_one. exact H.
  - exists (t :: Comma l0 :: y). split; [reflexivity|]. destruct IH as [IH|(O & R & IH)].
    + left. intros r. apply fs_more; [exact H | apply IH].
    + right. split.
      { right. destruct O as [->|(xs & l & ->)]; [exists [t], l0; reflexivity|].
        exists (t :: Comma l0 :: xs), l. reflexivity. }
      split; [exact R|]. intros t' r T. apply fs_more; [exact H | apply IH; exact T].
Qed.

Lemma open_directive_app : forall x ts, open_directive ts -> open_directive (x ++ ts).
Proof.
  intros x ts (b & l0 & id & l & xs & -> & O). exists (x ++ b), l0, id, l, xs.
  rewrite <- app_assoc. auto.
Qed.

(** A comment can be added at the end of a line unless a directive's list is open. *)
Lemma comment_added : forall a l p c lc, program (a ++ [Newline l]) p -> ~ open_directive a ->
  program (a ++ [SingleLineComment c lc; Newline l]) p.
Proof.
  intros a l p c lc H. remember (a ++ [Newline l]) as ts eqn:E. revert a E.
  induction H as [|l0 ts ns H IH|c0 l0 ts ns H IH|l0 id l1 ts args rest ns L H IH|id l0 l1 ts ns H IH|id l0 ts args rest ns F H IH];
    intros a E O.
  - destruct a; discriminate.
  - destruct a as [|y a]; cbn [app] in E; injection E as E1 E2; subst.
    + inversion H; subst. cbn [app]. apply pr_comment, pr_newline. constructor.
    + apply pr_newline. apply IH; [reflexivity|]. intros X. apply O. apply (open_directive_app [Newline l0]). exact X.
  - destruct a as [|y a]; cbn [app] in E; [discriminate|]; injection E as E1 E2; subst.
    apply pr_comment. apply IH; [reflexivity|]. intros X. apply O. apply (open_directive_app [_]). exact X.
  - destruct a as [|y [|z a]]; cbn [app] in E; try discriminate. injection E as E1 E2 E3. subst.
    destruct (literals_line _ _ _ L a l [] eq_refl) as (a' & -> & G).
    destruct (literals_shape _ _ _ L) as (x & Ex & D). rewrite app_assoc in Ex. apply app_inv_tail in Ex. subst a.
    assert (P : program (a' ++ [SingleLineComment c lc; Newline l]) ns).
    { apply IH; [reflexivity|]. intros X. apply O. apply (open_directive_app (_ :: _ :: x)). exact X. }
    cbn [app]. rewrite <- app_assoc. destruct D as [D|(Op & (l' & r & Er) & D)].
    + eapply pr_directive; [apply D | exact P].
    + destruct a' as [|y a'].
      * exfalso. apply O. exists [], l0, id, l1, x. rewrite app_nil_r. auto.
      * cbn [app] in Er. injection Er as -> _. eapply pr_directive; [apply D | exact P].
  - destruct a as [|y [|z a]]; cbn [app] in E; try discriminate. injection E as E1 E2 E3. subst.
    cbn [app]. apply pr_label. apply IH; [reflexivity|]. intros X. apply O.
    apply (open_directive_app [_; _]). exact X.
  - destruct a as [|y a]; cbn [app] in E; [discriminate|]. injection E as E1 E2. subst.
    destruct (fields_line _ _ _ F a l [] eq_refl) as (a' & -> & G).
    destruct (fields_shape _ _ _ F) as (x & Ex & D). rewrite app_assoc in Ex. apply app_inv_tail in Ex. subst a.
    assert (P : program (a' ++ [SingleLineComment c lc; Newline l]) ns).
    { apply IH; [reflexivity|]. intros X. apply O. apply (open_directive_app (_ :: x)). exact X. }
    cbn [app]. rewrite <- app_assoc. destruct D as [D|(Op & (t & r & T & Er) & D)].
    + eapply pr_instruction; [apply D | exact P].
    + destruct a' as [|y a'].
      * cbn [app] in *. eapply pr_instruction; [apply D; right; eauto | exact P].
      * cbn [app] in Er. injection Er as -> _. eapply pr_instruction; [apply D; exact T | exact P].
Qed.

(** A directive marker starts a directive. *)
Lemma literals_marker : forall ts args rest, literals ts args rest -> forall a l b, ts = a ++ DirectiveMarker l :: b ->
  exists a', rest = a' ++ DirectiveMarker l :: b.
Proof.
  induction 1 as [l0 rest|t x rest H|t x l0 ts args rest H _ IH]; intros a l b E.
  - exists a. exact E.
  - destruct a as [|y a]; cbn [app] in E; injection E as E1 E2; subst; [inversion H|]. eauto.
  - destruct a as [|y [|z a]]; cbn [app] in E;
      [injection E as E1 E2; subst; inversion H | discriminate | injection E as E1 E2 E3; subst].
    eauto.
Qed.

Lemma fields_marker : forall ts args rest, fields ts args rest -> forall a l b, ts = a ++ DirectiveMarker l :: b ->
  exists a', rest = a' ++ DirectiveMarker l :: b.
Proof.
  induction 1 as [l0 rest|c l0 rest|t x rest H|t x l0 ts args rest H _ IH]; intros a l b E.
  - exists a. exact E.
  - exists a. exact E.
  - destruct a as [|y a]; cbn [app] in E; injection E as E1 E2; subst; [inversion H|]. eauto.
  - destruct a as [|y [|z a]]; cbn [app] in E;
      [injection E as E1 E2; subst; inversion H | discriminate | injection E as E1 E2 E3; subst].
    eauto.
Qed.

Lemma program_marker : forall ts p, program ts p -> forall a l b, ts = a ++ DirectiveMarker l :: b ->
  exists p', program (DirectiveMarker l :: b) p'.
Proof.
  induction 1 as [|l0 ts ns H IH|c l0 ts ns H IH|l0 id l1 ts args rest ns L H IH|id l0 l1 ts ns H IH|id l0 ts args rest ns F H IH];
    intros a l b E.
  - destruct a; discriminate.
  - destruct a as [|y a]; cbn [app] in E; [discriminate|]; injection E as E1 E2; subst. eauto.
  - destruct a as [|y a]; cbn [app] in E; [discriminate|]; injection E as E1 E2; subst. eauto.
  - destruct a as [|y [|z a]]; cbn [app] in E; try discriminate.
    + injection E as -> <-. eexists. eapply pr_directive; eassumption.
    + injection E as E1 E2 E3. subst.
      destruct (literals_marker _ _ _ L a l b eq_refl) as (a' & ->). eauto.
  - destruct a as [|y [|z a]]; cbn [app] in E; try discriminate. injection E as E1 E2 E3. subst. eauto.
  - destruct a as [|y a]; cbn [app] in E; [discriminate|]. injection E as E1 E2. subst.
    destruct (fields_marker _ _ _ F a l b eq_refl) as (a' & ->). eauto.
Qed.

(** No program starts with a literal or a comma. *)
Lemma program_start : forall t ts p, program (t :: ts) p -> literal_or_comma t = false.
Proof. intros t ts p H. inversion H; reflexivity. Qed.

(** Otherwise it cannot: what follows an open list is the end of the line. *)
Lemma open_next : forall ts0 args rest, literals ts0 args rest -> forall xs t ts, ts0 = xs ++ t :: ts ->
  open_list xs -> (forall t' r, rest = t' :: r -> literal_or_comma t' = false) ->
  literal_or_comma t = true \/ exists l, t = Newline l.
Proof.
  induction 1 as [l0 rest|t0 x rest H|t0 x l0 ts0 args rest H _ IH]; intros xs t ts E [F D] R.
  - destruct xs as [|y xs]; cbn [app] in E; injection E as E1 E2; subst; [eauto|].
    inversion F as [|? ? F1 _]; subst. discriminate.
  - destruct xs as [|y xs]; cbn [app] in E; injection E as E1 E2; subst.
    + left. eapply literal_token_kind; exact H.
    + destruct xs as [|z xs].
      * destruct D as [D|(ys & l & D)]; [discriminate|]. destruct ys as [|y' [|]]; try discriminate.
        injection D as ->. inversion H.
      * specialize (R _ _ eq_refl). inversion F as [|? ? F1 F2]; subst. inversion F2; subst. congruence.
  - destruct xs as [|y [|z xs]]; cbn [app] in E.
    + injection E as E1 E2. subst. left. eapply literal_token_kind; exact H.
    + injection E as E1 E2 E3. subst. left. reflexivity.
    + injection E as E1 E2 E3. subst. apply (IH xs t ts eq_refl); [|exact R].
      inversion F as [|? ? F1 F2]; subst. inversion F2 as [|? ? F3 F4]; subst. split; [exact F4|].
      destruct D as [D|(ys & l & D)]; [discriminate|].
      destruct xs as [|w xs]; [left; reflexivity|]. right.
      destruct ys as [|y' [|z' ys]]; try discriminate; cbn [app] in D; injection D as _ _ D; eauto.
Qed.

Lemma comment_refused : forall a t ts p, open_directive a -> program (a ++ t :: ts) p ->
  literal_or_comma t = true \/ exists l, t = Newline l.
Proof.
  intros a t ts p (b & l0 & id & l & xs & -> & O) H. rewrite <- app_assoc in H. cbn [app] in H.
  destruct (program_marker _ _ H b l0 _ eq_refl) as (p' & H').
  inversion H' as [| | |? ? ? ? ? rest ? L P| |]; subst.
  apply (open_next _ _ _ L xs t ts eq_refl O). intros t' r ->. eapply program_start; exact P.
Qed.

(** ** The last newline *)

(** A statement which only the end of the line can follow. *)
Inductive needs_newline : list token -> Prop :=
| needs_comma : forall before l, needs_newline (before ++ [Comma l])
| needs_mnemonic : forall before p id l, program before p ->
    needs_newline (before ++ [Identifier id l])
| needs_name : forall before p l0 id l, program before p ->
    needs_newline (before ++ [DirectiveMarker l0; Identifier id l]).

Lemma open_needs : forall before p l0 id l xs, program before p -> open_list xs ->
  needs_newline (before ++ DirectiveMarker l0 :: Identifier id l :: xs).
Proof.
  intros before p l0 id l xs P [_ [->|(ys & l' & ->)]]; [eapply needs_name; exact P|].
  change (DirectiveMarker l0 :: Identifier id l :: ys ++ [Comma l'])
    with ((DirectiveMarker l0 :: Identifier id l :: ys) ++ [Comma l']). rewrite app_assoc. constructor.
Qed.

(** A complete statement before such a statement. *)
Lemma needs_after : forall x a,
  (forall r t s p, program r p -> a = r ++ t :: s -> ~ ends_line t -> exists p', program (x ++ r) p') ->
  needs_newline a -> needs_newline (x ++ a).
Proof.
  intros x a G N. destruct N as [before l|before p id l P|before p l0 id l P].
  - rewrite app_assoc. constructor.
  - rewrite app_assoc. destruct (G _ _ _ _ P eq_refl) as (p' & P').
    + intros [(l' & X)|(c & l' & X)]; discriminate.
    + eapply needs_mnemonic. exact P'.
  - rewrite app_assoc. destruct (G _ _ _ _ P eq_refl) as (p' & P').
    + intros [(l' & X)|(c & l' & X)]; discriminate.
    + eapply needs_name. exact P'.
Qed.

(** The last newline can be dropped, unless the last statement needs it. *)
Lemma newline_dropped : forall a l p, program (a ++ [Newline l]) p -> program a p \/ needs_newline a.
Proof.
  intros a l p H. remember (a ++ [Newline l]) as ts eqn:E. revert a E.
  induction H as [|l0 ts ns H IH|c0 l0 ts ns H IH|l0 id l1 ts args rest ns L H IH|id l0 l1 ts ns H IH|id l0 ts args rest ns F H IH];
    intros a E.
  - destruct a; discriminate.
  - destruct a as [|y a]; cbn [app] in E; injection E as E1 E2; subst.
    + inversion H; subst. left. constructor.
    + destruct (IH a eq_refl) as [P|N]; [left; apply pr_newline; exact P|]. right.
      apply (needs_after [_]); [|exact N]. intros r t s p P _ _. eexists. apply pr_newline. exact P.
  - destruct a as [|y a]; cbn [app] in E; [discriminate|]; injection E as E1 E2; subst.
    destruct (IH a eq_refl) as [P|N]; [left; apply pr_comment; exact P|]. right.
    apply (needs_after [_]); [|exact N]. intros r t s p P _ _. eexists. apply pr_comment. exact P.
  - destruct a as [|y [|z a]]; cbn [app] in E; try discriminate. injection E as E1 E2 E3. subst.
    destruct (literals_line _ _ _ L a l [] eq_refl) as (a' & -> & G).
    destruct (literals_shape _ _ _ L) as (x & Ex & D). rewrite app_assoc in Ex. apply app_inv_tail in Ex. subst a.
    destruct D as [D|(Op & (l' & r & Er) & D)].
    + destruct (IH a' eq_refl) as [P|N].
      * left. eapply pr_directive; [apply D | exact P].
      * right. apply (needs_after (_ :: _ :: x)); [|exact N]. intros r t s p P _ _. eexists. eapply pr_directive; [apply D | exact P].
    + destruct a' as [|y a'].
      * right. rewrite app_nil_r. apply (open_needs [] []); [constructor | exact Op].
      * cbn [app] in Er. injection Er as -> _. destruct (IH _ eq_refl) as [P|N].
        { left. eapply pr_directive; [apply D | exact P]. }
        right. apply (needs_after (_ :: _ :: x)); [|exact N]. intros r' t s p P Ea T.
        destruct r' as [|y r']; cbn [app] in Ea; injection Ea as <- Ea.
        { exfalso. apply T. left. eauto. }
        eexists. eapply pr_directive; [apply D | exact P].
  - destruct a as [|y [|z a]]; cbn [app] in E; try discriminate. injection E as E1 E2 E3. subst.
    destruct (IH a eq_refl) as [P|N]; [left; apply pr_label; exact P|]. right.
    apply (needs_after [_; _]); [|exact N]. intros r t s p P _ _. eexists. apply pr_label. exact P.
  - destruct a as [|y a]; cbn [app] in E; [discriminate|]. injection E as E1 E2. subst.
    destruct (fields_line _ _ _ F a l [] eq_refl) as (a' & -> & G).
    destruct (fields_shape _ _ _ F) as (x & Ex & D). rewrite app_assoc in Ex. apply app_inv_tail in Ex. subst a.
    destruct D as [D|(Op & (t & r & T & Er) & D)].
    + destruct (IH a' eq_refl) as [P|N].
      * left. eapply pr_instruction; [apply D | exact P].
      * right. apply (needs_after (_ :: x)); [|exact N]. intros r t s p P _ _. eexists. eapply pr_instruction; [apply D | exact P].
    + destruct a' as [|y a'].
      * right. rewrite app_nil_r. destruct Op as [->|(xs & l' & ->)].
        { apply (needs_mnemonic [] []). constructor. }
        apply (needs_comma (Identifier id l0 :: xs)).
      * cbn [app] in Er. injection Er as -> _. destruct (IH _ eq_refl) as [P|N].
        { left. eapply pr_instruction; [apply D; exact T | exact P]. }
        right. apply (needs_after (_ :: x)); [|exact N]. intros r' t' s p P Ea T'.
        destruct r' as [|y r']; cbn [app] in Ea; injection Ea as <- Ea; [contradiction|].
        eexists. eapply pr_instruction; [apply D; exact T | exact P].
Qed.

(** ** What follows a program *)

Lemma literals_extend : forall ts args rest, literals ts args rest -> forall b args' rest',
  literals (ts ++ b) args' rest' ->
  (forall l r, rest' <> Comma l :: r) -> (forall l r, rest ++ b <> Comma l :: r) ->
  rest' = rest ++ b.
Proof.
  induction 1 as [l0 rest|t0 x rest H|t0 x l0 ts0 args rest H _ IH]; intros b args' rest' L C C'.
  - cbn [app] in L. inversion L as [|? ? ? X|? ? ? ? ? ? X]; subst; [reflexivity | inversion X | inversion X].
  - cbn [app] in L. inversion L as [|? ? ? X E1 E2 E3|? ? ? ? ? ? X L' E1]; subst; [inversion H | reflexivity|].
    exfalso. eapply C'. symmetry. eassumption.
  - cbn [app] in L. inversion L as [|? ? ? X E1 E2 E3|? ? ? ? ? ? X L' E1]; subst; [inversion H | |].
    + exfalso. eapply C. reflexivity.
    + eapply IH; eassumption.
Qed.

Lemma fields_extend : forall ts args rest, fields ts args rest -> forall b args' rest',
  fields (ts ++ b) args' rest' ->
  (forall l r, rest' <> Comma l :: r) -> (forall l r, rest ++ b <> Comma l :: r) ->
  rest' = rest ++ b.
Proof.
  induction 1 as [l0 rest|c l0 rest|t0 x rest H|t0 x l0 ts0 args rest H _ IH]; intros b args' rest' L C C'.
  - cbn [app] in L. inversion L as [| |? ? ? X|? ? ? ? ? ? X]; subst; [reflexivity | inversion X | inversion X].
  - cbn [app] in L. inversion L as [| |? ? ? X|? ? ? ? ? ? X]; subst; [reflexivity | inversion X | inversion X].
  - cbn [app] in L. inversion L as [| |? ? ? X E1 E2 E3|? ? ? ? ? ? X L' E1]; subst; [inversion H | inversion H | reflexivity|].
    exfalso. eapply C'. symmetry. eassumption.
  - cbn [app] in L. inversion L as [| |? ? ? X E1 E2 E3|? ? ? ? ? ? X L' E1]; subst; [inversion H | inversion H | |].
    + exfalso. eapply C. reflexivity.
    + eapply IH; eassumption.
Qed.

Lemma no_comma_app : forall rest b p, program rest p -> (forall l r, b <> Comma l :: r) ->
  forall l r, rest ++ b <> Comma l :: r.
Proof.
  intros [|t rest] b p P C l r; [apply C|]. intros E. cbn [app] in E. injection E as -> _.
  apply program_start in P. discriminate.
Qed.

(** After a program, only a comma can make what follows part of it. *)
Lemma program_extend : forall a p, program a p -> forall b q, program (a ++ b) q ->
  (forall l r, b <> Comma l :: r) -> exists p', program b p'.
Proof.
  induction 1 as [|l0 ts ns H IH|c l0 ts ns H IH|l0 id l1 ts args rest ns L H IH|id l0 l1 ts ns H IH|id l0 ts args rest ns F H IH];
    intros b q Q C; cbn [app] in Q.
  - eauto.
  - inversion Q; subst. eauto.
  - inversion Q; subst. eauto.
  - inversion Q as [| | |? ? ? ? ? rest' ? L' Q'| |]; subst.
    assert (rest' = rest ++ b).
    { eapply literals_extend; [exact L | exact L' | | eapply no_comma_app; eassumption].
      intros l r ->. apply program_start in Q'. discriminate. }
    subst. eauto.
  - inversion Q as [| | | | |? ? ? ? rest' ? F' Q']; subst; [eauto|].
    inversion F' as [| |? ? ? X|? ? ? ? ? ? X]; subst; inversion X.
  - inversion Q as [| | | |? ? ? ? ? Q'|? ? ? ? rest' ? F' Q']; subst.
    + exfalso. match goal with X : _ :: _ = _ ++ b |- _ => rename X into E end. destruct F as [| |? ? ? X|? ? ? ? ? ? X]; cbn [app] in E; try discriminate;
        injection E as <- _; inversion X.
    + assert (rest' = rest ++ b).
      { eapply fields_extend; [exact F | exact F' | | eapply no_comma_app; eassumption].
        intros l r ->. apply program_start in Q'. discriminate. }
      subst. eauto.
Qed.

Lemma literals_last : forall ts args rest, literals ts args rest -> forall b l, ts = b ++ [Comma l] ->
  exists b', rest = b' ++ [Comma l].
Proof.
  induction 1 as [l0 rest|t x rest H|t x l0 ts args rest H L IH]; intros b l E.
  - eauto.
  - destruct b as [|y b]; cbn [app] in E; injection E as E1 E2; subst; [inversion H|]. eauto.
  - destruct b as [|y [|z b]]; cbn [app] in E; [discriminate | injection E as E1 E2 E3; subst; inversion L|].
    injection E as E1 E2 E3. subst. eauto.
Qed.

Lemma fields_last : forall ts args rest, fields ts args rest -> forall b l, ts = b ++ [Comma l] ->
  exists b', rest = b' ++ [Comma l].
Proof.
  induction 1 as [l0 rest|c l0 rest|t x rest H|t x l0 ts args rest H L IH]; intros b l E.
  - eauto.
  - eauto.
  - destruct b as [|y b]; cbn [app] in E; injection E as E1 E2; subst; [inversion H|]. eauto.
  - destruct b as [|y [|z b]]; cbn [app] in E; [discriminate | injection E as E1 E2 E3; subst; inversion L|].
    injection E as E1 E2 E3. subst. eauto.
Qed.

Lemma program_last : forall ts p, program ts p -> forall b l, ts <> b ++ [Comma l].
Proof.
  induction 1 as [|l0 ts ns H IH|c l0 ts ns H IH|l0 id l1 ts args rest ns L H IH|id l0 l1 ts ns H IH|id l0 ts args rest ns F H IH];
    intros b l E.
  - destruct b; discriminate.
  - destruct b as [|y b]; cbn [app] in E; [discriminate|]. injection E as E1 E2. eapply IH; exact E2.
  - destruct b as [|y b]; cbn [app] in E; [discriminate|]. injection E as E1 E2. eapply IH; exact E2.
  - destruct b as [|y [|z b]]; cbn [app] in E; try discriminate. injection E as E1 E2 E3.
    destruct (literals_last _ _ _ L _ _ E3) as (b' & E'). eapply IH; exact E'.
  - destruct b as [|y [|z b]]; cbn [app] in E; try discriminate. injection E as E1 E2 E3. eapply IH; exact E3.
  - destruct b as [|y b]; cbn [app] in E; [discriminate|]. injection E as E1 E2.
    destruct (fields_last _ _ _ F _ _ E2) as (b' & E'). eapply IH; exact E'.
Qed.

Lemma newline_needed : forall a p, needs_newline a -> ~ program a p.
Proof.
  intros a p N H. destruct N as [before l|before q id l Q|before q l0 id l Q].
  - eapply program_last; [exact H | reflexivity].
  - destruct (program_extend _ _ Q _ _ H) as (p' & P); [discriminate|].
    inversion P as [| | | | |? ? ? ? ? ? F]; subst. inversion F.
  - destruct (program_extend _ _ Q _ _ H) as (p' & P); [discriminate|].
    inversion P as [| | |? ? ? ? ? ? ? L| |]; subst. inversion L.
Qed.

(** ** Numbers in a row *)

Definition is_number (t : token) : bool := match t with NumericLiteral _ _ => true | _ => false end.

Lemma literals_numbers : forall ts args rest, literals ts args rest -> forall a t t' b, ts = a ++ t :: t' :: b ->
  literal_or_comma t = true -> is_number t' = true -> (forall l, t <> Comma l) ->
  (exists a', rest = a' ++ t :: t' :: b) \/ rest = t' :: b.
Proof.
  induction 1 as [l0 rest|t0 x rest H|t0 x l0 ts args rest H L IH]; intros a t t' b E K N D.
  - left. eauto.
  - destruct a as [|y a]; cbn [app] in E; injection E as E1 E2; subst; [right; reflexivity|]. left. eauto.
  - destruct a as [|y [|z a]]; cbn [app] in E.
    + injection E as E1 E2 E3. subst. discriminate.
    + injection E as E1 E2 E3. subst. exfalso. eapply D. reflexivity.
    + injection E as E1 E2 E3. subst. eapply IH; eauto.
Qed.

Lemma fields_numbers : forall ts args rest, fields ts args rest -> forall a t t' b, ts = a ++ t :: t' :: b ->
  literal_or_comma t = true -> is_number t' = true -> (forall l, t <> Comma l) ->
  (exists a', rest = a' ++ t :: t' :: b) \/ rest = t' :: b.
Proof.
  induction 1 as [l0 rest|c l0 rest|t0 x rest H|t0 x l0 ts args rest H L IH]; intros a t t' b E K N D.
  - left. eauto.
  - left. eauto.
  - destruct a as [|y a]; cbn [app] in E; injection E as E1 E2; subst; [right; reflexivity|]. left. eauto.
  - destruct a as [|y [|z a]]; cbn [app] in E.
    + injection E as E1 E2 E3. subst. discriminate.
    + injection E as E1 E2 E3. subst. exfalso. eapply D. reflexivity.
    + injection E as E1 E2 E3. subst. eapply IH; eauto.
Qed.

(** A literal is never followed by a number. *)
Lemma program_numbers : forall ts p, program ts p -> forall a t t' b, ts = a ++ t :: t' :: b ->
  is_number t = true -> is_number t' = true -> False.
Proof.
  assert (K : forall t, is_number t = true -> literal_or_comma t = true /\ forall l, t <> Comma l).
  { intros t T. destruct t; try discriminate. split; [reflexivity | discriminate]. }
  induction 1 as [|l0 ts ns H IH|c l0 ts ns H IH|l0 id l1 ts args rest ns L H IH|id l0 l1 ts ns H IH|id l0 ts args rest ns F H IH];
    intros a t t' b E T T'.
  - destruct a; discriminate.
  - destruct a as [|y a]; cbn [app] in E; injection E as E1 E2; subst; [discriminate | eauto].
  - destruct a as [|y a]; cbn [app] in E; injection E as E1 E2; subst; [discriminate | eauto].
  - destruct (K t T) as [Kt Dt].
    destruct a as [|y [|z a]]; cbn [app] in E; injection E as E1 E2 E3; subst; try discriminate.
    destruct (literals_numbers _ _ _ L a t t' b eq_refl Kt T' Dt) as [(a' & ->)| ->]; [eauto|].
    apply program_start in H. destruct (K _ T'). congruence.
  - destruct a as [|y [|z a]]; cbn [app] in E; injection E as E1 E2 E3; subst; try discriminate. eauto.
  - destruct (K t T) as [Kt Dt].
    destruct a as [|y a]; cbn [app] in E; injection E as E1 E2; subst; [discriminate|].
    destruct (fields_numbers _ _ _ F a t t' b eq_refl Kt T' Dt) as [(a' & ->)| ->]; [eauto|].
    apply program_start in H. destruct (K _ T'). congruence.
Qed.

(** ** Removing a comment, and programs in a row *)

Lemma literals_stop : forall ts args rest, literals ts args rest -> forall a t b, ts = a ++ t :: b ->
  literal_or_comma t = false -> exists a', rest = a' ++ t :: b.
Proof.
  induction 1 as [l0 rest|t0 x rest H|t0 x l0 ts args rest H _ IH]; intros a t b E K.
  - exists a. exact E.
  - destruct a as [|y a]; cbn [app] in E; injection E as E1 E2; subst; [|eauto].
    apply literal_token_kind in H. congruence.
  - destruct a as [|y [|z a]]; cbn [app] in E; injection E as E1 E2; subst.
    + apply literal_token_kind in H. congruence.
    + discriminate.
    + eauto.
Qed.

Lemma fields_stop : forall ts args rest, fields ts args rest -> forall a t b, ts = a ++ t :: b ->
  ends_line t -> exists a', rest = a' ++ t :: b.
Proof.
  assert (K : forall t a, ends_line t -> ~ field_token t a).
  { intros t a [(l & ->)|(c & l & ->)] H; inversion H. }
  induction 1 as [l0 rest|c l0 rest|t0 x rest H|t0 x l0 ts args rest H _ IH]; intros a t b E T.
  - exists a. exact E.
  - exists a. exact E.
  - destruct a as [|y a]; cbn [app] in E; injection E as E1 E2; subst; [|eauto].
    exfalso. eapply K; eassumption.
  - destruct a as [|y [|z a]]; cbn [app] in E; injection E as E1 E2; subst.
    + exfalso. eapply K; eassumption.
    + destruct T as [(l & X)|(c & l & X)]; discriminate.
    + eauto.
Qed.

Lemma comment_removed : forall a c lc l p, program (a ++ [SingleLineComment c lc; Newline l]) p ->
  program (a ++ [Newline l]) p.
Proof.
  intros a c lc l p H. remember (a ++ [SingleLineComment c lc; Newline l]) as ts eqn:E. revert a E.
  induction H as [|l0 ts ns H IH|c0 l0 ts ns H IH|l0 id l1 ts args rest ns L H IH|id l0 l1 ts ns H IH|id l0 ts args rest ns F H IH];
    intros a E.
  - destruct a; discriminate.
  - destruct a as [|y a]; cbn [app] in E; [discriminate|]; injection E as E1 E2; subst.
    apply pr_newline. apply IH. reflexivity.
  - destruct a as [|y a]; cbn [app] in E; injection E as E1 E2; subst.
    + exact H.
    + apply pr_comment. apply IH. reflexivity.
  - destruct a as [|y [|z a]]; cbn [app] in E; try discriminate. injection E as E1 E2 E3. subst.
    destruct (literals_stop _ _ _ L a _ _ eq_refl) as (a' & ->); [reflexivity|].
    destruct (literals_shape _ _ _ L) as (x & Ex & D). rewrite app_assoc in Ex. apply app_inv_tail in Ex. subst a.
    cbn [app]. rewrite <- app_assoc. destruct D as [D|(Op & (l' & r & Er) & D)].
    + eapply pr_directive; [apply D | apply IH; reflexivity].
    + destruct a' as [|y a']; cbn [app] in Er; [discriminate|]. injection Er as -> _.
      eapply pr_directive; [apply D | apply (IH (_ :: _)); reflexivity].
  - destruct a as [|y [|z a]]; cbn [app] in E; try discriminate. injection E as E1 E2 E3. subst.
    cbn [app]. apply pr_label. apply IH. reflexivity.
  - destruct a as [|y a]; cbn [app] in E; [discriminate|]. injection E as E1 E2. subst.
    destruct (fields_stop _ _ _ F a _ _ eq_refl) as (a' & ->); [right; eauto|].
    destruct (fields_shape _ _ _ F) as (x & Ex & D). rewrite app_assoc in Ex. apply app_inv_tail in Ex. subst a.
    cbn [app]. rewrite <- app_assoc. destruct D as [D|(Op & (t & r & T & Er) & D)].
    + eapply pr_instruction; [apply D | apply IH; reflexivity].
    + destruct a' as [|y a'].
      * cbn [app]. eapply pr_instruction; [apply D; left; eauto | apply (IH []); reflexivity].
      * cbn [app] in Er. injection Er as -> _.
        eapply pr_instruction; [apply D; exact T | apply (IH (_ :: _)); reflexivity].
Qed.

Lemma literals_app : forall ts args rest, literals ts args rest -> forall z, literals (ts ++ z) args (rest ++ z).
Proof. induction 1; intros z; cbn [app]; constructor; auto. Qed.

Lemma fields_app : forall ts args rest, fields ts args rest -> forall z, fields (ts ++ z) args (rest ++ z).
Proof. induction 1; intros z; cbn [app]; constructor; auto. Qed.

(** Two programs in a row are a program. *)
Lemma program_app : forall a p, program a p -> forall b q, program b q -> program (a ++ b) (p ++ q).
Proof.
  induction 1; intros b q Q; cbn [app]; auto.
  - constructor; auto.
  - constructor; auto.
  - eapply pr_directive; [apply literals_app; eassumption | auto].
  - constructor; auto.
  - eapply pr_instruction; [apply fields_app; eassumption | auto].
Qed.
