(** * PropExpect: property C55, with instances. *)

From Verif Require Import Base Text Location Token Scanner Parser SpecLex SpecGrammar SpecExpect
  BaseFacts ParseProofs PropParse.
Open Scope N_scope.

(** ** The lists, one by one *)

Definition allowed (before : list token) (expected : list str) (t : token) : Prop :=
  listed expected t \/ passed_over before expected t.

Ltac settle :=
  match goal with
  | H : allowed _ _ _ |- _ => destruct H as [(n & I & J)|H]
  | H : passed_over _ _ _ |- _ => inversion H; subst; clear H
  | H : In _ [] |- _ => destruct H
  | H : False |- _ => destruct H
  | H : In _ _ |- _ => cbn [names In] in H
  | H : _ \/ _ |- _ => destruct H
  end.

Lemma allowed_statement : forall b t, allowed b [dn_directive_marker; dn_identifier] t <->
  match t with
  | DirectiveMarker _ | Identifier _ _ | Newline _ | SingleLineComment _ _ => True
  | Comma _ => ends_in is_operand b
  | _ => False
  end.
Proof.
  intros b t. split.
  - intros H. destruct t; repeat settle; subst; try discriminate; trivial.
  - destruct t; intros H; try contradiction.
    + right. constructor. right. left. reflexivity.
    + left. exists dn_directive_marker. split; left; reflexivity.
    + left. exists dn_identifier. split; [left | right; left]; reflexivity.
    + right. constructor; [left; reflexivity | exact H].
    + right. constructor. discriminate.
Qed.

Lemma allowed_name : forall b t, allowed b [dn_identifier] t <-> is_name t.
Proof.
  intros b t. split.
  - intros H. destruct t; repeat settle; subst; try discriminate; try exact Logic.I.
    match goal with H : _ <> _ |- _ => destruct H; reflexivity end.
  - destruct t; intros H; try contradiction.
    left. exists dn_identifier. split; left; reflexivity.
Qed.

Lemma allowed_literal : forall b t, allowed b [dn_numeric_literal; dn_string_literal] t <->
  match t with
  | NumericLiteral _ _ | StringLiteral _ _ | Newline _ => True
  | _ => False
  end.
Proof.
  intros b t. split.
  - intros H. destruct t; repeat settle; subst; try discriminate; trivial.
  - destruct t; intros H; try contradiction.
    + left. exists dn_string_literal. split; [left | right; left]; reflexivity.
    + left. exists dn_numeric_literal. split; left; reflexivity.
    + right. constructor. discriminate.
Qed.

Lemma allowed_field : forall b t, allowed b [dn_instruction_field] t <->
  match t with
  | NumericLiteral _ _ | Identifier _ _ | Newline _ | SingleLineComment _ _ => True
  | LabelMarker _ => ends_in is_name b
  | _ => False
  end.
Proof.
  intros b t. split.
  - intros H. destruct t; repeat settle; subst; try discriminate; trivial.
  - destruct t; intros H; try contradiction.
    + right. constructor. left. left. reflexivity.
    + left. exists dn_instruction_field. split; [right; left | left]; reflexivity.
    + right. constructor; [left; reflexivity | exact H].
    + left. exists dn_instruction_field. split; [right; left | left]; reflexivity.
    + right. constructor. discriminate.
Qed.

(** ** Going on after [before] *)

Lemma ends_app : forall k b x, b <> [] -> ends_in k (x ++ b) <-> ends_in k b.
Proof.
  intros k b x N. split.
  - intros (c & t & E & K). destruct b as [|t' b] using rev_ind; [congruence|].
    rewrite app_assoc in E. apply app_inj_tail in E. destruct E as [_ <-].
    exists b, t'. split; [reflexivity | exact K].
  - intros (c & t & -> & K). exists (x ++ c), t. split; [apply app_assoc | exact K].
Qed.

Lemma ends_last : forall k b t, ends_in k (b ++ [t]) <-> k t.
Proof.
  intros k b t. split.
  - intros (c & t' & E & K). apply app_inj_tail in E. destruct E as [_ ->]. exact K.
  - intros K. exists b, t. split; [reflexivity | exact K].
Qed.

Lemma allowed_app : forall x b e t, b <> [] -> allowed (x ++ b) e t <-> allowed b e t.
Proof.
  intros x b e t N. unfold allowed. split; (intros [L|P]; [left; exact L | right]);
    inversion P; subst; constructor; try assumption; apply (ends_app _ b x N); assumption.
Qed.

Lemma err_start : forall f e, program_err [] f e ->
  e = [dn_directive_marker; dn_identifier] /\ exists t, f = Some t /\ starts_statement t = false.
Proof. intros f e H. inversion H; subst. split; [reflexivity | eauto]. Qed.

(** The list before a statement ends in an operand. *)
Lemma chunk_last : forall (A : Type) (item : token -> A -> Prop) stop c args f,
  (forall t a, item t a -> is_operand t) ->
  chunk item stop c args f -> (forall t, f = Some t -> stop t = false) -> ends_in is_operand c.
Proof.
  intros A item stop c args f O H S. induction H as [t St | t a f Ha Hf | t a l c args f Ha H IH].
  - rewrite (S _ eq_refl) in St. discriminate.
  - exists [], t. split; [reflexivity | eapply O; exact Ha].
  - destruct (IH S) as (b & t' & -> & K). exists (t :: Comma l :: b), t'. split; [reflexivity | exact K].
Qed.

(** It can be continued by a comma and the end of the line. *)
Lemma chunk_comma : forall (A : Type) (item : token -> A -> Prop) stop c args f l t,
  chunk item stop c args f -> (forall t, f = Some t -> stop t = false) -> stop t = true ->
  chunk item stop (c ++ [Comma l]) args (Some t).
Proof.
  intros A item stop c args f l t H S St. induction H as [t' St' | t' a f Ha Hf | t' a l' c args f Ha H IH].
  - rewrite (S _ eq_refl) in St'. discriminate.
  - cbn [app]. constructor; [exact Ha|]. constructor. exact St.
  - cbn [app]. constructor; [exact Ha|]. apply IH. exact S.
Qed.

Lemma chunk_err_item : forall (A : Type) (item : token -> A -> Prop) stop b f t a t',
  chunk_err item stop b f -> item t a -> is_comma t' = false ->
  exists args, chunk item stop (b ++ [t]) args (Some t').
Proof.
  intros A item stop b f t a t' H Ha Hc. induction H as [f Hf | t0 a0 l b f Ha0 H IH].
  - exists [a]. constructor; [exact Ha|]. cbn. congruence.
  - destruct IH as (args & Hch). exists (a0 :: args). cbn [app]. constructor; assumption.
Qed.

Lemma literal_operand : forall t a, literal_token t a -> is_operand t.
Proof. intros t a H. inversion H; exact I. Qed.
Lemma field_operand : forall t a, field_token t a -> is_operand t.
Proof. intros t a H. inversion H; exact I. Qed.

Lemma stop_literal : forall t, starts_statement t = false -> is_newline t = false.
Proof. intros []; cbn; congruence. Qed.
Lemma stop_field : forall t, starts_statement t = false -> field_stop t = false.
Proof. intros []; cbn; congruence. Qed.

Definition nl : loc := mk_loc [] 1 1 1.

(** What is allowed can follow. *)
Lemma allowed_viable : forall b f e, program_err b f e -> forall t, allowed b e t ->
  exists after ns, program_c (b ++ t :: after) ns.
Proof.
  assert (STEP : forall x b f e t, program_err b f e -> ~ ends_in is_operand x -> allowed (x ++ b) e t ->
    allowed b e t).
  { intros x b f e t H N A. destruct b as [|t0 b].
    - destruct (err_start _ _ H) as [-> _]. rewrite app_nil_r in A.
      apply allowed_statement. apply allowed_statement in A. destruct t; try exact A. contradiction.
    - apply allowed_app in A; [exact A | discriminate]. }
  assert (LAST : forall y z, ends_in is_operand (y ++ [z]) -> is_operand z)
    by (intros y z; apply ends_last).
  induction 1 as [ t0 Ht | l b f e H IH | c l b f e H IH | l0 f Hf | l0 id l b f H
                 | l0 id l c args b f e Hc H IH | id l l1 b f e H IH | id l b f H Hc
                 | id l c args b f e Hc H IH]; intros t A.
  - apply allowed_statement in A. destruct t; try contradiction.
    + exists []. eexists. repeat constructor.
    + exists [Identifier [] nl; Newline nl]. eexists.
      apply (pc_directive l [] nl [] [] [Newline nl]); repeat constructor.
    + exists [Newline nl]. eexists.
      apply (pc_instruction id l [] [] [Newline nl]); repeat constructor.
    + destruct A as (b & t & E & _). destruct b; discriminate.
    + exists []. eexists. repeat constructor.
  - destruct (IH t) as (after & ns & P).
    { apply (STEP [Newline l] _ _ _ _ H); [|exact A]. intros X. exact (LAST [] _ X). }
    exists after, ns. constructor. exact P.
  - destruct (IH t) as (after & ns & P).
    { apply (STEP [SingleLineComment c l] _ _ _ _ H); [|exact A]. intros X. exact (LAST [] _ X). }
    exists after, ns. constructor. exact P.
  - apply allowed_name in A. destruct t; try contradiction.
    exists [Newline nl]. eexists. cbn [app].
    apply (pc_directive l0 id l [] [] [Newline nl]); repeat constructor.
  - apply allowed_literal in A.
    assert (G : (exists a, literal_token t a) \/ exists l, t = Newline l).
    { destruct t; try contradiction; [left; eexists; constructor..|right; eauto]. }
    destruct G as [(a & Ha) | (l1 & ->)].
    + destruct (chunk_err_item _ _ _ _ _ _ _ (Newline nl) H Ha eq_refl) as (args & Hc).
      exists [Newline nl]. eexists. cbn [app].
      replace (b ++ [t; Newline nl]) with ((b ++ [t]) ++ [Newline nl]) by (rewrite <- app_assoc; reflexivity).
      apply pc_directive; [exact Hc | repeat constructor].
    + destruct (chunk_err_viable _ _ _ (Newline l1) _ _ H eq_refl) as (args & Hc).
      exists []. eexists. cbn [app]. apply pc_directive; [exact Hc | repeat constructor].
  - destruct b as [|t0 b].
    + destruct (err_start _ _ H) as [-> (t1 & -> & St)]. rewrite app_nil_r in *. cbn in Hc.
      assert (S : forall t, Some t1 = Some t -> is_newline t = false)
        by (intros t2 E; injection E as <-; apply stop_literal; exact St).
      destruct (is_comma t) eqn:Ec.
      * destruct t; try discriminate. exists [Newline nl]. eexists. cbn [app].
        replace (c ++ [Comma l1; Newline nl]) with ((c ++ [Comma l1]) ++ [Newline nl])
          by (rewrite <- app_assoc; reflexivity).
        apply pc_directive; [|repeat constructor].
        eapply chunk_comma; [exact Hc | exact S | reflexivity].
      * destruct (IH t) as (after & ns & P).
        { apply allowed_statement. apply allowed_statement in A. destruct t; try exact A. discriminate. }
        exists after. eexists. cbn [app]. apply pc_directive; [|exact P].
        eapply chunk_other_look; [exact Hc | exact S | cbn; congruence].
    + destruct (IH t) as (after & ns & P).
      { change (DirectiveMarker l0 :: Identifier id l :: c ++ t0 :: b)
          with ((DirectiveMarker l0 :: Identifier id l :: c) ++ t0 :: b) in A.
        apply allowed_app in A; [exact A | discriminate]. }
      exists after. eexists. cbn [app]. rewrite <- app_assoc. apply pc_directive; [|exact P]. exact Hc.
  - destruct (IH t) as (after & ns & P).
    { apply (STEP [Identifier id l; LabelMarker l1] _ _ _ _ H); [|exact A].
      intros X. exact (LAST [Identifier id l] _ X). }
    exists after. eexists. cbn [app]. constructor. exact P.
  - apply allowed_field in A.
    assert (G : (exists a, field_token t a) \/ field_stop t = true \/ exists l, t = LabelMarker l).
    { destruct t; try contradiction; [right; left; reflexivity | left; eexists; constructor | right; right; eauto
        | left; eexists; constructor | right; left; reflexivity]. }
    destruct G as [(a & Ha) | [St | (l1 & ->)]].
    + destruct (chunk_err_item _ _ _ _ _ _ _ (Newline nl) H Ha eq_refl) as (args & Hc').
      exists [Newline nl]. eexists. cbn [app].
      replace (b ++ [t; Newline nl]) with ((b ++ [t]) ++ [Newline nl]) by (rewrite <- app_assoc; reflexivity).
      apply pc_instruction; [exact Hc' | repeat constructor].
    + destruct (chunk_err_viable _ _ _ t _ _ H St) as (args & Hc').
      exists []. eexists. cbn [app]. apply pc_instruction; [exact Hc'|].
      destruct t; try discriminate; repeat constructor.
    + assert (b = []).
      { destruct A as (b' & t & E & K).
        assert (Q : b = [] \/ exists b' l, b = b' ++ [Comma l]).
        { clear - H. induction H as [|t0 a l b f Ha H IH]; [auto|]. right.
          destruct IH as [->|(b' & l' & ->)]; [exists [t0], l | exists (t0 :: Comma l :: b'), l']; reflexivity. }
        destruct Q as [Q|(b1 & l2 & ->)]; [exact Q|].
        change (Identifier id l :: b1 ++ [Comma l2]) with ((Identifier id l :: b1) ++ [Comma l2]) in E.
        apply app_inj_tail in E. destruct E as [_ <-]. destruct K. }
      subst b. exists []. eexists. cbn [app]. apply pc_label. constructor.
  - destruct b as [|t0 b].
    + destruct (err_start _ _ H) as [-> (t1 & -> & St)]. rewrite app_nil_r in *. cbn in Hc.
      assert (S : forall t, Some t1 = Some t -> field_stop t = false)
        by (intros t2 E; injection E as <-; apply stop_field; exact St).
      destruct (is_comma t) eqn:Ec.
      * destruct t; try discriminate. exists [Newline nl]. eexists. cbn [app].
        replace (c ++ [Comma l0; Newline nl]) with ((c ++ [Comma l0]) ++ [Newline nl])
          by (rewrite <- app_assoc; reflexivity).
        apply pc_instruction; [|repeat constructor].
        eapply chunk_comma; [exact Hc | exact S | reflexivity].
      * destruct (IH t) as (after & ns & P).
        { apply allowed_statement. apply allowed_statement in A. destruct t; try exact A. discriminate. }
        exists after. eexists. cbn [app]. apply pc_instruction; [|exact P].
        eapply chunk_other_look; [exact Hc | exact S | cbn; congruence].
    + destruct (IH t) as (after & ns & P).
      { change (Identifier id l :: c ++ t0 :: b) with ((Identifier id l :: c) ++ t0 :: b) in A.
        apply allowed_app in A; [exact A | discriminate]. }
      exists after. eexists. cbn [app]. rewrite <- app_assoc. apply pc_instruction; [|exact P]. exact Hc.
Qed.

(** What is not allowed is an error too, with the same list. *)
Lemma blocked : forall b f e, program_err b f e -> forall t, ~ allowed b e t -> program_err b (Some t) e.
Proof.
  assert (STEP : forall x b f e t, program_err b f e -> ~ allowed (x ++ b) e t -> ~ allowed b e t).
  { intros x b f e t H N A. apply N. destruct b as [|t0 b].
    - destruct (err_start _ _ H) as [-> _]. rewrite app_nil_r.
      apply allowed_statement. apply allowed_statement in A. destruct t; try exact A.
      destruct A as (b & t & E & _). destruct b; discriminate.
    - apply allowed_app; [discriminate | exact A]. }
  induction 1 as [ t0 Ht | l b f e H IH | c l b f e H IH | l0 f Hf | l0 id l b f H
                 | l0 id l c args b f e Hc H IH | id l l1 b f e H IH | id l b f H Hc
                 | id l c args b f e Hc H IH]; intros t A.
  - constructor. rewrite allowed_statement in A. destruct t; try reflexivity; destruct A; exact I.
  - constructor. apply IH. exact (STEP [Newline l] _ _ _ _ H A).
  - constructor. apply IH. exact (STEP [SingleLineComment c l] _ _ _ _ H A).
  - constructor. rewrite allowed_name in A. destruct t; cbn in *; try congruence. destruct A. exact I.
  - constructor. rewrite allowed_literal in A. clear - A H.
    induction H as [f Hf | t0 a l b f Ha H IH]; [|econstructor; eassumption].
    constructor. intros t' E. injection E as <-. split.
    + destruct t; try reflexivity. destruct A. exact I.
    + intros a Ha. inversion Ha; subst; apply A; exact I.
  - apply pe_directive with (args := args).
    + destruct b as [|t0 b]; [|exact Hc].
      destruct (err_start _ _ H) as [-> (t1 & -> & St)]. rewrite app_nil_r in A. cbn in Hc.
      assert (S : forall t, Some t1 = Some t -> is_newline t = false)
        by (intros t2 E; injection E as <-; apply stop_literal; exact St).
      eapply chunk_other_look; [exact Hc | exact S |]. intros X.
      destruct t; try discriminate. apply A. apply allowed_statement.
      destruct (chunk_last _ _ _ _ _ _ literal_operand Hc S) as (c' & t & -> & K).
      exists (DirectiveMarker l0 :: Identifier id l :: c'), t. split; [reflexivity | exact K].
    + apply IH. exact (STEP (DirectiveMarker l0 :: Identifier id l :: c) _ _ _ _ H A).
  - constructor. apply IH. exact (STEP [Identifier id l; LabelMarker l1] _ _ _ _ H A).
  - rewrite allowed_field in A. constructor.
    + clear - A H.
      assert (N : field_stop t = false /\ forall a, ~ field_token t a).
      { split.
        - destruct t; try reflexivity; destruct A; exact I.
        - intros a Ha. inversion Ha; subst; apply A; exact I. }
      clear A. induction H as [f Hf | t0 a l' b f Ha H IH]; [|econstructor; eassumption].
      constructor. intros t' E. injection E as <-. exact N.
    + destruct b as [|t0 b]; [|exact Hc]. cbn. intros X. destruct t; try discriminate.
      apply A. exists [], (Identifier id l). split; [reflexivity | exact I].
  - apply pe_instruction with (args := args).
    + destruct b as [|t0 b]; [|exact Hc].
      destruct (err_start _ _ H) as [-> (t1 & -> & St)]. rewrite app_nil_r in A. cbn in Hc.
      assert (S : forall t, Some t1 = Some t -> field_stop t = false)
        by (intros t2 E; injection E as <-; apply stop_field; exact St).
      eapply chunk_other_look; [exact Hc | exact S |]. intros X.
      destruct t; try discriminate. apply A. apply allowed_statement.
      destruct (chunk_last _ _ _ _ _ _ field_operand Hc S) as (c' & t & -> & K).
      exists (Identifier id l :: c'), t. split; [reflexivity | exact K].
    + apply IH. exact (STEP (Identifier id l :: c) _ _ _ _ H A).
Qed.

Lemma allowed_exact : forall b f e, program_err b f e -> forall t,
  can_follow b t <-> allowed b e t.
Proof.
  intros b f e H t. split.
  - intros (after & ns & P).
    assert (D : allowed b e t \/ ~ allowed b e t).
    { assert (X : forall k, (forall t, k t \/ ~ k t) -> ends_in k b \/ ~ ends_in k b).
      { intros k K. destruct b as [|t0 b0] using rev_ind.
        - right. intros (c & t0 & E & _). destruct c; discriminate.
        - destruct (K t0); [left | right]; rewrite ends_last; assumption. }
      assert (C : e = [dn_directive_marker; dn_identifier] \/ e = [dn_identifier] \/
                  e = [dn_numeric_literal; dn_string_literal] \/ e = [dn_instruction_field])
        by (clear - H; induction H; auto).
      destruct C as [C|[C|[C|C]]]; subst e;
        rewrite ?allowed_statement, ?allowed_name, ?allowed_literal, ?allowed_field;
        destruct t; cbn; auto; apply X; intros []; cbn; auto. }
    destruct D as [D|D]; [exact D|]. exfalso.
    apply parse_program in P. unfold parse in P.
    rewrite (parse_program_err _ _ _ (blocked _ _ _ H _ D)) in P; [discriminate | reflexivity | lia].
  - intros A. destruct (allowed_viable _ _ _ H _ A) as (after & ns & P).
    exists after, ns. apply program_program_c. exact P.
Qed.

(** ** C55: what a syntax error says was expected.

    The claim: the kinds listed are those that can stand where the error is. *)
Definition C55_claim : Prop := forall ts expected t,
  parse ts = Done (Err (UnexpectedToken expected t)) ->
  exists before after, ts = before ++ t :: after /\
    forall t', can_follow before t' <-> listed expected t'.

(** '.db :' -- a number or a string is said to be expected, but the line could also end. *)
Theorem C55_refuted : exists ts expected t before t',
  parse ts = Done (Err (UnexpectedToken expected t)) /\ ts = before ++ [t] /\ ~ In t before /\
  can_follow before t' /\ ~ listed expected t'.
Proof.
  exists [DirectiveMarker nl; Identifier (u "db") nl; LabelMarker nl],
    [dn_numeric_literal; dn_string_literal], (LabelMarker nl),
    [DirectiveMarker nl; Identifier (u "db") nl], (Newline nl).
  split; [reflexivity|]. split; [reflexivity|]. split.
  { intros [H|[H|[]]]; discriminate. }
  split.
  - exists [], [NDirective nl (u "db") []]. apply parse_program. reflexivity.
  - intros (n & [<-|[]] & J). destruct J as [J|[J|[]]]; discriminate.
Qed.
Print Assumptions C55_refuted.

Theorem C55_claim_refuted : ~ C55_claim.
Proof.
  intros C. destruct C55_refuted as (ts & e & t & b & t' & P & -> & N & F & L).
  destruct (C _ _ _ P) as (b' & after & E & X). apply L. apply X.
  assert (b' = b); [|subst b'; exact F].
  clear - E N. revert b' E. induction b as [|x b IH]; intros b' E.
  - destruct b' as [|y b']; [reflexivity|]. cbn in E. injection E as _ E. destruct b'; discriminate.
  - destruct b' as [|y b']; cbn in E; injection E as E1 E2.
    + subst x. destruct N. left. reflexivity.
    + subst y. f_equal. apply IH; [|exact E2]. intros I. apply N. right. exact I.
Qed.
Print Assumptions C55_claim_refuted.

(** All the kinds listed can stand there.  The other tokens that can are those of
    [passed_over]. *)
Theorem C55_token_partial : forall ts expected t,
  parse ts = Done (Err (UnexpectedToken expected t)) ->
  exists before after, ts = before ++ t :: after /\ ~ can_follow before t /\
    forall t', can_follow before t' <-> listed expected t' \/ passed_over before expected t'.
Proof.
  intros ts expected t H. destruct (parse_cases ts) as [(ns' & P & E) | (b & r & x & -> & Pe & E)];
    rewrite E in H; inversion H as [H1].
  destruct r as [|t' r]; [discriminate|]. cbn in H1. inversion H1; subst t' x.
  exists b, r. split; [reflexivity|]. split.
  - intros (cont & ns & Pr). apply parse_program in Pr. unfold parse in Pr.
    rewrite (parse_program_err _ _ _ Pe) in Pr; [discriminate | reflexivity | lia].
  - exact (allowed_exact _ _ _ Pe).
Qed.
Print Assumptions C55_token_partial.

Theorem C55_eof_partial : forall ts expected,
  parse ts = Done (Err (UnexpectedEndOfFile expected)) ->
  forall t, can_follow ts t <-> listed expected t \/ passed_over ts expected t.
Proof.
  intros ts expected H. destruct (parse_cases ts) as [(ns' & P & E) | (b & r & x & -> & Pe & E)];
    rewrite E in H; inversion H as [H1].
  destruct r as [|t' r]; [|discriminate]. cbn in H1. inversion H1; subst x. rewrite app_nil_r.
  exact (allowed_exact _ _ _ Pe).
Qed.
Print Assumptions C55_eof_partial.

(** After the '.' of a directive the list is complete. *)
Theorem C55_directive : forall ts t,
  parse ts = Done (Err (UnexpectedToken [u "identifier"] t)) ->
  exists before after, ts = before ++ t :: after /\
    forall t', can_follow before t' <-> listed [u "identifier"] t'.
Proof.
  intros ts t H. destruct (C55_token_partial _ _ _ H) as (b & a & E & _ & X).
  exists b, a. split; [exact E|]. intros t'. rewrite X. split; [|auto].
  intros [L|P]; [exact L|]. exfalso. inversion P; subst; try congruence;
    match goal with H : _ \/ _ |- _ => destruct H | _ => idtac end;
    match goal with H : In _ _ |- _ => destruct H as [H|[]]; discriminate end.
Qed.
Print Assumptions C55_directive.

Example C55_instance :
  (exists l, parse (tokens (u "ld v0 :")) =
     Done (Err (UnexpectedToken [u "directive marker"; u "identifier"] (LabelMarker l)))) /\
  (exists l, parse (tokens (u ". 5")) = Done (Err (UnexpectedToken [u "identifier"] (NumericLiteral 5 l)))) /\
  parse (tokens (u "jp v0,")) = Done (Err (UnexpectedEndOfFile [u "instruction field"])) /\
  can_follow (tokens (u "jp v0,")) (NumericLiteral 5 nl) /\
  ~ can_follow (tokens (u "jp v0,")) (StringLiteral (u "x") nl).
Proof.
  split; [eexists; vm_compute; reflexivity|]. split; [eexists; vm_compute; reflexivity|].
  assert (H : parse (tokens (u "jp v0,")) = Done (Err (UnexpectedEndOfFile [u "instruction field"])))
    by (vm_compute; reflexivity).
  split; [exact H|]. split.
  - apply (C55_eof_partial _ _ H). left. exists (u "instruction field"). split; [right; left; reflexivity | left; reflexivity].
  - intros A. apply (C55_eof_partial _ _ H) in A. apply (proj1 (allowed_field _ _)) in A. exact A.
Qed.
