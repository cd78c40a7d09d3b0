(** * CaseProofs: the letter case of mnemonics and directive names (C24). *)

From Verif Require Import Base Text U12 Location Parser Directive Opcode Instruction DataRange Assembler
  SpecLex SpecOpcode BaseFacts OpcodeProofs InstructionProofs.
Open Scope N_scope.

(** ** The statement *)

(** The same name but for the case of its ASCII letters. *)
Definition same_name (m m' : str) : Prop := map upper m = map upper m'.

(** The same statement but for the case of mnemonics and directive names. *)
Inductive same_node : node -> node -> Prop :=
| same_directive : forall l id id' args, same_name id id' ->
    same_node (NDirective l id args) (NDirective l id' args)
| same_instruction : forall l m m' fields, same_name m m' ->
    same_node (NInstruction l m fields) (NInstruction l m' fields)
| same_label : forall l id, same_node (NLabel l id) (NLabel l id).

(** The same error but for the name it quotes. *)
Inductive same_error : semantic_error -> semantic_error -> Prop :=
| same_error_refl : forall e, same_error e e
| same_error_directive : forall l id id', same_name id id' ->
    same_error (DirectiveInvalid l (UnrecognizedDirective id)) (DirectiveInvalid l (UnrecognizedDirective id'))
| same_error_instruction : forall l m m' d, same_name m m' ->
    same_error (AssemblyFailed l (NoMatchingFormat m d)) (AssemblyFailed l (NoMatchingFormat m' d)).

Inductive same_result {A : Type} : result semantic_error A -> result semantic_error A -> Prop :=
| same_ok : forall a, same_result (Ok a) (Ok a)
| same_err : forall e e', same_error e e' -> same_result (Err e) (Err e').

(** ** Names *)

Lemma upper_lower_char : forall a b, upper a = upper b -> lower_char a = lower_char b.
Proof.
  intros a b. unfold upper, lower_char. change (c_ "A") with 65. change (c_ "Z") with 90. intros H.
  destruct (N.eqb_spec a b) as [->|D]; [reflexivity|].
  destruct ((97 <=? a) && (a <=? 122)) eqn:A, ((97 <=? b) && (b <=? 122)) eqn:B;
    try (exfalso; lia).
  - assert (E : (65 <=? a) && (a <=? 90) = false) by lia.
    assert (E' : (65 <=? b) && (b <=? 90) = true) by lia. rewrite E, E'.
    replace (a =? 0x212A) with false by lia. replace (a =? 0x130) with false by lia. f_equal. lia.
  - assert (E : (65 <=? a) && (a <=? 90) = true) by lia.
    assert (E' : (65 <=? b) && (b <=? 90) = false) by lia. rewrite E, E'.
    replace (b =? 0x212A) with false by lia. replace (b =? 0x130) with false by lia. f_equal. lia.
Qed.

Lemma same_name_lowercase : forall m m', same_name m m' -> to_lowercase m = to_lowercase m'.
Proof.
  unfold same_name, to_lowercase. induction m as [|a m IH]; intros [|b m'] H; try discriminate; [reflexivity|].
  cbn [map] in H. injection H as Hc Hm. cbn [flat_map]. rewrite (upper_lower_char _ _ Hc), (IH _ Hm).
  reflexivity.
Qed.

(** ** Directives and instructions *)

Lemma directive_case : forall id id' args, same_name id id' ->
  directive_from id' args =
  match directive_from id args with
  | Err (UnrecognizedDirective _) => Err (UnrecognizedDirective id')
  | r => r
  end.
Proof.
  intros id id' args H. unfold directive_from. rewrite (same_name_lowercase _ _ H).
  destruct (str_eqb (to_lowercase id') name_org).
  { unfold one_numeric. destruct args as [|[s|a] [|]]; try reflexivity. destruct (a <=? 4095); reflexivity. }
  destruct (str_eqb (to_lowercase id') name_db).
  { destruct args as [|a r]; [reflexivity|]. generalize ([] : list byte). generalize (a :: r).
    clear. induction l as [|[s|v] l IH]; intros bytes; cbn [db_bytes]; [reflexivity|apply IH|].
    destruct (255 <? v); [reflexivity | apply IH]. }
  destruct (str_eqb (to_lowercase id') name_equ); [|reflexivity].
  unfold one_numeric. destruct args as [|[s|a] [|]]; try reflexivity. destruct (a <=? 4095); reflexivity.
Qed.

Lemma directive_unrecognized : forall id args n,
  directive_from id args = Err (UnrecognizedDirective n) -> n = id.
Proof.
  intros id args n. unfold directive_from.
  assert (O : forall name make, one_numeric name make args <> Err (UnrecognizedDirective n)).
  { intros name make. unfold one_numeric. destruct args as [|[s|a] [|]]; try discriminate.
    destruct (a <=? 4095); discriminate. }
  destruct (str_eqb (to_lowercase id) name_org); [intros X; exfalso; eapply O; exact X|].
  destruct (str_eqb (to_lowercase id) name_db).
  { destruct args as [|a r]; [discriminate|]. generalize ([] : list byte). generalize (a :: r).
    clear. induction l as [|[s|v] l IH]; intros bytes; cbn [db_bytes]; [discriminate|apply IH|].
    destruct (255 <? v); [discriminate | apply IH]. }
  destruct (str_eqb (to_lowercase id) name_equ); [intros X; exfalso; eapply O; exact X|].
  intros X. injection X as <-. reflexivity.
Qed.

Lemma to_8_bit_kind : forall v m d, to_8_bit v <> Err (NoMatchingFormat m d).
Proof. intros v m d. unfold to_8_bit. destruct (u8_failable_from_u12 v); discriminate. Qed.

Lemma to_4_bit_kind : forall v m d, to_4_bit v <> Err (NoMatchingFormat m d).
Proof.
  intros v m d. unfold to_4_bit. destruct (u8_failable_from_u12 v) as [b|]; [|discriminate].
  destruct (b <? 16); discriminate.
Qed.

Lemma resolve_kind : forall l labels m d, resolve_label l labels <> Err (NoMatchingFormat m d).
Proof. intros l labels m d. unfold resolve_label. destruct (label_get labels l); discriminate. Qed.

Ltac kinds :=
  repeat match goal with
  | |- (if ?c then _ else _) <> _ => destruct c
  | |- match ?f with FNumeric _ => _ | _ => _ end <> _ => destruct f
  | |- rbind ?m _ <> _ =>
      let E := fresh "E" in destruct m eqn:E; cbn [rbind];
      [| intros X; injection X as ->;
         first [ exact (to_8_bit_kind _ _ _ E) | exact (to_4_bit_kind _ _ _ E) | exact (resolve_kind _ _ _ _ E) ] ]
  end; try discriminate.

Lemma opcode_1_kind : forall n f labels m d, opcode_1 n f labels <> Err (NoMatchingFormat m d).
Proof. intros. unfold opcode_1. kinds. Qed.

Lemma opcode_2_kind : forall n f g labels m d, opcode_2 n f g labels <> Err (NoMatchingFormat m d).
Proof. intros. unfold opcode_2. kinds. Qed.

Lemma opcode_3_kind : forall n f g h labels m d, opcode_3 n f g h labels <> Err (NoMatchingFormat m d).
Proof. intros. unfold opcode_3. kinds. Qed.

Lemma instruction_unmatched : forall m fields labels n d,
  instruction_from m fields labels = Err (NoMatchingFormat n d) -> n = m.
Proof.
  intros m fields labels n d. unfold instruction_from.
  match goal with |- rbind ?x _ = _ -> _ =>
    assert (K : forall n d, x <> Err (NoMatchingFormat n d))
  end.
  { clear n d. intros n d. destruct fields as [|f [|g [|h [|]]]]; try discriminate;
      auto using opcode_1_kind, opcode_2_kind, opcode_3_kind. }
  match goal with |- rbind ?x _ = _ -> _ => destruct x as [[o|]|e] end; cbn [rbind ok_or]; try discriminate.
  - intros X. injection X as <- _. reflexivity.
  - intros X. injection X as ->. exfalso. eapply K. reflexivity.
Qed.

Lemma instruction_case : forall m m' fields labels, same_name m m' ->
  instruction_from m' fields labels =
  match instruction_from m fields labels with
  | Err (NoMatchingFormat _ d) => Err (NoMatchingFormat m' d)
  | r => r
  end.
Proof.
  intros m m' fields labels H. unfold instruction_from. rewrite (same_name_lowercase _ _ H).
  match goal with |- rbind ?x _ = _ =>
    assert (K : forall n d, x <> Err (NoMatchingFormat n d))
  end.
  { intros n d. destruct fields as [|f [|g [|h [|]]]]; try discriminate;
      auto using opcode_1_kind, opcode_2_kind, opcode_3_kind. }
  match goal with |- rbind ?x _ = _ => destruct x as [[o|]|[]] end; cbn [rbind ok_or]; try reflexivity.
  exfalso. eapply K. reflexivity.
Qed.

(** ** Programs *)

Lemma peek_case : forall p p', Forall2 same_node p p' -> peek_constant p' = peek_constant p.
Proof.
  intros p p' H. destruct H as [|n n' p p' Hn H]; [reflexivity|].
  destruct Hn as [l id id' args N| |]; try reflexivity. cbn [peek_constant].
  rewrite (directive_case _ _ args N). destruct (directive_from id args) as [[]|[]]; reflexivity.
Qed.

Lemma define_case : forall p p', Forall2 same_node p p' -> forall labels a,
  same_result (define_labels_loop labels a p) (define_labels_loop labels a p').
Proof.
  assert (G : forall k p p', (length p <= k)%nat -> Forall2 same_node p p' -> forall labels a,
    same_result (define_labels_loop labels a p) (define_labels_loop labels a p')).
  2: { intros p p' H. eapply G; [reflexivity | exact H]. }
  induction k as [|k IH]; intros p p' Hk H labels a.
  { destruct H; [constructor | cbn in Hk; lia]. }
  destruct H as [|n n' p p' Hn H]; [constructor|]. cbn [length] in Hk.
  destruct Hn as [l id id' args N | l m m' fields N | l id].
  - cbn [define_labels_loop]. rewrite (directive_case _ _ args N).
    destruct (directive_from id args) as [d|e] eqn:Ed; cbn [map_err rbind].
    + destruct (ok_or (u12_failable_into (directive_size d)) (DirectiveTooLarge l d)) as [size|e];
        cbn [rbind]; [|apply same_err; constructor].
      destruct (ok_or (u12_checked_add a size) (DirectiveWouldOverflow l d)) as [address|e];
        cbn [rbind]; [|apply same_err; constructor].
      destruct d; [apply IH; [lia | exact H] | apply IH; [lia | exact H] | apply same_err; constructor].
    + destruct e; cbn [map_err rbind]; apply same_err; try apply same_error_refl.
      apply directive_unrecognized in Ed. subst. apply same_error_directive. exact N.
  - cbn [define_labels_loop].
    destruct (ok_or (u12_checked_add a bytes_per_instruction) (InstructionWouldOverflow l)) as [address|e];
      cbn [rbind]; [|apply same_err; constructor].
    apply IH; [lia | exact H].
  - pose proof (peek_case _ _ H) as P. cbn [define_labels_loop].
    destruct H as [|n n' p p' Hn H].
    + destruct (contains_key labels id); [apply same_err; constructor|]. apply IH; [cbn; lia | constructor].
    + cbn [length] in Hk. rewrite P. destruct (peek_constant (n :: p)).
      * destruct (contains_key labels id); [apply same_err; constructor|]. apply IH; [lia | exact H].
      * destruct (contains_key labels id); [apply same_err; constructor|].
        apply IH; [cbn [length]; lia | constructor; assumption].
Qed.

Inductive same_run {A : Type} : run (result semantic_error A) -> run (result semantic_error A) -> Prop :=
| same_done : forall r r', same_result r r' -> same_run (Done r) (Done r')
| same_crash : forall c, same_run (Crash c) (Crash c).

Lemma emit_case : forall p p', Forall2 same_node p p' -> forall labels ranges current,
  same_run (emit_loop labels ranges current p) (emit_loop labels ranges current p').
Proof.
  induction 1 as [|n n' p p' Hn H IH]; intros labels ranges current; [constructor; constructor|].
  destruct Hn as [l id id' args N | l m m' fields N | l id].
  - cbn [emit_loop]. rewrite (directive_case _ _ args N).
    destruct (directive_from id args) as [d|e].
    + destruct d; try apply IH;
      match goal with |- same_run (bind ?x _) _ => destruct x as [r|c]; cbn [bind] end;
        [apply IH | constructor | apply IH | constructor].
    + destruct e; constructor.
  - cbn [emit_loop]. rewrite (instruction_case _ _ fields labels N).
    destruct (instruction_from m fields labels) as [o|e] eqn:Ei.
    + destruct (instruction_into_vec o) as [b|c]; cbn [bind]; [|constructor].
      destruct (append_asserted current b) as [r|c]; cbn [bind]; [apply IH | constructor].
    + destruct e; constructor; apply same_err; try apply same_error_refl.
      apply instruction_unmatched in Ei. subst. apply same_error_instruction. exact N.
  - apply IH.
Qed.

Theorem assemble_case : forall p p', Forall2 same_node p p' -> same_run (assemble p) (assemble p').
Proof.
  intros p p' H. unfold assemble, define_labels. pose proof (define_case p p' H [] 0) as D.
  inversion D; [|constructor; constructor; assumption].
  apply emit_case. exact H.
Qed.
