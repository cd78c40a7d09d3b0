(** * InstructionTheorems: C20-C23 for instructions. *)

From Verif Require Import Base Text U12 Parser Opcode Instruction SpecLex SpecOpcode SpecRefusal
  BaseFacts OpcodeProofs InstructionProofs.
Open Scope N_scope.

(** ** Rows are decidable *)

Definition fitsb (o : string) (f : field) : bool :=
  (String.eqb o "Vx" && match f with FRegister _ => true | _ => false end) ||
  (String.eqb o "Vy" && match f with FRegister _ => true | _ => false end) ||
  (String.eqb o "V0" && match f with FRegister 0 => true | _ => false end) ||
  (String.eqb o "I" && match f with FIndex => true | _ => false end) ||
  (String.eqb o "[I]" && match f with FIndexIndirect => true | _ => false end) ||
  (String.eqb o "DT" && match f with FDelayTimer => true | _ => false end) ||
  (String.eqb o "ST" && match f with FSoundTimer => true | _ => false end) ||
  (String.eqb o "K" && match f with FKeypad => true | _ => false end) ||
  (String.eqb o "F" && match f with FSprite => true | _ => false end) ||
  (String.eqb o "B" && match f with FBcd => true | _ => false end) ||
  ((String.eqb o "addr" || String.eqb o "nn" || String.eqb o "n") && is_value f).

Lemma fitsb_fits : forall o f, fitsb o f = true <-> fits o f.
Proof.
  intros o f. split.
  - unfold fitsb. intros H. repeat (apply orb_true_iff in H; destruct H as [H|H]);
      apply andb_true_iff in H; destruct H as [Ho Hf];
      try (apply String.eqb_eq in Ho; subst o);
      try (destruct f as [|[]| | | | | | | |]; try discriminate; constructor; fail).
    apply fits_value; [|exact Hf].
    repeat (apply orb_true_iff in Ho; destruct Ho as [Ho|Ho]); apply String.eqb_eq in Ho; subst;
      cbv [value_operand In]; tauto.
  - intros H. destruct H as [| | | | | | | | | |o f V W]; try reflexivity.
    destruct V as [<-|[<-|[<-|[]]]]; unfold fitsb; rewrite W; reflexivity.
Qed.

Lemma forall2_fits_dec : forall os fs, {Forall2 fits os fs} + {~ Forall2 fits os fs}.
Proof.
  induction os as [|o os IH]; intros [|f fs].
  - left. constructor.
  - right. intros H. inversion H.
  - right. intros H. inversion H.
  - destruct (fitsb o f) eqn:E.
    + destruct (IH fs) as [H|H].
      * left. constructor; [apply fitsb_fits; exact E | exact H].
      * right. intros X. inversion X; subst. contradiction.
    + right. intros X. inversion X; subst.
      match goal with F : fits o f |- _ => apply fitsb_fits in F end. congruence.
Defined.

Lemma rows_dec : forall m fields,
  (exists row, row_for m fields row) \/ (forall row, ~ row_for m fields row).
Proof.
  intros m fields.
  assert (G : forall rows, incl rows table ->
    (exists row, row_for m fields row) \/ (forall row, In row rows -> ~ row_for m fields row)).
  { induction rows as [|[[p n] os] rows IH]; intros I; [right; intros row []|].
    destruct (IH (fun x Hx => I x (or_intror Hx))) as [H|H]; [left; exact H|].
    destruct (BaseFacts.str_dec (map upper m) (u n)) as [E|E].
    - destruct (forall2_fits_dec os fields) as [F|F].
      + left. exists (p, n, os). split; [apply I; left; reflexivity|]. split; assumption.
      + right. intros row [<-|X]; [|apply H; exact X]. intros (_ & _ & F'). contradiction.
    - right. intros row [<-|X]; [|apply H; exact X]. intros (_ & E' & _). contradiction. }
  destruct (G table (incl_refl _)) as [H|H]; [left; exact H|].
  right. intros [[p n] os] (I & R). apply (H _ I). split; assumption.
Qed.

(** ** The spec's bindings and the code's *)

Ltac split_row I :=
  unfold table in I; repeat (destruct I as [I|I]); try contradiction; injection I as <- <- <-.

Ltac forall2_inv :=
  repeat match goal with
  | H : Forall2 _ (_ :: _) _ |- _ => inversion H; clear H; subst
  | H : Forall2 _ [] _ |- _ => inversion H; clear H; subst
  end.

Ltac binds_all :=
  repeat match goal with
  | B : binds _ _ _ _ ?o _ |- _ =>
      destruct B as (? & ? & ?);
      repeat match goal with
      | X : ?a = ?a -> _ |- _ => specialize (X eq_refl)
      | X : ?a = ?b -> FNumeric _ = _ |- _ => clear X
      | X : ?a = ?b -> FIdentifier _ = _ |- _ => clear X
      | X : ?a = ?b -> FRegister _ = _ |- _ => clear X
      | X : ?a = ?b -> _ = FRegister _ |- _ => clear X
      | X : value_operand ?o -> _ |- _ =>
          first [ specialize (X (or_introl eq_refl)); destruct X as [? ?]
                | specialize (X (or_intror (or_introl eq_refl))); destruct X as [? ?]
                | specialize (X (or_intror (or_intror (or_introl eq_refl)))); destruct X as [? ?]
                | clear X ]
      end
  end.

Lemma binds_row : forall labels m fields pattern name operands x y v,
  row_for m fields (pattern, name, operands) ->
  Forall2 (binds (label_get labels) x y v) operands fields ->
  (~ In "Vy"%string operands -> y = 0) ->
  exists v', row_value labels operands fields = Ok v' /\
    word x y v (u pattern) = word (row_x operands fields) (row_y operands fields) v' (u pattern).
Proof.
  intros labels m fields pattern name operands x y v (I & _ & Fi) B Y. split_row I; forall2_inv;
    repeat match goal with H : fits _ _ |- _ => fit H end; binds_all;
    repeat match goal with
    | X : FRegister _ = FRegister _ |- _ => injection X as X; subst
    | X : value_of _ (FNumeric _) = Some _ |- _ => cbn [value_of] in X; injection X as X; subst
    | X : value_of _ (FIdentifier _) = Some _ |- _ => cbn [value_of] in X
    end;
    try (assert (y = 0) by (apply Y; cbn [In]; intuition discriminate); subst y);
    cbn [limit String.eqb Ascii.eqb Bool.eqb] in *;
    cbv [row_value row_x row_y reg String.eqb Ascii.eqb Bool.eqb orb resolved narrow resolve_label];
    repeat match goal with X : label_get _ _ = Some _ |- _ => rewrite X end; cbn [ok_or rbind];
    try rewrite to_8_bit_ok by assumption; try rewrite to_4_bit_ok by assumption;
    eexists; (split; [reflexivity|]); try reflexivity; rewrite !word4; nibbles; reflexivity.
Qed.

Lemma row_binds : forall labels m fields pattern name operands v,
  labels_ok labels -> Forall field_ok fields ->
  row_for m fields (pattern, name, operands) ->
  row_value labels operands fields = Ok v ->
  Forall2 (binds (label_get labels) (row_x operands fields) (row_y operands fields) v) operands fields /\
  (~ In "Vy"%string operands -> row_y operands fields = 0).
Proof.
  intros labels m fields pattern name operands v L F (I & _ & Fi) E. split_row I; forall2_inv;
    repeat match goal with H : fits _ _ |- _ => fit H end; forall_inv; cbn [field_ok] in *;
    cbv [row_value reg String.eqb Ascii.eqb Bool.eqb orb resolved narrow resolve_label rbind] in E;
    cbv [row_x row_y reg String.eqb Ascii.eqb Bool.eqb];
    try match type of E with
    | context [label_get labels ?l] =>
        let G := fresh "G" in destruct (label_get labels l) eqn:G; cbn [ok_or] in E; [|discriminate];
        pose proof (L _ _ G)
    end;
    try match type of E with
    | to_8_bit ?n = _ =>
        destruct (N.leb_spec n 255);
        [ rewrite to_8_bit_ok in E by assumption | rewrite to_8_bit_err in E by assumption; discriminate ]
    | to_4_bit ?n = _ =>
        destruct (N.leb_spec n 15);
        [ rewrite to_4_bit_ok in E by assumption | rewrite to_4_bit_err in E by assumption; discriminate ]
    end;
    injection E as E; subst;
    (split; [| intros NI; try reflexivity; exfalso; apply NI; cbn [In]; tauto]);
    repeat first [ apply Forall2_nil | apply Forall2_cons ];
    (refine (conj _ (conj _ _)); [intros X; try discriminate; reflexivity
                                 | intros X; try discriminate; reflexivity
                                 | intros X; first [ exfalso; clear - X; cbv [value_operand In] in X;
                                                     intuition discriminate
                                                   | cbn [value_of limit String.eqb Ascii.eqb Bool.eqb];
                                                     split; [first [reflexivity | assumption] | lia]]]).
Qed.

(** ** Bytes *)

Lemma into_vec_word : forall o, well_typed o -> nibbles_in_range o ->
  instruction_into_vec o = Done [opcode_word o / 256; opcode_word o mod 256].
Proof.
  intros o T R. unfold instruction_into_vec. rewrite as_instruction_word by assumption. cbn [bind].
  pose proof (opcode_word_lt o T R) as Lt.
  change 65280 with (N.shiftl (N.ones 8) 8). change 255 with (N.ones 8).
  rewrite mask_field, mask_low. change (2 ^ 8) with 256.
  rewrite (N.mod_small (opcode_word o / 256)) by lia. reflexivity.
Qed.

(** ** C20 *)

Theorem instruction_table : forall m fields labels w,
  ascii m -> Forall field_ok fields -> labels_ok labels ->
  (encodes (label_get labels) m fields w <->
   w < 65536 /\ exists o, instruction_from m fields labels = Ok o /\
                          instruction_into_vec o = Done [w / 256; w mod 256]).
Proof.
  intros m fields labels w A F L. split.
  - intros (pattern & name & operands & x & y & v & R & B & Y & ->).
    destruct (binds_row labels _ _ _ _ _ _ _ _ R B Y) as (v' & E & W).
    pose proof (row_instruction m fields labels _ _ _ A F L R) as H. rewrite E in H.
    destruct H as (o & Ho & T & Nr & Wo). rewrite W, <- Wo. split; [apply opcode_word_lt; assumption|].
    exists o. split; [exact Ho | apply into_vec_word; assumption].
  - intros (Hw & o & Ho & Hb).
    destruct (rows_dec m fields) as [([[pattern name] operands] & R)|N].
    + pose proof (row_instruction m fields labels _ _ _ A F L R) as H.
      destruct (row_value labels operands fields) as [v|e] eqn:E; [|congruence].
      destruct H as (o' & Ho' & T & Nr & Wo). assert (o' = o) by congruence. subst o'.
      rewrite into_vec_word in Hb by assumption.
      destruct (row_binds labels _ _ _ _ _ _ L F R E) as [B Y].
      exists pattern, name, operands, (row_x operands fields), (row_y operands fields), v.
      split; [exact R|]. split; [exact B|]. split; [exact Y|].
      rewrite <- Wo. pose proof (opcode_word_lt o T Nr). inversion Hb. lia.
    + rewrite (no_row_instruction m fields labels A N) in Ho. discriminate.
Qed.

(** Every accepted instruction has its two bytes: encoding does not panic. *)
Theorem instruction_bytes : forall m fields labels o,
  ascii m -> Forall field_ok fields -> labels_ok labels ->
  instruction_from m fields labels = Ok o ->
  exists w, w < 65536 /\ instruction_into_vec o = Done [w / 256; w mod 256] /\
            encodes (label_get labels) m fields w.
Proof.
  intros m fields labels o A F L Ho.
  destruct (rows_dec m fields) as [([[pattern name] operands] & R)|N].
  - pose proof (row_instruction m fields labels _ _ _ A F L R) as H.
    destruct (row_value labels operands fields) as [v|e] eqn:E; [|congruence].
    destruct H as (o' & Ho' & T & Nr & Wo). assert (o' = o) by congruence. subst o'.
    exists (opcode_word o). repeat split.
    + apply opcode_word_lt; assumption.
    + apply into_vec_word; assumption.
    + apply instruction_table; try assumption. split; [apply opcode_word_lt; assumption|].
      exists o. split; [exact Ho | apply into_vec_word; assumption].
  - rewrite (no_row_instruction m fields labels A N) in Ho. discriminate.
Qed.

(** ** C21 and C23: all the errors, exactly *)

(** The value operand of a row's fields, with its place in the table. *)
Definition value_field (operands : list string) (fields : list field) (o : string) (f : field) : Prop :=
  In (o, f) (combine operands fields) /\ value_operand o.

Lemma row_value_cases : forall labels m fields pattern name operands,
  row_for m fields (pattern, name, operands) ->
  (forall o f, ~ value_field operands fields o f) /\ row_value labels operands fields = Ok 0 \/
  (exists o f, value_field operands fields o f /\
     (forall o' f', value_field operands fields o' f' -> o' = o /\ f' = f) /\
     is_value f = true /\
     row_value labels operands fields = rbind (resolved labels f) (narrow o)).
Proof.
  intros labels m fields pattern name operands (I & _ & Fi). split_row I; forall2_inv;
    repeat match goal with H : fits _ _ |- _ => fit H end;
    first
    [ left; split; [|reflexivity]; intros o f [J V]; cbn [combine In] in J; cbv [value_operand In] in V;
      solve [intuition congruence]
    | right; match goal with
      | |- context [combine ["addr"%string] [?f]] => exists "addr"%string, f
      | |- context [combine [_; "addr"%string] [_; ?f]] => exists "addr"%string, f
      | |- context [combine [_; "nn"%string] [_; ?f]] => exists "nn"%string, f
      | |- context [combine [_; _; "n"%string] [_; _; ?f]] => exists "n"%string, f
      | |- context [value_field ["addr"%string] [?f]] => exists "addr"%string, f
      | |- context [value_field [_; "addr"%string] [_; ?f]] => exists "addr"%string, f
      | |- context [value_field [_; "nn"%string] [_; ?f]] => exists "nn"%string, f
      | |- context [value_field [_; _; "n"%string] [_; _; ?f]] => exists "n"%string, f
      end;
      refine (conj (conj _ _) (conj _ (conj _ _)));
      [ cbn [combine In]; tauto
      | cbv [value_operand In]; tauto
      | intros o' f' [J V]; cbn [combine In] in J; cbv [value_operand In] in V;
        repeat (destruct J as [J|J]); try contradiction; injection J as <- <-;
        try (split; reflexivity); exfalso; repeat (destruct V as [V|V]); try discriminate; contradiction
      | reflexivity
      | reflexivity ] ].
Qed.

Lemma forall2_in : forall (A B : Type) (P : A -> B -> Prop) (l : list A) (r : list B) (b : B),
  Forall2 P l r -> In b r -> exists a, In (a, b) (combine l r) /\ P a b.
Proof.
  induction 1 as [|a b' l r H _ IH]; cbn [In combine]; [tauto|].
  intros [<-|I]; [eauto|]. destruct (IH I) as (a' & J & Q). eauto.
Qed.

(** The outcome for a row, by its value operand. *)
Lemma row_outcome : forall m fields labels pattern name operands o f,
  ascii m -> Forall field_ok fields -> labels_ok labels ->
  row_for m fields (pattern, name, operands) -> value_field operands fields o f ->
  match value_of (label_get labels) f with
  | None => exists l, f = FIdentifier l /\ instruction_from m fields labels = Err (UnableToResolveLabel l)
  | Some v =>
      if v <=? limit o then exists op, instruction_from m fields labels = Ok op
      else instruction_from m fields labels =
           Err (if String.eqb o "nn" then ExpectingEightBitValue v else ExpectingFourBitValue v)
  end.
Proof.
  intros m fields labels pattern name operands o f A F L R V.
  pose proof (row_instruction m fields labels _ _ _ A F L R) as Hi.
  destruct (row_value_cases labels _ _ _ _ _ R) as [[NV _]|(o' & f' & V' & U & W & E)];
    [exfalso; eapply NV; exact V|].
  destruct (U _ _ V) as [<- <-]. clear V U. destruct V' as [J V].
  assert (Hf : forall v, value_of (label_get labels) f = Some v -> v <= 4095).
  { intros v. apply in_combine_r in J. rewrite Forall_forall in F. specialize (F _ J).
    destruct f; try discriminate; cbn [value_of].
    - intros X. injection X as <-. exact F.
    - intros X. eapply L. exact X. }
  assert (Hr : resolved labels f =
    match value_of (label_get labels) f with
    | Some v => Ok v
    | None => Err (UnableToResolveLabel match f with FIdentifier l => l | _ => [] end)
    end).
  { destruct f; try discriminate; cbn [resolved value_of]; [reflexivity|].
    unfold resolve_label. destruct (label_get labels id); reflexivity. }
  rewrite E, Hr in Hi. clear E Hr.
  destruct (value_of (label_get labels) f) as [v|] eqn:Ev; cbn [rbind] in Hi.
  - specialize (Hf _ eq_refl).
    destruct V as [<-|[<-|[<-|[]]]]; cbv [limit narrow String.eqb Ascii.eqb Bool.eqb] in Hi |- *.
    + rewrite (proj2 (N.leb_le v 4095)) by assumption. destruct Hi as (op & Ho & _). eauto.
    + destruct (N.leb_spec v 255).
      * rewrite to_8_bit_ok in Hi by assumption. destruct Hi as (op & Ho & _). eauto.
      * rewrite to_8_bit_err in Hi by assumption. exact Hi.
    + destruct (N.leb_spec v 15).
      * rewrite to_4_bit_ok in Hi by assumption. destruct Hi as (op & Ho & _). eauto.
      * rewrite to_4_bit_err in Hi by assumption. exact Hi.
  - destruct f; try discriminate. eauto.
Qed.

Lemma row_label_value : forall m fields pattern name operands l,
  row_for m fields (pattern, name, operands) -> In (FIdentifier l) fields ->
  exists o, value_field operands fields o (FIdentifier l).
Proof.
  intros m fields pattern name operands l (_ & _ & Fi) Il.
  destruct (forall2_in _ _ _ _ _ _ Fi Il) as (o & J & Ft).
  inversion Ft; subst. exists o. split; assumption.
Qed.

Theorem instruction_errors : forall m fields labels e,
  ascii m -> Forall field_ok fields -> labels_ok labels ->
  (instruction_from m fields labels = Err e <-> refuses (label_get labels) m fields e).
Proof.
  intros m fields labels e A F L. split.
  - intros H. destruct (rows_dec m fields) as [([[pattern name] operands] & R)|N].
    2: { rewrite (no_row_instruction m fields labels A N) in H. injection H as <-.
         apply refuses_unknown. exact N. }
    destruct (row_value_cases labels _ _ _ _ _ R) as [[_ E]|(o & f & V & _ & W & _)].
    { pose proof (row_instruction m fields labels _ _ _ A F L R) as Hi. rewrite E in Hi.
      destruct Hi as (op & Ho & _). congruence. }
    pose proof (row_outcome _ _ _ _ _ _ _ _ A F L R V) as Hi. destruct V as [J V].
    destruct (value_of (label_get labels) f) as [v|] eqn:Ev.
    + destruct (N.leb_spec v (limit o)) as [_|G]; [destruct Hi as (op & Ho); congruence|].
      rewrite H in Hi. injection Hi as ->.
      destruct V as [<-|[<-|[<-|[]]]]; cbv [limit String.eqb Ascii.eqb Bool.eqb] in G |- *.
      * exfalso. apply in_combine_r in J. rewrite Forall_forall in F. specialize (F _ J).
        destruct f; try discriminate; cbn [value_of field_ok] in Ev, F.
        -- injection Ev as ->. lia.
        -- specialize (L _ _ Ev). lia.
      * eapply refuses_byte; eauto.
      * eapply refuses_nibble; eauto.
    + destruct Hi as (l & -> & Hi). rewrite H in Hi. injection Hi as ->.
      eapply refuses_label; eauto. eapply in_combine_r. exact J.
  - intros [[[pattern name] operands] l R Il G | [[pattern name] operands] f v R J Ev G
           | [[pattern name] operands] f v R J Ev G | N].
    + destruct (row_label_value _ _ _ _ _ _ R Il) as (o & V).
      pose proof (row_outcome _ _ _ _ _ _ _ _ A F L R V) as Hi. cbn [value_of] in Hi. rewrite G in Hi.
      destruct Hi as (l' & X & Hi). injection X as <-. exact Hi.
    + assert (V : value_field operands fields "nn" f) by (split; [exact J | cbv [value_operand In]; tauto]).
      pose proof (row_outcome _ _ _ _ _ _ _ _ A F L R V) as Hi. rewrite Ev in Hi.
      change (limit "nn") with 255 in Hi. rewrite (proj2 (N.leb_gt v 255)) in Hi by assumption. exact Hi.
    + assert (V : value_field operands fields "n" f) by (split; [exact J | cbv [value_operand In]; tauto]).
      pose proof (row_outcome _ _ _ _ _ _ _ _ A F L R V) as Hi. rewrite Ev in Hi.
      change (limit "n") with 15 in Hi. rewrite (proj2 (N.leb_gt v 15)) in Hi by assumption. exact Hi.
    + apply no_row_instruction; assumption.
Qed.

(** ** C22 *)

(** [inlines lookup f g]: the field [g] is [f], or the number the label [f] is defined
    as. *)
Inductive inlines (lookup : str -> option N) : field -> field -> Prop :=
| inlines_same : forall f, inlines lookup f f
| inlines_label : forall l v, lookup l = Some v -> inlines lookup (FIdentifier l) (FNumeric v).

(** An outcome, but for the text listing the operands in a message. *)
Definition unlisted (r : result instruction_error opcode) : result instruction_error opcode :=
  match r with
  | Err (NoMatchingFormat m _) => Err (NoMatchingFormat m None)
  | _ => r
  end.

Ltac inline_cases :=
  repeat match goal with
  | H : inlines _ _ _ |- _ => destruct H as [?f|?l ?v ?G]
  end;
  try reflexivity; unfold resolve_label;
  repeat match goal with G : label_get _ _ = _ |- _ => rewrite G; clear G end;
  cbn [ok_or rbind];
  repeat match goal with
  | |- (if ?c then _ else _) = _ => destruct c
  | |- match ?f with FNumeric _ => _ | _ => _ end = _ => destruct f
  end; reflexivity.

Lemma opcode_1_inline : forall m labels f f', inlines (label_get labels) f f' ->
  opcode_1 m f' labels = opcode_1 m f labels.
Proof. intros m labels f f' H. unfold opcode_1. inline_cases. Qed.

Lemma opcode_2_inline : forall m labels f f' g g',
  inlines (label_get labels) f f' -> inlines (label_get labels) g g' ->
  opcode_2 m f' g' labels = opcode_2 m f g labels.
Proof. intros m labels f f' g g' H K. unfold opcode_2. inline_cases. Qed.

Lemma opcode_3_inline : forall m labels f f' g g' h h',
  inlines (label_get labels) f f' -> inlines (label_get labels) g g' ->
  inlines (label_get labels) h h' ->
  opcode_3 m f' g' h' labels = opcode_3 m f g h labels.
Proof. intros m labels f f' g g' h h' H K J. unfold opcode_3. inline_cases. Qed.

Theorem label_means_value : forall m labels fields fields',
  Forall2 (inlines (label_get labels)) fields fields' ->
  unlisted (instruction_from m fields' labels) = unlisted (instruction_from m fields labels).
Proof.
  intros m labels fields fields' H. unfold instruction_from.
  destruct H as [|f f' ? ? Hf H]; [reflexivity|].
  assert (U : forall o a b,
    unlisted (ok_or o (NoMatchingFormat m a)) = unlisted (ok_or o (NoMatchingFormat m b)))
    by (intros [o|] a b; reflexivity).
  destruct H as [|g g' ? ? Hg H].
  { rewrite (opcode_1_inline _ _ _ _ Hf).
    destruct (opcode_1 (to_lowercase m) f labels) as [o|e]; [apply U | reflexivity]. }
  destruct H as [|h h' ? ? Hh H].
  { rewrite (opcode_2_inline _ _ _ _ _ _ Hf Hg).
    destruct (opcode_2 (to_lowercase m) f g labels) as [o|e]; [apply U | reflexivity]. }
  destruct H as [|k k' ? ? Hk H].
  { rewrite (opcode_3_inline _ _ _ _ _ _ _ _ Hf Hg Hh).
    destruct (opcode_3 (to_lowercase m) f g h labels) as [o|e]; [apply U | reflexivity]. }
  reflexivity.
Qed.
