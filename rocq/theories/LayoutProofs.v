(** * LayoutProofs: the assembler against SpecLayout. *)

From Verif Require Import Base Text U12 Location Parser Directive Opcode Instruction DataRange Assembler
  SpecLex SpecOpcode SpecRefusal SpecLayout BaseFacts OpcodeProofs InstructionProofs InstructionTheorems.
Open Scope N_scope.

(** ** Directives *)

Lemma names_lower : forall id, ascii id ->
  str_eqb (to_lowercase id) name_org = names id "ORG" /\
  str_eqb (to_lowercase id) name_db = names id "DB" /\
  str_eqb (to_lowercase id) name_equ = names id "EQU".
Proof.
  intros id A.
  assert (G : forall name, map upper (map lower (u name)) = u name ->
    str_eqb (to_lowercase id) (map lower (u name)) = names id name).
  { intros name E. pose proof (named_lowercase id name A E) as H. unfold names, named in *.
    destruct (str_eqb (to_lowercase id) (map lower (u name))) eqn:X.
    - symmetry. apply str_eqb_eq. apply H. reflexivity.
    - symmetry. apply not_true_is_false. intros Y. apply str_eqb_eq in Y. apply H in Y. congruence. }
  split; [exact (G "ORG"%string eq_refl)|]. split; [exact (G "DB"%string eq_refl)|]. exact (G "EQU"%string eq_refl).
Qed.

Lemma names_inv : forall id name, names id name = true -> map upper id = u name.
Proof. intros id name H. apply str_eqb_eq. exact H. Qed.

Lemma names_exclusive : forall id a b, names id a = true -> names id b = true -> u a = u b.
Proof. intros id a b H K. apply names_inv in H. apply names_inv in K. congruence. Qed.

Lemma db_bytes_spec : forall args bytes,
  (db_bytes bytes args = Ok (bytes ++ flat_map literal_bytes args) /\ Forall byte_literal args) \/
  (exists before v after, args = before ++ LNumeric v :: after /\ Forall byte_literal before /\ 255 < v /\
     db_bytes bytes args = Err (AllNumericParametersMustBeByteLiterals name_db v)).
Proof.
  induction args as [|[s|v] args IH]; intros bytes; cbn [db_bytes flat_map literal_bytes].
  - left. rewrite app_nil_r. split; constructor.
  - destruct (IH (bytes ++ utf8 s)) as [[E F]|(b & v & a & -> & F & V & E)].
    + left. rewrite E, <- app_assoc. split; [reflexivity|]. constructor; [exact I | exact F].
    + right. exists (LString s :: b), v, a. repeat split; try assumption. constructor; [exact I | exact F].
  - destruct (N.ltb_spec 255 v) as [V|V].
    + right. exists [], v, args. repeat split; [constructor | exact V].
    + change 255 with (N.ones 8). rewrite N.land_ones. change (2 ^ 8) with 256.
      rewrite N.mod_small by lia.
      destruct (IH (bytes ++ [v])) as [[E F]|(b & v' & a & -> & F & V' & E)].
      * left. rewrite E, <- app_assoc. split; [reflexivity|]. constructor; [exact V | exact F].
      * right. exists (LNumeric v :: b), v', a. repeat split; try assumption. constructor; [exact V | exact F].
Qed.

Lemma directive_cases : forall id args, ascii id ->
  (exists d, directive_from id args = Ok d /\ means id args d) \/
  (exists e, directive_from id args = Err e /\ rejects id args e).
Proof.
  intros id args A. destruct (names_lower id A) as (O & D & E). unfold directive_from. rewrite O, D, E.
  assert (One : forall name low make, In (name, low) [("ORG", "org"); ("EQU", "equ")]%string ->
    names id name = true -> (forall a, a <= 4095 -> means id [LNumeric a] (make a)) ->
    (exists d, one_numeric (u low) make args = Ok d /\ means id args d) \/
    (exists e, one_numeric (u low) make args = Err e /\ rejects id args e)).
  { intros name low make I N M. unfold one_numeric. destruct args as [|[s|v] [|b r]].
    - right. eexists. split; [reflexivity|]. eapply (rejects_count id []); eauto.
    - right. eexists. split; [reflexivity|]. eapply rejects_string; eauto.
    - right. eexists. split; [reflexivity|].
      eapply (rejects_count id (LString s :: b :: r)); eauto. cbn. lia.
    - destruct (N.leb_spec v 4095).
      + left. eexists. split; [reflexivity|]. unfold u12_unchecked_into. rewrite N.mod_small by lia. auto.
      + right. eexists. split; [reflexivity|]. eapply rejects_number; eauto.
    - right. eexists. split; [reflexivity|].
      eapply (rejects_count id (LNumeric v :: b :: r)); eauto. cbn. lia. }
  destruct (names id "ORG") eqn:NO.
  { apply (One "ORG"%string "org"%string Org); [left; reflexivity | exact NO |].
    intros. constructor; assumption. }
  destruct (names id "DB") eqn:ND.
  { destruct args as [|a r].
    - right. eexists. split; [reflexivity|]. apply rejects_empty. exact ND.
    - remember (a :: r) as args eqn:Ea. destruct (db_bytes_spec args []) as [[H F]|(b & v & t & H1 & F & V & H)].
      + left. rewrite H. eexists. split; [reflexivity|]. apply means_db; [exact ND | subst; discriminate | exact F].
      + right. rewrite H. eexists. split; [reflexivity|]. rewrite H1. apply rejects_wide; assumption. }
  destruct (names id "EQU") eqn:NE.
  { apply (One "EQU"%string "equ"%string Equ); [right; left; reflexivity | exact NE |].
    intros. constructor; assumption. }
  right. eexists. split; [reflexivity|]. apply rejects_unknown; assumption.
Qed.

Ltac name_clash :=
  match goal with
  | A : names ?id ?a = true, B : names ?id ?b = true |- _ =>
      first [ constr_eq a b; fail 1 | pose proof (names_exclusive _ _ _ A B) as X; discriminate X ]
  end.

Lemma means_det : forall id args d d', means id args d -> means id args d' -> d = d'.
Proof. intros id args d d' H K. inversion H; subst; inversion K; subst; try reflexivity; name_clash. Qed.

Lemma app_numeric_unique : forall before v after before' v' after',
  before ++ LNumeric v :: after = before' ++ LNumeric v' :: after' ->
  Forall byte_literal before -> 255 < v -> Forall byte_literal before' -> 255 < v' -> v = v'.
Proof.
  induction before as [|a before IH]; intros v after [|b before'] v' after' E F V F' V'; cbn in E.
  - injection E as -> _. reflexivity.
  - injection E as <- _. inversion F'; subst. cbn in *. lia.
  - injection E as -> _. inversion F; subst. cbn in *. lia.
  - injection E as -> E. inversion F; inversion F'; subst. eauto.
Qed.

Lemma rejects_det : forall id args e e', rejects id args e -> rejects id args e' -> e = e'.
Proof.
  intros id args e e' H K.
  destruct H as [id args N1 N2 N3 | id args name low I1 N1 L1 | id s name low I1 N1
                | id v name low I1 N1 V1 | id N1 | id b v a N1 F1 V1];
  try (destruct I1 as [I1|[I1|[]]]; injection I1 as <- <-);
  inversion K; subst; try reflexivity; try congruence;
  try (match goal with I2 : In _ _ |- _ => destruct I2 as [I2|[I2|[]]]; injection I2 as <- <- end);
  try reflexivity; try congruence; try name_clash; try (cbn in *; congruence).
  - exfalso. symmetry in H. eapply app_cons_not_nil. eassumption.
  - exfalso. destruct b; discriminate.
  - f_equal. eapply app_numeric_unique; eauto.
Qed.

Lemma means_not_rejects : forall id args d e, means id args d -> rejects id args e -> False.
Proof.
  intros id args d e H K.
  destruct H as [id a N1 B1 | id a N1 B1 | id args N1 Ne F1];
  inversion K; subst; try congruence;
  try (match goal with I2 : In _ _ |- _ => destruct I2 as [I2|[I2|[]]]; injection I2 as <- <- end);
  try congruence; try name_clash; try (cbn in *; congruence); try lia.
  apply Forall_app in F1. destruct F1 as [_ F1]. inversion F1; subst. cbn in *. lia.
Qed.

Theorem directive_means : forall id args d, ascii id ->
  (directive_from id args = Ok d <-> means id args d).
Proof.
  intros id args d A. destruct (directive_cases id args A) as [(d' & E & M)|(e & E & R)]; rewrite E.
  - split; intros H.
    + injection H as <-. exact M.
    + f_equal. eapply means_det; eassumption.
  - split; intros H; [discriminate|]. exfalso. eapply means_not_rejects; eassumption.
Qed.

Theorem directive_rejects : forall id args e, ascii id ->
  (directive_from id args = Err e <-> rejects id args e).
Proof.
  intros id args e A. destruct (directive_cases id args A) as [(d' & E & M)|(e' & E & R)]; rewrite E.
  - split; intros H; [discriminate|]. exfalso. eapply means_not_rejects; eassumption.
  - split; intros H.
    + injection H as <-. exact R.
    + f_equal. eapply rejects_det; eassumption.
Qed.

(** The size, origin and constant of a meaningful directive. *)
Lemma means_size : forall l id args d, means id args d ->
  directive_size d = size (NDirective l id args) /\
  origin (NDirective l id args) = (match d with Org a => Some a | _ => None end) /\
  constant (NDirective l id args) = (match d with Equ c => Some c | _ => None end).
Proof.
  intros l id args d M. destruct M as [id a N1 B | id a N1 B | id args N1 Ne F]; cbn [size origin constant directive_size].
  - assert (D : names id "DB" = false) by (apply not_true_is_false; intros D; name_clash).
    assert (E : names id "EQU" = false) by (apply not_true_is_false; intros E; name_clash).
    rewrite D, N1, E. auto.
  - assert (D : names id "DB" = false) by (apply not_true_is_false; intros D; name_clash).
    assert (O : names id "ORG" = false) by (apply not_true_is_false; intros O; name_clash).
    rewrite D, N1, O. rewrite (proj2 (N.leb_le a 4095) B). auto.
  - assert (E : names id "EQU" = false) by (apply not_true_is_false; intros E; name_clash).
    assert (O : names id "ORG" = false) by (apply not_true_is_false; intros O; name_clash).
    rewrite N1, E, O. repeat split; destruct args as [|[s|v] [|b r]]; reflexivity.
Qed.

Lemma constant_means : forall l id args c,
  constant (NDirective l id args) = Some c <-> means id args (Equ c).
Proof.
  intros l id args c. split.
  - cbn [constant]. destruct args as [|[s|v] [|b r]]; try discriminate.
    destruct (names id "EQU") eqn:N; [|discriminate]. cbn [andb].
    destruct (N.leb_spec v 4095); [|discriminate]. intros E. injection E as <-. constructor; assumption.
  - intros M. exact (proj2 (proj2 (means_size l _ _ _ M))).
Qed.

Lemma peek_constant_spec : forall rest, Forall node_ok rest ->
  peek_constant rest = match rest with n :: _ => constant n | [] => None end.
Proof.
  intros rest F. destruct rest as [|[l id args|l id|l m fs] rest]; try reflexivity.
  inversion F as [|? ? A _]; subst. cbn [node_ok] in A. unfold peek_constant.
  destruct (directive_cases id args A) as [(d & E & M)|(e & E & R)]; rewrite E.
  - rewrite (proj2 (proj2 (means_size l _ _ _ M))). destruct d; reflexivity.
  - destruct (constant (NDirective l id args)) as [c|] eqn:K; [|reflexivity].
    apply constant_means in K. exfalso. eapply means_not_rejects; eassumption.
Qed.

(** ** The first pass: label values *)

Lemma after_label : forall a l id, after a (NLabel l id) = a.
Proof. intros. unfold after. cbn [origin size]. lia. Qed.

Lemma after_means : forall a l id args d, means id args d ->
  after a (NDirective l id args) = match d with Org o => o | _ => a + directive_size d end.
Proof.
  intros a l id args d M. destruct (means_size l _ _ _ M) as (S & O & _).
  unfold after. rewrite O, S. destruct d; reflexivity.
Qed.

Lemma checked_add_some : forall a b c, u12_checked_add a b = Some c <-> a + b <= 4095 /\ c = a + b.
Proof.
  intros a b c. unfold u12_checked_add, u12_max. destruct (N.leb_spec (a + b) 0xFFF).
  - split; [intros E; injection E as <-; auto | intros [_ ->]; reflexivity].
  - split; [discriminate | intros [L _]; lia].
Qed.

Lemma failable_some : forall a b, u12_failable_into a = Some b <-> a <= 4095 /\ b = a.
Proof.
  intros a b. unfold u12_failable_into, u12_max. destruct (N.leb_spec a 0xFFF).
  - split; [intros E; injection E as <-; auto | intros [_ ->]; reflexivity].
  - split; [discriminate | intros [L _]; lia].
Qed.

Lemma contains_false : forall m k, contains_key m k = false <-> label_get m k = None.
Proof. intros. unfold contains_key. destruct (label_get m k); split; congruence. Qed.

Lemma constant_node : forall n c, constant n = Some c ->
  exists l id args, n = NDirective l id args /\ means id args (Equ c).
Proof.
  intros [l id args|l id|l m fs] c H; try discriminate. apply constant_means in H. eauto.
Qed.

Lemma define_label_eq : forall labels a l id rest,
  Forall node_ok rest ->
  define_labels_loop labels a (NLabel l id :: rest) =
  if contains_key labels id then Err (RedefinitionOfLabel l id)
  else define_labels_loop ((id, label_value a rest) :: labels) a
         match rest with
         | n :: rest' => match constant n with Some _ => rest' | None => rest end
         | [] => rest
         end.
Proof.
  intros labels a l id rest F. pose proof (peek_constant_spec rest F) as P.
  unfold label_value. destruct rest as [|n rest]; [reflexivity|].
  cbn [define_labels_loop]. rewrite P. destruct (constant n); reflexivity.
Qed.

Lemma define_lookup : forall k p a labels labels', (length p <= k)%nat -> Forall node_ok p ->
  define_labels_loop labels a p = Ok labels' ->
  forall id, label_get labels' id =
    match label_get labels id with Some v => Some v | None => lookup_from a p id end.
Proof.
  induction k as [|k IH]; intros p a labels labels' Hk F H x.
  { destruct p; [|cbn in Hk; lia]. cbn in H. injection H as <-. destruct (label_get labels x); reflexivity. }
  destruct p as [|n p]; [cbn in H; injection H as <-; destruct (label_get labels x); reflexivity|].
  cbn [length] in Hk. inversion F as [|? ? On F']; subst.
  destruct n as [l id args|l id|l m fs].
  - cbn [define_labels_loop] in H. cbn [lookup_from]. cbn [node_ok] in On.
    destruct (directive_cases id args On) as [(d & E & M)|(e & E & R)]; rewrite E in H; [|discriminate].
    cbn [map_err rbind] in H.
    destruct (u12_failable_into (directive_size d)) as [sz|] eqn:Es; [|discriminate]. cbn [ok_or rbind] in H.
    destruct (u12_checked_add a sz) as [b|] eqn:Eb; [|discriminate]. cbn [ok_or rbind] in H.
    apply failable_some in Es. destruct Es as [_ ->]. apply checked_add_some in Eb. destruct Eb as [_ ->].
    rewrite (after_means a l _ _ _ M). destruct d; [| |discriminate];
      (eapply IH; [|exact F'|exact H]; lia).
  - rewrite define_label_eq in H by exact F'.
    destruct (contains_key labels id) eqn:C; [discriminate|]. apply contains_false in C.
    cbn [lookup_from]. rewrite after_label.
    assert (G : forall x, label_get labels' x =
      match label_get ((id, label_value a p) :: labels) x with
      | Some v => Some v | None => lookup_from a p x end).
    { clear x. intros x. destruct p as [|n p]; [eapply IH; [|exact F'|exact H]; cbn; lia|].
      destruct (constant n) as [c|] eqn:K; [|eapply IH; [|exact F'|exact H]; cbn [length] in *; lia].
      destruct (constant_node _ _ K) as (l' & id' & args & -> & M).
      cbn [length] in Hk. inversion F' as [|? ? _ F'']; subst.
      cbn [lookup_from]. rewrite (after_means a l' _ _ _ M). cbn [directive_size]. rewrite N.add_0_r.
      eapply IH; [|exact F''|exact H]. lia. }
    rewrite G. cbn [label_get]. destruct (list_eq_dec N.eq_dec id x) as [->|D].
    + rewrite str_eqb_refl, C. reflexivity.
    + assert (X : str_eqb id x = false) by (apply not_true_is_false; rewrite str_eqb_eq; exact D).
      rewrite X. reflexivity.
  - cbn [define_labels_loop] in H. cbn [lookup_from].
    destruct (u12_checked_add a bytes_per_instruction) as [b|] eqn:Eb; [|discriminate]. cbn [ok_or rbind] in H.
    apply checked_add_some in Eb. destruct Eb as [_ ->]. unfold bytes_per_instruction in H.
    eapply IH; [|exact F'|exact H]. lia.
Qed.

(** ** The first pass: errors *)

Lemma counter_snoc : forall a p n, counter a (p ++ [n]) = after (counter a p) n.
Proof. intros. unfold counter. rewrite fold_left_app. reflexivity. Qed.

Lemma firstn_length_app : forall (A : Type) (p q : list A), firstn (length p) (p ++ q) = p.
Proof. intros. rewrite firstn_app, firstn_all, Nat.sub_diag. cbn. apply app_nil_r. Qed.

Lemma nth_error_length_app : forall (A : Type) (p q : list A) n, nth_error (p ++ n :: q) (length p) = Some n.
Proof. intros. rewrite nth_error_app2, Nat.sub_diag by lia. reflexivity. Qed.

Lemma address_here : forall p q, address (p ++ q) (length p) = counter 0 p.
Proof. intros. unfold address. rewrite firstn_length_app. reflexivity. Qed.

Definition ends_in_label (p : list node) : Prop := exists q l id, p = q ++ [NLabel l id].

Lemma labelled_here : forall p q, labelled (p ++ q) (length p) <-> ends_in_label p.
Proof.
  intros p q. split.
  - intros (j & l & id & E & H). destruct p as [|x p] using rev_ind; [discriminate|]. clear IHp.
    rewrite app_length in E. cbn in E. assert (j = length p) by lia. subst j.
    rewrite <- app_assoc in H. cbn [app] in H. rewrite nth_error_length_app in H. injection H as ->.
    exists p, l, id. reflexivity.
  - intros (p' & l & id & ->). exists (length p'), l, id. split.
    + rewrite app_length. cbn. lia.
    + rewrite <- app_assoc. apply nth_error_length_app.
Qed.

Lemma labels_of_app : forall p q, labels_of (p ++ q) = labels_of p ++ labels_of q.
Proof.
  induction p as [|[]  p IH]; intros q; cbn [app labels_of]; rewrite ?IH; reflexivity.
Qed.

(** The errors the first pass looks for at a statement. *)
Inductive bad (p : list node) : node -> semantic_error -> Prop :=
| bad_directive : forall l id args e, rejects id args e ->
    bad p (NDirective l id args) (DirectiveInvalid l e)
| bad_size : forall l id args d, means id args d -> 4095 < size (NDirective l id args) ->
    bad p (NDirective l id args) (DirectiveTooLarge l d)
| bad_space : forall l id args d, means id args d ->
    size (NDirective l id args) <= 4095 ->
    4095 < counter 0 p + size (NDirective l id args) ->
    bad p (NDirective l id args) (DirectiveWouldOverflow l d)
| bad_constant : forall l id args c, means id args (Equ c) -> ~ ends_in_label p ->
    bad p (NDirective l id args) (ConstantWithoutLabel l)
| bad_instruction : forall l m fields, 4095 < counter 0 p + 2 ->
    bad p (NInstruction l m fields) (InstructionWouldOverflow l)
| bad_label : forall l id, In id (labels_of p) -> bad p (NLabel l id) (RedefinitionOfLabel l id).

Lemma violates_here : forall p n q e, violates (p ++ n :: q) (length p) e <-> bad p n e.
Proof.
  intros p n q e. split.
  - intros H. destruct H as [l id args e H R | l id args d H M S | l id args d H M S A
      | l id args c H M L | l m fs H A | l id H I];
      rewrite nth_error_length_app in H; injection H as ->; rewrite ?address_here in *.
    + apply bad_directive; assumption.
    + apply bad_size; assumption.
    + apply bad_space; assumption.
    + eapply bad_constant; [exact M|]. intros X. apply L. apply labelled_here. exact X.
    + apply bad_instruction; assumption.
    + rewrite firstn_length_app in I. apply bad_label; assumption.
  - intros H. destruct H; [eapply violates_directive | eapply violates_size | eapply violates_space
      | eapply violates_constant | eapply violates_instruction | eapply violates_label];
      rewrite ?address_here, ?firstn_length_app; try apply nth_error_length_app; try eassumption.
    intros X. apply labelled_here in X. contradiction.
Qed.

Definition post (p : list node) (k : nat) (r : result semantic_error label_map) : Prop :=
  match r with
  | Ok _ => forall i e, (k <= i)%nat -> ~ violates p i e
  | Err e => exists i, (k <= i)%nat /\ violates p i e /\
                       forall j e', (k <= j < i)%nat -> ~ violates p j e'
  end.

Lemma post_step : forall p k r, (forall e, ~ violates p k e) -> post p (S k) r -> post p k r.
Proof.
  intros p k [labels|e] N H; cbn [post] in *.
  - intros i e L. destruct (Nat.eq_dec i k) as [->|D]; [apply N | apply H; lia].
  - destruct H as (i & L & V & U). exists i. split; [lia|]. split; [exact V|].
    intros j e' Lj. destruct (Nat.eq_dec j k) as [->|D]; [apply N | apply U; lia].
Qed.

Lemma post_here : forall p k e, violates p k e -> post p k (Err e).
Proof. intros p k e V. exists k. split; [lia|]. split; [exact V|]. intros j e' L. lia. Qed.

Lemma define_violations : forall k rest done labels, (length rest <= k)%nat ->
  Forall node_ok rest -> counter 0 done <= 4095 ->
  (forall id, In id (labels_of done) <-> contains_key labels id = true) ->
  (ends_in_label done -> match rest with n :: _ => constant n = None | [] => True end) ->
  post (done ++ rest) (length done) (define_labels_loop labels (counter 0 done) rest).
Proof.
  induction k as [|k IH]; intros rest done labels Hk F C T B.
  { destruct rest; [|cbn in Hk; lia]. cbn [define_labels_loop post]. intros i e L V. rewrite app_nil_r in V.
    inversion V; subst; match goal with X : nth_error done i = Some _ |- _ =>
      assert (i < length done)%nat by (apply nth_error_Some; congruence) end; lia. }
  destruct rest as [|n rest].
  { cbn [define_labels_loop post]. intros i e L V. rewrite app_nil_r in V.
    inversion V; subst; match goal with X : nth_error done i = Some _ |- _ =>
      assert (i < length done)%nat by (apply nth_error_Some; congruence) end; lia. }
  cbn [length] in Hk. inversion F as [|? ? On F']; subst.
  assert (Next : forall labels',
    (forall e, ~ bad done n e) -> counter 0 (done ++ [n]) <= 4095 ->
    (forall id, In id (labels_of (done ++ [n])) <-> contains_key labels' id = true) ->
    (ends_in_label (done ++ [n]) -> match rest with n' :: _ => constant n' = None | [] => True end) ->
    post (done ++ n :: rest) (length done) (define_labels_loop labels' (counter 0 (done ++ [n])) rest)).
  { intros labels' NB C' T' B'. apply post_step.
    - intros e V. apply violates_here in V. exact (NB e V).
    - replace (done ++ n :: rest) with ((done ++ [n]) ++ rest) by (rewrite <- app_assoc; reflexivity).
      replace (S (length done)) with (length (done ++ [n])) by (rewrite app_length; cbn; lia).
      apply IH; try assumption; lia. }
  assert (NotLabel : is_label n = false -> ~ ends_in_label (done ++ [n])).
  { intros X (q & l & id & E). apply app_inj_tail in E. destruct E as [_ ->]. discriminate. }
  assert (SameLabels : is_label n = false -> labels_of (done ++ [n]) = labels_of done).
  { intros X. rewrite labels_of_app. destruct n; try discriminate; cbn; apply app_nil_r. }
  destruct n as [l id args|l id|l m fs].
  - cbn [define_labels_loop]. cbn [node_ok] in On.
    destruct (directive_cases id args On) as [(d & E & M)|(e & E & R)]; rewrite E; cbn [map_err rbind].
    2: { apply post_here. apply violates_here. apply bad_directive. exact R. }
    destruct (means_size l _ _ _ M) as (Sz & O & K).
    destruct (u12_failable_into (directive_size d)) as [sz|] eqn:Es; cbn [ok_or rbind].
    2: { apply post_here. apply violates_here. apply bad_size; [exact M|]. rewrite <- Sz.
         apply N.nle_gt. intros L. assert (X := proj2 (failable_some (directive_size d) _) (conj L eq_refl)).
         congruence. }
    apply failable_some in Es. destruct Es as [Ls ->].
    destruct (u12_checked_add (counter 0 done) (directive_size d)) as [b|] eqn:Eb; cbn [ok_or rbind].
    2: { apply post_here. apply violates_here. apply bad_space; [exact M | rewrite <- Sz; exact Ls |].
         rewrite <- Sz. apply N.nle_gt. intros L.
         assert (X := proj2 (checked_add_some (counter 0 done) (directive_size d) _) (conj L eq_refl)).
         congruence. }
    apply checked_add_some in Eb. destruct Eb as [Lb ->].
    assert (NB : (forall c, d <> Equ c) -> forall e, ~ bad done (NDirective l id args) e).
    { intros Dc e Be. inversion Be; subst.
      - eapply means_not_rejects; eassumption.
      - rewrite <- Sz in *. lia.
      - rewrite <- Sz in *. lia.
      - match goal with M2 : means id args (Equ ?c') |- _ =>
          exact (Dc _ (means_det _ _ _ _ M M2)) end. }
    assert (Cn : (forall c, d <> Equ c) ->
      post (done ++ NDirective l id args :: rest) (length done)
        (define_labels_loop labels (after (counter 0 done) (NDirective l id args)) rest)).
    { intros Dc. rewrite <- counter_snoc. apply Next.
      - apply NB. exact Dc.
      - rewrite counter_snoc, (after_means _ l _ _ _ M). destruct d; [|assumption|assumption].
        inversion M; subst. assumption.
      - rewrite SameLabels by reflexivity. exact T.
      - intros X. exfalso. exact (NotLabel eq_refl X). }
    rewrite (after_means _ l _ _ _ M) in Cn. destruct d as [o|bs|c].
    + apply Cn. discriminate.
    + apply Cn. discriminate.
    + apply post_here. apply violates_here. eapply bad_constant; [exact M|].
      intros X. specialize (B X). congruence.
  - rewrite define_label_eq by exact F'.
    destruct (contains_key labels id) eqn:Ck.
    { apply post_here. apply violates_here. apply bad_label. apply T. exact Ck. }
    assert (NB : forall e, ~ bad done (NLabel l id) e).
    { intros e Be. inversion Be; subst.
      match goal with X : In id _ |- _ => apply T in X end. congruence. }
    assert (C' : counter 0 (done ++ [NLabel l id]) = counter 0 done)
      by (rewrite counter_snoc; apply after_label).
    assert (T' : forall v x, In x (labels_of (done ++ [NLabel l id])) <->
                             contains_key ((id, v) :: labels) x = true).
    { intros v x. rewrite labels_of_app. cbn [labels_of]. rewrite in_app_iff, T. unfold contains_key. cbn [label_get In].
      destruct (str_eqb id x) eqn:X.
      - apply str_eqb_eq in X. subst. tauto.
      - assert (id <> x) by (intros ->; rewrite str_eqb_refl in X; discriminate).
        destruct (label_get labels x); intuition congruence. }
    generalize (label_value (counter 0 done) rest). intros v.
    destruct rest as [|n rest]; [|destruct (constant n) as [c|] eqn:K].
    + rewrite <- C'. apply Next; [exact NB | lia | apply T' | intros; exact I].
    + destruct (constant_node _ _ K) as (l' & id' & args & -> & M).
      destruct (means_size l' _ _ _ M) as (Sz & O & _).
      inversion F' as [|? ? On' F'']; subst.
      apply post_step; [intros e V; apply violates_here in V; exact (NB e V)|].
      replace (done ++ NLabel l id :: NDirective l' id' args :: rest)
        with ((done ++ [NLabel l id]) ++ NDirective l' id' args :: rest) by (rewrite <- app_assoc; reflexivity).
      replace (S (length done)) with (length (done ++ [NLabel l id])) by (rewrite app_length; cbn; lia).
      apply post_step.
      { intros e V. apply violates_here in V. inversion V; subst.
        - eapply means_not_rejects; eassumption.
        - rewrite <- Sz in *. cbn [directive_size] in *. lia.
        - rewrite <- Sz in *. cbn [directive_size] in *. lia.
        - match goal with X : ~ ends_in_label _ |- _ => apply X end. exists done, l, id. reflexivity. }
      replace ((done ++ [NLabel l id]) ++ NDirective l' id' args :: rest)
        with ((done ++ [NLabel l id; NDirective l' id' args]) ++ rest) by (rewrite <- !app_assoc; reflexivity).
      replace (S (length (done ++ [NLabel l id])))
        with (length (done ++ [NLabel l id; NDirective l' id' args])) by (rewrite !app_length; cbn; lia).
      assert (C2 : counter 0 (done ++ [NLabel l id; NDirective l' id' args]) = counter 0 done).
      { replace (done ++ [NLabel l id; NDirective l' id' args])
          with ((done ++ [NLabel l id]) ++ [NDirective l' id' args]) by (rewrite <- app_assoc; reflexivity).
        rewrite counter_snoc, C', (after_means _ l' _ _ _ M). cbn [directive_size]. lia. }
      rewrite <- C2. apply IH.
      * cbn [length] in Hk. lia.
      * exact F''.
      * rewrite C2. exact C.
      * intros x. rewrite <- (T' v x).
        rewrite !labels_of_app. cbn [labels_of]. tauto.
      * intros (q & l2 & id2 & E).
        replace (done ++ [NLabel l id; NDirective l' id' args])
          with ((done ++ [NLabel l id]) ++ [NDirective l' id' args]) in E by (rewrite <- app_assoc; reflexivity).
        apply app_inj_tail in E. destruct E as [_ E]. discriminate.
    + rewrite <- C'. apply Next; [exact NB | lia | apply T' | intros; reflexivity].
  - cbn [define_labels_loop].
    destruct (u12_checked_add (counter 0 done) bytes_per_instruction) as [b|] eqn:Eb; cbn [ok_or rbind].
    2: { apply post_here. apply violates_here. apply bad_instruction. apply N.nle_gt. intros L.
         assert (X := proj2 (checked_add_some (counter 0 done) bytes_per_instruction _) (conj L eq_refl)).
         congruence. }
    apply checked_add_some in Eb. destruct Eb as [Lb ->]. unfold bytes_per_instruction in *.
    change (counter 0 done + 2) with (after (counter 0 done) (NInstruction l m fs)). rewrite <- counter_snoc.
    apply Next.
    + intros e Be. inversion Be; subst. lia.
    + rewrite counter_snoc. unfold after. cbn [origin size]. exact Lb.
    + rewrite SameLabels by reflexivity. exact T.
    + intros X. exfalso. exact (NotLabel eq_refl X).
Qed.

Theorem define_labels_spec : forall p, Forall node_ok p ->
  match define_labels p with
  | Ok labels => (forall i e, ~ violates p i e) /\ forall id, label_get labels id = lookup p id
  | Err e => exists i, first (violates p) i e
  end.
Proof.
  intros p F. unfold define_labels.
  assert (P : post p 0 (define_labels_loop [] 0 p)).
  { apply (define_violations (length p) p [] []); try assumption; try lia.
    - cbn; lia.
    - intros id. cbn. split; [tauto | discriminate].
    - intros (q & l & id & E). destruct q; discriminate. }
  destruct (define_labels_loop [] 0 p) as [labels|e] eqn:E; cbn [post] in P.
  - split; [intros i e; apply P; lia|]. intros id.
    rewrite (define_lookup (length p) p 0 [] labels (le_n _) F E). reflexivity.
  - destruct P as (i & _ & V & U). exists i. split; [exact V|]. intros j e' L. apply U. lia.
Qed.
