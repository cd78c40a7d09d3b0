(** * ConstantProofs: definitions of constants (C79). *)

From Verif Require Import Base Text U12 Location Token Parser Directive Opcode Instruction DataRange Assembler
  SpecOpcode SpecRefusal SpecLayout SpecMeta SpecRewrite SpecConstant BaseFacts LayoutProofs EmitProofs MetaProofs RewriteProofs.
Open Scope N_scope.

(** ** The first pass *)

(** The labels [r'] are [r] and the constant. *)
Definition with_constant (id : str) (v : N) (r r' : label_map) : Prop :=
  forall x, label_get r' x = if str_eqb id x then Some v else label_get r x.

Definition related (id : str) (v : N) (o o' : result semantic_error label_map) : Prop :=
  match o, o' with
  | Ok r, Ok r' => with_constant id v r r'
  | Err e, Err e' => e = e'
  | _, _ => False
  end.

Lemma with_cons : forall id v r r' k w, k <> id -> with_constant id v r r' -> with_constant id v ((k, w) :: r) ((k, w) :: r').
Proof.
  intros id v r r' k w D W x. rewrite !label_get_cons, W. destruct (str_eqb k x) eqn:K, (str_eqb id x) eqn:I; try reflexivity.
  apply str_eqb_eq in K. apply str_eqb_eq in I. congruence.
Qed.

Lemma with_contains : forall id v r r' k, k <> id -> with_constant id v r r' -> contains_key r' k = contains_key r k.
Proof.
  intros id v r r' k D W. apply contains_ext. rewrite W. destruct (str_eqb id k) eqn:I; [|reflexivity].
  apply str_eqb_eq in I. congruence.
Qed.

Lemma labels_tl : forall p x, In x (labels_of (tl p)) -> In x (labels_of p).
Proof. intros [|[] p] x I; cbn [tl labels_of] in *; [exact I | exact I | right; exact I | exact I]. Qed.

Lemma define_with : forall id v n p, (length p <= n)%nat -> forall m m' a, ~ In id (labels_of p) -> with_constant id v m m' ->
  related id v (define_labels_loop m a p) (define_labels_loop m' a p).
Proof.
  intros id v. induction n as [|n IH]; intros [|x p] L m m' a U W; cbn [length] in L; try lia; try exact W.
  destruct x as [l d args|l k|l i fs]; cbn [labels_of] in U.
  - cbn [define_labels_loop].
    destruct (directive_from d args) as [d'|e]; cbn [map_err rbind]; [|reflexivity].
    destruct (u12_failable_into (directive_size d')) as [s|]; cbn [ok_or rbind]; [|reflexivity].
    destruct (u12_checked_add a s) as [b|]; cbn [ok_or rbind]; [|reflexivity].
    destruct d'; [apply IH; auto; lia | apply IH; auto; lia | reflexivity].
  - rewrite !define_label_peek. assert (D : k <> id) by (intros ->; apply U; left; reflexivity).
    rewrite (with_contains id v m m' k D W). destruct (contains_key m k); [reflexivity|].
    destruct (peek_constant p) as [c|].
    + apply (IH (tl p)).
      * destruct p; cbn [tl length] in *; lia.
      * intros I. apply U. right. apply labels_tl. exact I.
      * apply with_cons; assumption.
    + apply IH; [lia | intros I; apply U; right; exact I | apply with_cons; assumption].
  - cbn [define_labels_loop].
    destruct (u12_checked_add a bytes_per_instruction) as [b|]; cbn [ok_or rbind]; [|reflexivity].
    apply IH; auto. lia.
Qed.

Lemma labels_of_app : forall p q, labels_of (p ++ q) = labels_of p ++ labels_of q.
Proof. induction p as [|[] p IH]; intros q; cbn [app labels_of]; rewrite ?IH; reflexivity. Qed.

Lemma define_constant : forall id v l l' equ q, directive_from equ [LNumeric v] = Ok (Equ v) -> peek_constant q = None ->
  ~ In id (labels_of q) ->
  forall n p, (length p <= n)%nat -> forall m a, ~ In id (labels_of p) -> label_get m id = None ->
  related id v (define_labels_loop m a (p ++ q))
               (define_labels_loop m a (p ++ NLabel l id :: NDirective l' equ [LNumeric v] :: q)).
Proof.
  intros id v l l' equ q E Q Uq.
  assert (Base : forall a m, label_get m id = None ->
    related id v (define_labels_loop m a q) (define_labels_loop m a (NLabel l id :: NDirective l' equ [LNumeric v] :: q))).
  { intros a m N. rewrite define_label_peek, (proj2 (contains_false m id) N). cbn [peek_constant]. rewrite E. cbn [tl].
    apply (define_with id v (length q)); [lia | exact Uq|]. intros x. rewrite label_get_cons. reflexivity. }
  induction n as [|n IH]; intros [|x p] L m a U N; cbn [length] in L; try lia; try (cbn [app]; apply Base; assumption).
  cbn [app]. destruct x as [k d args|k y|k i fs]; cbn [labels_of] in U.
  - cbn [define_labels_loop].
    destruct (directive_from d args) as [d'|e]; cbn [map_err rbind]; [|reflexivity].
    destruct (u12_failable_into (directive_size d')) as [s|]; cbn [ok_or rbind]; [|reflexivity].
    destruct (u12_checked_add a s) as [b|]; cbn [ok_or rbind]; [|reflexivity].
    destruct d'; [apply IH; auto; lia | apply IH; auto; lia | reflexivity].
  - rewrite !define_label_peek.
    assert (D : y <> id) by (intros ->; apply U; left; reflexivity).
    assert (N' : forall w, label_get ((y, w) :: m) id = None).
    { intros w. rewrite label_get_cons, N. destruct (str_eqb y id) eqn:X; [|reflexivity].
      apply str_eqb_eq in X. contradiction. }
    destruct (contains_key m y); [reflexivity|].
    destruct p as [|z p].
    + cbn [app]. rewrite Q. cbn [peek_constant]. apply (IH []); [cbn; lia | intros [] | apply N'].
    + rewrite !peek_app. destruct (peek_constant (z :: p)) as [c|].
      * cbn [app tl]. apply IH; [cbn [length] in L; lia | | apply N'].
        intros J. apply U. right. apply (labels_tl (z :: p)). exact J.
      * apply (IH (z :: p)); [lia | intros J; apply U; right; exact J | apply N'].
  - cbn [define_labels_loop].
    destruct (u12_checked_add a bytes_per_instruction) as [b|]; cbn [ok_or rbind]; [|reflexivity].
    apply IH; auto. lia.
Qed.

(** ** The second pass *)

Definition sound (r : data_range) : Prop := dr_start r <= 4095 /\ dr_start r + range_len r <= 4096.

Lemma append_nothing : forall r, sound r -> append_asserted r [] = Done r.
Proof.
  intros [s d] [A B]. unfold range_len in B. cbn [dr_start dr_data] in *. unfold append_asserted, range_append, bytes_remaining, range_len, u12_max. cbn [dr_start dr_data].
  replace (s <=? 4095) with true by lia. replace (N.of_nat (length d) <=? 4095 - s + 1) with true by lia. cbn [bind length].
  replace (N.of_nat 0 <=? _) with true by lia. rewrite app_nil_r. reflexivity.
Qed.

Lemma append_sound : forall r b r', sound r -> append_asserted r b = Done r' -> sound r'.
Proof.
  intros [s d] b r' [A B] E. unfold range_len in B. cbn [dr_start dr_data] in *.
  unfold append_asserted, range_append, bytes_remaining, range_len, u12_max in E. cbn [dr_start dr_data] in E.
  replace (s <=? 4095) with true in E by lia. replace (N.of_nat (length d) <=? 4095 - s + 1) with true in E by lia. cbn [bind] in E.
  destruct (N.of_nat (length b) <=? 4095 - s + 1 - N.of_nat (length d)) eqn:C; cbn [bind assert_] in E; [|discriminate E].
  injection E as <-. unfold sound, range_len. cbn [dr_start dr_data]. rewrite app_length. lia.
Qed.

Lemma emit_skips_constant : forall labels l id l' equ v q, directive_from equ [LNumeric v] = Ok (Equ v) ->
  forall p ranges current, Forall node_ok p -> sound current ->
  emit_loop labels ranges current (p ++ NLabel l id :: NDirective l' equ [LNumeric v] :: q) =
  emit_loop labels ranges current (p ++ q).
Proof.
  intros labels l id l' equ v q E. induction p as [|x p IH]; intros ranges current O S.
  - cbn [app emit_loop]. rewrite E. cbn [directive_into_vec]. rewrite append_nothing by exact S. reflexivity.
  - inversion O as [|? ? Ox Op]; subst. destruct x as [k d args|k y|k m fs]; cbn [app emit_loop].
    + cbn [node_ok] in Ox. destruct (directive_from d args) as [d'|e] eqn:D; [|reflexivity].
      apply directive_means in D; [|exact Ox]. destruct d' as [a|b|c].
      * apply IH; [exact Op|]. inversion D; subst. unfold sound, range_new, range_len. cbn [dr_start dr_data length]. lia.
      * destruct (append_asserted current _) as [r|w] eqn:A; cbn [bind]; [|reflexivity]. apply IH; [exact Op|].
        exact (append_sound _ _ _ S A).
      * destruct (append_asserted current _) as [r|w] eqn:A; cbn [bind]; [|reflexivity]. apply IH; [exact Op|].
        exact (append_sound _ _ _ S A).
    + apply IH; assumption.
    + destruct (instruction_from m fs labels) as [o|e]; [|reflexivity].
      destruct (instruction_into_vec o) as [b|c]; cbn [bind]; [|reflexivity].
      destruct (append_asserted current b) as [r|c] eqn:A; cbn [bind]; [|reflexivity]. apply IH; [exact Op|].
      exact (append_sound _ _ _ S A).
Qed.

(** ** Both *)

Lemma peek_free : forall q, Forall node_ok q -> free_to_insert q -> peek_constant q = None.
Proof. intros q O F. rewrite peek_constant_spec by exact O. destruct q as [|n r]; [reflexivity | exact (F n r eq_refl)]. Qed.

Lemma equ_from : forall equ v, ascii equ -> names equ "EQU" = true -> v <= 4095 -> directive_from equ [LNumeric v] = Ok (Equ v).
Proof.
  intros equ v A N L. apply (directive_means equ [LNumeric v] (Equ v) A). apply means_equ; assumption.
Qed.

Lemma sound_new : sound (range_new 0).
Proof. unfold sound, range_new, range_len. cbn [dr_start dr_data length]. lia. Qed.

Theorem assemble_moved : forall id v d p q p' q', defining id v d -> p ++ q = p' ++ q' -> Forall node_ok (p ++ q) ->
  ~ In id (labels_of (p ++ q)) -> free_to_insert q -> free_to_insert q' ->
  assemble (p' ++ d ++ q') = assemble (p ++ d ++ q).
Proof.
  intros id v d p q p' q' D E O U F F'. destruct D as [l l' equ A N L]. pose proof (equ_from equ v A N L) as X.
  cbn [app]. pose proof O as O'. rewrite E in O'. pose proof U as U'. rewrite E in U'.
  rewrite labels_of_app in U, U'.
  assert (Up : ~ In id (labels_of p) /\ ~ In id (labels_of q)) by (split; intros I; apply U; apply in_app_iff; auto).
  assert (Up' : ~ In id (labels_of p') /\ ~ In id (labels_of q')) by (split; intros I; apply U'; apply in_app_iff; auto).
  pose proof (proj1 (Forall_app _ _ _) O) as [Op Oq]. pose proof (proj1 (Forall_app _ _ _) O') as [Op' Oq'].
  pose proof (define_constant id v l l' equ q X (peek_free q Oq F) (proj2 Up) (length p) p (le_n _) [] 0 (proj1 Up) eq_refl) as R.
  pose proof (define_constant id v l l' equ q' X (peek_free q' Oq' F') (proj2 Up') (length p') p' (le_n _) [] 0 (proj1 Up') eq_refl) as R'.
  unfold assemble, define_labels, emit_data_ranges. rewrite <- E in R'.
  destruct (define_labels_loop [] 0 (p ++ q)) as [m|e];
    destruct (define_labels_loop [] 0 (p ++ NLabel l id :: NDirective l' equ [LNumeric v] :: q)) as [m1|e1]; try contradiction;
    destruct (define_labels_loop [] 0 (p' ++ NLabel l id :: NDirective l' equ [LNumeric v] :: q')) as [m2|e2]; try contradiction.
  - rewrite !emit_skips_constant by (assumption || apply sound_new). rewrite E. apply emit_ext. intros n x _ _. rewrite R, R'. reflexivity.
  - cbn [related] in R, R'. congruence.
Qed.

Theorem assemble_unused_constant : forall id v d p q, defining id v d -> Forall node_ok (p ++ q) ->
  ~ mentioned (p ++ q) id -> free_to_insert q -> assemble (p ++ d ++ q) = assemble (p ++ q).
Proof.
  intros id v d p q D O U F. destruct D as [l l' equ A N L]. pose proof (equ_from equ v A N L) as X.
  assert (Ul : forall y, In id (labels_of y) -> mentioned y id).
  { intros y. clear. induction y as [|n y IH]; intros I; [contradiction|]. destruct n as [l id' args|l k|l m fs]; cbn [labels_of] in I.
    - destruct (IH I) as (n & J & M). exists n. split; [right; exact J | exact M].
    - destruct I as [-> |I]; [exists (NLabel l id); split; [left; reflexivity | reflexivity]|].
      destruct (IH I) as (n & J & M). exists n. split; [right; exact J | exact M].
    - destruct (IH I) as (n & J & M). exists n. split; [right; exact J | exact M]. }
  assert (Un : ~ In id (labels_of (p ++ q))) by (intros I; exact (U (Ul _ I))). rewrite labels_of_app in Un.
  assert (Up : ~ In id (labels_of p) /\ ~ In id (labels_of q)) by (split; intros I; apply Un; apply in_app_iff; auto).
  pose proof (proj1 (Forall_app _ _ _) O) as [Op Oq].
  pose proof (define_constant id v l l' equ q X (peek_free q Oq F) (proj2 Up) (length p) p (le_n _) [] 0 (proj1 Up) eq_refl) as R.
  cbn [app]. unfold assemble, define_labels, emit_data_ranges.
  destruct (define_labels_loop [] 0 (p ++ q)) as [m|e];
    destruct (define_labels_loop [] 0 (p ++ NLabel l id :: NDirective l' equ [LNumeric v] :: q)) as [m1|e1]; try contradiction.
  - rewrite emit_skips_constant by (assumption || apply sound_new). apply emit_ext. intros n x I M. rewrite R.
    destruct (str_eqb id x) eqn:Y; [|reflexivity]. apply str_eqb_eq in Y. subst x. exfalso. apply U. exists n. auto.
  - cbn [related] in R. congruence.
Qed.

(** ** Labels of one value *)

Lemma exchanged_lookup : forall lk p p', Forall2 (exchanged lk) p p' -> forall a x, lookup_from a p' x = lookup_from a p x.
Proof.
  intros lk p p' F. induction F as [|n n' p p' E F IH]; intros a x; [reflexivity|].
  assert (V : forall b, label_value b p' = label_value b p).
  { intros b. clear IH. destruct F as [|y y' p p' Ey F]; [reflexivity|]. cbn [label_value]. destruct Ey; reflexivity. }
  destruct E as [n|l m fs fs' Ff].
  - cbn [lookup_from]. rewrite IH. destruct n; [reflexivity| |reflexivity]. destruct (list_eq_dec N.eq_dec identifier x); [rewrite V; reflexivity | reflexivity].
  - cbn [lookup_from]. rewrite IH. reflexivity.
Qed.

(** Both with their numbers instead. *)
Fixpoint numbered (lk : str -> option N) (fs : list field) : list field :=
  match fs with
  | [] => []
  | FIdentifier a :: r => match lk a with Some v => FNumeric v | None => FIdentifier a end :: numbered lk r
  | f :: r => f :: numbered lk r
  end.

Lemma numbered_replaced : forall lk fs, Forall2 (replaced lk) fs (numbered lk fs).
Proof.
  intros lk. induction fs as [|f fs IH]; [constructor|]. destruct f; cbn [numbered]; constructor; try exact IH; try apply replaced_same.
  destruct (lk _) as [v|] eqn:E; [apply replaced_label; exact E | apply replaced_same].
Qed.

Lemma numbered_same : forall lk fs fs', Forall2 (same_value lk) fs fs' -> numbered lk fs' = numbered lk fs.
Proof.
  intros lk fs fs' F. induction F as [|f f' fs fs' S F IH]; [reflexivity|]. destruct S as [f|a b v A B].
  - destruct f; cbn [numbered]; rewrite IH; reflexivity.
  - cbn [numbered]. rewrite A, B, IH. reflexivity.
Qed.

Theorem assemble_exchanged : forall p p', Forall node_ok p -> Forall node_ok p' -> Forall2 (exchanged (lookup p)) p p' ->
  operands_aside (assemble p') = operands_aside (assemble p).
Proof.
  intros p p' O O' F.
  set (x := map (fun n => match n with NInstruction l m fs => NInstruction l m (numbered (lookup p) fs) | _ => n end) p).
  assert (A : Forall2 (inlined (lookup p)) p x).
  { unfold x. clear. generalize (lookup p). intros lk. induction p as [|n p IH]; [constructor|]. cbn [map]. constructor; [|exact IH].
    destruct n; try apply inlined_same. apply inlined_operands, numbered_replaced. }
  assert (B : Forall2 (inlined (lookup p')) p' x).
  { assert (L : forall y, lookup p' y = lookup p y) by (intros y; apply (exchanged_lookup (lookup p)); exact F).
    assert (B : Forall2 (inlined (lookup p)) p' x).
    { unfold x. clear - F. revert F. generalize (lookup p). intros lk F. induction F as [|n n' p p' E F IH]; [constructor|]. cbn [map].
      constructor; [|exact IH]. destruct E as [n|l m fs fs' Ff].
      - destruct n; try apply inlined_same. apply inlined_operands, numbered_replaced.
      - rewrite <- (numbered_same lk fs fs' Ff). apply inlined_operands, numbered_replaced. }
    revert B L. clear. generalize (lookup p'), (lookup p). intros lk' lk B L.
    induction B as [|n n' p1 p2 E B IH]; [constructor|]. constructor; [|exact IH]. destruct E as [n|l m fs fs' Ff]; [apply inlined_same|].
    apply inlined_operands. clear - Ff L. induction Ff as [|f f' fs fs' R Ff IH]; [constructor|]. constructor; [|exact IH].
    destruct R as [f|y v Y]; [apply replaced_same | apply replaced_label; rewrite L; exact Y]. }
  rewrite <- (assemble_inlined p x O A), <- (assemble_inlined p' x O' B). reflexivity.
Qed.
