(** * LimitProofs: a number replaced by another *)

From Verif Require Import Base Text Parser Directive Instruction DataRange Assembler
  SpecLex SpecOpcode SpecRefusal SpecLayout BaseFacts LayoutProofs EmitProofs AddressProofs LocalProofs.
Open Scope N_scope.

(** ** Words *)

Definition value_digit (c : char) : bool := (c =? c_ "n") || (c =? c_ "k").

(** The part of a word made of the number [v]. *)
Fixpoint value_part (v : N) (mask : list bool) : N :=
  match mask with
  | [] => 0
  | b :: r => (if b then (v / 16 ^ N.of_nat (length r)) mod 16 * 16 ^ N.of_nat (length r) else 0) + value_part v r
  end.

Lemma word_parts : forall x y v pattern,
  (forall c, In c pattern -> value_digit c = true -> (c =? c_ "x") = false /\ (c =? c_ "y") = false) ->
  word x y v pattern = word x y 0 pattern + value_part v (map value_digit pattern).
Proof.
  intros x y v. induction pattern as [|c r IH]; intros H; [reflexivity|]. cbn [word map value_part].
  rewrite IH by (intros d I; apply H; right; exact I). rewrite map_length. unfold nibble.
  specialize (H c (or_introl eq_refl)). fold (value_digit c). destruct (value_digit c).
  - destruct (H eq_refl) as [-> ->]. rewrite N.div_0_l by (apply N.pow_nonzero; discriminate). rewrite N.mod_0_l by discriminate. lia.
  - destruct (c =? c_ "x"), (c =? c_ "y"); lia.
Qed.

Lemma value_digits : forall c, value_digit c = true -> (c =? c_ "x") = false /\ (c =? c_ "y") = false.
Proof.
  intros c H. unfold value_digit in H. apply orb_true_iff in H. destruct H as [H|H]; apply N.eqb_eq in H; subst c; split; reflexivity.
Qed.

(** Which digits of a row are the number, by its operand. *)
Definition mask_of (c : string) : list bool :=
  if String.eqb c "addr" then [false; true; true; true]
  else if String.eqb c "nn" then [false; false; true; true]
  else [false; false; false; true].

Definition is_value_operand (c : string) : bool := existsb (String.eqb c) ["addr"; "nn"; "n"]%string.

Lemma is_value_operand_spec : forall c, is_value_operand c = true <-> value_operand c.
Proof.
  intros c. unfold is_value_operand, value_operand. rewrite existsb_exists. split.
  - intros (x & I & E). apply String.eqb_eq in E. subst x. exact I.
  - intros I. exists c. split; [exact I | apply String.eqb_refl].
Qed.

Lemma row_masks : forall pattern name os1 c os2, In (pattern, name, os1 ++ c :: os2) table -> value_operand c ->
  map value_digit (u pattern) = mask_of c /\ Forall (fun o => ~ value_operand o) os1 /\ Forall (fun o => ~ value_operand o) os2.
Proof.
  assert (C : forallb (fun row => forallb (fun c => negb (is_value_operand c) ||
      (if list_eq_dec Bool.bool_dec (map value_digit (u (fst (fst row)))) (mask_of c) then true else false)) (snd row) &&
      (length (filter is_value_operand (snd row)) <=? 1)%nat) table = true) by (vm_compute; reflexivity).
  intros pattern name os1 c os2 I V. rewrite forallb_forall in C. specialize (C _ I). cbv beta in C. cbn [fst snd] in C.
  apply andb_true_iff in C. destruct C as [C1 C2]. rewrite forallb_forall in C1. specialize (C1 c). cbv beta in C1.
  apply is_value_operand_spec in V. rewrite V in C1. cbn [negb orb] in C1. split.
  - destruct (list_eq_dec Bool.bool_dec (map value_digit (u pattern)) (mask_of c)) as [E|]; [exact E|].
    discriminate C1. apply in_app_iff. right. left. reflexivity.
  - apply Nat.leb_le in C2. rewrite filter_app in C2. cbn [filter] in C2. rewrite V in C2. rewrite app_length in C2. cbn [length] in C2.
    assert (Z : forall os, (length (filter is_value_operand os) <= 0)%nat -> Forall (fun o => ~ value_operand o) os).
    { intros os L. apply Forall_forall. intros o Io Vo. apply is_value_operand_spec in Vo.
      assert (X : In o (filter is_value_operand os)) by (apply filter_In; auto). destruct (filter is_value_operand os); [destruct X | cbn in L; lia]. }
    split; apply Z; lia.
Qed.

Lemma mask_value : forall c v, value_operand c -> v <= limit c -> value_part v (mask_of c) = v.
Proof.
  intros c v [<- | [<- | [<- | []]]] L.
  - change (limit "addr") with 4095 in L. change (mask_of "addr") with [false; true; true; true]. cbn [value_part length].
    change (16 ^ N.of_nat 2) with 256. change (16 ^ N.of_nat 1) with 16. change (16 ^ N.of_nat 0) with 1. lia.
  - change (limit "nn") with 255 in L. change (mask_of "nn") with [false; false; true; true]. cbn [value_part length].
    change (16 ^ N.of_nat 1) with 16. change (16 ^ N.of_nat 0) with 1. lia.
  - change (limit "n") with 15 in L. change (mask_of "n") with [false; false; false; true]. cbn [value_part length].
    change (16 ^ N.of_nat 0) with 1. lia.
Qed.

(** ** Instructions *)

Lemma binds_other : forall lookup x y v v' os fs, Forall (fun o => ~ value_operand o) os ->
  Forall2 (binds lookup x y v) os fs -> Forall2 (binds lookup x y v') os fs.
Proof.
  intros lookup x y v v' os fs N H. induction H as [|o f os fs (A & B & _) H IH]; [constructor|]. inversion N; subst.
  constructor; [|apply IH; assumption]. split; [exact A|]. split; [exact B|]. intros V. contradiction.
Qed.

Lemma Forall2_split : forall (A B : Type) (R : A -> B -> Prop) a b c d, length a = length c ->
  Forall2 R (a ++ b) (c ++ d) -> Forall2 R a c /\ Forall2 R b d.
Proof.
  intros A B R. induction a as [|x a IH]; intros b [|y c] d L H; try discriminate L; [split; [constructor | exact H]|].
  cbn [app] in H. inversion H; subst. injection L as L. destruct (IH b c d L) as [H1 H2]; [assumption|].
  split; [constructor; assumption | exact H2].
Qed.

Lemma fits_is_value : forall o f, fits o f -> is_value f = true -> value_operand o.
Proof. intros o f H V. destruct H; try discriminate V. assumption. Qed.

Definition too_big (c : string) (v : N) : instruction_error :=
  if String.eqb c "nn" then ExpectingEightBitValue v else ExpectingFourBitValue v.

Lemma value_changed : forall lookup m fs1 f fs2 w, is_value f = true -> encodes lookup m (fs1 ++ f :: fs2) w ->
  exists pattern name os1 c os2 v, row_for m (fs1 ++ f :: fs2) (pattern, name, os1 ++ c :: os2) /\ length os1 = length fs1 /\
    value_operand c /\ value_of lookup f = Some v /\ v <= limit c /\ v <= w /\
    forall f' v', is_value f' = true -> value_of lookup f' = Some v' -> v' <= 4095 ->
      (v' <= limit c -> encodes lookup m (fs1 ++ f' :: fs2) (w - v + v')) /\
      (limit c < v' -> refuses lookup m (fs1 ++ f' :: fs2) (too_big c v')).
Proof.
  intros lookup m fs1 f fs2 w V (pattern & name & os & x & y & v & (I & Nm & Ft) & B & Y & ->).
  apply Forall2_app_inv_r in Ft. destruct Ft as (os1 & r & F1 & F2 & ->). inversion F2 as [|c ? os2 ? Fc F2' ]; subst.
  pose proof (fits_is_value _ _ Fc V) as Vc. destruct (row_masks _ _ _ _ _ I Vc) as (Mk & N1 & N2).
  assert (L : length os1 = length fs1) by (clear - F1; induction F1; cbn [length]; congruence).
  assert (B' : Forall2 (binds lookup x y v) os1 fs1 /\ binds lookup x y v c f /\ Forall2 (binds lookup x y v) os2 fs2).
  { apply Forall2_split in B; [|exact L]. destruct B as [B1 B2]. inversion B2; subst. auto. }
  destruct B' as (B1 & (Bx & By & Bv) & B2). destruct (Bv Vc) as [Vf Lf].
  assert (Wv : forall v, v <= limit c -> word x y v (u pattern) = word x y 0 (u pattern) + v).
  { intros v0 L0. rewrite word_parts by (intros; apply value_digits; assumption). rewrite Mk, mask_value by assumption. reflexivity. }
  exists pattern, name, os1, c, os2, v. split.
  { split; [exact I|]. split; [exact Nm|]. apply Forall2_app; [exact F1 | constructor; assumption]. }
  split; [exact L|]. split; [exact Vc|]. split; [exact Vf|]. split; [exact Lf|]. split; [rewrite (Wv v Lf); lia|].
  intros f' v' V' Vf' L12.
  assert (R' : row_for m (fs1 ++ f' :: fs2) (pattern, name, os1 ++ c :: os2)).
  { split; [exact I|]. split; [exact Nm|]. apply Forall2_app; [exact F1|]. constructor; [apply fits_value; assumption | assumption]. }
  split; intros Lv.
  - exists pattern, name, (os1 ++ c :: os2), x, y, v'. split; [exact R'|]. split; [|split; [exact Y | rewrite (Wv v Lf), (Wv v' Lv); lia]].
    apply Forall2_app; [apply (binds_other lookup x y v v'); assumption|].
    constructor; [|apply (binds_other lookup x y v v'); assumption].
    split; [intros ->; destruct Vc as [X|[X|[X|[]]]]; discriminate X|].
    split; [intros ->; destruct Vc as [X|[X|[X|[]]]]; discriminate X|]. auto.
  - assert (O : operand_is (pattern, name, os1 ++ c :: os2) (fs1 ++ f' :: fs2) c f').
    { cbn [operand_is]. clear - F1. induction F1; cbn [app combine]; [left; reflexivity | right; assumption]. }
    destruct Vc as [<- | [<- | [<- | []]]].
    + change (limit "addr") with 4095 in Lv. lia.
    + eapply refuses_byte; [exact R' | exact O | exact Vf' | exact Lv].
    + eapply refuses_nibble; [exact R' | exact O | exact Vf' | exact Lv].
Qed.

(** ** Programs *)

Lemma app_at : forall (A : Type) (a : list A) x b, nth_error (a ++ x :: b) (length a) = Some x.
Proof. induction a as [|y a IH]; intros x b; [reflexivity | apply IH]. Qed.

Lemma app_not_at : forall (A : Type) (a : list A) x y b k, k <> length a -> nth_error (a ++ x :: b) k = nth_error (a ++ y :: b) k.
Proof.
  induction a as [|z a IH]; intros x y b [|k] H; try reflexivity; [contradiction H; reflexivity|].
  cbn [app nth_error]. apply IH. cbn [length] in H. congruence.
Qed.

(** An instruction that cannot be encoded in a program that is otherwise accepted. *)
Lemma instruction_refused : forall a l m fs fs' b r,
  well_formed (a ++ NInstruction l m fs :: b) -> Forall node_ok (a ++ NInstruction l m fs :: b) ->
  refuses (lookup (a ++ NInstruction l m fs :: b)) m fs' r ->
  reported (a ++ NInstruction l m fs' :: b) (AssemblyFailed l r).
Proof.
  intros a l m fs fs' b r W F R.
  set (n := NInstruction l m fs) in *. set (n' := NInstruction l m fs').
  assert (Sz : size n = size n') by reflexivity. assert (Em : 0 < size n) by (cbn; lia).
  assert (Lk : forall x, lookup (a ++ n' :: b) x = lookup (a ++ n :: b) x) by (intros x; symmetry; apply (lookup_same n n' Sz Em)).
  assert (Ad : forall i, address (a ++ n' :: b) i = address (a ++ n :: b) i) by (intros i; symmetry; apply (address_same n n' Sz Em)).
  assert (Lb : forall i, labels_of (firstn i (a ++ n' :: b)) = labels_of (firstn i (a ++ n :: b))).
  { clear. induction a as [|[]]; intros [|i]; try reflexivity; cbn [app firstn labels_of]; rewrite IHa; reflexivity. }
  assert (At : forall i x, nth_error (a ++ n' :: b) i = Some x -> x = n' /\ i = length a \/ nth_error (a ++ n :: b) i = Some x).
  { intros i x E. destruct (Nat.eq_dec i (length a)) as [->|D]; [left; rewrite app_at in E; split; congruence|].
    right. rewrite <- E. apply app_not_at. exact D. }
  assert (Lld : forall i, labelled (a ++ n :: b) i -> labelled (a ++ n' :: b) i).
  { intros i (j & l0 & id & -> & E). exists j, l0, id. split; [reflexivity|]. rewrite <- E. apply app_not_at. intros ->.
    rewrite app_at in E. discriminate E. }
  right. split.
  - intros i e V. destruct V as [l0 id args e0 E Rj|l0 id args d E M Big|l0 id args d E M Big Over|l0 id args c E M Nl|l0 m0 fields E Over|l0 id E I].
    + destruct (At _ _ E) as [[X _]|E']; [discriminate X|]. exact (violation_not_wf _ i _ W (violates_directive _ _ _ _ _ _ E' Rj)).
    + destruct (At _ _ E) as [[X _]|E']; [discriminate X|]. exact (violation_not_wf _ i _ W (violates_size _ _ _ _ _ _ E' M Big)).
    + destruct (At _ _ E) as [[X _]|E']; [discriminate X|]. rewrite Ad in Over.
      exact (violation_not_wf _ i _ W (violates_space _ _ _ _ _ _ E' M Big Over)).
    + destruct (At _ _ E) as [[X _]|E']; [discriminate X|].
      apply (violation_not_wf _ i _ W (violates_constant _ _ _ _ _ _ E' M (fun H => Nl (Lld i H)))).
    + rewrite Ad in Over. destruct (At _ _ E) as [[X ->]|E'].
      * exact (violation_not_wf _ _ _ W (violates_instruction _ _ _ _ _ (app_at _ a n b) Over)).
      * exact (violation_not_wf _ i _ W (violates_instruction _ _ _ _ _ E' Over)).
    + rewrite Lb in I. destruct (At _ _ E) as [[X _]|E']; [discriminate X|].
      exact (violation_not_wf _ i _ W (violates_label _ _ _ _ E' I)).
  - exists (length a). split.
    + exists l, m, fs', r. split; [apply app_at|]. split; [|reflexivity]. apply (refuses_ext (lookup (a ++ n :: b))); [intros x; symmetry; apply Lk | exact R].
    + intros j e' J (l0 & m0 & fields & r' & E & Rf & _). destruct (At _ _ E) as [[_ ->]|E']; [lia|].
      destruct (wf_instructions _ W l0 m0 fields (nth_error_In _ _ E')) as (w & En).
      rewrite Forall_forall in F. pose proof (F _ (nth_error_In _ _ E')) as [Am Fo].
      eapply (encodes_not_refuses (a ++ n :: b) m0 fields w r'); try eassumption.
      * apply Forall_forall. exact F.
      * intros i e V. exact (violation_not_wf _ i e W V).
      * eapply refuses_ext; [|exact Rf]. exact Lk.
Qed.

(** ** Directives *)

Lemma firstn_before : forall (A : Type) (a : list A) x y b k, (k <= length a)%nat -> firstn k (a ++ x :: b) = firstn k (a ++ y :: b).
Proof.
  induction a as [|z a IH]; intros x y b [|k] L; try reflexivity; [cbn [length] in L; lia|].
  cbn [app firstn]. f_equal. apply IH. cbn [length] in L. lia.
Qed.

(** A directive that means nothing in a program that is otherwise accepted. *)
Lemma directive_refused : forall a l id args args' b r,
  well_formed (a ++ NDirective l id args :: b) -> rejects id args' r ->
  reported (a ++ NDirective l id args' :: b) (DirectiveInvalid l r).
Proof.
  intros a l id args args' b r W R. left. exists (length a). split.
  - eapply violates_directive; [apply app_at | exact R].
  - intros j e J V.
    assert (At : nth_error (a ++ NDirective l id args' :: b) j = nth_error (a ++ NDirective l id args :: b) j) by (apply app_not_at; lia).
    assert (Ad : address (a ++ NDirective l id args' :: b) j = address (a ++ NDirective l id args :: b) j).
    { unfold address. f_equal. apply firstn_before. lia. }
    apply (violation_not_wf _ j e W).
    destruct V as [l0 id0 args0 e0 E Rj|l0 id0 args0 d E M Big|l0 id0 args0 d E M Big Over|l0 id0 args0 c E M Nl|l0 m0 fields E Over|l0 id0 E I];
      rewrite At in E; try rewrite Ad in Over.
    + eapply violates_directive; eassumption.
    + eapply violates_size; eassumption.
    + eapply violates_space; eassumption.
    + eapply violates_constant; [exact E | exact M|]. intros (i & l1 & id1 & -> & E1). apply Nl. exists i, l1, id1. split; [reflexivity|].
      rewrite <- E1. apply app_not_at. lia.
    + eapply violates_instruction; eassumption.
    + eapply violates_label; [exact E|]. rewrite (firstn_before _ a _ (NDirective l id args)) in I by lia. exact I.
Qed.

Lemma byte_changed : forall id args1 v args2 bytes, means id (args1 ++ LNumeric v :: args2) (Db bytes) ->
  v <= 255 /\ exists d e, bytes = d ++ [v] ++ e /\ d = flat_map literal_bytes args1 /\ e = flat_map literal_bytes args2 /\
  forall v', (v' <= 255 -> means id (args1 ++ LNumeric v' :: args2) (Db (d ++ [v'] ++ e))) /\
    (255 < v' -> rejects id (args1 ++ LNumeric v' :: args2) (AllNumericParametersMustBeByteLiterals (u "db") v')).
Proof.
  intros id args1 v args2 bytes M. inversion M as [| |? ? Nm Ne F]; subst.
  apply Forall_app in F. destruct F as [F1 F2]. inversion F2 as [|? ? Fv F2']; subst. split; [exact Fv|].
  exists (flat_map literal_bytes args1), (flat_map literal_bytes args2). split; [rewrite flat_map_app; reflexivity|]. split; [reflexivity|]. split; [reflexivity|].
  intros v'. split; intros L.
  - replace (flat_map literal_bytes args1 ++ [v'] ++ flat_map literal_bytes args2)
      with (flat_map literal_bytes (args1 ++ LNumeric v' :: args2)) by (rewrite flat_map_app; reflexivity).
    apply means_db; [exact Nm | destruct args1; discriminate|]. apply Forall_app. split; [exact F1 | constructor; assumption].
  - apply rejects_wide; assumption.
Qed.
