(** * MendProofs: taking out the statement that an error is about. *)

From Verif Require Import Base BaseFacts Text Location Token Parser U12 Directive Opcode Instruction DataRange Assembler
  SpecOpcode SpecRefusal SpecLayout EmitProofs SpecMend.
Open Scope N_scope.

Lemma without_split {A} (i : nat) (p : list A) x : nth_error p i = Some x ->
  exists a b, p = a ++ x :: b /\ length a = i /\ without i p = a ++ b.
Proof.
  intros H. destruct (nth_error_split p i H) as (a & b & -> & L). exists a, b. split; [reflexivity|]. split; [exact L|].
  unfold without. rewrite firstn_app, <- L, Nat.sub_diag, firstn_all, firstn_O, app_nil_r. f_equal.
  rewrite skipn_app, skipn_all2 by lia. replace (S (length a) - length a)%nat with 1%nat by lia. reflexivity.
Qed.

(** ** Errors of the first pass depend on what stands before *)

Lemma firstn_before {A} j (a b c : list A) : (j <= length a)%nat -> firstn j (a ++ b) = firstn j (a ++ c).
Proof. intros H. rewrite !firstn_app. replace (j - length a)%nat with 0%nat by lia. reflexivity. Qed.

Lemma nth_before {A} j (a b c : list A) : (j < length a)%nat -> nth_error (a ++ b) j = nth_error (a ++ c) j.
Proof. intros H. rewrite !nth_error_app1 by lia. reflexivity. Qed.

Lemma violates_before a b c j e : (j < length a)%nat -> violates (a ++ b) j e -> violates (a ++ c) j e.
Proof.
  intros L V. assert (N : forall n, nth_error (a ++ b) j = Some n -> nth_error (a ++ c) j = Some n) by (intros n <-; apply nth_before; exact L).
  assert (Ad : address (a ++ b) j = address (a ++ c) j) by (unfold address; rewrite (firstn_before j a b c) by lia; reflexivity).
  destruct V as [l id args e H R|l id args d H M Z|l id args d H M Z X|l id args v H M Lb|l m fs H X|l id H I].
  - eapply violates_directive; eauto.
  - eapply violates_size; eauto.
  - eapply violates_space; eauto. rewrite <- Ad. exact X.
  - eapply violates_constant; eauto. intros (k & l' & id' & -> & Hk). apply Lb. exists k, l', id'. split; [reflexivity|].
    rewrite (nth_before k a b c) by lia. exact Hk.
  - eapply violates_instruction; eauto. rewrite <- Ad. exact X.
  - eapply violates_label; eauto. rewrite (firstn_before j a c b) by lia. exact I.
Qed.

Lemma fault_stands p k i e : fault p k i e -> exists n, nth_error p i = Some n.
Proof.
  destruct 1 as [i e [V _]|i e _ [(l & m & fs & r & H & _) _]]; [|eauto].
  destruct V; eauto.
Qed.

(** ** In the second pass an instruction is taken out, and labels move down *)

Lemma after_mono a b n : a <= b -> after a n <= after b n.
Proof. intros H. unfold after. destruct (origin n); lia. Qed.

Lemma counter_mono p : forall a b, a <= b -> counter a p <= counter b p.
Proof. unfold counter. induction p as [|n p IH]; intros a b H; cbn [fold_left]; [exact H|]. apply IH, after_mono, H. Qed.

Lemma counter_app a p q : counter a (p ++ q) = counter (counter a p) q.
Proof. apply fold_left_app. Qed.

(** Not more than, where there is something. *)
Definition lower (x y : option N) : Prop :=
  match x, y with Some v, Some w => v <= w | None, None => True | _, _ => False end.

Lemma value_lower a b r : a <= b -> label_value a r <= label_value b r.
Proof. intros H. unfold label_value. destruct r as [|n r]; [exact H|]. destruct (constant n); [lia | exact H]. Qed.

Lemma lookup_lower p : forall a b x, a <= b -> lower (lookup_from a p x) (lookup_from b p x).
Proof.
  induction p as [|n p IH]; intros a b x H; cbn [lookup_from]; [exact I|].
  destruct n as [l id args|l id|l m fs]; try (apply IH, after_mono, H).
  destruct (list_eq_dec N.eq_dec id x); [cbn [lower]; apply value_lower, H | apply IH, after_mono, H].
Qed.

Lemma label_value_head a b r : match b with n :: _ => constant n = None | [] => True end ->
  label_value a (r ++ b) = label_value a r.
Proof. intros H. unfold label_value. destruct r as [|n r]; [|reflexivity]. destruct b as [|n b]; [reflexivity|]. cbn [app]. rewrite H. reflexivity. Qed.

Lemma lookup_without x l m fs b : match b with n :: _ => constant n = None | [] => True end ->
  forall a c, lower (lookup_from c (a ++ b) x) (lookup_from c (a ++ NInstruction l m fs :: b) x).
Proof.
  intros H. induction a as [|n a IH]; intros c.
  - cbn [app lookup_from]. apply lookup_lower. unfold after. cbn [origin]. lia.
  - cbn [app lookup_from]. destruct n as [l' id args|l' id|l' m' fs']; try apply IH.
    destruct (list_eq_dec N.eq_dec id x); [|apply IH]. cbn [lower].
    rewrite (label_value_head c b a H), (label_value_head c (NInstruction l m fs :: b) a eq_refl). lia.
Qed.

Lemma refuses_lower f g m fs r : (forall x, lower (f x) (g x)) -> refuses f m fs r -> exists r', refuses g m fs r'.
Proof.
  intros L R. assert (V : forall y v, value_of f y = Some v -> exists w, value_of g y = Some w /\ v <= w).
  { intros y v. destruct y; cbn [value_of]; try discriminate.
    - intros E. exists v. split; [exact E | lia].
    - intros E. specialize (L id). rewrite E in L. unfold lower in L. destruct (g id) as [w|]; [eauto | destruct L]. }
  destruct R as [row label Rw I N|row y v Rw O E H|row y v Rw O E H|N].
  - eexists. eapply refuses_label; eauto. specialize (L label). rewrite N in L. unfold lower in L. destruct (g label); [destruct L | reflexivity].
  - destruct (V _ _ E) as (w & Ew & H'). eexists. eapply refuses_byte; eauto. lia.
  - destruct (V _ _ E) as (w & Ew & H'). eexists. eapply refuses_nibble; eauto. lia.
  - eexists. apply refuses_unknown. exact N.
Qed.

Lemma labels_app p q : labels_of (p ++ q) = labels_of p ++ labels_of q.
Proof. induction p as [|n p IH]; [reflexivity|]. cbn [app]. destruct n; cbn [labels_of app]; rewrite IH; reflexivity. Qed.

Lemma firstn_after {A} j (a b : list A) x : (length a <= j)%nat -> firstn j (a ++ b) = a ++ firstn (j - length a) b /\
  firstn (S j) (a ++ x :: b) = a ++ x :: firstn (j - length a) b.
Proof.
  intros H. rewrite !firstn_app, (@firstn_all2 _ j a), (@firstn_all2 _ (S j) a) by lia. split; [reflexivity|]. f_equal. replace (S j - length a)%nat with (S (j - length a)) by lia. reflexivity.
Qed.

Lemma nth_after {A} j (a b : list A) x : (length a <= j)%nat -> nth_error (a ++ b) j = nth_error (a ++ x :: b) (S j).
Proof. intros H. rewrite !nth_error_app2 by lia. replace (S j - length a)%nat with (S (j - length a)) by lia. reflexivity. Qed.

Lemma violates_after a l m fs b j e : (length a <= j)%nat -> violates (a ++ b) j e -> exists e', violates (a ++ NInstruction l m fs :: b) (S j) e'.
Proof.
  intros L V. set (x := NInstruction l m fs).
  assert (N : forall n, nth_error (a ++ b) j = Some n -> nth_error (a ++ x :: b) (S j) = Some n) by (intros n <-; symmetry; apply nth_after; exact L).
  destruct (firstn_after j a b x L) as [F1 F2].
  assert (Ad : address (a ++ b) j <= address (a ++ x :: b) (S j)).
  { unfold address. rewrite F1, F2, !counter_app. cbn [counter fold_left]. apply counter_mono. unfold after, x. cbn [origin]. lia. }
  destruct V as [l0 id args e H R|l0 id args d H M Z|l0 id args d H M Z X|l0 id args v H M Lb|l0 m0 fs0 H X|l0 id H I].
  - eexists. eapply violates_directive; eauto.
  - eexists. eapply violates_size; eauto.
  - eexists. eapply violates_space; eauto. lia.
  - eexists. eapply violates_constant; eauto. intros (k & l' & id' & [= ->] & Hk). apply Lb.
    destruct (Nat.eq_dec (length a) k) as [E|E].
    + rewrite <- E, nth_error_app2, Nat.sub_diag in Hk by lia. discriminate Hk.
    + exists (k - 1)%nat, l', id'. split; [lia|]. rewrite (nth_after (k - 1) a b x) by lia. replace (S (k - 1)) with k by lia. exact Hk.
  - eexists. eapply violates_instruction; eauto. lia.
  - eexists. eapply violates_label; eauto. rewrite F1, labels_app in I. rewrite F2, labels_app. apply in_app_iff in I. apply in_or_app.
    destruct I as [I|I]; [left; exact I | right; exact I].
Qed.

(** ** The next error *)

Lemma no_constant_next a l m fs b : (forall j e, ~ violates (a ++ NInstruction l m fs :: b) j e) ->
  match b with n :: _ => constant n = None | [] => True end.
Proof.
  intros V. destruct b as [|n b]; [exact I|]. destruct (constant n) as [c|] eqn:C; [|reflexivity]. exfalso.
  destruct n as [l' id args|l' id|l' m' fs']; try discriminate C. apply LayoutProofs.constant_means in C.
  apply (V (S (length a)) (ConstantWithoutLabel l')). eapply violates_constant.
  - rewrite nth_error_app2 by lia. replace (S (length a) - length a)%nat with 1%nat by lia. reflexivity.
  - exact C.
  - intros (k & l0 & id0 & [= <-] & H). rewrite nth_error_app2, Nat.sub_diag in H by lia. discriminate H.
Qed.

Lemma second_clean p i e : (forall j e', ~ violates p j e') -> unencodable p i e -> forall j e', ~ violates (without i p) j e'.
Proof.
  intros V (l & m & fs & r & H & _) j e' W. destruct (without_split i p _ H) as (a & b & -> & L & E). rewrite E in W.
  destruct (Nat.lt_ge_cases j (length a)) as [J|J].
  - apply (violates_before a b (NInstruction l m fs :: b) _ _ J) in W. exact (V _ _ W).
  - destruct (violates_after a l m fs b j e' J W) as (e2 & W'). exact (V _ _ W').
Qed.

Lemma second_later p i e j e' : (forall j e', ~ violates p j e') -> first (unencodable p) i e -> unencodable (without i p) j e' ->
  (i <= j)%nat.
Proof.
  intros V [(l & m & fs & r & H & _) F] (l' & m' & fs' & r' & H' & R' & _).
  destruct (without_split i p _ H) as (a & b & -> & L & E). rewrite E in H', R'.
  destruct (Nat.lt_ge_cases j i) as [J|J]; [exfalso | exact J].
  assert (Q : exists r2, refuses (lookup (a ++ NInstruction l m fs :: b)) m' fs' r2).
  { eapply refuses_lower; [|exact R']. intros x. apply lookup_without. eapply no_constant_next. exact V. }
  destruct Q as (r2 & Q). apply (F j (AssemblyFailed l' r2) J). exists l', m', fs', r2. split; [|split; [exact Q | reflexivity]].
  rewrite (nth_before j a (NInstruction l m fs :: b) b) by lia. exact H'.
Qed.

Lemma first_later p i e j e' : first (violates p) i e -> violates (without i p) j e' -> (i <= j)%nat.
Proof.
  intros [V F] W. destruct (fault_stands p 1 i e) as (n & H); [constructor; split; assumption|].
  destruct (without_split i p _ H) as (a & b & -> & L & E). rewrite E in W.
  destruct (Nat.lt_ge_cases j i) as [J|J]; [exfalso | exact J].
  apply (violates_before a b (n :: b)) in W; [|lia]. exact (F _ _ J W).
Qed.

Lemma next_fault p k i e k' j e' : fault p k i e -> fault (without i p) k' j e' -> no_sooner (k, i) (k', j).
Proof.
  intros A B. unfold no_sooner. cbn [fst snd]. destruct A as [i e A|i e V A]; destruct B as [j e' B|j e' W B].
  - right. split; [reflexivity|]. destruct B as [B _]. eapply first_later; eassumption.
  - left. lia.
  - exfalso. destruct A as [A _]. destruct B as [B _]. exact (second_clean p i e V A j e' B).
  - right. split; [reflexivity|]. destruct B as [B _]. exact (second_later p i e j e' V A B).
Qed.

Lemma reported_fault p e : reported p e <-> exists k i, fault p k i e.
Proof.
  split.
  - intros [(i & F)|(V & i & F)]; [exists 1%nat, i; apply fault_first; exact F | exists 2%nat, i; apply fault_second; assumption].
  - intros (k & i & [i' e' F|i' e' V F]); [left; eauto | right; split; [exact V | eauto]].
Qed.

Lemma without_ok i p : Forall node_ok p -> Forall node_ok (without i p).
Proof.
  intros H. unfold without. rewrite Forall_app. rewrite Forall_forall in H. rewrite !Forall_forall. split; intros x I; apply H.
  - rewrite <- (firstn_skipn i p). apply in_or_app. left. exact I.
  - rewrite <- (firstn_skipn (S i) p). apply in_or_app. right. exact I.
Qed.

Lemma mended_head p l q : mended p l q -> match l with [] => True | (k, i) :: _ => exists e, fault p k i e end.
Proof. destruct 1 as [p rs E|p k i e l q E R M]; [exact I | exists e; exact R]. Qed.

Lemma mending n : forall p, length p = n -> Forall node_ok p ->
  exists l q, mended p l q /\ (length l + length q = length p)%nat /\ in_order l.
Proof.
  induction n as [|n IH]; intros p L F; (destruct (assemble_spec p F) as [(rs & E & _)|(e & E & R)];
    [exists [], p; split; [econstructor; exact E | split; [reflexivity | exact I]]|]);
    apply reported_fault in R; destruct R as (k & i & R); destruct (fault_stands _ _ _ _ R) as (x & H).
  - destruct p; [|discriminate L]. destruct i; discriminate H.
  - destruct (without_split i p x H) as (a & b & Ep & La & Ew).
    assert (Lw : length p = S (length (without i p))) by (rewrite Ew, Ep, !app_length; cbn [length]; lia).
    destruct (IH (without i p)) as (l & q & M & Lq & O); [lia | apply without_ok; exact F|].
    exists ((k, i) :: l), q. split; [econstructor; eassumption|]. split; [cbn [length]; lia|].
    cbn [in_order]. split; [|exact O]. apply mended_head in M. destruct l as [|[k' i'] l]; [exact I|].
    destruct M as (e' & M). exact (next_fault p k i e k' i' e' R M).
Qed.

Lemma fault_unique p k i e k' i' e' : fault p k i e -> fault p k' i' e' -> k = k' /\ i = i'.
Proof.
  intros A B. destruct A as [i e A|i e V A]; destruct B as [i' e' B|i' e' W B].
  - split; [reflexivity | eapply first_unique; eassumption].
  - exfalso. destruct A as [A _]. exact (W _ _ A).
  - exfalso. destruct B as [B _]. exact (V _ _ B).
  - split; [reflexivity | eapply first_unique; eassumption].
Qed.

Lemma mended_unique p l q : mended p l q -> forall l' q', mended p l' q' -> l = l' /\ q = q'.
Proof.
  induction 1 as [p rs E|p k i e l q E R M IH]; intros l' q' M'; destruct M' as [p rs' E'|p k' i' e' l' q' E' R' M'].
  - split; reflexivity.
  - rewrite E in E'. discriminate E'.
  - rewrite E in E'. discriminate E'.
  - destruct (fault_unique _ _ _ _ _ _ _ R R') as [<- <-]. destruct (IH _ _ M') as [-> ->]. split; reflexivity.
Qed.
