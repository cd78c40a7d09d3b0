(** * LocalProofs: one statement replaced by another of the same size. *)

From Verif Require Import Base Text Parser Directive Instruction DataRange Assembler
  SpecOpcode SpecRefusal SpecLayout BaseFacts LayoutProofs EmitProofs AddressProofs.
Open Scope N_scope.

Lemma names_one : forall id x y, names id x = true -> u x <> u y -> names id y = false.
Proof.
  intros id x y N D. unfold names in *. apply str_eqb_eq in N. destruct (str_eqb (map upper id) (u y)) eqn:E; [|reflexivity].
  apply str_eqb_eq in E. congruence.
Qed.

Lemma emits_plain : forall n, 0 < size n -> origin n = None /\ constant n = None /\ is_label n = false.
Proof.
  intros [l id args|l id|l m fs] S; cbn [size] in S; [|lia|auto].
  destruct (names id "DB") eqn:D; [|lia].
  pose proof (names_one id "DB" "ORG" D ltac:(vm_compute; discriminate)) as N1.
  pose proof (names_one id "DB" "EQU" D ltac:(vm_compute; discriminate)) as N2.
  cbn [origin constant is_label]. rewrite N1, N2. destruct args as [|[|] [|]]; auto.
Qed.

Lemma bytes_size : forall L n bs, node_bytes L n bs -> size n = N.of_nat (length bs).
Proof.
  intros L n bs H. destruct H as [l m fs w E|l id args bytes M|l id args a M|l id args c M|l id]; try reflexivity;
    destruct (means_size l _ _ _ M) as (S & _); rewrite <- S; reflexivity.
Qed.

Section Replace.
  Context (n n' : node) (Same : size n = size n') (Emits : 0 < size n).

  Lemma after_same : forall x, after x n = after x n'.
  Proof.
    intros x. unfold after. destruct (emits_plain n Emits) as (-> & _).
    destruct (emits_plain n' ltac:(lia)) as (-> & _). rewrite Same. reflexivity.
  Qed.

  Lemma counter_same : forall a b x, counter x (a ++ n :: b) = counter x (a ++ n' :: b).
  Proof.
    intros a b x. rewrite !counter_app. unfold counter at 1 3. cbn [fold_left]. rewrite after_same. reflexivity.
  Qed.

  Lemma lookup_same : forall b l a x, lookup_from x (a ++ n :: b) l = lookup_from x (a ++ n' :: b) l.
  Proof.
    intros b l. destruct (emits_plain n Emits) as (_ & C & Lb). destruct (emits_plain n' ltac:(lia)) as (_ & C' & Lb').
    assert (V : forall a x, label_value x (a ++ n :: b) = label_value x (a ++ n' :: b)).
    { intros [|y a] x; [cbn [app label_value]; rewrite C, C'; reflexivity | reflexivity]. }
    induction a as [|y a IH]; intros x.
    - cbn [app lookup_from]. rewrite after_same. destruct n; try discriminate Lb; destruct n'; try discriminate Lb'; reflexivity.
    - cbn [app lookup_from]. destruct y as [k id args|k id|k m fs]; try apply IH.
      rewrite V, IH. reflexivity.
  Qed.

  Lemma labels_same : forall a b, labels_of (a ++ n :: b) = labels_of (a ++ n' :: b).
  Proof.
    intros a b. rewrite !labels_of_app. f_equal. destruct (emits_plain n Emits) as (_ & _ & Lb).
    destruct (emits_plain n' ltac:(lia)) as (_ & _ & Lb').
    destruct n; try discriminate Lb; destruct n'; try discriminate Lb'; reflexivity.
  Qed.

  Lemma nth_same : forall a b i, i <> length a -> nth_error (a ++ n :: b) i = nth_error (a ++ n' :: b) i.
  Proof.
    induction a as [|y a IH]; intros b i D; destruct i as [|i]; cbn [length app nth_error] in *; try reflexivity; [contradiction|].
    apply IH. intros ->. apply D. reflexivity.
  Qed.

  Lemma address_same : forall a b i, address (a ++ n :: b) i = address (a ++ n' :: b) i.
  Proof.
    intros a b i. unfold address. rewrite !firstn_app. destruct (i - length a)%nat as [|k]; [reflexivity|].
    cbn [firstn]. apply counter_same.
  Qed.

  Definition sections_from (x : N) (p : list node) : list (N * list node) :=
    let '(first, others) := split_sections p in (x, first) :: others.

  Lemma sections_same : forall b a x, exists pre s before since post,
    sections_from x (a ++ n :: b) = pre ++ (s, before ++ n :: since) :: post /\
    sections_from x (a ++ n' :: b) = pre ++ (s, before ++ n' :: since) :: post /\
    counter x a = s + total_size before.
  Proof.
    intros b. destruct (emits_plain n Emits) as (On & _). destruct (emits_plain n' ltac:(lia)) as (On' & _).
    induction a as [|y a IH]; intros x.
    - unfold sections_from. cbn [app split_sections]. rewrite On, On'. destruct (split_sections b) as [f os].
      exists [], x, [], f, os. split; [reflexivity|]. split; [reflexivity|]. cbn. lia.
    - unfold sections_from in *. cbn [app split_sections].
      destruct (origin y) as [o|] eqn:Oy.
      + destruct (IH o) as (pre & s & u & v & post & E & E' & C).
        destruct (split_sections (a ++ n :: b)) as [f os]. destruct (split_sections (a ++ n' :: b)) as [f' os'].
        exists ((x, []) :: pre), s, u, v, post. cbn [app]. rewrite E, E'. split; [reflexivity|]. split; [reflexivity|].
        change (counter x (y :: a)) with (counter (after x y) a). unfold after. rewrite Oy. exact C.
      + destruct (IH (x + size y)) as (pre & s & u & v & post & E & E' & C).
        destruct (split_sections (a ++ n :: b)) as [f os]. destruct (split_sections (a ++ n' :: b)) as [f' os'].
        assert (Ct : counter x (y :: a) = s + total_size u).
        { change (counter x (y :: a)) with (counter (after x y) a). unfold after. rewrite Oy. exact C. }
        destruct pre as [|z pre]; cbn [app] in E, E'.
        * injection E as <- -> ->. injection E' as -> ->.
          exists [], x, (y :: u), v, post. split; [reflexivity|]. split; [reflexivity|]. rewrite Ct. cbn [total_size]. lia.
        * injection E as <- ->. injection E' as -> ->.
          exists ((x, y :: f) :: pre), s, u, v, post. auto.
  Qed.

  Lemma wf_replaced : forall a b bs', well_formed (a ++ n :: b) -> node_bytes (lookup (a ++ n :: b)) n' bs' ->
    well_formed (a ++ n' :: b).
  Proof.
    intros a b bs' W B. destruct (emits_plain n Emits) as (_ & _ & Lb).
    destruct (emits_plain n' ltac:(lia)) as (_ & C' & _). constructor.
    - intros l id args I. apply in_app_iff in I. destruct I as [I|[E|I]].
      + apply (wf_directives _ W l). apply in_app_iff. auto.
      + rewrite E in B. inversion B; subst; eauto.
      + apply (wf_directives _ W l). apply in_app_iff. right. right. exact I.
    - intros i l id args c H M. destruct (Nat.eq_dec i (length a)) as [->|D].
      + exfalso. rewrite nth_error_length_app in H. injection H as E. rewrite E in C'.
        destruct (means_size l _ _ _ M) as (_ & _ & X). congruence.
      + rewrite <- nth_same in H by exact D. destruct (wf_constants _ W _ _ _ _ _ H M) as (j & k & x & -> & J).
        exists j, k, x. split; [reflexivity|]. rewrite <- nth_same; [exact J|]. intros ->.
        rewrite nth_error_length_app in J. injection J as ->. discriminate.
    - rewrite <- labels_same. apply (wf_labels _ W).
    - intros i y H. rewrite <- address_same. destruct (Nat.eq_dec i (length a)) as [->|D].
      + rewrite nth_error_length_app in H. injection H as <-. rewrite <- Same. apply (wf_space _ W). apply nth_error_length_app.
      + rewrite <- nth_same in H by exact D. apply (wf_space _ W _ _ H).
    - intros l m fs I. apply in_app_iff in I.
      assert (G : forall w, encodes (lookup (a ++ n :: b)) m fs w -> exists w, encodes (lookup (a ++ n' :: b)) m fs w).
      { intros w E. exists w. apply (encodes_ext (lookup (a ++ n :: b))); [|exact E]. intros x. apply lookup_same. }
      destruct I as [I|[E|I]].
      + destruct (wf_instructions _ W l m fs) as (w & E); [apply in_app_iff; auto | exact (G w E)].
      + rewrite E in B. inversion B; subst. eapply G. eassumption.
      + destruct (wf_instructions _ W l m fs) as (w & E); [apply in_app_iff; right; right; exact I | exact (G w E)].
  Qed.

  Lemma total_bytes : forall L ns bss, Forall2 (node_bytes L) ns bss -> total_size ns = N.of_nat (length (concat bss)).
  Proof.
    intros L ns bss F. induction F as [|y bs ns bss H F IH]; [reflexivity|].
    cbn [total_size concat]. rewrite app_length, IH, (bytes_size _ _ _ H). lia.
  Qed.

  Lemma bytes_ext : forall L L', (forall x, L x = L' x) -> forall y bs, node_bytes L y bs -> node_bytes L' y bs.
  Proof.
    intros L L' E y bs H. destruct H as [l m fs w En|l id args bytes M|l id args a M|l id args c M|l id]; try (econstructor; eassumption).
    constructor. eapply encodes_ext; eassumption.
  Qed.

  Lemma forall2_map : forall (A B : Type) (P Q : A -> B -> Prop) l r, (forall x y, P x y -> Q x y) -> Forall2 P l r -> Forall2 Q l r.
  Proof. intros A B P Q l r H F. induction F; constructor; auto. Qed.

  Theorem output_replaced : forall a b rs bs', output (a ++ n :: b) rs -> node_bytes (lookup (a ++ n :: b)) n' bs' ->
    exists before s d bs e after,
      rs = before ++ mk_range s (d ++ bs ++ e) :: after /\
      output (a ++ n' :: b) (before ++ mk_range s (d ++ bs' ++ e) :: after) /\
      node_bytes (lookup (a ++ n :: b)) n bs /\ s + N.of_nat (length d) = address (a ++ n :: b) (length a).
  Proof.
    intros a b rs bs' (all & F & ->) B'.
    assert (Ex : forall x, lookup (a ++ n :: b) x = lookup (a ++ n' :: b) x) by (intros x; apply lookup_same).
    set (L := lookup (a ++ n :: b)) in *.
    destruct (sections_same b a 0) as (pre & s & u & v & post & E & E' & C).
    change (sections_from 0) with sections in E, E'. rewrite E in F.
    apply Forall2_app_inv_l in F. destruct F as (apre & arest & Fp & Fr & ->).
    inversion Fr as [|? r ? apost X Fq E1 E2]. clear E1 Fr. subst arest.
    destruct X as (Sr & bss & Fb & Dr). cbn [fst snd] in Sr, Fb.
    apply Forall2_app_inv_l in Fb. destruct Fb as (bu & brest & Fu & Fb & ->).
    inversion Fb as [|? bs ? bv Bn Fv E1 E2]. clear E1 Fb. subst brest. rewrite concat_app in Dr. cbn [concat] in Dr.
    destruct r as [s' d']. cbn [dr_start dr_data] in Sr, Dr. subst s' d'.
    exists (filter nonempty apre), s, (concat bu), bs, (concat bv), (filter nonempty apost).
    assert (Lb : 0 < N.of_nat (length bs)) by (rewrite <- (bytes_size _ _ _ Bn); exact Emits).
    assert (Lb' : 0 < N.of_nat (length bs')) by (rewrite <- (bytes_size _ _ _ B'), <- Same; exact Emits).
    assert (Ne : forall bs x, 0 < N.of_nat (length bs) -> nonempty (mk_range x (concat bu ++ bs ++ concat bv)) = true).
    { intros ? ? ?. unfold nonempty. cbn [dr_data]. rewrite !app_length. apply negb_true_iff, Nat.eqb_neq. lia. }
    split.
    { rewrite filter_app. cbn [filter]. rewrite (Ne _ _ Lb). reflexivity. }
    split.
    - exists (apre ++ mk_range s (concat bu ++ bs' ++ concat bv) :: apost). split.
      + rewrite E'.
        assert (Blk : forall x r, section_block L x r -> section_block (lookup (a ++ n' :: b)) x r).
        { intros ? ? (H1 & bb & H2 & H3). split; [exact H1|]. exists bb. split; [|exact H3].
          eapply forall2_map; [|exact H2]. intros y c. apply bytes_ext. exact Ex. }
        apply Forall2_app; [eapply forall2_map; [|exact Fp]; exact Blk|].
        constructor; [|eapply forall2_map; [|exact Fq]; exact Blk].
        split; [reflexivity|]. exists (bu ++ bs' :: bv). split.
        * cbn [snd]. apply Forall2_app; [eapply forall2_map; [|exact Fu]; intros y c; apply bytes_ext; exact Ex|].
          constructor; [apply (bytes_ext L); [exact Ex | exact B']|].
          eapply forall2_map; [|exact Fv]; intros y c; apply bytes_ext; exact Ex.
        * rewrite concat_app. reflexivity.
      + rewrite filter_app. cbn [filter]. rewrite (Ne _ _ Lb'). reflexivity.
    - split; [exact Bn|]. rewrite address_here, C, (total_bytes _ _ _ Fu). reflexivity.
  Qed.
End Replace.
