(** * OutputProofs: the memory image of an accepted program (C32 to C34). *)

From Verif Require Import Base Text U12 Location Parser Directive Opcode Instruction DataRange Assembler
  SpecOpcode SpecRefusal SpecLayout BaseFacts LayoutProofs EmitProofs DataRangeProofs.
Open Scope N_scope.

(** The bytes [bs] of the statements [p], the first of them at [a]. *)
Fixpoint image (a : N) (p : list node) (bs : list (list byte)) : list (N * byte) :=
  match p, bs with
  | n :: p, b :: bs => place a b ++ image (after a n) p bs
  | _, _ => []
  end.

Lemma names_det : forall id a b, names id a = true -> names id b = true -> u a = u b.
Proof. intros id a b A B. unfold names in *. apply str_eqb_eq in A. apply str_eqb_eq in B. congruence. Qed.

Lemma node_bytes_size : forall lk n b, node_bytes lk n b -> N.of_nat (length b) = size n.
Proof.
  intros lk n b H. destruct H as [l m fs w E|l id args bytes M|l id args a M|l id args c M|l id];
    cbn [size length]; try reflexivity.
  - inversion M; subst. match goal with H : names _ _ = true |- _ => rewrite H end. reflexivity.
  - inversion M as [? ? N _| |]; subst. destruct (names id "DB") eqn:D; [|reflexivity].
    pose proof (names_det _ _ _ N D). discriminate.
  - inversion M as [|? ? N _|]; subst. destruct (names id "DB") eqn:D; [|reflexivity].
    pose proof (names_det _ _ _ N D). discriminate.
Qed.

Lemma origin_size : forall n o, origin n = Some o -> size n = 0.
Proof.
  intros [l id args|l id|l m fs] o H; cbn [origin size] in *; try discriminate.
  destruct args as [|[s|v] [|x y]]; try discriminate. destruct (names id "ORG") eqn:N; [|discriminate].
  destruct (names id "DB") eqn:D; [|reflexivity]. pose proof (names_det _ _ _ N D). discriminate.
Qed.

Lemma memory_cons : forall r rs, memory (r :: rs) = place (dr_start r) (dr_data r) ++ memory rs.
Proof. reflexivity. Qed.

Lemma memory_nonempty : forall all, memory (filter nonempty all) = memory all.
Proof.
  induction all as [|r all IH]; [reflexivity|]. cbn [filter]. rewrite memory_cons.
  destruct (nonempty r) eqn:E.
  - rewrite memory_cons, IH. reflexivity.
  - rewrite IH. unfold nonempty in E. destruct (dr_data r); [reflexivity | discriminate].
Qed.

(** An '.org' which means anything emits nothing. *)
Lemma sections_image : forall lk p a all,
  (forall n, In n p -> exists b, node_bytes lk n b) ->
  Forall2 (section_block lk) (let '(first, others) := split_sections p in (a, first) :: others) all ->
  exists bs, Forall2 (node_bytes lk) p bs /\ memory all = image a p bs.
Proof.
  intros lk. induction p as [|n p IH]; intros a all X F.
  - cbn [split_sections] in F. inversion F as [|? r ? l (S & bs & B & D) N]; subst. inversion N; subst.
    inversion B; subst. exists []. split; [constructor|]. rewrite memory_cons, D. reflexivity.
  - assert (Xp : forall m, In m p -> exists b, node_bytes lk m b) by (intros m I; apply X; right; exact I).
    cbn [split_sections] in F. destruct (split_sections p) as [first others] eqn:E.
    destruct (origin n) as [o|] eqn:O.
    + inversion F as [|? r ? l (S & bs & B & D) N]; subst. inversion B; subst.
      destruct (IH o l Xp) as (bs & Fb & M); [exact N|].
      destruct (X n (or_introl eq_refl)) as (b & Nb).
      exists (b :: bs). split; [constructor; assumption|]. rewrite memory_cons, D, M.
      pose proof (node_bytes_size _ _ _ Nb) as L. rewrite (origin_size _ _ O) in L.
      destruct b; [|cbn in L; lia]. cbn [concat place app image]. unfold after. rewrite O. reflexivity.
    + inversion F as [|? r ? l (S & bs & B & D) N]; subst. inversion B as [|? b ? bs' Nb B']; subst.
      destruct (IH (a + size n) (mk_range (a + size n) (concat bs') :: l) Xp) as (bs & Fb & M).
      { constructor; [|exact N]. split; [reflexivity|]. exists bs'. split; [exact B' | reflexivity]. }
      exists (b :: bs). split; [constructor; assumption|].
      rewrite memory_cons in M |- *. cbn [dr_start dr_data fst snd] in M, S. rewrite D. cbn [concat].
      rewrite place_app, <- app_assoc, S, (node_bytes_size _ _ _ Nb), M. cbn [image fst]. unfold after. rewrite O.
      reflexivity.
Qed.

Lemma wf_bytes : forall p n, well_formed p -> In n p -> exists b, node_bytes (lookup p) n b.
Proof.
  intros p n W I. destruct n as [l id args|l id|l m fs].
  - destruct (wf_directives p W _ _ _ I) as ([a|a|a] & M); eexists; econstructor; exact M.
  - eexists. constructor.
  - destruct (wf_instructions p W _ _ _ I) as (w & E). eexists. constructor. exact E.
Qed.

(** ** C32 *)

Theorem output_image : forall p rs, well_formed p -> output p rs ->
  exists bs, Forall2 (node_bytes (lookup p)) p bs /\ memory rs = image 0 p bs.
Proof.
  intros p rs W (all & F & ->). rewrite memory_nonempty. unfold sections in F.
  apply sections_image; [|exact F]. intros n I. apply wf_bytes; assumption.
Qed.

Lemma image_at : forall p a bs, length p = length bs ->
  image a p bs = concat (map (fun i => place (counter a (firstn i p)) (nth i bs [])) (seq 0 (length p))).
Proof.
  induction p as [|n p IH]; intros a [|b bs] L; try discriminate; [reflexivity|].
  cbn [length] in L. cbn [image length seq map concat firstn]. cbn [nth]. f_equal.
  rewrite seq_map_S. rewrite (IH _ bs) by lia. reflexivity.
Qed.

Lemma forall2_len : forall (A B : Type) (P : A -> B -> Prop) l r, Forall2 P l r -> length l = length r.
Proof. induction 1; cbn; congruence. Qed.

Theorem memory_image : forall p rs, well_formed p -> output p rs ->
  exists bs, Forall2 (node_bytes (lookup p)) p bs /\
    memory rs = concat (map (fun i => place (address p i) (nth i bs [])) (seq 0 (length p))) /\
    Forall (fun r => dr_data r <> []) rs.
Proof.
  intros p rs W O. destruct (output_image p rs W O) as (bs & F & M). exists bs. split; [exact F|].
  rewrite M. split; [apply image_at; eapply forall2_len; exact F|].
  destruct O as (all & _ & ->). apply Forall_forall. intros r I. apply filter_In in I. destruct I as [_ I].
  unfold nonempty in I. destruct (dr_data r); [discriminate | discriminate].
Qed.

Lemma forall2_nth : forall (A B : Type) (P : A -> B -> Prop) l r i b d, Forall2 P l r ->
  nth_error l i = Some b -> exists c, nth_error r i = Some c /\ nth i r d = c /\ P b c.
Proof.
  intros A B P l r i b d F. revert i. induction F as [|x y l r H F IH]; intros [|i] E; cbn in *; try discriminate.
  - injection E as <-. eauto.
  - apply IH. exact E.
Qed.

(** ** C34 *)

Theorem memory_bounds : forall p rs, well_formed p -> output p rs ->
  Forall (fun x => fst x < 4095) (memory rs) /\
  Forall (fun r => dr_start r + range_len r <= 4095) rs.
Proof.
  intros p rs W O. destruct (memory_image p rs W O) as (bs & F & M & Ne).
  assert (B : Forall (fun x => fst x < 4095) (memory rs)).
  { rewrite M. apply Forall_concat. apply Forall_forall. intros l I. apply in_map_iff in I.
    destruct I as (i & <- & I). apply in_seq in I. apply Forall_forall. intros x X.
    destruct (nth_error p i) as [n|] eqn:E; [|apply nth_error_None in E; lia].
    destruct (forall2_nth _ _ _ _ _ _ _ [] F E) as (b & _ & Eb & Nb). rewrite Eb in X.
    apply node_bytes_size in Nb. pose proof (wf_space p W i n E) as S.
    apply (in_map fst) in X. apply place_addresses in X. lia. }
  split; [exact B|]. apply Forall_forall. intros r I. rewrite Forall_forall in Ne. specialize (Ne r I).
  rewrite Forall_forall in B. unfold range_len. destruct (dr_data r) as [|b d] eqn:D; [contradiction|].
  assert (X : In (dr_start r + N.of_nat (length d)) (map fst (memory rs))).
  { unfold memory. rewrite flat_map_concat_map, concat_map, map_map, in_concat.
    exists (map fst (place (dr_start r) (dr_data r))). split; [apply in_map_iff; eauto|].
    apply place_addresses. rewrite D. cbn [length]. lia. }
  apply in_map_iff in X. destruct X as (y & E & Y). specialize (B y Y). cbn [length]. lia.
Qed.
