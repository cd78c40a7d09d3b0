(** * AddressProofs: addresses and label values in closed form (C27, C28, C33). *)

From Verif Require Import Base Text U12 Location Parser Directive Opcode Instruction DataRange Assembler
  SpecLex SpecOpcode SpecRefusal SpecLayout BaseFacts InstructionTheorems LayoutProofs EmitProofs DataRangeProofs OutputProofs.
Open Scope N_scope.

(** ** Addresses *)

Fixpoint total_size (p : list node) : N :=
  match p with [] => 0 | n :: rest => size n + total_size rest end.

Lemma counter_no_origin : forall p a, Forall (fun n => origin n = None) p -> counter a p = a + total_size p.
Proof.
  unfold counter. induction p as [|n p IH]; intros a F; cbn [fold_left total_size]; [lia|].
  inversion F as [|? ? O F']; subst. rewrite IH by exact F'. unfold after. rewrite O. lia.
Qed.

Lemma counter_app : forall p q a, counter a (p ++ q) = counter (counter a p) q.
Proof. intros. unfold counter. apply fold_left_app. Qed.

(** The address after a statement list: its last '.org', and the sizes since. *)
Theorem address_closed : forall p i before since,
  (i <= length p)%nat -> firstn i p = before ++ since -> Forall (fun n => origin n = None) since ->
  (before = [] -> address p i = total_size since) /\
  (forall b o a, before = b ++ [o] -> origin o = Some a -> address p i = a + total_size since).
Proof.
  intros p i before since L E F. unfold address. rewrite E. split.
  - intros ->. cbn [app]. rewrite counter_no_origin by exact F. lia.
  - intros b o a -> O. rewrite counter_app, counter_no_origin by exact F. f_equal.
    rewrite counter_app. unfold counter. cbn [fold_left]. unfold after. rewrite O. reflexivity.
Qed.

(** Such a decomposition always exists. *)
Lemma last_origin : forall p, exists before since,
  p = before ++ since /\ Forall (fun n => origin n = None) since /\
  (before = [] \/ exists b o a, before = b ++ [o] /\ origin o = Some a).
Proof.
  intros p. induction p as [|n p (before & since & E & F & H)] using rev_ind.
  - exists [], []. repeat split; auto.
  - destruct (origin n) as [a|] eqn:O.
    + exists (p ++ [n]), []. rewrite app_nil_r. repeat split; auto. right. exists p, n, a. auto.
    + exists before, (since ++ [n]). rewrite app_assoc, <- E. repeat split; auto.
      apply Forall_app. split; [exact F | repeat constructor; exact O].
Qed.

(** ** Labels *)

Lemma labels_of_in : forall p id, In id (labels_of p) <-> exists l, In (NLabel l id) p.
Proof.
  induction p as [|n p IH]; intros id; [split; [intros [] | intros (l & [])]|].
  destruct n as [l i args|l i|l m fs]; cbn [labels_of In].
  - rewrite IH. split; intros (x & H); exists x; [right; exact H | destruct H as [H|H]; [discriminate | exact H]].
  - rewrite IH. split.
    + intros [->|(x & H)]; [exists l; left; reflexivity | exists x; right; exact H].
    + intros (x & [H|H]); [injection H as _ ->; left; reflexivity | right; eauto].
  - rewrite IH. split; intros (x & H); exists x; [right; exact H | destruct H as [H|H]; [discriminate | exact H]].
Qed.

Lemma lookup_from_defined : forall p a id, lookup_from a p id <> None <-> In id (labels_of p).
Proof.
  induction p as [|n p IH]; intros a id; [cbn; tauto|].
  destruct n as [l i args|l i|l m fs]; cbn [lookup_from labels_of In]; try apply IH.
  destruct (list_eq_dec N.eq_dec i id) as [->|D].
  - split; [auto | discriminate].
  - rewrite IH. split; [auto | intros [X|X]; [contradiction | exact X]].
Qed.

Theorem lookup_defined : forall p id, lookup p id <> None <-> In id (labels_of p).
Proof. intros. apply lookup_from_defined. Qed.

Lemma nodup_split : forall p i l id, NoDup (labels_of p) -> nth_error p i = Some (NLabel l id) ->
  ~ In id (labels_of (firstn i p)).
Proof.
  intros p i l id N H I. apply nth_error_split in H. destruct H as (b & r & -> & <-).
  rewrite firstn_app, Nat.sub_diag, firstn_all, app_nil_r in I. rewrite labels_of_app in N. cbn [labels_of] in N.
  apply NoDup_remove_2 in N. apply N. apply in_or_app. left. exact I.
Qed.

Theorem lookup_at : forall p i l id, NoDup (labels_of p) -> nth_error p i = Some (NLabel l id) ->
  lookup p id = Some (label_value (address p i) (skipn (S i) p)).
Proof.
  intros p i l id N H. pose proof (nodup_split p i l id N H) as F.
  assert (G : forall p a i, nth_error p i = Some (NLabel l id) -> ~ In id (labels_of (firstn i p)) ->
            lookup_from a p id = Some (label_value (counter a (firstn i p)) (skipn (S i) p))).
  { clear. induction p as [|n p IH]; intros a [|i] H F; try discriminate.
    - injection H as ->. cbn [lookup_from]. destruct (list_eq_dec N.eq_dec id id); [reflexivity | contradiction].
    - cbn [nth_error] in H. cbn [firstn labels_of] in F. cbn [lookup_from firstn].
      change (counter a (n :: firstn i p)) with (counter (after a n) (firstn i p)).
      change (skipn (S (S i)) (n :: p)) with (skipn (S i) p).
      destruct n as [l0 i0 args|l0 i0|l0 m0 fs].
      + apply IH; assumption.
      + cbn [In] in F. destruct (list_eq_dec N.eq_dec i0 id) as [->|]; [exfalso; apply F; left; reflexivity|].
        apply IH; [exact H | intros X; apply F; right; exact X].
      + apply IH; assumption. }
  unfold lookup, address. apply G; assumption.
Qed.

(** ** References *)

(** The instructions with an address operand. *)
Inductive refers : str -> list field -> str -> Prop :=
| refers_jp : forall m id, named m "JP" -> refers m [FIdentifier id] id
| refers_call : forall m id, named m "CALL" -> refers m [FIdentifier id] id
| refers_jp_v0 : forall m id, named m "JP" -> refers m [FRegister 0; FIdentifier id] id
| refers_ld_i : forall m id, named m "LD" -> refers m [FIndex; FIdentifier id] id.

Lemma word_address : forall h x y v, digit h < 16 -> v <= 4095 -> h <> c_ "x" -> h <> c_ "y" -> h <> c_ "n" -> h <> c_ "k" ->
  word x y v (h :: u "nnn") mod 4096 = v.
Proof.
  intros h x y v D L X Y Nn K. change (u "nnn") with [110; 110; 110].
  cbn [word length]. unfold nibble.
  apply N.eqb_neq in X, Y, Nn, K. rewrite X, Y, Nn, K. cbn [orb].
  change (c_ "x") with 120. change (c_ "y") with 121. change (c_ "n") with 110. change (c_ "k") with 107.
  change (110 =? 120) with false. change (110 =? 121) with false. change (110 =? 110) with true. cbn [orb].
  change (16 ^ N.of_nat 3) with 4096. change (16 ^ N.of_nat 2) with 256. change (16 ^ N.of_nat 1) with 16.
  change (16 ^ N.of_nat 0) with 1. lia.
Qed.

Lemma refers_word : forall lk m fs id w v, refers m fs id -> encodes lk m fs w -> lk id = Some v ->
  w mod 4096 = v.
Proof.
  intros lk m fs id w v R (pat & name & ops & x & y & v' & (I & Nm & Ft) & B & _ & ->) E.
  assert (P : forall n n', named m n -> named m n' -> u n = u n') by (intros n n' A A'; unfold named in *; congruence).
  assert (V : forall o f, value_operand o -> value_of lk f = Some v -> binds lk x y v' o f -> v' = v /\ v <= limit o).
  { intros o f Vo Vf (_ & _ & X). destruct (X Vo) as [X1 X2]. rewrite Vf in X1. injection X1 as <-. auto. }
  assert (D : forall h, In h (u "0123456789ABCDEF") -> digit h < 16 /\ h <> c_ "x" /\ h <> c_ "y" /\ h <> c_ "n" /\ h <> c_ "k").
  { intros h Hh. repeat (destruct Hh as [<-|Hh]; [repeat split; (vm_compute; reflexivity) || (vm_compute; discriminate)|]).
    destruct Hh. }
  unfold table in I. cbn [In] in I.
  repeat (destruct I as [I|I];
    [ injection I as <- <- <-;
      destruct R as [m id Nr|m id Nr|m id Nr|m id Nr];
      first [ discriminate (P _ _ Nr Nm) | idtac ];
      (* the operands *)
      try (exfalso; inversion Ft; fail);
      try (exfalso; inversion Ft as [|? ? ? ? F1 F2]; subst; inversion F2; fail);
      try (exfalso; inversion Ft as [|? ? ? ? F1 F2]; subst; inversion F1; subst;
           first [discriminate | match goal with H : value_operand _ |- _ => destruct H as [H|[H|[H|[]]]]; discriminate end]; fail);
      try (exfalso; inversion Ft as [|? ? ? ? F1 F2]; subst; inversion F2 as [|? ? ? ? F3 F4]; subst; inversion F3; subst;
           first [discriminate | match goal with H : value_operand _ |- _ => destruct H as [H|[H|[H|[]]]]; discriminate end]; fail)
    |]); try contradiction;
    repeat match goal with H : Forall2 (binds _ _ _ _) (_ :: _) _ |- _ => inversion H; subst; clear H end;
    match goal with H : binds _ _ _ _ "addr"%string _ |- _ =>
      destruct (V "addr"%string (FIdentifier id) (or_introl eq_refl) E H) as [-> L] end;
    change (limit "addr") with 4095 in L.
  - change (u "1nnn") with (c_ "1" :: u "nnn"). apply word_address; try exact L; apply D; cbn; tauto.
  - change (u "2nnn") with (c_ "2" :: u "nnn"). apply word_address; try exact L; apply D; cbn; tauto.
  - change (u "Annn") with (c_ "A" :: u "nnn"). apply word_address; try exact L; apply D; cbn; tauto.
  - change (u "Bnnn") with (c_ "B" :: u "nnn"). apply word_address; try exact L; apply D; cbn; tauto.
Qed.

(** The bytes of a statement are at its address. *)
Lemma place_in : forall b a off x, nth_error b off = Some x -> In (a + N.of_nat off, x) (place a b).
Proof.
  induction b as [|y b IH]; intros a [|off] x H; try discriminate.
  - injection H as <-. left. f_equal. lia.
  - cbn [nth_error] in H. right. replace (a + N.of_nat (S off)) with (a + 1 + N.of_nat off) by lia. apply IH. exact H.
Qed.

Theorem bytes_at : forall p rs k n, well_formed p -> output p rs -> nth_error p k = Some n ->
  exists b, node_bytes (lookup p) n b /\
    forall off x, nth_error b off = Some x -> In (address p k + N.of_nat off, x) (memory rs).
Proof.
  intros p rs k n W O H. destruct (memory_image p rs W O) as (bs & F & M & _).
  destruct (forall2_nth _ _ _ _ _ _ _ [] F H) as (b & _ & Eb & Nb). exists b. split; [exact Nb|].
  intros off x X. rewrite M. apply in_concat. exists (place (address p k) (nth k bs [])). split.
  - apply in_map_iff. exists k. split; [reflexivity|]. apply in_seq.
    assert (k < length p)%nat by (apply nth_error_Some; congruence). lia.
  - rewrite Eb. apply place_in. exact X.
Qed.

(** Nothing between [i] and [j] moves the address. *)
Definition nothing_between (p : list node) (i j : nat) : Prop :=
  (i <= j)%nat /\
  forall t n, (i <= t < j)%nat -> nth_error p t = Some n -> origin n = None /\ size n = 0.

Lemma firstn_snoc : forall (A : Type) (p : list A) i n, nth_error p i = Some n -> firstn (S i) p = firstn i p ++ [n].
Proof.
  induction p as [|x p IH]; intros [|i] n H; try discriminate; [injection H as <-; reflexivity|].
  cbn [nth_error] in H. cbn [firstn app]. rewrite <- (IH i n H). reflexivity.
Qed.

Lemma address_nothing : forall p i j, nothing_between p i j -> (j <= length p)%nat -> address p j = address p i.
Proof.
  intros p i j [L H]. induction L as [|j L IH]; intros Lj; [reflexivity|].
  rewrite <- IH; [|intros t n T; apply H; lia | lia].
  destruct (nth_error p j) as [n|] eqn:E; [|apply nth_error_None in E; lia].
  destruct (H j n) as [O Z]; [lia | exact E |]. unfold address. rewrite (firstn_snoc _ p j n E), counter_app.
  unfold counter at 1. cbn [fold_left]. unfold after. rewrite O, Z. lia.
Qed.

(** C33 *)
Theorem reference_lands : forall p rs i l id k l' m fs j n,
  well_formed p -> output p rs ->
  nth_error p i = Some (NLabel l id) ->
  (forall q, nth_error p (S i) = Some q -> constant q = None) ->
  nth_error p k = Some (NInstruction l' m fs) -> refers m fs id ->
  nothing_between p i j -> nth_error p j = Some n ->
  exists hi lo b,
    In (address p k, hi) (memory rs) /\ In (address p k + 1, lo) (memory rs) /\
    node_bytes (lookup p) n b /\
    forall off x, nth_error b off = Some x -> In ((256 * hi + lo) mod 4096 + N.of_nat off, x) (memory rs).
Proof.
  intros p rs i l id k l' m fs j n W O Hi K Hk R Bt Hj.
  destruct (bytes_at p rs k _ W O Hk) as (b & Nb & Pb).
  assert (Lk : lookup p id = Some (address p i)).
  { rewrite (lookup_at p i l id (wf_labels p W) Hi). unfold label_value.
    destruct (skipn (S i) p) as [|q r] eqn:E; [reflexivity|].
    rewrite (K q); [reflexivity|]. clear - E. revert p E. induction (S i) as [|t IH]; intros p E.
    - cbn [skipn] in E. rewrite E. reflexivity.
    - destruct p as [|a p]; [discriminate|]. cbn [nth_error]. apply IH. exact E. }
  inversion Nb as [? ? ? w E| | | |]; subst.
  pose proof (refers_word _ _ _ _ _ _ R E Lk) as Wd.
  destruct (bytes_at p rs j _ W O Hj) as (c & Nc & Pc).
  exists (w / 256), (w mod 256), c.
  replace (256 * (w / 256) + w mod 256) with w by lia. rewrite Wd.
  rewrite <- (address_nothing p i j Bt) by (apply Nat.lt_le_incl, nth_error_Some; congruence).
  repeat split; try assumption.
  - specialize (Pb 0%nat _ eq_refl). rewrite N.add_0_r in Pb. exact Pb.
  - exact (Pb 1%nat _ eq_refl).
Qed.
