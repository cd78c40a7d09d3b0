(** * InsertProofs: statements inserted into a program. *)

From Verif Require Import Base Text U12 Location Parser Directive Opcode Instruction DataRange Assembler
  SpecOpcode SpecRefusal SpecLayout SpecInsert BaseFacts LayoutProofs EmitProofs DataRangeProofs OutputProofs AddressProofs MoveProofs.
Open Scope N_scope.

(** ** Well-formedness, statement by statement *)

Fixpoint fits (a : N) (p : list node) : Prop :=
  match p with
  | [] => True
  | n :: r => a + size n <= 4095 /\ fits (after a n) r
  end.

Lemma fits_spec : forall p a,
  fits a p <-> forall i n, nth_error p i = Some n -> counter a (firstn i p) + size n <= 4095.
Proof.
  induction p as [|x p IH]; intros a; cbn [fits].
  - split; [intros _ [|i] n H; discriminate H | trivial].
  - rewrite IH. split.
    + intros [H F] [|i] n E; cbn [nth_error] in E; [injection E as <-; exact H | apply (F i n E)].
    + intros H. split; [apply (H 0%nat x eq_refl) | intros i n E; apply (H (S i) n E)].
Qed.

Lemma fits_app : forall p q a, fits a (p ++ q) <-> fits a p /\ fits (counter a p) q.
Proof.
  induction p as [|x p IH]; intros q a; cbn [app fits]; [tauto|]. rewrite IH. change (counter a (x :: p)) with (counter (after a x) p). tauto.
Qed.

Lemma extent_total : forall m, extent m = total_size m.
Proof. induction m as [|n m IH]; [reflexivity|]. cbn [total_size]. rewrite <- IH. reflexivity. Qed.

Lemma fits_run : forall p a, Forall (fun n => origin n = None) p -> a <= 4095 -> (fits a p <-> a + total_size p <= 4095).
Proof.
  induction p as [|x p IH]; intros a F L; cbn [fits total_size]; [split; [lia | trivial]|].
  inversion F as [|? ? O F']; subst. unfold after. rewrite O. split.
  - intros [H X]. apply IH in X; [lia | exact F' | exact H].
  - intros H. split; [lia|]. apply IH; [exact F' | lia | lia].
Qed.

Lemma fits_placed : forall c a b, placed c -> a <= 4095 -> b <= 4095 -> fits a c -> fits b c.
Proof.
  intros [|n r] a b P A B F; [exact F|]. destruct (P n r eq_refl) as (o & O). cbn [fits] in *. unfold after in *.
  rewrite O in *. pose proof (origin_size _ _ O). split; [lia | apply F].
Qed.

Fixpoint follows (prev : bool) (p : list node) : Prop :=
  match p with
  | [] => True
  | n :: r => (constant n <> None -> prev = true) /\ follows (is_label n) r
  end.

Lemma follows_spec : forall p prev,
  follows prev p <-> forall i n, nth_error p i = Some n -> constant n <> None ->
    match i with O => prev = true | S j => exists l id, nth_error p j = Some (NLabel l id) end.
Proof.
  induction p as [|x p IH]; intros prev; cbn [follows].
  - split; [intros _ [|i] n H; discriminate H | trivial].
  - rewrite IH. split.
    + intros [H F] [|i] n E C; cbn [nth_error] in E; [injection E as <-; apply H; exact C|].
      specialize (F i n E C). destruct i as [|i]; [|exact F]. destruct x; try discriminate F. eexists _, _. reflexivity.
    + intros H. split; [intros C; apply (H 0%nat x eq_refl C)|]. intros i n E C. specialize (H (S i) n E C).
      destruct i as [|i]; [|exact H]. destruct H as (l & id & H). injection H as ->. reflexivity.
Qed.

Definition last_label (prev : bool) (p : list node) : bool := fold_left (fun _ n => is_label n) p prev.

Lemma follows_app : forall p q prev, follows prev (p ++ q) <-> follows prev p /\ follows (last_label prev p) q.
Proof.
  induction p as [|x p IH]; intros q prev; cbn [app follows]; [unfold last_label; cbn [fold_left]; tauto|]. rewrite IH.
  change (last_label prev (x :: p)) with (last_label (is_label x) p). tauto.
Qed.

Lemma follows_detached : forall p a b, detached p -> follows a p -> follows b p.
Proof.
  intros [|n r] a b D F; [exact F|]. cbn [follows] in *. split; [|apply F]. rewrite (D n r eq_refl). intros H. destruct (H eq_refl).
Qed.

Lemma follows_plain : forall m prev, Forall plain m -> follows prev m.
Proof.
  induction m as [|n m IH]; intros prev F; [exact I|]. inversion F as [|? ? (_ & C & L) F']; subst. cbn [follows].
  split; [rewrite C; intros H; destruct (H eq_refl) | apply IH; exact F'].
Qed.

Lemma means_constant : forall l id args c, means id args (Equ c) <-> constant (NDirective l id args) = Some c.
Proof.
  intros l id args c. split.
  - intros M. inversion M as [|? ? E L|]; subst. cbn [constant]. rewrite E. cbn [andb]. destruct (c <=? 4095) eqn:X; [reflexivity|].
    apply N.leb_gt in X. lia.
  - cbn [constant]. destruct args as [|[s|v] [|x args]]; try discriminate.
    destruct (names id "EQU" && (v <=? 4095)) eqn:E; [|discriminate]. apply andb_true_iff in E. destruct E as [E L].
    intros H. injection H as ->. apply N.leb_le in L. apply means_equ; assumption.
Qed.

Definition directives_mean (p : list node) : Prop := forall l id args, In (NDirective l id args) p -> exists d, means id args d.
Definition instructions_mean (lk : str -> option N) (p : list node) : Prop :=
  forall l m fields, In (NInstruction l m fields) p -> exists w, encodes lk m fields w.

Lemma well_formed_iff : forall p, well_formed p <->
  directives_mean p /\ follows false p /\ NoDup (labels_of p) /\ fits 0 p /\ instructions_mean (lookup p) p.
Proof.
  intros p. split.
  - intros W. split; [exact (wf_directives p W)|]. split.
    { apply follows_spec. intros i n E C. destruct (constant n) as [c|] eqn:Cn; [|destruct (C eq_refl)].
      destruct n as [l id args| |]; try discriminate Cn. apply means_constant in Cn.
      destruct (wf_constants p W i l id args c E Cn) as (j & l' & id' & -> & H). exists l', id'. exact H. }
    split; [exact (wf_labels p W)|]. split; [|exact (wf_instructions p W)].
    apply fits_spec. exact (wf_space p W).
  - intros (D & F & N & S & I). constructor; try assumption.
    + intros i l id args c E M. apply (means_constant l) in M. apply follows_spec with (i := i) (n := NDirective l id args) in F; [|exact E | congruence].
      destruct i as [|j]; [discriminate F|]. destruct F as (l' & id' & H). exists j, l', id'. split; [reflexivity | exact H].
    + apply fits_spec. exact S.
Qed.

(** ** Labels *)

Lemma lookup_head : forall id r r', detached r -> detached r' -> forall a x,
  (~ In id (labels_of a) -> lookup_from (counter x a) r id = lookup_from (counter x a) r' id) ->
  lookup_from x (a ++ r) id = lookup_from x (a ++ r') id.
Proof.
  intros id r r' Dr Dr'. induction a as [|n a IH]; intros x H; [apply H; intros []|].
  cbn [app]. destruct n as [l i args|l i|l m fs]; cbn [lookup_from].
  - apply IH. intros N. apply H. exact N.
  - destruct (list_eq_dec N.eq_dec i id) as [->|Ne].
    + f_equal. destruct a as [|n a]; [|reflexivity]. cbn [app]. unfold label_value.
      destruct r as [|n r]; destruct r' as [|n' r']; rewrite ?(Dr _ _ eq_refl), ?(Dr' _ _ eq_refl); reflexivity.
    + apply IH. intros N. apply H. intros [E|E]; [exact (Ne E) | exact (N E)].
  - apply IH. intros N. apply H. exact N.
Qed.

Lemma lookup_plain : forall m y r id, Forall plain m -> lookup_from y (m ++ r) id = lookup_from (y + total_size m) r id.
Proof.
  induction m as [|n m IH]; intros y r id F; cbn [app total_size]; [rewrite N.add_0_r; reflexivity|].
  inversion F as [|? ? (O & _ & L) F']; subst. 
  assert (E : lookup_from y (n :: m ++ r) id = lookup_from (after y n) (m ++ r) id) by (destruct n; [reflexivity | discriminate L | reflexivity]).
  rewrite E, IH by exact F'. unfold after. rewrite O, N.add_assoc. reflexivity.
Qed.

Lemma lookup_placed : forall c y z id, placed c -> lookup_from y c id = lookup_from z c id.
Proof.
  intros [|n r] y z id P; [reflexivity|]. destruct (P n r eq_refl) as (o & O).
  destruct n as [l i args| |]; try discriminate O. cbn [lookup_from]. unfold after. rewrite O. reflexivity.
Qed.

Lemma placed_detached : forall c, placed c -> detached c.
Proof.
  intros c P n r E. destruct (P n r E) as (o & O). destruct n as [l id args| |]; try discriminate O.
  cbn [origin constant] in *. destruct args as [|[s|v] [|x args]]; try discriminate O.
  destruct (names id "ORG") eqn:X; [|discriminate O]. rewrite (org_not id "EQU" X) by discriminate. reflexivity.
Qed.

(** A label of [b] goes up with [b] if it is an address, and else stays. *)
Lemma lookup_up : forall k c id, placed c -> forall b y, Forall (fun n => origin n = None) b ->
  (~ address_of b id -> lookup_from (y + k) (b ++ c) id = lookup_from y (b ++ c) id) /\
  (NoDup (labels_of b) -> address_of b id ->
   exists v, lookup_from y (b ++ c) id = Some v /\ lookup_from (y + k) (b ++ c) id = Some (v + k)).
Proof.
  intros k c id P. induction b as [|n b IH]; intros y F.
  - split; [intros _; apply lookup_placed; exact P | intros _ (b1 & l & b2 & E & _); destruct b1; discriminate E].
  - inversion F as [|? ? O F']; subst.
    assert (Af : after (y + k) n = after y n + k) by (unfold after; rewrite O; lia).
    assert (Tail : address_of b id -> address_of (n :: b) id).
    { intros (b1 & l & b2 & -> & D). exists (n :: b1), l, b2. split; [reflexivity | exact D]. }
    destruct (IH (after y n) F') as [Same Up]. rewrite <- Af in Same, Up. cbn [app].
    assert (Pass : forall z, (forall l, n <> NLabel l id) -> lookup_from z (n :: b ++ c) id = lookup_from (after z n) (b ++ c) id).
    { intros z Ne. destruct n as [l i args|l i|l m fs]; [reflexivity | | reflexivity]. cbn [lookup_from].
      destruct (list_eq_dec N.eq_dec i id) as [->|]; [destruct (Ne l eq_refl) | reflexivity]. }
    destruct n as [l i args|l i|l m fs].
    1, 3: rewrite !Pass by (intros l'; discriminate); split; [intros H; apply Same; intros X; exact (H (Tail X))|];
      intros Nd (b1 & l0 & b2 & E & D); apply Up; [exact Nd|]; destruct b1 as [|z b1]; [discriminate E|];
      injection E as <- ->; exists b1, l0, b2; split; [reflexivity | exact D].
    destruct (list_eq_dec N.eq_dec i id) as [->|Ne].
    + assert (Head : forall z, lookup_from z (NLabel l id :: b ++ c) id = Some (label_value z (b ++ c))).
      { intros z. cbn [lookup_from]. destruct (list_eq_dec N.eq_dec id id) as [_|X]; [reflexivity | destruct (X eq_refl)]. }
      rewrite !Head. split.
      * intros H. f_equal. destruct b as [|n' b].
        { exfalso. apply H. exists [], l, []. split; [reflexivity | intros n r E; discriminate E]. }
        cbn [app label_value]. destruct (constant n') eqn:C; [reflexivity|]. exfalso. apply H. exists [], l, (n' :: b).
        split; [reflexivity|]. intros n r E. injection E as <- <-. exact C.
      * intros Nd (b1 & l0 & b2 & E & D). destruct b1 as [|z b1].
        { injection E as <- ->. exists y. destruct b2 as [|n' b]; cbn [app].
          - destruct c as [|n' c]; [split; reflexivity|]. cbn [label_value]. rewrite (placed_detached _ P n' c eq_refl). split; reflexivity.
          - cbn [label_value]. rewrite (D n' b eq_refl). split; reflexivity. }
        { injection E as <- ->. cbn [labels_of] in Nd. rewrite labels_of_app in Nd. inversion Nd as [|? ? Ni _]; subst. exfalso. apply Ni.
          apply in_app_iff. right. left. reflexivity. }
    + rewrite !Pass by (intros l' E; injection E as _ E; exact (Ne E)). split; [intros H; apply Same; intros X; exact (H (Tail X))|].
      intros Nd (b1 & l0 & b2 & E & D). cbn [labels_of] in Nd. inversion Nd; subst. apply Up; [assumption|].
      destruct b1 as [|z b1]; [injection E as _ E _; destruct (Ne E)|]. injection E as <- ->. exists b1, l0, b2. split; [reflexivity | exact D].
Qed.

Lemma plain_origin : forall m, Forall plain m -> Forall (fun n => origin n = None) m.
Proof. intros m F. eapply Forall_impl; [|exact F]. intros n (O & _). exact O. Qed.

Lemma plain_detached : forall m r, Forall plain m -> detached r -> detached (m ++ r).
Proof.
  intros [|n m] r F D; [exact D|]. intros n' r' E. injection E as <- _. inversion F as [|? ? (_ & C & _)]; subst. exact C.
Qed.

Lemma counter_fits : forall p x, directives_mean p -> fits x p -> x <= 4095 -> counter x p <= 4095.
Proof.
  induction p as [|n p IH]; intros x Dm F L; [exact L|]. cbn [fits] in F. destruct F as [S F].
  change (counter x (n :: p)) with (counter (after x n) p). apply IH; [|exact F|].
  - intros l id args I. apply (Dm l id args). right. exact I.
  - unfold after. destruct (origin n) as [o|] eqn:O; [|exact S]. destruct n as [l id args| |]; try discriminate O.
    destruct (Dm l id args (or_introl eq_refl)) as (d & M). cbn [origin] in O.
    destruct args as [|[s|v] [|y args]]; try discriminate O. destruct (names id "ORG") eqn:X; [|discriminate O].
    injection O as ->. destruct (means_org_inv _ _ _ X M) as [_ V]. exact V.
Qed.

Lemma image_app : forall p q bp bq a, length p = length bp ->
  image a (p ++ q) (bp ++ bq) = image a p bp ++ image (counter a p) q bq.
Proof.
  induction p as [|n p IH]; intros q [|e bp] bq a L; try discriminate L; [reflexivity|].
  cbn [app image]. rewrite IH by (injection L as L; exact L). rewrite app_assoc. reflexivity.
Qed.

Lemma place_length : forall bs a, length (place a bs) = length bs.
Proof. induction bs as [|e bs IH]; intros a; cbn [place length]; [reflexivity | rewrite IH; reflexivity]. Qed.

Lemma image_length : forall lk p bs, Forall2 (node_bytes lk) p bs -> forall a, N.of_nat (length (image a p bs)) = total_size p.
Proof.
  intros lk p bs B. induction B as [|n e p bs N _ IH]; intros a; [reflexivity|]. cbn [image total_size].
  rewrite app_length, place_length. specialize (IH (after a n)). apply node_bytes_size in N. lia.
Qed.

Lemma image_run : forall lk p bs a, Forall (fun n => origin n = None) p -> Forall2 (node_bytes lk) p bs ->
  image a p bs = place a (concat bs).
Proof.
  intros lk p bs a O B. revert a O. induction B as [|n e p bs N _ IH]; intros a O; [reflexivity|].
  inversion O as [|? ? On O']; subst. cbn [image concat]. rewrite place_app. f_equal. rewrite IH by exact O'.
  unfold after. rewrite On, (node_bytes_size _ _ _ N). reflexivity.
Qed.

Lemma place_up : forall k bs a, place (a + k) bs = map (up k) (place a bs).
Proof.
  intros k. induction bs as [|e bs IH]; intros a; [reflexivity|]. cbn [place map]. unfold up at 1. cbn [fst snd]. f_equal.
  rewrite <- IH. f_equal. lia.
Qed.

Lemma image_up : forall k p bs a, Forall (fun n => origin n = None) p -> length p = length bs ->
  image (a + k) p bs = map (up k) (image a p bs).
Proof.
  intros k. induction p as [|n p IH]; intros [|e bs] a O L; try discriminate L; [reflexivity|].
  inversion O as [|? ? On O']; subst. cbn [image]. rewrite map_app, place_up. f_equal.
  unfold after. rewrite On. rewrite <- IH by (try exact O'; injection L as L; exact L). f_equal. lia.
Qed.

Lemma image_placed : forall lk p bs x y, placed p -> Forall2 (node_bytes lk) p bs -> image x p bs = image y p bs.
Proof.
  intros lk p bs x y P B. destruct B as [|n e p bs N B]; [reflexivity|]. destruct (P n p eq_refl) as (o & O).
  cbn [image]. unfold after. rewrite O. apply node_bytes_size in N. rewrite (origin_size _ _ O) in N.
  destruct e; [reflexivity | cbn [length] in N; lia].
Qed.

Section Insert.
  Variables a m b c : list node.
  Hypothesis Pm : Forall plain m.
  Hypothesis Ob : Forall (fun n => origin n = None) b.
  Hypothesis Pc : placed c.
  Hypothesis D : detached (b ++ c).

  Lemma lookup_same_unless : forall id, In id (labels_of a) \/ ~ address_of b id ->
    lookup (a ++ m ++ b ++ c) id = lookup (a ++ b ++ c) id.
  Proof.
    intros id H. apply lookup_head; [apply plain_detached; assumption | exact D|]. intros N.
    rewrite lookup_plain by exact Pm. apply lookup_up; [exact Pc | exact Ob | tauto].
  Qed.

  Lemma lookup_moves : forall id, NoDup (labels_of (a ++ b ++ c)) -> address_of b id ->
    exists v, lookup (a ++ b ++ c) id = Some v /\ lookup (a ++ m ++ b ++ c) id = Some (v + extent m).
  Proof.
    intros id Nd A. rewrite !labels_of_app in Nd. pose proof (proj1 (nodup_app _ _ _) Nd) as (_ & Nbc & Dj).
    pose proof (proj1 (nodup_app _ _ _) Nbc) as (Nb & _ & _).
    assert (Na : ~ In id (labels_of a)).
    { intros I. destruct A as (b1 & l & b2 & -> & _). apply (Dj id I). rewrite !labels_of_app. cbn [labels_of].
      apply in_app_iff. left. apply in_app_iff. right. left. reflexivity. }
    assert (Skip : forall r a x, ~ In id (labels_of a) -> lookup_from x (a ++ r) id = lookup_from (counter x a) r id).
    { intros r. induction a0 as [|n a0 IH]; intros x N; [reflexivity|]. cbn [app].
      destruct n as [l i args|l i|l mn fs]; cbn [lookup_from]; try (apply IH; exact N).
      destruct (list_eq_dec N.eq_dec i id) as [->|]; [destruct N; left; reflexivity | apply IH; intros X; apply N; right; exact X]. }
    unfold lookup. rewrite (Skip (b ++ c) a), (Skip (m ++ b ++ c) a) by exact Na. rewrite (lookup_plain m) by exact Pm. rewrite (extent_total m).
    apply lookup_up; assumption.
  Qed.

  Lemma labels_insert : labels_of (a ++ m ++ b ++ c) = labels_of (a ++ b ++ c).
  Proof.
    rewrite !labels_of_app. f_equal. assert (E : labels_of m = []); [|rewrite E; reflexivity].
    clear - Pm. revert Pm. induction m as [|n m0 IH]; intros F; [reflexivity|]. inversion F as [|? ? (_ & _ & L) F']; subst.
    destruct n; [apply IH; exact F' | discriminate L | apply IH; exact F'].
  Qed.

  Hypothesis Apart : apart_from b (a ++ m ++ b ++ c).

  Lemma meaning_insert : forall l mn fs w, In (NInstruction l mn fs) (a ++ m ++ b ++ c) ->
    (encodes (lookup (a ++ m ++ b ++ c)) mn fs w <-> encodes (lookup (a ++ b ++ c)) mn fs w).
  Proof.
    intros l mn fs w I.
    assert (E : forall x, In (FIdentifier x) fs -> lookup (a ++ m ++ b ++ c) x = lookup (a ++ b ++ c) x)
      by (intros x X; apply lookup_same_unless; right; exact (Apart l mn fs x I X)).
    split; apply encodes_in; intros x X; [|symmetry]; apply E; exact X.
  Qed.

  Lemma bytes_insert : forall n bs, In n (a ++ m ++ b ++ c) ->
    (node_bytes (lookup (a ++ m ++ b ++ c)) n bs <-> node_bytes (lookup (a ++ b ++ c)) n bs).
  Proof.
    intros n bs I. split; intros H; destruct H; econstructor; try eassumption; eapply meaning_insert; eassumption.
  Qed.

  Lemma well_formed_insert : well_formed (a ++ m ++ b ++ c) <->
    well_formed (a ++ b ++ c) /\ counter 0 (a ++ m ++ b) <= 4095 /\
    Forall (fun n => exists bs, node_bytes (lookup (a ++ b ++ c)) n bs) m.
  Proof.
    rewrite !well_formed_iff, labels_insert.
    assert (Sub : forall n, In n (a ++ b ++ c) -> In n (a ++ m ++ b ++ c)).
    { intros n. rewrite !in_app_iff. tauto. }
    assert (Sm : forall n, In n m -> In n (a ++ m ++ b ++ c)).
    { intros n. rewrite !in_app_iff. tauto. }
    assert (Or : forall n, In n (a ++ m ++ b ++ c) -> In n (a ++ b ++ c) \/ In n m).
    { intros n. rewrite !in_app_iff. tauto. }
    pose proof (plain_origin m Pm) as Om.
    rewrite !follows_app, !fits_app, !counter_app, !(counter_no_origin m) by exact Om. rewrite !(counter_no_origin b) by exact Ob.
    split.
    - intros (Dm & (Fl & _ & Fb & Fc) & Nd & (Fa & Fm & Ft & Fu) & Im).
      assert (Da : counter 0 a <= 4095).
      { apply counter_fits; [|exact Fa | lia]. intros l id args I. apply (Dm l id args). apply in_app_iff. left. exact I. }
      assert (Lm : counter 0 a + total_size m <= 4095) by (apply fits_run; assumption).
      assert (Lb : counter 0 a + total_size m + total_size b <= 4095) by (apply fits_run; assumption).
      split; [|split; [exact Lb|]].
      + split; [intros l id args I; apply (Dm l id args); apply Sub; exact I|].
        split; [split; [exact Fl|]; rewrite <- follows_app; eapply follows_detached; [exact D|]; rewrite follows_app; split; [exact Fb | exact Fc]|].
        split; [exact Nd|]. split.
        * split; [exact Fa|]. split; [apply fits_run; [exact Ob | exact Da | lia]|].
          eapply fits_placed; [exact Pc | | | exact Fu]; lia.
        * intros l mn fs I. destruct (Im l mn fs (Sub _ I)) as (w & W). exists w. eapply meaning_insert; [apply Sub; exact I | exact W].
      + apply Forall_forall. intros n I. destruct n as [l id args|l id|l mn fs].
        * destruct (Dm l id args (Sm _ I)) as ([o|v|bs] & M); eexists; econstructor; exact M.
        * eexists. constructor.
        * destruct (Im l mn fs (Sm _ I)) as (w & W). eexists. constructor. eapply meaning_insert; [apply Sm; exact I | exact W].
    - intros ((Dm & (Fl & Fb & Fc) & Nd & (Fa & Ft & Fu) & Im) & Lb & Bm).
      assert (Da : counter 0 a <= 4095) by lia.
      split.
      { intros l id args I. destruct (Or _ I) as [J|J]; [exact (Dm l id args J)|].
        rewrite Forall_forall in Bm. destruct (Bm _ J) as (bs & B). inversion B; subst; eexists; eassumption. }
      split.
      { split; [exact Fl|]. split; [apply follows_plain; exact Pm|]. rewrite <- follows_app. eapply follows_detached; [exact D|].
        rewrite follows_app. split; [exact Fb | exact Fc]. }
      split; [exact Nd|]. split.
      { split; [exact Fa|]. split; [apply fits_run; [exact Om | exact Da | lia]|]. split; [apply fits_run; [exact Ob | lia | lia]|].
        eapply fits_placed; [exact Pc | | | exact Fu]; lia. }
      intros l mn fs I. destruct (Or _ I) as [J|J].
      + destruct (Im l mn fs J) as (w & W). exists w. eapply meaning_insert; [exact I | exact W].
      + rewrite Forall_forall in Bm. destruct (Bm _ J) as (bs & B). inversion B; subst. eexists. eapply meaning_insert; [exact I | eassumption].
  Qed.

  (** The bytes. *)
  Lemma memory_insert : forall rs rs', Forall node_ok (a ++ b ++ c) -> well_formed (a ++ b ++ c) -> output (a ++ b ++ c) rs ->
    well_formed (a ++ m ++ b ++ c) -> output (a ++ m ++ b ++ c) rs' ->
    exists ma mb mc bss, Forall2 (node_bytes (lookup (a ++ b ++ c))) m bss /\
      N.of_nat (length ma) = extent a /\ N.of_nat (length mb) = extent b /\
      memory rs = ma ++ mb ++ mc /\
      memory rs' = ma ++ place (counter 0 a) (concat bss) ++ map (up (extent m)) mb ++ mc.
  Proof.
    intros rs rs' Ok W O W' O'.
    assert (NV : no_violation (a ++ b ++ c)) by (intros i x; apply violation_not_wf; exact W).
    destruct (output_image _ _ W O) as (bs & B & M). destruct (output_image _ _ W' O') as (bs' & B' & M').
    apply Forall2_app_inv_l in B. destruct B as (ba & r1 & Ba & B & ->).
    apply Forall2_app_inv_l in B. destruct B as (bb & bc & Bb & Bc & ->).
    assert (Fm : exists bm, Forall2 (node_bytes (lookup (a ++ b ++ c))) m bm /\ bs' = ba ++ bm ++ bb ++ bc).
    { assert (Det : forall p x y, Forall node_ok p -> Forall2 (node_bytes (lookup (a ++ b ++ c))) p x ->
                Forall2 (node_bytes (lookup (a ++ b ++ c))) p y -> x = y).
      { intros p x y Op X. revert y. induction X as [|n e p x N _ IH]; intros y Y; inversion Y as [|n' f p' y' N' Y']; subst; [reflexivity|].
        inversion Op as [|? ? On Op']; subst.
        f_equal; [exact (node_bytes_det _ _ _ _ Ok NV On N N') | apply IH; assumption]. }
      assert (Tr : forall p x, (forall n, In n p -> In n (a ++ m ++ b ++ c)) -> Forall2 (node_bytes (lookup (a ++ m ++ b ++ c))) p x ->
                Forall2 (node_bytes (lookup (a ++ b ++ c))) p x).
      { intros p x S X. induction X as [|n e p x N _ IH]; constructor.
        - apply bytes_insert; [apply S; left; reflexivity | exact N].
        - apply IH. intros n' I. apply S. right. exact I. }
      apply Tr in B'; [|intros n I; exact I].
      apply Forall2_app_inv_l in B'. destruct B' as (ba' & r2 & Ba' & B' & ->).
      apply Forall2_app_inv_l in B'. destruct B' as (bm & r3 & Bm & B' & ->).
      apply Forall2_app_inv_l in B'. destruct B' as (bb' & bc' & Bb' & Bc' & ->).
      rewrite !Forall_app in Ok. destruct Ok as (Oa & Ob' & Oc).
      exists bm. split; [exact Bm|]. rewrite (Det _ _ _ Oa Ba' Ba), (Det _ _ _ Ob' Bb' Bb), (Det _ _ _ Oc Bc' Bc). reflexivity. }
    destruct Fm as (bm & Bm & ->).
    pose proof (forall2_len _ _ _ _ _ Ba) as La. pose proof (forall2_len _ _ _ _ _ Bb) as Lb. pose proof (forall2_len _ _ _ _ _ Bm) as Lm.
    rewrite (image_app a), (image_app b) in M by assumption. rewrite (image_app a), (image_app m), (image_app b) in M' by assumption.
    exists (image 0 a ba), (image (counter 0 a) b bb), (image (counter (counter 0 a) b) c bc), bm.
    split; [exact Bm|]. split; [rewrite extent_total; eapply image_length; exact Ba|].
    split; [rewrite extent_total; eapply image_length; exact Bb|]. split; [exact M|]. rewrite M'. f_equal.
    rewrite (image_run _ _ _ _ (plain_origin m Pm) Bm). f_equal. rewrite (counter_no_origin m) by exact (plain_origin m Pm). f_equal.
    - rewrite (extent_total m). apply image_up; assumption.
    - eapply image_placed; [exact Pc | exact Bc].
  Qed.
End Insert.
