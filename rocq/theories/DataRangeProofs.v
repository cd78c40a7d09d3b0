(** * DataRangeProofs: properties of data ranges (C36, C37). *)

From Verif Require Import Base Text U12 DataRange Assembler SpecLayout BaseFacts.
Open Scope N_scope.

(** ** Appending *)

(** In memory: the start is a 12-bit address, and the data end below 4096. *)
Definition in_memory (r : data_range) : Prop :=
  dr_start r <= 4095 /\ dr_start r + range_len r <= 4096.

Theorem append_exact : forall r data, in_memory r ->
  if dr_start r + range_len r + N.of_nat (length data) <=? 4096
  then range_append r data = Done (true, mk_range (dr_start r) (dr_data r ++ data))
  else range_append r data = Done (false, r).
Proof.
  intros r data [S E]. unfold range_append, bytes_remaining, u12_max.
  replace (dr_start r <=? 0xFFF) with true by lia.
  replace (range_len r <=? 0xFFF - dr_start r + 1) with true by lia. cbn [bind].
  destruct (N.leb_spec (dr_start r + range_len r + N.of_nat (length data)) 4096).
  - replace (N.of_nat (length data) <=? 0xFFF - dr_start r + 1 - range_len r) with true by lia. reflexivity.
  - replace (N.of_nat (length data) <=? 0xFFF - dr_start r + 1 - range_len r) with false by lia. reflexivity.
Qed.

(** A history of appends: the answers and the range afterwards. *)
Fixpoint append_all (r : data_range) (datas : list (list byte)) : run (list bool * data_range) :=
  match datas with
  | [] => Done ([], r)
  | data :: rest =>
      let* (ok, r') := range_append r data in
      let* (oks, r'') := append_all r' rest in
      Done (ok :: oks, r'')
  end.

(** What is accepted, given the free space. *)
Fixpoint accepted (space : N) (datas : list (list byte)) : list bool :=
  match datas with
  | [] => []
  | data :: rest =>
      let n := N.of_nat (length data) in
      if n <=? space then true :: accepted (space - n) rest else false :: accepted space rest
  end.

Fixpoint keep {A : Type} (oks : list bool) (l : list A) : list A :=
  match oks, l with
  | true :: oks, a :: l => a :: keep oks l
  | false :: oks, _ :: l => keep oks l
  | _, _ => []
  end.

Lemma append_all_in_memory : forall datas r, in_memory r ->
  let oks := accepted (4096 - (dr_start r + range_len r)) datas in
  append_all r datas = Done (oks, mk_range (dr_start r) (dr_data r ++ concat (keep oks datas))) /\
  in_memory (mk_range (dr_start r) (dr_data r ++ concat (keep oks datas))).
Proof.
  induction datas as [|data datas IH]; intros r M; cbn [append_all accepted].
  - cbv zeta. cbn [keep concat]. rewrite app_nil_r. destruct r. split; [reflexivity | exact M].
  - pose proof (append_exact r data M) as A.
    destruct (N.leb_spec (dr_start r + range_len r + N.of_nat (length data)) 4096) as [L|L]; rewrite A; cbn [bind].
    + replace (N.of_nat (length data) <=? 4096 - (dr_start r + range_len r)) with true by lia.
      assert (M' : in_memory (mk_range (dr_start r) (dr_data r ++ data))).
      { unfold in_memory, range_len in *. cbn [dr_start dr_data]. rewrite app_length. lia. }
      destruct (IH _ M') as [E I]. cbn [dr_start dr_data] in E, I.
      replace (4096 - (dr_start r + range_len (mk_range (dr_start r) (dr_data r ++ data))))
        with (4096 - (dr_start r + range_len r) - N.of_nat (length data)) in E, I
        by (unfold range_len; cbn [dr_data]; rewrite app_length; lia).
      rewrite E. cbn [bind]. cbv zeta. cbn [keep concat]. rewrite <- app_assoc in I |- *. split; [reflexivity | exact I].
    + replace (N.of_nat (length data) <=? 4096 - (dr_start r + range_len r)) with false by (destruct M; lia).
      destruct (IH _ M) as [E I]. rewrite E. cbn [bind]. cbv zeta. cbn [keep]. split; [reflexivity | exact I].
Qed.

Theorem append_history : forall a datas, a <= 4095 ->
  let oks := accepted (4096 - a) datas in
  let r := mk_range a (concat (keep oks datas)) in
  append_all (range_new a) datas = Done (oks, r) /\ in_memory r.
Proof.
  intros a datas L. pose proof (append_all_in_memory datas (range_new a)) as H.
  cbn [range_new dr_start dr_data app] in H. unfold range_len in H. cbn [dr_data length] in H.
  rewrite N.add_0_r in H. apply H. unfold in_memory, range_len. cbn [range_new dr_start dr_data length]. lia.
Qed.

(** ** Overlaps *)

Definition covers (r : data_range) (a : N) : Prop := dr_start r <= a < dr_start r + range_len r.

Theorem intersects_exact : forall a b,
  dr_start a + range_len a <= 4095 -> dr_start b + range_len b <= 4095 ->
  (intersects a b = true <-> exists x, covers a x /\ covers b x).
Proof.
  intros a b A B. unfold intersects, address_range, u12_wrapping_add, u12_unchecked_into, covers.
  rewrite (N.mod_small (range_len a)), (N.mod_small (range_len b)) by lia.
  rewrite (N.mod_small (dr_start a + range_len a)), (N.mod_small (dr_start b + range_len b)) by lia.
  split.
  - intros H. exists (N.max (dr_start a) (dr_start b)). lia.
  - intros (x & X & Y). lia.
Qed.

(** The pairs of indices of a list, in order. *)
Definition index_pairs (n : nat) : list (nat * nat) :=
  flat_map (fun i => map (fun j => (i, j)) (seq (S i) (n - S i))) (seq 0 n).

Lemma index_pairs_in : forall n i j, In (i, j) (index_pairs n) <-> (i < j < n)%nat.
Proof.
  intros n i j. unfold index_pairs. rewrite in_flat_map. split.
  - intros (k & K & H). apply in_map_iff in H. destruct H as (m & E & M). injection E as -> ->.
    apply in_seq in K. apply in_seq in M. lia.
  - intros H. exists i. split; [apply in_seq; lia|]. apply in_map_iff. exists j. split; [reflexivity|].
    apply in_seq. lia.
Qed.

Definition pair_lt (p q : nat * nat) : Prop :=
  (fst p < fst q)%nat \/ (fst p = fst q /\ snd p < snd q)%nat.

Inductive increasing : list (nat * nat) -> Prop :=
| inc_nil : increasing []
| inc_cons : forall p l, Forall (pair_lt p) l -> increasing l -> increasing (p :: l).

Lemma increasing_app : forall l r, increasing l -> increasing r ->
  (forall p q, In p l -> In q r -> pair_lt p q) -> increasing (l ++ r).
Proof.
  induction 1 as [|p l F H IH]; intros R X; [exact R|]. cbn. constructor.
  - apply Forall_app. split; [exact F|]. apply Forall_forall. intros q Q. apply X; [left; reflexivity | exact Q].
  - apply IH; [exact R|]. intros. apply X; [right|]; assumption.
Qed.

Lemma increasing_filter : forall f l, increasing l -> increasing (filter f l).
Proof.
  induction 1 as [|p l F H IH]; [constructor|]. cbn. destruct (f p); [|exact IH].
  constructor; [|exact IH]. apply Forall_forall. intros q Q. apply filter_In in Q. rewrite Forall_forall in F. apply F, Q.
Qed.

Lemma increasing_row : forall i m s, increasing (map (fun j => (i, j)) (seq s m)).
Proof.
  intros i. induction m as [|m IH]; intros s; [constructor|]. cbn [seq map]. constructor; [|apply IH].
  apply Forall_forall. intros q Q. apply in_map_iff in Q. destruct Q as (j & <- & J). apply in_seq in J.
  right. cbn. lia.
Qed.

Lemma index_pairs_increasing : forall n, increasing (index_pairs n).
Proof.
  intros n. unfold index_pairs.
  assert (G : forall m s, increasing (flat_map (fun i => map (fun j => (i, j)) (seq (S i) (n - S i))) (seq s m))).
  { induction m as [|m IH]; intros s; [constructor|]. cbn [seq flat_map]. apply increasing_app.
    - apply increasing_row.
    - apply IH.
    - intros p q P Q. apply in_map_iff in P. destruct P as (j & <- & _). apply in_flat_map in Q.
      destruct Q as (k & K & Q). apply in_map_iff in Q. destruct Q as (j' & <- & _). apply in_seq in K.
      left. cbn. lia. }
  apply G.
Qed.

Lemma increasing_nodup : forall l, increasing l -> NoDup l.
Proof.
  induction 1 as [|p l F H IH]; constructor; [|exact IH]. intros I. rewrite Forall_forall in F.
  specialize (F p I). unfold pair_lt in F. lia.
Qed.

Definition nth_range (rs : list data_range) (i : nat) : data_range := nth i rs (range_new 0).

Lemma seq_map_S : forall (A : Type) (f : nat -> A) m s, map f (seq (S s) m) = map (fun j => f (S j)) (seq s m).
Proof. intros. rewrite <- seq_shift, map_map. reflexivity. Qed.

Lemma filter_map_comm : forall (A B : Type) (f : A -> B) (p : B -> bool) l,
  filter p (map f l) = map f (filter (fun a => p (f a)) l).
Proof.
  induction l as [|a l IH]; [reflexivity|]. cbn. destruct (p (f a)); cbn; rewrite IH; reflexivity.
Qed.

Lemma nth_seq_map : forall (rest : list data_range), map (nth_range rest) (seq 0 (length rest)) = rest.
Proof.
  induction rest as [|r rest IH]; [reflexivity|]. cbn [length seq map]. f_equal. rewrite seq_map_S. exact IH.
Qed.

(** The report is the list of the intersecting pairs of positions. *)
Lemma find_overlapping_indices : forall rs,
  find_overlapping_ranges rs =
  map (fun p => (nth_range rs (fst p), nth_range rs (snd p)))
      (filter (fun p => intersects (nth_range rs (fst p)) (nth_range rs (snd p))) (index_pairs (length rs))).
Proof.
  induction rs as [|lhs rest IH]; [reflexivity|]. cbn [find_overlapping_ranges].
  assert (E : index_pairs (length (lhs :: rest)) =
    map (fun j => (0%nat, S j)) (seq 0 (length rest))
      ++ map (fun p => (S (fst p), S (snd p))) (index_pairs (length rest))).
  { unfold index_pairs. cbn [length]. change (seq 0 (S (length rest))) with (0%nat :: seq 1 (length rest)).
    cbn [flat_map]. f_equal.
    - replace (S (length rest) - 1)%nat with (length rest) by lia. rewrite seq_map_S. reflexivity.
    - rewrite <- seq_shift. generalize (seq 0 (length rest)). intros l. induction l as [|i l IHl]; [reflexivity|].
      cbn [map flat_map]. rewrite map_app. rewrite IHl. f_equal. rewrite map_map. cbn [fst snd].
      replace (S (length rest) - S (S i))%nat with (length rest - S i)%nat by lia. apply seq_map_S. }
  rewrite E, filter_app, map_app. f_equal.
  - rewrite filter_map_comm, map_map. cbn [fst snd]. change (nth_range (lhs :: rest) 0) with lhs.
    rewrite <- (nth_seq_map rest) at 1. rewrite filter_map_comm, map_map. reflexivity.
  - rewrite IH, filter_map_comm, map_map. reflexivity.
Qed.

Lemma nth_range_error : forall rs i, (i < length rs)%nat -> nth_error rs i = Some (nth_range rs i).
Proof. intros rs i L. unfold nth_range. apply nth_error_nth'. exact L. Qed.

Theorem overlaps_exact : forall rs,
  Forall (fun r => dr_start r + range_len r <= 4095) rs ->
  exists ps,
    increasing ps /\ NoDup ps /\
    (forall i j, In (i, j) ps <->
       (i < j)%nat /\ exists a b x, nth_error rs i = Some a /\ nth_error rs j = Some b /\ covers a x /\ covers b x) /\
    find_overlapping_ranges rs = map (fun p => (nth_range rs (fst p), nth_range rs (snd p))) ps.
Proof.
  intros rs F. rewrite Forall_forall in F.
  exists (filter (fun p => intersects (nth_range rs (fst p)) (nth_range rs (snd p))) (index_pairs (length rs))).
  assert (Inc : increasing (filter (fun p => intersects (nth_range rs (fst p)) (nth_range rs (snd p)))
                              (index_pairs (length rs)))).
  { apply increasing_filter. apply index_pairs_increasing. }
  split; [exact Inc|]. split; [apply increasing_nodup; exact Inc|]. split; [|apply find_overlapping_indices].
  intros i j. rewrite filter_In, index_pairs_in. cbn [fst snd].
  assert (G : forall k, (k < length rs)%nat -> dr_start (nth_range rs k) + range_len (nth_range rs k) <= 4095).
  { intros k L. apply F. eapply nth_error_In. apply nth_range_error. exact L. }
  split.
  - intros [L I]. split; [lia|]. apply intersects_exact in I; [|apply G; lia|apply G; lia].
    destruct I as (x & X & Y). exists (nth_range rs i), (nth_range rs j), x.
    rewrite !nth_range_error by lia. auto.
  - intros (L & a & b & x & A & B & X & Y).
    assert (Li : (i < length rs)%nat) by (apply nth_error_Some; congruence).
    assert (Lj : (j < length rs)%nat) by (apply nth_error_Some; congruence).
    rewrite nth_range_error in A, B by assumption. injection A as <-. injection B as <-.
    split; [lia|]. apply intersects_exact; [apply G; lia | apply G; lia | eauto].
Qed.

(** Displaying an overlapping range does not panic. *)
Lemma intersects_fmt : forall a b, intersects a b = true ->
  (exists s, range_fmt a = Done s) /\ (exists s, range_fmt b = Done s).
Proof.
  intros a b H. unfold intersects in H. unfold range_fmt.
  destruct (address_range a) as [sa ea]. destruct (address_range b) as [sb eb].
  replace (1 <=? ea) with true by lia. replace (1 <=? eb) with true by lia. eauto.
Qed.

(** ** Addresses written *)

Lemma place_addresses : forall bytes a x, In x (map fst (place a bytes)) <-> a <= x < a + N.of_nat (length bytes).
Proof.
  induction bytes as [|b bytes IH]; intros a x; cbn [place map In length].
  - lia.
  - rewrite IH. cbn [fst]. lia.
Qed.

Lemma place_app : forall l r a, place a (l ++ r) = place a l ++ place (a + N.of_nat (length l)) r.
Proof.
  induction l as [|b l IH]; intros r a; cbn [app place length].
  - rewrite N.add_0_r. reflexivity.
  - rewrite IH. do 3 f_equal. lia.
Qed.

Lemma place_nodup : forall bytes a, NoDup (map fst (place a bytes)).
Proof.
  induction bytes as [|b bytes IH]; intros a; cbn [place map]; constructor; [|apply IH].
  cbn [fst]. rewrite place_addresses. lia.
Qed.

Lemma nodup_app : forall (A : Type) (l r : list A),
  NoDup (l ++ r) <-> NoDup l /\ NoDup r /\ forall x, In x l -> In x r -> False.
Proof.
  induction l as [|a l IH]; intros r; cbn.
  - split; [intros H; repeat split; [constructor | exact H | tauto] | tauto].
  - rewrite !NoDup_cons_iff, IH, in_app_iff. split.
    + intros (N & Nl & Nr & D). repeat split; try tauto. intros x [->|I] J; [tauto | eauto].
    + intros ((N & Nl) & Nr & D). repeat split; try tauto.
      * intros [I|I]; [tauto|]. eapply D; [left; reflexivity | exact I].
      * intros x I J. eapply D; [right; exact I | exact J].
Qed.

Lemma filter_nil : forall (A : Type) (f : A -> bool) l, filter f l = [] <-> forall x, In x l -> f x = false.
Proof.
  intros A f l. split.
  - intros H x I. destruct (f x) eqn:E; [|reflexivity]. assert (X : In x (filter f l)) by (apply filter_In; auto).
    rewrite H in X. destruct X.
  - induction l as [|a l IH]; intros H; [reflexivity|]. cbn. rewrite (H a) by (left; reflexivity).
    apply IH. intros x I. apply H. right. exact I.
Qed.

Theorem no_overlap_nodup : forall rs, Forall (fun r => dr_start r + range_len r <= 4095) rs ->
  (find_overlapping_ranges rs = [] <-> NoDup (map fst (memory rs))).
Proof.
  induction 1 as [|r rs R F IH]; [split; [constructor | reflexivity]|].
  cbn [find_overlapping_ranges memory flat_map]. rewrite map_app, nodup_app. fold (memory rs). rewrite <- IH.
  assert (M : forall x, In x (map fst (memory rs)) <-> exists b, In b rs /\ covers b x).
  { intros x. unfold memory. rewrite flat_map_concat_map, concat_map, map_map, in_concat. split.
    - intros (l & L & X). apply in_map_iff in L. destruct L as (b & <- & B). apply place_addresses in X.
      exists b. split; [exact B | exact X].
    - intros (b & B & X). exists (map fst (place (dr_start b) (dr_data b))). split.
      + apply in_map_iff. eauto.
      + apply place_addresses. exact X. }
  split.
  - intros H. apply app_eq_nil in H. destruct H as [H1 H2]. apply map_eq_nil in H1.
    split; [apply place_nodup|]. split; [exact H2|]. intros x X Y. apply place_addresses in X.
    apply M in Y. destruct Y as (b & B & Y). rewrite filter_nil in H1. specialize (H1 b B).
    rewrite Forall_forall in F.
    assert (T : intersects r b = true) by (apply intersects_exact; [exact R | apply F; exact B | exists x; split; assumption]).
    congruence.
  - intros (_ & H2 & D). rewrite H2. rewrite app_nil_r.
    assert (E : filter (intersects r) rs = []).
    { apply filter_nil. intros b B. apply not_true_is_false. intros T. rewrite Forall_forall in F.
      apply intersects_exact in T; [|exact R | apply F; exact B]. destruct T as (x & X & Y).
      apply (D x); [apply place_addresses; exact X | apply M; eauto]. }
    rewrite E. reflexivity.
Qed.
