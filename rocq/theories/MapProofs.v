(** * MapProofs: lawful maps are alike. *)

From Verif Require Import Base BaseFacts Text Location Token Scanner Parser U12 Directive Opcode Instruction
  DataRange Assembler IHex Main Maps SpecMap.
Open Scope N_scope.

(** ** Maps that answer alike *)

Definition agree (mp : maps) (m : map_of mp) (l : label_map) : Prop := forall k, map_get mp m k = label_get l k.

Lemma resolve_with mp m l k : agree mp m l -> resolve_label_with mp k m = resolve_label k l.
Proof. intros A. unfold resolve_label_with, resolve_label. now rewrite A. Qed.

Ltac with_labels A :=
  repeat match goal with |- context [resolve_label_with ?mp ?k ?m] => rewrite (resolve_with mp m _ k A) end.

Lemma opcode_1_same mp m l n f : agree mp m l -> opcode_1_with mp n f m = opcode_1 n f l.
Proof. intros A. unfold opcode_1_with, opcode_1. destruct f; with_labels A; reflexivity. Qed.

Lemma opcode_2_same mp m l n f g : agree mp m l -> opcode_2_with mp n f g m = opcode_2 n f g l.
Proof. intros A. unfold opcode_2_with, opcode_2. destruct f, g; with_labels A; reflexivity. Qed.

Lemma opcode_3_same mp m l n f g h : agree mp m l -> opcode_3_with mp n f g h m = opcode_3 n f g h l.
Proof. intros A. unfold opcode_3_with, opcode_3. destruct f, g, h; with_labels A; reflexivity. Qed.

Lemma instruction_same mp m l n fs : agree mp m l -> instruction_from_with mp n fs m = instruction_from n fs l.
Proof.
  intros A. unfold instruction_from_with, instruction_from.
  destruct fs as [|f [|g [|h [|]]]]; [reflexivity | | | | reflexivity].
  - now rewrite (opcode_1_same mp m l).
  - now rewrite (opcode_2_same mp m l).
  - now rewrite (opcode_3_same mp m l).
Qed.

Lemma emit_same mp m l (A : agree mp m l) ns : forall rs c, emit_loop_with mp m rs c ns = emit_loop l rs c ns.
Proof.
  induction ns as [|n ns IH]; intros rs c; [reflexivity|].
  destruct n as [loc id args | loc id | loc id fs]; cbn [emit_loop_with emit_loop].
  - destruct (directive_from id args) as [d|]; [|reflexivity].
    destruct d; [apply IH| |]; (destruct (append_asserted _ _); cbn [bind]; [apply IH | reflexivity]).
  - apply IH.
  - rewrite (instruction_same mp m l); [|exact A]. destruct (instruction_from id fs l); [|reflexivity].
    destruct (instruction_into_vec _); cbn [bind]; [|reflexivity].
    destruct (append_asserted _ _); cbn [bind]; [apply IH | reflexivity].
Qed.

Lemma str_eqb_spec a b : str_eqb a b = true <-> a = b.
Proof. apply str_eqb_eq. Qed.

Lemma agree_insert mp good m l k v : lawful_on mp good -> good m -> agree mp m l -> agree mp (map_insert mp m k v) ((k, v) :: l).
Proof.
  intros L G A k'. cbn [label_get]. destruct (str_eqb k k') eqn:E.
  - apply str_eqb_spec in E. subst k'. apply (law_same _ _ L). exact G.
  - rewrite <- A. apply (law_other _ _ L); [exact G|]. intros ->. rewrite (proj2 (str_eqb_spec k' k') eq_refl) in E. discriminate E.
Qed.

Lemma contains_same mp good m l k : lawful_on mp good -> good m -> agree mp m l -> map_contains mp m k = contains_key l k.
Proof.
  intros L G A. pose proof (law_contains _ _ L m k G) as H. unfold contains_key. rewrite A in H.
  destruct (label_get l k) as [v|].
  - apply H. eauto.
  - destruct (map_contains mp m k); [|reflexivity]. destruct (proj1 H eq_refl) as [v E]. discriminate E.
Qed.

Lemma define_same mp good (L : lawful_on mp good) : forall n ns m l a, (length ns <= n)%nat -> good m -> agree mp m l ->
  match define_labels_loop l a ns with
  | Err e => define_labels_loop_with mp m a ns = Err e
  | Ok l' => exists m', define_labels_loop_with mp m a ns = Ok m' /\ good m' /\ agree mp m' l'
  end.
Proof.
  induction n as [|n IH]; intros ns m l a Hn G A; (destruct ns as [|x ns]; [cbn; eauto|]); cbn [length] in Hn; [lia|].
  destruct x as [loc id args | loc id | loc id fs]; cbn [define_labels_loop define_labels_loop_with].
  - destruct (directive_from id args) as [d|]; cbn [map_err rbind]; [|reflexivity].
    destruct (u12_failable_into (directive_size d)) as [sz|]; cbn [ok_or rbind]; [|reflexivity].
    destruct (u12_checked_add a sz); cbn [ok_or rbind]; [|reflexivity].
    destruct d; [apply IH | apply IH |]; try reflexivity; try assumption; lia.
  - destruct ns as [|y ns].
    + rewrite (contains_same mp good m l id L G A). destruct (contains_key l id); [reflexivity|].
      cbn [define_labels_loop define_labels_loop_with]. eexists. split; [reflexivity|]. split.
      * apply (law_insert_good _ _ L), G.
      * apply (agree_insert mp good); assumption.
    + destruct (peek_constant (y :: ns)) as [c|]; rewrite (contains_same mp good m l id L G A);
        (destruct (contains_key l id); [reflexivity|]); cbn [length] in Hn; apply IH; cbn [length]; try lia;
        try (apply (law_insert_good _ _ L), G); apply (agree_insert mp good); assumption.
  - destruct (u12_checked_add a bytes_per_instruction); cbn [ok_or rbind]; [|reflexivity]. apply IH; [lia | assumption | assumption].
Qed.

Theorem assemble_same mp : lawful mp -> forall ns, assemble_with mp ns = assemble ns.
Proof.
  intros [good L] ns. unfold assemble_with, assemble, define_labels, emit_data_ranges.
  pose proof (define_same mp good L (length ns) ns (map_new mp) [] 0 (le_n _) (law_new_good _ _ L) (law_new _ _ L)) as H.
  destruct (define_labels_loop [] 0 ns) as [l|e].
  - destruct H as [m (-> & _ & A)]. apply emit_same, A.
  - now rewrite H.
Qed.

Theorem text_same mp : lawful mp -> forall e path s, assemble_text_with mp e path s = assemble_text e path s.
Proof.
  intros L e path s. unfold assemble_text_with, assemble_text.
  destruct (scan path s) as [ts|]; cbn [bind]; [|reflexivity].
  destruct (parse ts) as [[ns|er]|]; cbn [bind]; [|reflexivity | reflexivity].
  now rewrite (assemble_same mp L).
Qed.

(** ** Tables *)

Lemma same_name_eq a b : same_name a b = true <-> a = b.
Proof. unfold same_name. destruct (list_eq_dec N.eq_dec a b); split; congruence. Qed.

Lemma same_name_refl a : same_name a a = true.
Proof. apply same_name_eq; reflexivity. Qed.

Lemma same_name_neq a b : a <> b -> same_name a b = false.
Proof. intros H. destruct (same_name a b) eqn:E; [|reflexivity]. apply same_name_eq in E. contradiction. Qed.

Lemma bucket_put_same b k v : bucket_get (bucket_put b k v) k = Some v.
Proof.
  induction b as [|[k' v'] b IH]; cbn [bucket_put bucket_get].
  - now rewrite same_name_refl.
  - destruct (same_name k' k) eqn:E; cbn [bucket_get]; rewrite E; [reflexivity | exact IH].
Qed.

Lemma bucket_put_other b k v k' : k <> k' -> bucket_get (bucket_put b k v) k' = bucket_get b k'.
Proof.
  intros H. induction b as [|[k0 v0] b IH]; cbn [bucket_put bucket_get].
  - now rewrite same_name_neq.
  - destruct (same_name k0 k) eqn:E; cbn [bucket_get].
    + apply same_name_eq in E. subst k0. now rewrite same_name_neq.
    + destruct (same_name k0 k'); [reflexivity | exact IH].
Qed.

Lemma bucket_put_in b k v k' : In k' (map fst (bucket_put b k v)) -> k' = k \/ In k' (map fst b).
Proof.
  induction b as [|[k0 v0] b IH]; cbn [bucket_put map fst In].
  - intros [<- | []]. now left.
  - destruct (same_name k0 k); cbn [map fst In]; [tauto|]. intros [<- | H]; [tauto|]. apply IH in H. tauto.
Qed.

Lemma bucket_put_nodup b k v : NoDup (map fst b) -> NoDup (map fst (bucket_put b k v)).
Proof.
  induction b as [|[k0 v0] b IH]; cbn [bucket_put map fst]; intros H.
  - constructor; [intros [] | constructor].
  - inversion H as [|? ? Hn Hd]. subst. destruct (same_name k0 k) eqn:E; cbn [map fst]; [exact H|].
    constructor; [|now apply IH]. intros I. apply bucket_put_in in I. destruct I as [-> | I]; [|contradiction].
    rewrite same_name_refl in E. discriminate E.
Qed.

Lemma bucket_get_in b k v : NoDup (map fst b) -> (bucket_get b k = Some v <-> In (k, v) b).
Proof.
  induction b as [|[k0 v0] b IH]; cbn [bucket_get map fst In]; intros H; [split; [discriminate | intros []]|].
  inversion H as [|? ? Hn Hd]. subst. destruct (same_name k0 k) eqn:E.
  - apply same_name_eq in E. subst k0. split.
    + intros [= <-]. now left.
    + intros [[= <-] | I]; [reflexivity|]. destruct Hn. apply (in_map fst _ _ I).
  - rewrite (IH Hd). split; [now right|]. intros [[= -> ->] | I]; [|exact I]. rewrite same_name_refl in E. discriminate E.
Qed.

Lemma length_change n f t : length (change_nth n f t) = length t.
Proof. revert n. induction t as [|b t IH]; intros [|n]; cbn [change_nth length]; [reflexivity .. |]. now rewrite IH. Qed.

Lemma nth_change n f t i : nth i (change_nth n f t) [] = if Nat.eqb i n then (if Nat.ltb n (length t) then f (nth n t []) else []) else nth i t [].
Proof.
  revert n i. induction t as [|b t IH]; intros n i; cbn [change_nth length].
  - destruct (Nat.eqb i n); destruct i, n; reflexivity.
  - destruct n as [|n], i as [|i]; cbn [nth change_nth Nat.eqb]; [reflexivity .. |]. rewrite IH.
    destruct (Nat.eqb i n); [|reflexivity]. destruct (Nat.ltb_spec n (length t)), (Nat.ltb_spec (S n) (S (length t))); [reflexivity | lia | lia | reflexivity].
Qed.

Definition good_table (hash : str -> N) (t : table) : Prop :=
  (0 < length t)%nat /\
  forall i, (i < length t)%nat -> NoDup (map fst (nth i t [])) /\ (forall k, In k (map fst (nth i t [])) -> bucket_of hash t k = i).

Lemma bucket_in hash t k : (0 < length t)%nat -> (bucket_of hash t k < length t)%nat.
Proof.
  intros H. unfold bucket_of. pose proof (N.mod_lt (hash k) (N.of_nat (length t))). lia.
Qed.

Lemma bucket_of_put hash t k v k' : bucket_of hash (table_put hash t k v) k' = bucket_of hash t k'.
Proof. unfold bucket_of, table_put. now rewrite length_change. Qed.

Lemma put_good hash t k v : good_table hash t -> good_table hash (table_put hash t k v).
Proof.
  intros [H0 H]. pose proof (bucket_in hash t k H0) as Hk. split.
  - unfold table_put. now rewrite length_change.
  - intros i Hi. assert (Hi' : (i < length t)%nat) by (unfold table_put in Hi; rewrite length_change in Hi; exact Hi).
    destruct (H i Hi') as [Hd Hb].
    assert (E : nth i (table_put hash t k v) [] = if Nat.eqb i (bucket_of hash t k) then bucket_put (nth i t []) k v else nth i t []).
    { unfold table_put. rewrite nth_change. destruct (Nat.eqb_spec i (bucket_of hash t k)) as [-> | ]; [|reflexivity].
      now rewrite (proj2 (Nat.ltb_lt _ _) Hk). }
    rewrite E. destruct (Nat.eqb_spec i (bucket_of hash t k)) as [-> | ].
    + split; [now apply bucket_put_nodup|]. intros k' I. rewrite bucket_of_put. apply bucket_put_in in I.
      destruct I as [-> | I]; [reflexivity | now apply Hb].
    + split; [exact Hd|]. intros k' I. rewrite bucket_of_put. now apply Hb.
Qed.

Lemma put_get hash t k v k' : good_table hash t ->
  table_get hash (table_put hash t k v) k' = if same_name k k' then Some v else table_get hash t k'.
Proof.
  intros [H0 H]. unfold table_get. rewrite bucket_of_put. unfold table_put. rewrite nth_change.
  rewrite (proj2 (Nat.ltb_lt _ _) (bucket_in hash t k H0)).
  destruct (same_name k k') eqn:E.
  - apply same_name_eq in E. subst k'. rewrite Nat.eqb_refl. apply bucket_put_same.
  - assert (D : k <> k') by (intros ->; rewrite same_name_refl in E; discriminate E).
    destruct (Nat.eqb_spec (bucket_of hash t k') (bucket_of hash t k)) as [E' | ]; [|reflexivity].
    rewrite E'. now apply bucket_put_other.
Qed.

Lemma entries_in hash t k v : good_table hash t -> (table_get hash t k = Some v <-> In (k, v) (entries t)).
Proof.
  intros [H0 H]. unfold table_get, entries. pose proof (bucket_in hash t k H0) as Hk.
  rewrite bucket_get_in by apply (H _ Hk). rewrite in_concat. split.
  - intros I. exists (nth (bucket_of hash t k) t []). split; [now apply nth_In | exact I].
  - intros [b [Ib I]]. apply In_nth with (d := []) in Ib. destruct Ib as [i [Hi <-]].
    destruct (H i Hi) as [_ Hb]. rewrite (Hb k); [exact I|]. exact (in_map fst _ _ I).
Qed.

Lemma nodup_both {T} (a b : list T) : NoDup a -> NoDup b -> (forall x, In x a -> In x b -> False) -> NoDup (a ++ b).
Proof.
  intros Ha Hb. induction Ha as [|x a Hx Ha IH]; intros D; cbn [app]; [exact Hb|]. constructor.
  - rewrite in_app_iff. intros [I | I]; [contradiction|]. apply (D x); [now left | exact I].
  - apply IH. intros y I J. apply (D y); [now right | exact J].
Qed.

Lemma concat_nodup (f : str -> nat) (t : table) : forall n,
  (forall i, (i < length t)%nat -> NoDup (map fst (nth i t [])) /\ (forall k, In k (map fst (nth i t [])) -> f k = (n + i)%nat)) ->
  NoDup (map fst (concat t)).
Proof.
  induction t as [|b t IH]; intros n H; cbn [concat]; [constructor|].
  rewrite map_app. destruct (H O) as [Hd Hb]; [cbn [length]; lia|]. cbn [nth] in Hd, Hb.
  assert (Ht : forall i, (i < length t)%nat -> NoDup (map fst (nth i t [])) /\ (forall k, In k (map fst (nth i t [])) -> f k = (S n + i)%nat)).
  { intros i Hi. destruct (H (S i)) as [Hd' Hb']; [cbn [length]; lia|]. cbn [nth] in Hd', Hb'. split; [exact Hd'|].
    intros k I. rewrite (Hb' k I). lia. }
  assert (D : forall k, In k (map fst b) -> In k (map fst (concat t)) -> False).
  { intros k I J. specialize (Hb k I). apply in_map_iff in J. destruct J as [[k' v] [E J]]. cbn [fst] in E. subst k'.
    apply in_concat in J. destruct J as [c [Ic J]]. apply In_nth with (d := []) in Ic. destruct Ic as [i [Hi <-]].
    destruct (Ht i Hi) as [_ Hc]. specialize (Hc k (in_map fst _ _ J)). lia. }
  apply nodup_both; [exact Hd | exact (IH _ Ht) | exact D].
Qed.

Lemma empty_good hash n : (0 < n)%nat -> good_table hash (repeat [] n).
Proof.
  intros Hn. split; [now rewrite repeat_length|]. intros i Hi.
  assert (E : nth i (repeat [] n) [] = @nil entry) by apply nth_repeat.
  rewrite E. split; [constructor | intros k []].
Qed.

Lemma empty_get hash n k : table_get hash (repeat [] n) k = None.
Proof. unfold table_get. now rewrite nth_repeat. Qed.

Lemma moved hash es : forall t, good_table hash t -> NoDup (map fst es) ->
  let t' := fold_left (fun t' e => table_put hash t' (fst e) (snd e)) es t in
  good_table hash t' /\ forall k, table_get hash t' k = match bucket_get es k with Some v => Some v | None => table_get hash t k end.
Proof.
  induction es as [|[k0 v0] es IH]; intros t G D; cbn [fold_left fst snd bucket_get].
  - now split.
  - inversion D as [|? ? Hn Hd]. subst. destruct (IH (table_put hash t k0 v0) (put_good hash t k0 v0 G) Hd) as [G' R].
    split; [exact G'|]. intros k. rewrite R, put_get by exact G. destruct (same_name k0 k) eqn:E; [|reflexivity].
    apply same_name_eq in E. subst k. destruct (bucket_get es k0) as [v|] eqn:F; [|reflexivity].
    apply (bucket_get_in es k0 v Hd) in F. destruct Hn. exact (in_map fst _ _ F).
Qed.

Lemma grown_spec hash t : good_table hash t -> good_table hash (grown hash t) /\ forall k, table_get hash (grown hash t) k = table_get hash t k.
Proof.
  intros G. assert (D : NoDup (map fst (entries t))).
  { apply (concat_nodup (bucket_of hash t) t O). exact (proj2 G). }
  assert (L : (0 < 2 * length t)%nat) by (pose proof (proj1 G); lia).
  destruct (moved hash (entries t) (repeat [] (2 * length t)) (empty_good hash _ L) D) as [G' R].
  split; [exact G'|]. intros k. unfold grown. rewrite R, empty_get.
  destruct (bucket_get (entries t) k) as [v|] eqn:E.
  - symmetry. apply (entries_in hash t k v G). now apply bucket_get_in.
  - destruct (table_get hash t k) as [v|] eqn:F; [|reflexivity]. apply (entries_in hash t k v G) in F.
    apply (bucket_get_in _ _ _ D) in F. congruence.
Qed.

Theorem table_lawful hash : lawful (hash_table hash).
Proof.
  exists (good_table hash). constructor; cbn [hash_table map_new map_get map_insert map_contains map_of].
  - apply (empty_good hash 1). lia.
  - intros m k v G. unfold table_insert. apply put_good. destruct (Nat.leb _ _); [apply grown_spec|]; exact G.
  - intros k. apply (empty_get hash 1).
  - intros m k v G. unfold table_insert. rewrite put_get, same_name_refl; [reflexivity|].
    destruct (Nat.leb _ _); [apply grown_spec|]; exact G.
  - intros m k v k' G D. unfold table_insert. rewrite put_get, same_name_neq; [|exact D|].
    + destruct (Nat.leb _ _); [apply grown_spec; exact G | reflexivity].
    + destruct (Nat.leb _ _); [apply grown_spec|]; exact G.
  - intros m k G. destruct (table_get hash m k) as [v|]; split; intros H; [eauto | reflexivity | discriminate H | destruct H as [v E]; discriminate E].
Qed.

Theorem pairs_lawful : lawful pairs.
Proof.
  exists (fun _ => True). constructor; cbn [pairs map_new map_get map_insert map_contains map_of label_get]; try tauto.
  - intros m k v _. now rewrite (proj2 (str_eqb_spec k k) eq_refl).
  - intros m k v k' _ D. destruct (str_eqb k k') eqn:E; [|reflexivity]. apply str_eqb_spec in E. contradiction.
  - intros m k _. destruct (label_get m k) as [v|]; split; intros H; [eauto | reflexivity | discriminate H | destruct H as [v E]; discriminate E].
Qed.
