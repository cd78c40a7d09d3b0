(** * MachineLimits: how much the machine of SpecMachine.v remembers, and how much any machine for the labels must. *)

From Verif Require Import Base BaseFacts Text Location Token Scanner Parser U12 Directive Opcode Instruction DataRange Assembler IHex Main.
From Verif Require Import SpecLex SpecGrammar SpecErase SpecWrite SpecCode SpecMachine.
From Verif Require Import LexProofs ScanProofs LexTheorems ParseProofs TextProofs TextCode WriteProofs MachineProofs.
From Coq Require Import FinFun.
Open Scope N_scope.

(** ** Little is remembered *)

Definition bounded (w : memory) : Prop :=
  match w with
  | At _ (InDecimal n) => n <= 4095
  | At _ (InBinary n) => n < 2 ^ 64
  | _ => True
  end.

Lemma bounded_begin : forall y k q, (forall y', bounded (At y' q)) -> bounded (begin_as y k q).
Proof. intros. unfold begin_as. destruct (onward y k); [auto | exact I]. Qed.

Lemma bounded_between : forall y c, bounded (between y c).
Proof.
  intros y c. unfold between.
  repeat match goal with |- bounded (if ?b then _ else _) => destruct b eqn:? end;
    try exact I; apply bounded_begin; intros; try exact I.
  cbn [bounded]. rewrite <- is_digit_spec in *. destruct (dec_digit_value c); [assumption|]. lia.
Qed.

Lemma bounded_read : forall w c, bounded w -> bounded (read w c).
Proof.
  intros w c B. destruct w as [|y q]; [exact I|]. destruct q; cbn [read];
    repeat match goal with |- bounded (if ?b then _ else _) => destruct b eqn:? end;
    try exact I; try apply bounded_between; cbn [bounded].
  - lia.
  - destruct (c =? c_ "1"); reflexivity.
  - apply N.mod_lt. discriminate.
  - destruct (c =? QUOTE); [exact I|]. destruct (c =? BACKSLASH); exact I.
Qed.

Lemma bounded_after : forall s w, bounded w -> bounded (remembered w s).
Proof. induction s as [|c s IH]; intros w B; [exact B|]. apply IH. apply bounded_read. exact B. Qed.

Lemma memory_small : forall w, bounded w -> memory_number w < 2 ^ 69.
Proof.
  intros w B. destruct w as [|y q]; [reflexivity|]. cbn [memory_number].
  assert (P : place_number y <= 6) by (destruct y; cbn [place_number]; lia).
  assert (Q : spot_number q < 2 ^ 65 + 12).
  { destruct q; cbn [spot_number bounded] in *; try (change (2 ^ 65) with 36893488147419103232; lia). }
  change (2 ^ 65) with 36893488147419103232 in Q. change (2 ^ 69) with 590295810358705651712. lia.
Qed.

Lemma memory_exact : forall w w', memory_number w = memory_number w' -> w = w'.
Proof.
  assert (P : forall y, place_number y <= 6) by (intros y; destruct y; cbn [place_number]; lia).
  intros [|y q] [|y' q'] H; [reflexivity | | |]; cbn [memory_number] in H.
  - pose proof (P y'). lia.
  - pose proof (P y). lia.
  - pose proof (P y). pose proof (P y').
    assert (Hy : place_number y = place_number y') by lia.
    assert (Hq : spot_number q = spot_number q') by lia. f_equal.
    + destruct y, y'; cbn [place_number] in Hy; try reflexivity; discriminate Hy.
    + destruct q, q'; cbn [spot_number] in Hq; try reflexivity; try (exfalso; lia); f_equal; lia.
Qed.

(** ** A beginning that is not refused can be continued *)

Definition remark_at_start (w : memory) : Prop := match w with At y InRemark => y = Start | _ => True end.

Lemma remark_between : forall y c, remark_at_start (between y c).
Proof.
  intros y c. unfold between, begin_as.
  repeat match goal with |- remark_at_start (if ?b then _ else _) => destruct b end; try exact I;
    destruct y; cbn [onward fresh operands]; exact I || reflexivity.
Qed.

Lemma remark_read : forall w c, remark_at_start w -> remark_at_start (read w c).
Proof.
  intros w c B. destruct w as [|y q]; [exact I|]. destruct q; cbn [read];
    repeat match goal with |- remark_at_start (if ?b then _ else _) => destruct b eqn:? end;
    try exact I; try apply remark_between; try exact B.
  cbn [remark_at_start]. destruct (c =? QUOTE); [exact I|]. destruct (c =? BACKSLASH); exact I.
Qed.

Lemma remark_after : forall s w, remark_at_start w -> remark_at_start (remembered w s).
Proof. induction s as [|c s IH]; intros w B; [exact B|]. apply IH. apply remark_read. exact B. Qed.

Definition close (q : spot) : str :=
  match q with
  | Between => []
  | InName | InDecimal _ | InHex1 | InHex2 => u " "
  | AtHex | AtBinary => u "0 "
  | InBinary _ => repeat (c_ "0") 64 ++ u " "
  | InText => [QUOTE]
  | Escaped => [c_ "n"; QUOTE]
  | InRemark => []
  | AtBracket => u "i]"
  | InBracket => u "]"
  end.

Definition finish (y : place) : str :=
  match y with
  | Start | AfterLiteral | AfterField => []
  | AfterDot => u "db" ++ [LF]
  | Literals | AfterName | Fields => [LF]
  end.

Lemma zeros : forall k y n, remembered (At y (InBinary n)) (repeat (c_ "0") k) = At y (InBinary (if Nat.eqb k 0 then n else (2 ^ N.of_nat k * n) mod 2 ^ 64)).
Proof.
  induction k as [|k IH]; intros y n; [reflexivity|].
  change (repeat (c_ "0") (S k)) with (c_ "0" :: repeat (c_ "0") k).
  change (remembered (At y (InBinary n)) (c_ "0" :: repeat (c_ "0") k))
    with (remembered (At y (InBinary ((2 * n + 0) mod 2 ^ 64))) (repeat (c_ "0") k)).
  rewrite IH. cbn [Nat.eqb]. do 2 f_equal. rewrite N.add_0_r, Nat2N.inj_succ, N.pow_succ_r'. destruct k.
  - cbn [Nat.eqb N.of_nat]. rewrite N.pow_0_r. f_equal.
  - cbn [Nat.eqb]. rewrite N.mul_mod_idemp_r by discriminate. f_equal. ring.
Qed.

Lemma closed : forall y q, q <> InRemark -> remembered (At y q) (close q) = At y Between.
Proof.
  intros y q R. destruct q; try reflexivity; [|contradiction R; reflexivity].
  cbn [close]. rewrite remembered_app, zeros. cbn [Nat.eqb].
  replace ((2 ^ N.of_nat 64 * n) mod 2 ^ 64) with 0.
  2: { change (N.of_nat 64) with 64. rewrite N.mul_comm, N.mod_mul by discriminate. reflexivity. }
  reflexivity.
Qed.

Lemma finished_off : forall y, content (remembered (At y Between) (finish y)) = true.
Proof. intros y. destruct y; reflexivity. Qed.

Lemma can_go_on : forall s y q, remembered at_first s = At y q -> exists b, content (remembered at_first (s ++ b)) = true.
Proof.
  intros s y q E. pose proof (remark_after s at_first I) as R. rewrite E in R.
  destruct (match q with InRemark => true | _ => false end) eqn:Q.
  - destruct q; try discriminate Q. cbn in R. subst y. exists []. rewrite app_nil_r, E. reflexivity.
  - exists (close q ++ finish y). rewrite !remembered_app, E, closed by (intros ->; discriminate Q). apply finished_off.
Qed.

(** ** Labels *)

(** The name of [n] letters [x] after the first. *)
Definition xs (n : nat) : str := c_ "x" :: repeat (c_ "x") n.

Lemma xs_inj : forall n m, xs n = xs m -> n = m.
Proof. intros n m H. apply (f_equal (@length _)) in H. unfold xs in H. cbn [length] in H. rewrite !repeat_length in H. lia. Qed.

Lemma xs_name : forall n, name (xs n).
Proof.
  intros n. left. unfold xs. change (c_ "x" :: repeat (c_ "x") n) with ([c_ "x"] ++ repeat (c_ "x") n).
  apply m_cat; [apply m_chr; reflexivity|]. apply rmatch_star_chr. induction n as [|n IH]; [reflexivity|].
  cbn [repeat forallb]. rewrite IH. reflexivity.
Qed.

Lemma assoc_none : forall (A : Type) (l : list (str * A)) k, forallb (fun x => negb (hd 0 (fst x) =? hd 0 k)) l = true -> assoc k l = None.
Proof.
  intros A l k. induction l as [|[k' a] l IH]; intros H; [reflexivity|]. cbn [forallb] in H. apply andb_true_iff in H.
  destruct H as [H1 H]. cbn [assoc]. destruct (list_eq_dec N.eq_dec k k') as [->|]; [|exact (IH H)].
  cbn [fst] in H1. rewrite N.eqb_refl in H1. discriminate H1.
Qed.

Lemma xs_operand : forall n, operand (xs n) = FIdentifier (xs n).
Proof.
  intros n. unfold operand. rewrite assoc_none; [reflexivity|]. change (hd 0 (xs n)) with 120. vm_compute. reflexivity.
Qed.

Definition no_loc : loc := mk_loc [] 1 1 1.
Definition marks (names : list str) : list node := map (NLabel no_loc) names.
Definition jump (x : str) : node := NInstruction no_loc (u "jp") [FIdentifier x].

Lemma jump_means : forall x labels, instruction_from (u "jp") [FIdentifier x] labels =
  match label_get labels x with Some a => Ok (JP a) | None => Err (UnableToResolveLabel x) end.
Proof.
  intros x labels. unfold instruction_from. change (to_lowercase (u "jp")) with (u "jp"). unfold opcode_1. rewrite str_eqb_refl.
  unfold resolve_label. destruct (label_get labels x); reflexivity.
Qed.

Definition all_at (a : N) (names : list str) : label_map := rev (map (fun n => (n, a)) names).

Lemma contains_get : forall labels x, contains_key labels x = match label_get labels x with Some _ => true | None => false end.
Proof. intros. reflexivity. Qed.

Lemma get_app : forall l l' x, label_get (l ++ l') x = match label_get l x with Some a => Some a | None => label_get l' x end.
Proof.
  induction l as [|[k v] l IH]; intros l' x; [reflexivity|]. cbn [app label_get]. destruct (str_eqb k x); [reflexivity | apply IH].
Qed.

Lemma get_all_at : forall a names x, label_get (all_at a names) x = if in_dec (list_eq_dec N.eq_dec) x names then Some a else None.
Proof.
  intros a names x. unfold all_at. induction names as [|n names IH]; [reflexivity|].
  cbn [map rev]. rewrite get_app, IH. cbn [label_get].
  destruct (in_dec (list_eq_dec N.eq_dec) x names) as [Y|Y].
  - destruct (in_dec _ x (n :: names)) as [|Z]; [reflexivity | contradiction Z; right; exact Y].
  - destruct (str_eqb n x) eqn:E.
    + apply str_eqb_eq in E. destruct (in_dec _ x (n :: names)) as [|Z]; [reflexivity | contradiction Z; left; exact E].
    + destruct (in_dec _ x (n :: names)) as [[Z|Z]|]; [|contradiction|reflexivity].
      rewrite Z, str_eqb_refl in E. discriminate E.
Qed.

Lemma define_marks : forall names labels x, NoDup names -> (forall n, In n names -> label_get labels n = None) ->
  define_labels_loop labels 0 (marks names ++ [jump x]) = Ok (all_at 0 names ++ labels).
Proof.
  induction names as [|n names IH]; intros labels x Nd H; [reflexivity|].
  inversion Nd as [|? ? Nn Nd']; subst.
  assert (P : peek_constant (marks names ++ [jump x]) = None) by (destruct names; reflexivity).
  change (marks (n :: names) ++ [jump x]) with (NLabel no_loc n :: (marks names ++ [jump x])).
  specialize (IH ((n, 0) :: labels) x Nd').
  remember (marks names ++ [jump x]) as r eqn:Er. cbn [define_labels_loop].
  assert (C : contains_key labels n = false) by (rewrite contains_get, H by (left; reflexivity); reflexivity).
  transitivity (define_labels_loop ((n, 0) :: labels) 0 r).
  { destruct r as [|n' r']; rewrite C; [reflexivity|]. rewrite P. reflexivity. }
  rewrite IH.
  - unfold all_at. cbn [map rev]. rewrite <- app_assoc. reflexivity.
  - intros n' I'. cbn [label_get]. destruct (str_eqb n n') eqn:E; [|apply H; right; exact I'].
    apply str_eqb_eq in E. subst n'. contradiction.
Qed.

Lemma emit_marks : forall names labels ranges r rest,
  emit_loop labels ranges r (marks names ++ rest) = emit_loop labels ranges r rest.
Proof. induction names as [|n names IH]; intros; [reflexivity|]. apply IH. Qed.

Lemma assemble_marks : forall names x, NoDup names ->
  assemble (marks names ++ [jump x]) =
  if in_dec (list_eq_dec N.eq_dec) x names then Done (Ok [mk_range 0 [16; 0]])
  else Done (Err (AssemblyFailed no_loc (UnableToResolveLabel x))).
Proof.
  intros names x Nd. unfold assemble, define_labels. rewrite define_marks by (exact Nd || reflexivity).
  unfold emit_data_ranges. rewrite emit_marks. unfold jump. cbn [emit_loop]. rewrite jump_means, app_nil_r, get_all_at.
  destruct (in_dec (list_eq_dec N.eq_dec) x names); reflexivity.
Qed.

Definition accepted (e : env) (file s : str) : Prop := exists text, assemble_text e file s = Done (Ok text).

Lemma parsed_det : forall file s p p', parsed file s p -> parsed file s p' -> p = p'.
Proof. intros file s p p' (ts & Hs & Hp) (ts' & Hs' & Hp'). congruence. Qed.

Definition asked (names : list str) (x : str) : str := write (marks names) ++ write [jump x].

Theorem asked_accepted : forall e file ns n, NoDup ns ->
  (accepted e file (asked (map xs ns) (xs n)) <-> In n ns).
Proof.
  intros e file ns n Nd. unfold asked, write. rewrite <- flat_map_app. fold (write (marks (map xs ns) ++ [jump (xs n)])).
  assert (W : Forall writable_node (marks (map xs ns) ++ [jump (xs n)])).
  { apply Forall_app. split.
    - unfold marks. rewrite map_map. apply Forall_forall. intros z Iz. apply in_map_iff in Iz. destruct Iz as (i & <- & _). apply xs_name.
    - constructor; [|constructor]. split; [left | constructor; [|constructor]; split; [apply xs_name | apply xs_operand]].
      change (u "jp") with ([106] ++ [112]). apply m_cat; [apply m_chr; reflexivity|]. apply rmatch_star_chr. reflexivity. }
  destruct (write_read file _ W) as (p & R & S0). apply parsed_stands in R.
  assert (Nd' : NoDup (map xs ns)) by (apply Injective_map_NoDup; [exact xs_inj | exact Nd]).
  pose proof (assemble_marks (map xs ns) (xs n) Nd') as A.
  destruct (in_dec (list_eq_dec N.eq_dec) (xs n) (map xs ns)) as [Y|Y].
  - apply (assemble_same_ok _ p _ S0) in A. destruct R as (ts & Es & Ep).
    assert (In n ns). { apply in_map_iff in Y. destruct Y as (m & E & Im). apply xs_inj in E. subst m. exact Im. }
    split; [intros _; assumption|]. intros _. unfold accepted, assemble_text. rewrite Es. cbn [bind]. rewrite Ep. cbn [bind].
    rewrite A. cbn [bind]. eexists. vm_compute. reflexivity.
  - split; [|intros I0; contradiction Y; apply in_map; exact I0].
    intros (text & T). exfalso. destruct R as (ts & Es & Ep). unfold assemble_text in T. rewrite Es in T. cbn [bind] in T.
    rewrite Ep in T. cbn [bind] in T. destruct (assemble p) as [[rs|er]|cr] eqn:Ap; cbn [bind] in T; [|discriminate T|discriminate T].
    apply (assemble_same_ok _ _ rs (eq_sym S0)) in Ap. rewrite Ap in A. discriminate A.
Qed.

(** ** Any machine *)

Fixpoint choices (k : nat) : list (list bool) :=
  match k with
  | O => [[]]
  | S k => map (cons true) (choices k) ++ map (cons false) (choices k)
  end.

Lemma choices_length : forall k, length (choices k) = (2 ^ k)%nat.
Proof. induction k as [|k IH]; [reflexivity|]. cbn [choices Nat.pow]. rewrite app_length, !map_length, IH. lia. Qed.

Lemma choices_each : forall k b, In b (choices k) -> length b = k.
Proof.
  induction k as [|k IH]; intros b H; cbn [choices] in H.
  - destruct H as [<-|[]]. reflexivity.
  - apply in_app_iff in H. destruct H as [H|H]; apply in_map_iff in H; destruct H as (b' & <- & H); cbn [length]; f_equal; apply IH; exact H.
Qed.

Lemma NoDup_map_in : forall (A B : Type) (f : A -> B) l, (forall x y, In x l -> In y l -> f x = f y -> x = y) -> NoDup l -> NoDup (map f l).
Proof.
  intros A B f l H Nd. induction Nd as [|x l Nx Nd IH]; [constructor|]. cbn [map]. constructor.
  - intros Y. apply in_map_iff in Y. destruct Y as (y & E & Iy). apply Nx.
    rewrite (H x y); [exact Iy | left; reflexivity | right; exact Iy | symmetry; exact E].
  - apply IH. intros a b Ia Ib. apply H; right; assumption.
Qed.

Lemma NoDup_append : forall (A : Type) (l l' : list A), NoDup l -> NoDup l' -> (forall x, In x l -> ~ In x l') -> NoDup (l ++ l').
Proof.
  intros A l l' Nl Nl' D. induction Nl as [|x l Nx Nl IH]; [exact Nl'|]. cbn [app]. constructor.
  - intros Y. apply in_app_iff in Y. destruct Y as [Y|Y]; [exact (Nx Y) | exact (D x (or_introl eq_refl) Y)].
  - apply IH. intros y Y. apply D. right. exact Y.
Qed.

Lemma choices_differ : forall k, NoDup (choices k).
Proof.
  induction k as [|k IH]; [constructor; [intros [] | constructor]|]. cbn [choices]. apply NoDup_append.
  - apply NoDup_map_in; [|exact IH]. intros x y _ _ E. congruence.
  - apply NoDup_map_in; [|exact IH]. intros x y _ _ E. congruence.
  - intros x X Y. apply in_map_iff in X, Y. destruct X as (a & <- & _), Y as (b & E & _). discriminate E.
Qed.

Definition chosen (b : list bool) : list nat := filter (fun i => nth i b false) (seq 0 (length b)).

Lemma chosen_in : forall b i, In i (chosen b) <-> nth i b false = true.
Proof.
  intros b i. unfold chosen. rewrite filter_In, in_seq. split; [tauto|]. intros H. split; [|exact H]. split; [lia|].
  destruct (Nat.lt_ge_cases i (length b)) as [|G]; [lia|]. rewrite nth_overflow in H by exact G. discriminate H.
Qed.

Lemma chosen_differ : forall b b', length b = length b' -> (forall i, (i < length b)%nat -> (In i (chosen b) <-> In i (chosen b'))) -> b = b'.
Proof.
  intros b b' L H. apply (nth_ext _ _ false false L). intros i Hi. specialize (H i Hi). rewrite !chosen_in in H.
  destruct (nth i b false), (nth i b' false); try reflexivity.
  - symmetry. apply H. reflexivity.
  - apply H. reflexivity.
Qed.

Lemma chosen_nodup : forall b, NoDup (chosen b).
Proof. intros. apply NoDup_filter, seq_NoDup. Qed.

Lemma marks_length : forall k ns, (forall i, In i ns -> (i < k)%nat) -> (length (write (marks (map xs ns))) <= length ns * (k + 2))%nat.
Proof.
  intros k ns. induction ns as [|i ns IH]; intros H; [apply Nat.le_0_l|].
  cbn [map marks]. unfold write in *. cbn [flat_map write_node]. rewrite !app_length. fold (marks (map xs ns)).
  specialize (IH (fun j Hj => H j (or_intror Hj))). pose proof (H i (or_introl eq_refl)).
  assert (length (xs i) = S i) by (unfold xs; cbn [length]; rewrite repeat_length; reflexivity).
  change (length (u ":")) with 1%nat. change (length [LF]) with 1%nat. cbn [length]. nia.
Qed.

Lemma filter_shorter : forall (A : Type) (f : A -> bool) l, (length (filter f l) <= length l)%nat.
Proof. intros A f l. induction l as [|a l IH]; [apply le_n|]. cbn [filter]. destruct (f a); cbn [length]; lia. Qed.

Lemma asked_length : forall b i, (i < length b)%nat ->
  (length (asked (map xs (chosen b)) (xs i)) <= length b * length b + 3 * length b + 4)%nat.
Proof.
  intros b i Hi. unfold asked. rewrite app_length.
  assert (C : forall j, In j (chosen b) -> (j < length b)%nat).
  { intros j Hj. apply filter_In in Hj. destruct Hj as [Hj _]. apply in_seq in Hj. lia. }
  pose proof (marks_length _ _ C) as M.
  assert (L : (length (chosen b) <= length b)%nat).
  { unfold chosen. etransitivity; [apply filter_shorter|]. rewrite seq_length. apply le_n. }
  assert (J : (length (write [jump (xs i)]) <= length b + 4)%nat).
  { unfold write, jump. cbn [flat_map write_node map write_field separated]. rewrite !app_length.
    assert (length (xs i) = S i) by (unfold xs; cbn [length]; rewrite repeat_length; reflexivity).
    change (length (u "jp")) with 2%nat. change (length (u " ")) with 1%nat. change (length [LF]) with 1%nat. cbn [length]. lia. }
  nia.
Qed.

Lemma prefix_length : forall b, (length (write (marks (map xs (chosen b)))) <= length b * length b + 3 * length b + 4)%nat.
Proof.
  intros b.
  assert (C : forall j, In j (chosen b) -> (j < length b)%nat).
  { intros j Hj. apply filter_In in Hj. destruct Hj as [Hj _]. apply in_seq in Hj. lia. }
  pose proof (marks_length _ _ C) as M.
  assert (L : (length (chosen b) <= length b)%nat).
  { unfold chosen. etransitivity; [apply filter_shorter|]. rewrite seq_length. apply le_n. }
  nia.
Qed.

Lemma xs_ascii : forall n, Forall (fun c => c < 128) (xs n).
Proof. intros n. unfold xs. constructor; [reflexivity|]. induction n; [constructor|]. cbn [repeat]. constructor; [reflexivity | assumption]. Qed.

Lemma marks_ascii : forall ns, Forall (fun c => c < 128) (write (marks (map xs ns))).
Proof.
  induction ns as [|n ns IH]; [constructor|]. change (write (marks (map xs (n :: ns)))) with ((xs n ++ u ":" ++ [LF]) ++ write (marks (map xs ns))).
  apply Forall_app. split; [|exact IH]. apply Forall_app. split; [apply xs_ascii|]. repeat (constructor; [reflexivity|]). constructor.
Qed.

Lemma asked_ascii : forall ns n, Forall (fun c => c < 128) (asked (map xs ns) (xs n)).
Proof.
  intros ns n. unfold asked. apply Forall_app. split; [apply marks_ascii|].
  change (write [jump (xs n)]) with ((u "jp " ++ xs n ++ [LF]) ++ []). rewrite app_nil_r.
  apply Forall_app. split; [repeat (constructor; [reflexivity|]); constructor|].
  apply Forall_app. split; [apply xs_ascii|]. constructor; [reflexivity | constructor].
Qed.

Theorem labels_need : forall (A : Type) (m : machine A) e file k,
  (forall s, (length s <= k * k + 3 * k + 4)%nat -> Forall (fun c => c < 128) s ->
     (m_says m (m_after m s) = true <-> accepted e file s)) ->
  exists memories, NoDup memories /\ length memories = (2 ^ k)%nat /\
    forall w, In w memories -> exists s, (length s <= k * k + 3 * k + 4)%nat /\ Forall (fun c => c < 128) s /\ w = m_after m s.
Proof.
  intros A m e file k Right.
  set (f := fun b => m_after m (write (marks (map xs (chosen b))))).
  exists (map f (choices k)). split; [|split].
  - apply NoDup_map_in; [|apply choices_differ]. intros b b' Hb Hb' E.
    pose proof (choices_each _ _ Hb) as Lb. pose proof (choices_each _ _ Hb') as Lb'.
    apply chosen_differ; [congruence|]. intros i Hi.
    assert (X : m_after m (asked (map xs (chosen b)) (xs i)) = m_after m (asked (map xs (chosen b')) (xs i))).
    { unfold m_after, asked. rewrite !fold_left_app. unfold f, m_after in E. rewrite E. reflexivity. }
    rewrite <- (asked_accepted e file (chosen b) i (chosen_nodup b)), <- (asked_accepted e file (chosen b') i (chosen_nodup b')).
    pose proof (asked_length b i Hi) as Q. rewrite Lb in Q.
    pose proof (asked_length b' i ltac:(congruence)) as Q'. rewrite Lb' in Q'.
    rewrite <- (Right _ Q (asked_ascii _ _)), <- (Right _ Q' (asked_ascii _ _)), X. reflexivity.
  - rewrite map_length. apply choices_length.
  - intros w Hw. apply in_map_iff in Hw. destruct Hw as (b & <- & Hb). unfold f. eexists.
    split; [|split; [apply marks_ascii | reflexivity]].
    pose proof (choices_each _ _ Hb) as Lb. rewrite <- Lb. apply prefix_length.
Qed.
