(** * EmitProofs: the second pass, and the assembler as a whole, against SpecLayout. *)

From Verif Require Import Base Text U12 Location Parser Directive Opcode Instruction DataRange Assembler
  SpecLex SpecOpcode SpecRefusal SpecLayout BaseFacts OpcodeProofs InstructionProofs InstructionTheorems
  LayoutProofs.
Open Scope N_scope.

(** ** The meaning of instructions depends on the values of labels only *)

Lemma encodes_ext : forall f g m fields w, (forall l, f l = g l) ->
  encodes f m fields w -> encodes g m fields w.
Proof.
  intros f g m fields w E (pt & nm & os & x & y & v & R & B & Y & W).
  exists pt, nm, os, x, y, v. repeat split; try assumption; try apply R.
  clear - E B. induction B as [|o fl os fs H _ IH]; constructor; [|exact IH].
  destruct H as (X & Y & V). repeat split; auto.
  - destruct fl; cbn [value_of] in *; try apply V; auto. rewrite <- E. apply V. assumption.
  - apply V. assumption.
Qed.

Lemma refuses_ext : forall f g m fields e, (forall l, f l = g l) ->
  refuses f m fields e -> refuses g m fields e.
Proof.
  intros f g m fields e E H. destruct H as [row l R I G | row fl v R O V L | row fl v R O V L | N].
  - eapply refuses_label; eauto. rewrite <- E. exact G.
  - eapply refuses_byte; eauto. destruct fl; cbn [value_of] in *; try exact V. rewrite <- E. exact V.
  - eapply refuses_nibble; eauto. destruct fl; cbn [value_of] in *; try exact V. rewrite <- E. exact V.
  - apply refuses_unknown. exact N.
Qed.

(** ** Addresses without violations *)

Lemma address_0 : forall p, address p 0 = 0.
Proof. reflexivity. Qed.

Lemma firstn_S : forall (A : Type) (p : list A) i n,
  nth_error p i = Some n -> firstn (S i) p = firstn i p ++ [n].
Proof.
  induction p as [|a p IH]; intros [|i] n H; try discriminate.
  - cbn in *. injection H as <-. reflexivity.
  - cbn [nth_error] in H. change (firstn (S (S i)) (a :: p)) with (a :: firstn (S i) p).
    rewrite (IH _ _ H). reflexivity.
Qed.

Lemma address_S : forall p i n, nth_error p i = Some n -> address p (S i) = after (address p i) n.
Proof. intros p i n H. unfold address. rewrite (firstn_S _ _ _ _ H), counter_snoc. reflexivity. Qed.

Definition no_violation (p : list node) : Prop := forall i e, ~ violates p i e.

Lemma no_violation_directive : forall p i l id args, Forall node_ok p -> no_violation p ->
  nth_error p i = Some (NDirective l id args) ->
  exists d, directive_from id args = Ok d /\ means id args d /\
    address p i + directive_size d <= 4095 /\ (forall c, d = Equ c -> labelled p i).
Proof.
  intros p i l id args F NV H. assert (A : ascii id).
  { rewrite Forall_forall in F. apply nth_error_In in H. exact (F _ H). }
  destruct (directive_cases id args A) as [(d & E & M)|(e & E & R)].
  2: { exfalso. eapply NV. eapply violates_directive; eassumption. }
  exists d. split; [exact E|]. split; [exact M|]. destruct (means_size l _ _ _ M) as (Sz & _). rewrite Sz.
  split.
  - apply N.nlt_ge. intros L. destruct (N.leb_spec (size (NDirective l id args)) 4095).
    + eapply NV. eapply violates_space; eassumption.
    + eapply NV. eapply violates_size; eassumption.
  - intros c ->. destruct i as [|i].
    + exfalso. eapply NV. eapply violates_constant; [exact H | exact M |]. intros (j & ? & ? & X & _). discriminate.
    + destruct (nth_error p i) as [[| |]|] eqn:K.
      * exfalso. eapply NV. eapply violates_constant; [exact H | exact M |].
        intros (j & ? & ? & X & Y). injection X as <-. congruence.
      * exists i. eauto.
      * exfalso. eapply NV. eapply violates_constant; [exact H | exact M |].
        intros (j & ? & ? & X & Y). injection X as <-. congruence.
      * exfalso. apply nth_error_None in K.
        assert (S i < length p)%nat by (apply nth_error_Some; congruence). lia.
Qed.

Lemma no_violation_instruction : forall p i l m fs, no_violation p ->
  nth_error p i = Some (NInstruction l m fs) -> address p i + 2 <= 4095.
Proof.
  intros p i l m fs NV H. apply N.nlt_ge. intros L. eapply NV. eapply violates_instruction; eassumption.
Qed.

Lemma no_violation_address : forall p, Forall node_ok p -> no_violation p ->
  forall i, (i <= length p)%nat -> address p i <= 4095.
Proof.
  intros p F NV. induction i as [|i IH]; intros L; [rewrite address_0; lia|].
  assert (L' : (i < length p)%nat) by lia. specialize (IH ltac:(lia)).
  destruct (nth_error p i) as [n|] eqn:H; [|apply nth_error_None in H; lia].
  rewrite (address_S _ _ _ H). destruct n as [l id args|l id|l m fs].
  - destruct (no_violation_directive _ _ _ _ _ F NV H) as (d & _ & M & S & _).
    rewrite (after_means _ l _ _ _ M). destruct d; [inversion M; subst; assumption | exact S | exact S].
  - rewrite after_label. exact IH.
  - exact (no_violation_instruction _ _ _ _ _ NV H).
Qed.

Lemma lookup_from_split : forall p a id v, lookup_from a p id = Some v ->
  exists before l rest, p = before ++ NLabel l id :: rest /\ ~ In id (labels_of before) /\
    v = label_value (counter a before) rest.
Proof.
  induction p as [|n p IH]; intros a id v H; [discriminate|]. cbn [lookup_from] in H.
  assert (G : forall a, lookup_from a p id = Some v -> (forall l, n <> NLabel l id) ->
    after a n = after a n -> True) by auto. clear G.
  assert (Step : lookup_from (after a n) p id = Some v -> (forall l, n <> NLabel l id) ->
    exists before l rest, n :: p = before ++ NLabel l id :: rest /\ ~ In id (labels_of before) /\
      v = label_value (counter a before) rest).
  { intros K D. destruct (IH _ _ _ K) as (b & l & r & -> & NI & V). exists (n :: b), l, r.
    split; [reflexivity|]. split; [|exact V]. destruct n; cbn [labels_of]; try exact NI.
    intros [->|X]; [eapply D; reflexivity | contradiction]. }
  destruct n as [l x args|l x|l m fs].
  - apply Step; [exact H | discriminate].
  - destruct (list_eq_dec N.eq_dec x id) as [->|D].
    + injection H as <-. exists [], l, p. repeat split. intros [].
    + apply Step; [exact H|]. intros l' X. injection X as _ X. contradiction.
  - apply Step; [exact H | discriminate].
Qed.

Lemma constant_small : forall n c, constant n = Some c -> c <= 4095.
Proof.
  intros n c H. destruct (constant_node _ _ H) as (l & id & args & -> & M). inversion M; subst. assumption.
Qed.

Lemma lookup_small : forall p, Forall node_ok p -> no_violation p ->
  forall l v, lookup p l = Some v -> v <= 4095.
Proof.
  intros p F NV id v H. destruct (lookup_from_split _ _ _ _ H) as (b & l & r & E & _ & ->).
  assert (A : counter 0 b <= 4095).
  { pose proof (no_violation_address p F NV (length b)) as X. rewrite E in X.
    rewrite address_here in X. apply X. rewrite app_length. lia. }
  unfold label_value. destruct r as [|n r]; [exact A|].
  destruct (constant n) as [c|] eqn:K; [exact (constant_small _ _ K) | exact A].
Qed.

(** ** Appending *)

Lemma append_fits : forall r bytes, dr_start r + range_len r + N.of_nat (length bytes) <= 4096 ->
  dr_start r <= 4095 ->
  append_asserted r bytes = Done (mk_range (dr_start r) (dr_data r ++ bytes)).
Proof.
  intros r bytes L S. unfold append_asserted, range_append, bytes_remaining, u12_max.
  rewrite (proj2 (N.leb_le (dr_start r) 0xFFF)) by exact S.
  rewrite (proj2 (N.leb_le (range_len r) _)) by lia. cbn [bind].
  rewrite (proj2 (N.leb_le (N.of_nat (length bytes)) _)) by lia. reflexivity.
Qed.

(** ** The second pass *)

Lemma unencodable_here : forall done l m fs rest e,
  unencodable (done ++ NInstruction l m fs :: rest) (length done) e <->
  exists r, refuses (lookup (done ++ NInstruction l m fs :: rest)) m fs r /\ e = AssemblyFailed l r.
Proof.
  intros done l m fs rest e. unfold unencodable. split.
  - intros (l' & m' & fs' & r & H & R & E). rewrite nth_error_length_app in H. injection H as <- <- <-. eauto.
  - intros (r & R & E). exists l, m, fs, r. split; [apply nth_error_length_app|]. auto.
Qed.

Lemma unencodable_other : forall done n rest e,
  (forall l m fs, n <> NInstruction l m fs) -> ~ unencodable (done ++ n :: rest) (length done) e.
Proof.
  intros done n rest e D (l & m & fs & r & H & _). rewrite nth_error_length_app in H. injection H as H.
  exact (D _ _ _ H).
Qed.

Definition emitted (p : list node) (k : nat) (ranges : list data_range) (current : data_range)
  (rest : list node) (r : run (result semantic_error (list data_range))) : Prop :=
  (exists bs blocks,
     Forall2 (node_bytes (lookup p)) (fst (split_sections rest)) bs /\
     Forall2 (section_block (lookup p)) (snd (split_sections rest)) blocks /\
     r = Done (Ok (ranges ++ filter nonempty
                     (mk_range (dr_start current) (dr_data current ++ concat bs) :: blocks))) /\
     forall i e, (k <= i)%nat -> ~ unencodable p i e) \/
  (exists i e, (k <= i)%nat /\ unencodable p i e /\
     (forall j e', (k <= j < i)%nat -> ~ unencodable p j e') /\ r = Done (Err e)).

Lemma push_range_filter : forall ranges r blocks,
  push_range ranges r ++ filter nonempty blocks = ranges ++ filter nonempty (r :: blocks).
Proof.
  intros ranges r blocks. unfold push_range, range_len. cbn [filter]. unfold nonempty at 2.
  destruct (dr_data r) as [|b d]; cbn [length Nat.eqb negb].
  - reflexivity.
  - replace (0 <? N.of_nat (S (length d))) with true by lia. rewrite <- app_assoc. reflexivity.
Qed.

Lemma emit_spec : forall labels p, Forall node_ok p -> no_violation p ->
  (forall id, label_get labels id = lookup p id) ->
  forall rest done ranges current, p = done ++ rest ->
  dr_start current <= 4095 -> dr_start current + range_len current = counter 0 done ->
  emitted p (length done) ranges current rest (emit_loop labels ranges current rest).
Proof.
  intros labels p F NV LG.
  assert (LO : labels_ok labels) by (intros l v H; rewrite LG in H; eapply lookup_small; eassumption).
  induction rest as [|n rest IH]; intros done ranges current Ep Cs Ce.
  { left. exists [], []. cbn [split_sections fst snd emit_loop]. repeat split; try constructor.
    - f_equal. f_equal. rewrite <- (app_nil_r (push_range ranges current)).
      change (@nil data_range) with (filter nonempty []) at 1. rewrite push_range_filter.
      cbn [concat]. rewrite app_nil_r. destruct current; reflexivity.
    - intros i e L (l & m & fs & r & H & _). rewrite app_nil_r in Ep. subst done.
      assert (i < length p)%nat by (apply nth_error_Some; congruence). lia. }
  assert (Hn : nth_error p (length done) = Some n) by (rewrite Ep; apply nth_error_length_app).
  assert (Ha : address p (length done) = counter 0 done) by (rewrite Ep; apply address_here).
  assert (On : node_ok n).
  { rewrite Forall_forall in F. apply F. eapply nth_error_In. exact Hn. }
  assert (Ep' : p = (done ++ [n]) ++ rest) by (rewrite <- app_assoc; exact Ep).
  (* a statement in the same section *)
  assert (Same : forall bytes, origin n = None -> node_bytes (lookup p) n bytes ->
    N.of_nat (length bytes) = size n ->
    (forall e, ~ unencodable p (length done) e) ->
    emitted p (length done) ranges current (n :: rest)
      (emit_loop labels ranges (mk_range (dr_start current) (dr_data current ++ bytes)) rest)).
  { intros bytes O B S U.
    specialize (IH (done ++ [n]) ranges (mk_range (dr_start current) (dr_data current ++ bytes)) Ep' Cs).
    rewrite app_length in IH. cbn [length] in IH. rewrite Nat.add_1_r in IH.
    destruct IH as [(bs & blocks & H1 & H2 & H3 & H4)|(i & e & L & H1 & H2 & H3)].
    - rewrite counter_snoc. unfold after. rewrite O. unfold range_len in *. cbn [dr_start dr_data].
      rewrite app_length. lia.
    - left. exists (bytes :: bs), blocks. cbn [split_sections].
      destruct (split_sections rest) as [first others]. cbn [fst snd] in *. rewrite O. cbn [fst snd].
      split; [constructor; assumption|]. split; [exact H2|]. split.
      + rewrite H3. cbn [dr_start dr_data concat]. rewrite <- app_assoc. reflexivity.
      + intros i e L. destruct (Nat.eq_dec i (length done)) as [->|D]; [apply U | apply H4; lia].
    - right. exists i, e. split; [lia|]. split; [exact H1|]. split; [|exact H3].
      intros j e' Lj. destruct (Nat.eq_dec j (length done)) as [->|D]; [apply U | apply H2; lia]. }
  destruct n as [l id args|l id|l m fs].
  - destruct (no_violation_directive _ _ _ _ _ F NV Hn) as (d & E & M & S & _).
    destruct (means_size l _ _ _ M) as (Sz & O & _).
    assert (U : forall e, ~ unencodable p (length done) e).
    { intros e. rewrite Ep. apply unencodable_other. discriminate. }
    cbn [emit_loop]. rewrite E. destruct d as [o|bytes|c].
    + (* a new section *)
      clear Same. inversion M; subst id0 a args.
      specialize (IH (done ++ [NDirective l id [LNumeric o]]) (push_range ranges current) (range_new o) Ep').
      rewrite app_length in IH. cbn [length] in IH. rewrite Nat.add_1_r in IH.
      destruct IH as [(bs & blocks & H5 & H6 & H7 & H8)|(i & e & L & H5 & H6 & H7)].
      * cbn [range_new dr_start]. assumption.
      * rewrite counter_snoc, (after_means _ l _ _ _ M). unfold range_len, range_new. cbn [dr_start dr_data length]. lia.
      * left. exists [], (mk_range o (concat bs) :: blocks). cbn [split_sections].
        destruct (split_sections rest) as [first others]. cbn [fst snd] in *. rewrite O. cbn [fst snd].
        split; [constructor|]. split.
        { constructor; [|exact H6]. split; [reflexivity|]. exists bs. split; [exact H5 | reflexivity]. }
        split.
        { rewrite H7. f_equal. f_equal. rewrite push_range_filter. cbn [range_new dr_start dr_data concat app].
          rewrite app_nil_r. destruct current; reflexivity. }
        { intros i e L. destruct (Nat.eq_dec i (length done)) as [->|D]; [apply U | apply H8; lia]. }
      * right. exists i, e. split; [lia|]. split; [exact H5|]. split; [|exact H7].
        intros j e' Lj. destruct (Nat.eq_dec j (length done)) as [->|D]; [apply U | apply H6; lia].
    + cbn [directive_into_vec directive_size] in *. rewrite append_fits by lia. cbn [bind].
      apply Same; [exact O | apply nb_db; exact M | exact Sz | exact U].
    + cbn [directive_into_vec directive_size] in *. rewrite append_fits by (cbn [length]; lia). cbn [bind].
      apply Same; [exact O | eapply nb_equ; exact M | exact Sz | exact U].
  - cbn [emit_loop]. replace current with (mk_range (dr_start current) (dr_data current ++ []))
      by (rewrite app_nil_r; destruct current; reflexivity).
    replace (mk_range (dr_start current) (dr_data current ++ [])) with current at 1
      by (rewrite app_nil_r; destruct current; reflexivity).
    apply Same; [reflexivity | constructor | reflexivity |].
    intros e. rewrite Ep. apply unencodable_other. discriminate.
  - cbn [emit_loop]. destruct On as [Am Fo].
    pose proof (no_violation_instruction _ _ _ _ _ NV Hn) as S. rewrite Ha in S.
    destruct (instruction_from m fs labels) as [o|r] eqn:E.
    + destruct (instruction_bytes _ _ _ _ Am Fo LO E) as (w & Lw & V & En). rewrite V. cbn [bind].
      rewrite append_fits by (cbn [length]; lia). cbn [bind].
      apply Same; [reflexivity | | reflexivity |].
      * constructor. eapply encodes_ext; [|exact En]. exact LG.
      * intros e H. rewrite Ep in H. apply unencodable_here in H. destruct H as (r & R & _). rewrite <- Ep in R.
        apply (refuses_ext _ (label_get labels)) in R; [|intros; symmetry; apply LG].
        apply instruction_errors in R; try assumption. congruence.
    + right. exists (length done), (AssemblyFailed l r). split; [lia|]. split; [|split].
      * rewrite Ep. apply unencodable_here. exists r. split; [|reflexivity]. rewrite <- Ep.
        apply (refuses_ext (label_get labels)); [exact LG|]. apply instruction_errors; assumption.
      * intros j e' Lj. lia.
      * reflexivity.
Qed.

(** ** Well-formedness *)

Lemma nodup_violates : forall p, no_violation p -> NoDup (labels_of p).
Proof.
  intros p NV.
  assert (G : forall q done, p = done ++ q -> NoDup (labels_of done) -> NoDup (labels_of p)).
  { induction q as [|n q IH]; intros done E N; [rewrite app_nil_r in E; subst; exact N|].
    apply (IH (done ++ [n])); [rewrite <- app_assoc; exact E|]. rewrite labels_of_app.
    destruct n as [l id args|l id|l m fs]; cbn [labels_of]; rewrite ?app_nil_r; try exact N.
    apply NoDup_Add with (a := id) (l := labels_of done).
    - clear. induction (labels_of done) as [|x r IH]; [constructor | cbn; constructor; exact IH].
    - split; [exact N|]. intros I. apply (NV (length done) (RedefinitionOfLabel l id)). rewrite E.
      apply violates_here. constructor. exact I. }
  apply (G p []); [reflexivity | constructor].
Qed.

Lemma violation_not_wf : forall p i e, well_formed p -> ~ violates p i e.
Proof.
  intros p i e W V. destruct V as [l id args e H R | l id args d H M S | l id args d H M S A
      | l id args c H M L | l m fs H A | l id H I].
  - destruct (wf_directives p W l id args) as (d & M); [eapply nth_error_In; exact H|].
    eapply means_not_rejects; eassumption.
  - pose proof (wf_space p W i _ H). lia.
  - pose proof (wf_space p W i _ H). lia.
  - apply L. eapply wf_constants; eassumption.
  - pose proof (wf_space p W i _ H) as X. cbn [size] in X. lia.
  - pose proof (wf_labels p W) as N. apply nth_error_split in H. destruct H as (b & r & -> & <-).
    rewrite firstn_length_app in I. rewrite labels_of_app in N. cbn [labels_of] in N.
    apply NoDup_remove_2 in N. apply N. apply in_or_app. left. exact I.
Qed.

Lemma wf_from : forall p, Forall node_ok p -> no_violation p -> (forall i e, ~ unencodable p i e) ->
  (forall l m fs, In (NInstruction l m fs) p ->
     (exists w, encodes (lookup p) m fs w) \/ (exists r, refuses (lookup p) m fs r)) ->
  well_formed p.
Proof.
  intros p F NV U D. constructor.
  - intros l id args H. apply In_nth_error in H. destruct H as (i & H).
    destruct (no_violation_directive _ _ _ _ _ F NV H) as (d & _ & M & _). eauto.
  - intros i l id args c H M. destruct (no_violation_directive _ _ _ _ _ F NV H) as (d & _ & M' & _ & L).
    apply (L c). eapply means_det; eassumption.
  - apply nodup_violates. exact NV.
  - intros i n H. destruct n as [l id args|l id|l m fs].
    + destruct (no_violation_directive _ _ _ _ _ F NV H) as (d & _ & M & S & _).
      destruct (means_size l _ _ _ M) as (Sz & _). rewrite <- Sz. exact S.
    + cbn [size]. rewrite N.add_0_r. apply no_violation_address; try assumption.
      assert (i < length p)%nat by (apply nth_error_Some; congruence). lia.
    + exact (no_violation_instruction _ _ _ _ _ NV H).
  - intros l m fs H. destruct (D l m fs H) as [X|(r & R)]; [exact X|].
    apply In_nth_error in H. destruct H as (i & H). exfalso. eapply U. exists l, m, fs, r. eauto.
Qed.

Lemma encodes_or_refuses : forall labels m fs, ascii m -> Forall field_ok fs -> labels_ok labels ->
  (exists w, encodes (label_get labels) m fs w) \/ (exists r, refuses (label_get labels) m fs r).
Proof.
  intros labels m fs A F L. destruct (instruction_from m fs labels) as [o|r] eqn:E.
  - left. destruct (instruction_bytes _ _ _ _ A F L E) as (w & _ & _ & En). eauto.
  - right. exists r. apply instruction_errors; assumption.
Qed.

Theorem assemble_spec : forall p, Forall node_ok p ->
  (exists rs, assemble p = Done (Ok rs) /\ well_formed p /\ output p rs) \/
  (exists e, assemble p = Done (Err e) /\ reported p e).
Proof.
  intros p F. unfold assemble. pose proof (define_labels_spec p F) as D.
  destruct (define_labels p) as [labels|e].
  2: { right. exists e. split; [reflexivity|]. left. exact D. }
  destruct D as [NV LG]. unfold emit_data_ranges.
  assert (LO : labels_ok labels) by (intros l v H; rewrite LG in H; eapply lookup_small; eassumption).
  pose proof (emit_spec labels p F NV LG p [] [] (range_new 0) eq_refl) as H.
  destruct H as [(bs & blocks & H1 & H2 & H3 & H4)|(i & e & _ & H1 & H2 & H3)]; [cbn; lia | reflexivity | |].
  - left. rewrite H3. eexists. split; [reflexivity|]. split.
    + apply wf_from; try assumption.
      * intros i e. apply H4. cbn. lia.
      * intros l m fs I. rewrite Forall_forall in F. destruct (F _ I) as [A Fo].
        destruct (encodes_or_refuses labels m fs A Fo LO) as [(w & X)|(r & X)].
        -- left. exists w. eapply encodes_ext; [exact LG | exact X].
        -- right. exists r. eapply refuses_ext; [exact LG | exact X].
    + unfold output, sections. destruct (split_sections p) as [first others]. cbn [fst snd] in *.
      eexists. split; [constructor; [|exact H2]|reflexivity].
      split; [reflexivity|]. exists bs. split; [exact H1 | reflexivity].
  - right. exists e. split; [exact H3|]. right. split; [exact NV|]. exists i. split; [exact H1|].
    intros j e' L. apply H2. cbn. lia.
Qed.

(** ** Both directions *)

Lemma firstn_app_le : forall (A : Type) (p q : list A) i, (i <= length p)%nat -> firstn i (p ++ q) = firstn i p.
Proof.
  intros A p q i L. rewrite firstn_app. replace (i - length p)%nat with 0%nat by lia. apply app_nil_r.
Qed.

Lemma violates_app : forall p q i e, violates p i e -> violates (p ++ q) i e.
Proof.
  intros p q i e V.
  assert (G : forall n, nth_error p i = Some n -> nth_error (p ++ q) i = Some n /\ (i < length p)%nat).
  { intros n H. assert (L : (i < length p)%nat) by (apply nth_error_Some; congruence).
    rewrite nth_error_app1 by exact L. auto. }
  assert (A : forall n, nth_error p i = Some n -> address (p ++ q) i = address p i).
  { intros n H. unfold address. rewrite firstn_app_le; [reflexivity|]. destruct (G n H). lia. }
  destruct V as [l id args e H R | l id args d H M S | l id args d H M S X
      | l id args c H M L | l m fs H X | l id H I]; pose proof (G _ H) as (H' & Li); pose proof (A _ H) as Ha.
  - eapply violates_directive; eassumption.
  - eapply violates_size; eassumption.
  - eapply violates_space; try eassumption. rewrite Ha. exact X.
  - eapply violates_constant; try eassumption. intros (j & l' & id' & -> & K). apply L. exists j, l', id'.
    split; [reflexivity|]. rewrite nth_error_app1 in K by lia. exact K.
  - eapply violates_instruction; try eassumption. rewrite Ha. exact X.
  - eapply violates_label; try eassumption. rewrite firstn_app_le by lia. exact I.
Qed.

Lemma first_address : forall p i e, Forall node_ok p -> first (violates p) i e -> address p i <= 4095.
Proof.
  intros p i e F [V U].
  assert (L : (i < length p)%nat) by (inversion V; subst; apply nth_error_Some; congruence).
  assert (X : address (firstn i p) i = address p i).
  { unfold address. rewrite firstn_firstn, Nat.min_id. reflexivity. }
  rewrite <- X. apply no_violation_address.
  - rewrite <- (firstn_skipn i p) in F. apply Forall_app in F. apply F.
  - intros j e' W. assert (j < i)%nat.
    { assert (j < length (firstn i p))%nat by (inversion W; subst; apply nth_error_Some; congruence).
      rewrite firstn_length in H. lia. }
    apply (U j e' H). rewrite <- (firstn_skipn i p). apply violates_app. exact W.
  - rewrite firstn_length. lia.
Qed.

Lemma violates_det : forall p i e e', address p i <= 4095 -> violates p i e -> violates p i e' -> e = e'.
Proof.
  intros p i e e' A V W.
  assert (Q : forall l id args c, means id args (Equ c) -> size (NDirective l id args) = 0).
  { intros l id args c M. destruct (means_size l _ _ _ M) as (S & _). rewrite <- S. reflexivity. }
  destruct V as [l id args e H R | l id args d H M S | l id args d H M S X
      | l id args c H M L | l m fs H X | l id H I];
  destruct W as [l' id' args' e' H' R' | l' id' args' d' H' M' S' | l' id' args' d' H' M' S' X'
      | l' id' args' c' H' M' L' | l' m' fs' H' X' | l' id' H' I'];
  rewrite H in H'; injection H'; try discriminate; intros; subst; clear H';
  repeat match goal with
  | M : means ?i ?a ?d, R : rejects ?i ?a _ |- _ => exfalso; exact (means_not_rejects _ _ _ _ M R)
  end; try reflexivity; try (exfalso; lia).
  - f_equal. eapply rejects_det; eassumption.
  - f_equal. eapply means_det; eassumption.
  - exfalso. rewrite (Q _ _ _ _ M') in S. lia.
  - f_equal. eapply means_det; eassumption.
  - exfalso. rewrite (Q _ _ _ _ M') in X. lia.
  - exfalso. rewrite (Q _ _ _ _ M) in S'. lia.
  - exfalso. rewrite (Q _ _ _ _ M) in X'. lia.
Qed.

Lemma first_unique : forall (A : Type) (bad : nat -> A -> Prop) i e j e',
  first bad i e -> first bad j e' -> i = j.
Proof.
  intros A bad i e j e' [B U] [B' U']. destruct (Nat.lt_trichotomy i j) as [L|[E|L]]; [|exact E|].
  - exfalso. eapply U'; eassumption.
  - exfalso. eapply U; eassumption.
Qed.

(** A label table with the program's label values. *)
Lemma table_exists : forall p, Forall node_ok p -> no_violation p ->
  exists labels, labels_ok labels /\ forall id, label_get labels id = lookup p id.
Proof.
  intros p F NV. pose proof (define_labels_spec p F) as D. destruct (define_labels p) as [labels|e].
  - exists labels. destruct D as [_ LG]. split; [|exact LG]. intros l v H. rewrite LG in H.
    eapply lookup_small; eassumption.
  - destruct D as (i & V & _). exfalso. eapply NV. exact V.
Qed.

Lemma encodes_det : forall p m fs w w', Forall node_ok p -> no_violation p -> ascii m -> Forall field_ok fs ->
  encodes (lookup p) m fs w -> encodes (lookup p) m fs w' -> w = w'.
Proof.
  intros p m fs w w' F NV A Fo E E'. destruct (table_exists p F NV) as (labels & LO & LG).
  apply (encodes_ext _ (label_get labels)) in E; [|intros; symmetry; apply LG].
  apply (encodes_ext _ (label_get labels)) in E'; [|intros; symmetry; apply LG].
  apply instruction_table in E; try assumption. apply instruction_table in E'; try assumption.
  destruct E as (L & o & H & B). destruct E' as (L' & o' & H' & B').
  assert (o' = o) by congruence. subst o'. rewrite B in B'. injection B' as X Y. lia.
Qed.

Lemma encodes_not_refuses : forall p m fs w r, Forall node_ok p -> no_violation p ->
  ascii m -> Forall field_ok fs ->
  encodes (lookup p) m fs w -> refuses (lookup p) m fs r -> False.
Proof.
  intros p m fs w r F NV A Fo E R. destruct (table_exists p F NV) as (labels & LO & LG).
  apply (encodes_ext _ (label_get labels)) in E; [|intros; symmetry; apply LG].
  apply (refuses_ext _ (label_get labels)) in R; [|intros; symmetry; apply LG].
  apply instruction_table in E; try assumption. apply instruction_errors in R; try assumption.
  destruct E as (_ & o & H & _). congruence.
Qed.

Lemma refuses_det : forall p m fs r r', Forall node_ok p -> no_violation p ->
  ascii m -> Forall field_ok fs ->
  refuses (lookup p) m fs r -> refuses (lookup p) m fs r' -> r = r'.
Proof.
  intros p m fs r r' F NV A Fo R R'. destruct (table_exists p F NV) as (labels & LO & LG).
  apply (refuses_ext _ (label_get labels)) in R; [|intros; symmetry; apply LG].
  apply (refuses_ext _ (label_get labels)) in R'; [|intros; symmetry; apply LG].
  apply instruction_errors in R; try assumption. apply instruction_errors in R'; try assumption. congruence.
Qed.

Lemma node_at : forall p i n, Forall node_ok p -> nth_error p i = Some n -> node_ok n.
Proof. intros p i n F H. rewrite Forall_forall in F. apply F. eapply nth_error_In. exact H. Qed.

Lemma reported_det : forall p e e', Forall node_ok p -> reported p e -> reported p e' -> e = e'.
Proof.
  intros p e e' F R R'. destruct R as [(i & V)|(NV & i & U)], R' as [(j & V')|(NV' & j & U')].
  - assert (i = j) by (eapply first_unique; eassumption). subst j.
    pose proof (first_address _ _ _ F V) as A. destruct V as [V _]. destruct V' as [V' _].
    eapply violates_det; eassumption.
  - exfalso. destruct V as [V _]. exact (NV' _ _ V).
  - exfalso. destruct V' as [V' _]. exact (NV _ _ V').
  - assert (i = j) by (eapply first_unique; eassumption). subst j.
    destruct U as [(l & m & fs & r & H & R & ->) _]. destruct U' as [(l' & m' & fs' & r' & H' & R' & ->) _].
    rewrite H in H'. injection H' as <- <- <-. destruct (node_at _ _ _ F H) as [A Fo].
    f_equal. eapply refuses_det; eassumption.
Qed.

Lemma wf_not_reported : forall p e, Forall node_ok p -> well_formed p -> ~ reported p e.
Proof.
  intros p e F W [(i & V & _)|(NV & i & (l & m & fs & r & H & R & _) & _)].
  - eapply violation_not_wf; eassumption.
  - destruct (wf_instructions p W l m fs) as (w & E); [eapply nth_error_In; exact H|].
    destruct (node_at _ _ _ F H) as [A Fo]. eapply encodes_not_refuses; eassumption.
Qed.

Lemma forall2_det : forall (A B : Type) (P : A -> B -> Prop) (l : list A),
  (forall a b b', In a l -> P a b -> P a b' -> b = b') ->
  forall r r', Forall2 P l r -> Forall2 P l r' -> r = r'.
Proof.
  intros A B P l D r r' H. revert r'. induction H as [|a b l r Hab H IH]; intros r' H'; inversion H'; subst.
  - reflexivity.
  - f_equal.
    + eapply D; [left; reflexivity | exact Hab | assumption].
    + apply IH; [|assumption]. intros a' b1 b2 I. apply D. right. exact I.
Qed.

Lemma split_sections_in : forall p,
  incl (fst (split_sections p)) p /\ forall s, In s (snd (split_sections p)) -> incl (snd s) p.
Proof.
  induction p as [|n p [IH1 IH2]]; [split; [intros x [] | intros s []]|]. cbn [split_sections].
  destruct (split_sections p) as [first others]. cbn [fst snd] in *. destruct (origin n).
  - cbn [fst snd]. split; [intros x []|]. intros s [<-|I].
    + cbn. intros x H. right. apply IH1. exact H.
    + intros x H. right. eapply IH2; eassumption.
  - cbn [fst snd]. split.
    + intros x [->|H]; [left; reflexivity | right; apply IH1; exact H].
    + intros s I x H. right. eapply IH2; eassumption.
Qed.

Lemma sections_in : forall p s, In s (sections p) -> incl (snd s) p.
Proof.
  intros p s. unfold sections. pose proof (split_sections_in p) as [H1 H2].
  destruct (split_sections p) as [first others]. cbn [fst snd] in *. intros [<-|I]; [exact H1 | apply H2; exact I].
Qed.

Lemma node_bytes_det : forall p n b b', Forall node_ok p -> no_violation p -> node_ok n ->
  node_bytes (lookup p) n b -> node_bytes (lookup p) n b' -> b = b'.
Proof.
  intros p n b b' F NV O H H'.
  destruct H as [l m fs w E|l id args bytes M|l id args a M|l id args c M|l id]; inversion H'; subst;
    try reflexivity;
    try (match goal with M1 : means ?i ?a _, M2 : means ?i ?a _ |- _ =>
           pose proof (means_det _ _ _ _ M1 M2) as X; first [discriminate X | injection X as ->; reflexivity] end).
  destruct O as [A Fo].
  match goal with E2 : encodes _ m fs ?w2 |- _ => assert (w = w2) by (eapply encodes_det; eassumption) end.
  subst. reflexivity.
Qed.

Lemma output_det : forall p rs rs', Forall node_ok p -> no_violation p -> output p rs -> output p rs' -> rs = rs'.
Proof.
  intros p rs rs' F NV (all & H & ->) (all' & H' & ->). f_equal.
  eapply forall2_det; [|exact H | exact H']. clear all all' H H'.
  intros s r r' I (S & bs & B & D) (S' & bs' & B' & D').
  assert (bs = bs').
  { eapply forall2_det; [|exact B | exact B']. intros n b b' In_ N1 N2.
    assert (O : node_ok n).
    { rewrite Forall_forall in F. apply F. eapply sections_in; eassumption. }
    exact (node_bytes_det _ _ _ _ F NV O N1 N2). }
  subst bs'. destruct r, r'. cbn in *. congruence.
Qed.

Theorem assemble_ok : forall p rs, Forall node_ok p ->
  (assemble p = Done (Ok rs) <-> well_formed p /\ output p rs).
Proof.
  intros p rs F. destruct (assemble_spec p F) as [(rs' & E & W & O)|(e & E & R)]; rewrite E.
  - split; intros H.
    + injection H as <-. auto.
    + destruct H as [_ O']. f_equal. f_equal. eapply output_det; try eassumption.
      intros i e. apply violation_not_wf. exact W.
  - split; intros H; [discriminate|]. destruct H as [W _]. exfalso. eapply wf_not_reported; eassumption.
Qed.

Theorem assemble_err : forall p e, Forall node_ok p ->
  (assemble p = Done (Err e) <-> reported p e).
Proof.
  intros p e F. destruct (assemble_spec p F) as [(rs' & E & W & O)|(e' & E & R)]; rewrite E.
  - split; intros H; [discriminate|]. exfalso. eapply wf_not_reported; eassumption.
  - split; intros H.
    + injection H as <-. exact R.
    + f_equal. f_equal. eapply reported_det; eassumption.
Qed.

Theorem assemble_accepts : forall p, Forall node_ok p ->
  ((exists rs, assemble p = Done (Ok rs)) <-> well_formed p).
Proof.
  intros p F. split.
  - intros (rs & H). apply assemble_ok in H; [apply H | exact F].
  - intros W. destruct (assemble_spec p F) as [(rs & E & _)|(e & E & R)]; [eauto|].
    exfalso. eapply wf_not_reported; eassumption.
Qed.
