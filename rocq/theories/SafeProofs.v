(** * SafeProofs: contained programs stay among their instructions *)

From Verif Require Import Base Text U12 Parser Directive Instruction DataRange Assembler SpecLex SpecOpcode SpecDisasm
  SpecInverse SpecLayout BaseFacts OpcodeProofs InstructionProofs DecodeProofs InverseProofs LayoutProofs EmitProofs
  AddressProofs OutputProofs SpecRun RunProofs SpecSafe.
Open Scope N_scope.

(** ** What is at the program counter *)

Lemma at_instruction : forall P p s, at_statement P p s <-> instruction_at p (pc P s).
Proof.
  intros P p s. split; intros (k & l & m & fields & N & A); exists k, l, m, fields; split; congruence.
Qed.

Lemma instruction_space : forall p a, well_formed p -> instruction_at p a -> a + 2 < 4096.
Proof.
  intros p a W (k & l & m & fields & N & <-). pose proof (wf_space p W _ _ N) as H. cbn [size] in H. lia.
Qed.

Lemma loaded_code : forall P p image s, loaded P image s -> code_loaded P p image s.
Proof. intros P p image s L a b I _. apply L, I. Qed.

(** The word at the program counter says what the statement there says. *)
Lemma word_there : forall P p rs s k l m fields, Forall node_ok p -> well_formed p -> output p rs ->
  code_loaded P p (memory rs) s -> nth_error p k = Some (NInstruction l m fields) -> pc P s = address p k ->
  exists w i, w < 65536 /\ 256 * mem P s (pc P s) + mem P s (pc P s + 1) = w /\
    statement_says (lookup p) m fields i /\ word_says w i.
Proof.
  intros P p rs s k l m fields F W O L N A.
  destruct (instruction_in_memory p rs k l m fields F W O N) as (Ff & w & E & I1 & I2).
  destruct (encodes_says _ _ _ _ Ff E) as (Lt & i & Si & Wi). exists w, i. split; [exact Lt|]. split; [|auto].
  assert (At : instruction_at p (address p k)) by (exists k, l, m, fields; auto).
  rewrite A, (L _ _ I1), (L _ _ I2); [lia | right; exists (address p k); auto | left; exact At].
Qed.

Lemma code_step : forall P p rs s s', Forall node_ok p -> well_formed p -> output p rs ->
  code_loaded P p (memory rs) s -> instruction_at p (pc P s) ->
  (program_step P p s s' <-> machine_step P s s').
Proof.
  intros P p rs s s' F W O L At. split.
  - intros (k & l & m & fields & i & N & A & Si & ->).
    destruct (word_there P p rs s k l m fields F W O L N A) as (w & i' & _ & E & Si' & Wi). exists i. split; [|reflexivity].
    rewrite E, (statement_says_one _ _ _ _ _ Si Si'). exact Wi.
  - intros (i & Wi & ->). destruct At as (k & l & m & fields & N & A). symmetry in A.
    exists k, l, m, fields, i. split; [exact N|]. split; [exact A|]. split; [|reflexivity].
    destruct (word_there P p rs s k l m fields F W O L N A) as (w & i' & Lt & E & Si & Wi'). rewrite E in Wi.
    rewrite (word_says_one w i i' Lt Wi Wi'). exact Si.
Qed.

Lemma code_goes : forall P p rs s, Forall node_ok p -> well_formed p -> output p rs ->
  code_loaded P p (memory rs) s -> instruction_at p (pc P s) ->
  exists s', machine_step P s s' /\ forall s'', machine_step P s s'' -> s'' = s'.
Proof.
  intros P p rs s F W O L (k & l & m & fields & N & A). symmetry in A.
  destruct (word_there P p rs s k l m fields F W O L N A) as (w & i & Lt & E & Si & Wi). exists (exec P i s).
  split; [exists i; split; [rewrite E; exact Wi | reflexivity]|]. intros s'' (i' & Wi' & ->). rewrite E in Wi'.
  rewrite (word_says_one w i' i Lt Wi' Wi). reflexivity.
Qed.

(** ** Staying *)

Lemma safe_step : forall P stack p rs s s', Forall node_ok p -> well_formed p -> output p rs -> obedient P stack ->
  contained p -> safe P stack p (memory rs) s -> ~ leaving P stack s -> machine_step P s s' ->
  code_loaded P p (memory rs) s' -> safe P stack p (memory rs) s'.
Proof.
  intros P stack p rs s s' F W O Ob C (L & At & St) Nl M L'. split; [exact L'|].
  destruct M as (i & Wi & ->). destruct At as (k & l & m & fields & N & A). symmetry in A.
  destruct (word_there P p rs s k l m fields F W O L N A) as (w & i' & Lt & E & Si & Wi').
  assert (i = i') by (rewrite E in Wi; apply (word_says_one w); assumption). subst i'.
  specialize (C k l m fields i N Si). unfold leads in C. rewrite <- A in C.
  pose proof (goes P stack Ob i s) as G.
  assert (At : instruction_at p (pc P s)) by (exists k, l, m, fields; auto).
  pose proof (instruction_space p _ W At) as Sp.
  destruct (flow_of i) eqn:Fl.
  - destruct (G Sp) as [-> ->]. auto.
  - destruct (G Sp) as [[-> | ->] ->]; auto.
  - destruct C as [C2 C4]. pose proof (instruction_space p _ W C2) as Sp'.
    destruct G as [[-> | ->] ->]; auto. lia.
  - destruct G as [-> ->]. auto.
  - destruct C as [C1 C2]. destruct (G Sp) as [-> ->]. auto.
  - destruct (stack s) as [|a rest] eqn:Sk.
    + exfalso. apply Nl. split; [exact Sk|]. exists i. auto.
    + destruct (G a rest eq_refl) as [-> ->]. inversion St; subst. auto.
  - destruct C.
Qed.

Lemma safe_runs : forall P stack p rs, Forall node_ok p -> well_formed p -> output p rs -> obedient P stack ->
  contained p -> forall s s',
  runs (machine_step P) (fun s => ~ leaving P stack s /\ spares P p (memory rs) s) s s' ->
  safe P stack p (memory rs) s ->
  safe P stack p (memory rs) s' /\ runs (program_step P p) (safe P stack p (memory rs)) s s'.
Proof.
  intros P stack p rs F W O Ob C s s' R. induction R as [s|s s' s'' [Nl Sp] M _ IH]; intros H; [split; [exact H | constructor]|].
  pose proof (safe_step P stack p rs s s' F W O Ob C H Nl M (Sp s' M)) as H'.
  destruct (IH H') as [H2 R']. split; [exact H2|]. econstructor; [exact H | | exact R'].
  destruct H as (L & At & _). apply (code_step P p rs s s' F W O L At). exact M.
Qed.

Lemma harmless_spares : forall P stack p rs s, Forall node_ok p -> well_formed p -> output p rs -> obedient P stack ->
  harmless p -> code_loaded P p (memory rs) s -> instruction_at p (pc P s) -> spares P p (memory rs) s.
Proof.
  intros P stack p rs s F W O Ob H L At s' M. apply (code_step P p rs s s' F W O L At) in M.
  destruct M as (k & l & m & fields & i & N & A & Si & ->). intros a b I Wh.
  rewrite (keeps P stack Ob i s (H k l m fields i N Si) a). apply L; assumption.
Qed.

(** ** Labels and what follows *)

Lemma instruction_after : forall p k l m fields j l' m' fields',
  nth_error p k = Some (NInstruction l m fields) -> nth_error p j = Some (NInstruction l' m' fields') ->
  nothing_between p (S k) j -> instruction_at p (address p k + 2).
Proof.
  intros p k l m fields j l' m' fields' N N' B. exists j, l', m', fields'. split; [exact N'|].
  rewrite (address_nothing p (S k) j B) by (apply Nat.lt_le_incl, nth_error_Some; congruence).
  unfold address. rewrite (firstn_snoc _ p k _ N), counter_app. reflexivity.
Qed.

Lemma lookup_address : forall p i l id, NoDup (labels_of p) -> nth_error p i = Some (NLabel l id) ->
  (forall q, nth_error p (S i) = Some q -> constant q = None) -> lookup p id = Some (address p i).
Proof.
  intros p i l id W Hi K. rewrite (lookup_at p i l id W Hi). unfold label_value.
  destruct (skipn (S i) p) as [|q r] eqn:E; [reflexivity|].
  rewrite (K q); [reflexivity|]. clear - E. revert p E. induction (S i) as [|t IH]; intros p E.
  - cbn [skipn] in E. rewrite E. reflexivity.
  - destruct p as [|a p]; [discriminate|]. cbn [nth_error]. apply IH. exact E.
Qed.

Lemma instruction_labelled : forall p i l id j l' m fields, NoDup (labels_of p) ->
  nth_error p i = Some (NLabel l id) -> (forall q, nth_error p (S i) = Some q -> constant q = None) ->
  nth_error p j = Some (NInstruction l' m fields) -> nothing_between p i j ->
  exists a, lookup p id = Some a /\ instruction_at p a.
Proof.
  intros p i l id j l' m fields W N K N' B. exists (address p i). split; [apply (lookup_address p i l id); assumption|].
  exists j, l', m, fields. split; [exact N'|].
  apply (address_nothing p i j B). apply Nat.lt_le_incl, nth_error_Some. congruence.
Qed.

(** ** The check *)

Lemma column_takes_fits : forall c f, column_takes c f = true <-> fits c f.
Proof.
  intros c f. split.
  - intros H.
    assert (V : forall f, is_value f = true -> existsb (String.eqb c) ["addr"; "nn"; "n"]%string = true -> fits c f).
    { intros g G E. apply existsb_exists in E. destruct E as (x & I & E). apply String.eqb_eq in E. subst x.
      apply fits_value; assumption. }
    destruct f as [v|r| | | | | | | |]; cbn [column_takes] in H; try (apply V; [reflexivity | exact H]);
      try (apply String.eqb_eq in H; subst c; constructor).
    apply orb_true_iff in H. destruct H as [H|H].
    + apply existsb_exists in H. destruct H as (x & [<- | [<- | []]] & E); apply String.eqb_eq in E; subst c; constructor.
    + apply andb_true_iff in H. destruct H as [H R]. apply String.eqb_eq in H. apply N.eqb_eq in R. subst. constructor.
  - intros H. destruct H as [| | | | | | | | | |o f V W]; try reflexivity.
    destruct f; try discriminate W; destruct V as [<- | [<- | [<- | []]]]; reflexivity.
Qed.

Lemma columns_take_fits : forall cs fs, columns_take cs fs = true <-> Forall2 fits cs fs.
Proof.
  induction cs as [|c cs IH]; intros [|f fs]; cbn [columns_take]; split; intros H; try discriminate H; try (inversion H; fail);
    try constructor.
  - apply andb_true_iff in H. apply column_takes_fits. tauto.
  - apply andb_true_iff in H. apply IH. tauto.
  - inversion H; subst. apply andb_true_iff. split; [apply column_takes_fits; assumption | apply IH; assumption].
Qed.

Lemma operands_said_denote : forall lookup cs fs os, Forall2 fits cs fs ->
  (operands_said lookup cs fs = Some os <-> denote_all lookup cs fs os).
Proof.
  intros lookup cs fs os F. revert os. induction F as [|c f cs fs H F IH]; intros os.
  - cbn [operands_said]. split; intros E; [injection E as <-; constructor | inversion E; reflexivity].
  - cbn [operands_said]. split.
    + intros E.
      match type of E with match ?x with _ => _ end = _ => destruct x as [o|] eqn:Eo; [|discriminate E] end.
      destruct (operands_said lookup cs fs) as [os'|] eqn:Es; [|discriminate E]. injection E as <-.
      constructor; [|apply IH; reflexivity]. split; [exact H|]. destruct f; try congruence.
      match type of Eo with match ?x with _ => _ end = _ => destruct x as [v|]; [|discriminate Eo] end. exists v. split; congruence.
    + intros E. inversion E as [|? ? ? ? o os' [_ D] D']; subst. apply IH in D'. rewrite D'.
      destruct f; try (rewrite D; reflexivity). destruct D as (v & -> & ->). reflexivity.
Qed.

Lemma said_says : forall lookup m fields i, statement_said lookup m fields = Some i <-> statement_says lookup m fields i.
Proof.
  intros lookup m fields i. unfold statement_said. split.
  - intros H. match type of H with match find ?g table with _ => _ end = _ => destruct (find g table) as [[[p n] cs]|] eqn:E end;
      [|discriminate H].
    apply find_some in E. destruct E as [I E]. cbn [fst snd] in *. apply andb_true_iff in E. destruct E as [E T].
    apply str_eqb_eq in E. apply columns_take_fits in T.
    destruct (operands_said lookup cs fields) as [os|] eqn:Eo; [|discriminate H]. injection H as <-.
    apply operands_said_denote in Eo; [|exact T]. exists p, n, cs, os. auto.
  - intros (p & n & cs & os & I & Nm & D & ->). pose proof (denote_fits _ _ _ _ D) as T.
    match goal with |- match find ?g table with _ => _ end = _ => destruct (find g table) as [[[p' n'] cs']|] eqn:E end.
    + apply find_some in E. destruct E as [I' E]. cbn [fst snd] in *. apply andb_true_iff in E. destruct E as [E T'].
      apply str_eqb_eq in E. apply columns_take_fits in T'.
      assert (Q : (p, n, cs) = (p', n', cs')) by (apply (row_for_one m fields); (split; [assumption|]; split; assumption)).
      injection Q as <- <- <-. apply operands_said_denote in D; [|exact T]. rewrite D. reflexivity.
    + exfalso. pose proof (find_none _ _ E _ I) as X. cbn [fst snd] in X.
      rewrite (proj2 (columns_take_fits cs fields) T) in X. rewrite (proj2 (str_eqb_eq _ _) Nm) in X. discriminate X.
Qed.

Lemma instructions_from_in : forall p a x, In x (instructions_from a p) <->
  exists k l m fields, nth_error p k = Some (NInstruction l m fields) /\ counter a (firstn k p) = x.
Proof.
  induction p as [|n p IH]; intros a x; cbn [instructions_from].
  - split; [intros [] | intros ([|k] & l & m & fields & N & _); discriminate N].
  - rewrite in_app_iff, IH. split.
    + intros [H|(k & l & m & fields & N & E)].
      * destruct n as [| |l m fields]; destruct H as [<- | []] || destruct H. exists 0%nat, l, m, fields. auto.
      * exists (S k), l, m, fields. auto.
    + intros ([|k] & l & m & fields & N & E).
      * injection N as ->. left. left. exact E.
      * right. exists k, l, m, fields. auto.
Qed.

Lemma instruction_there : forall p a, existsb (N.eqb a) (instructions_from 0 p) = true <-> instruction_at p a.
Proof.
  intros p a. rewrite existsb_exists. split.
  - intros (x & I & E). apply N.eqb_eq in E. subst x. apply instructions_from_in in I. exact I.
  - intros H. exists a. split; [apply instructions_from_in; exact H | apply N.eqb_refl].
Qed.

Lemma leads_within_leads : forall p a i,
  leads_within (fun a => existsb (N.eqb a) (instructions_from 0 p)) a i = true <-> leads p a i.
Proof.
  intros p a i. unfold leads_within, leads. destruct (flow_of i); rewrite ?andb_true_iff, ?instruction_there; try tauto.
  split; [discriminate | contradiction].
Qed.

Lemma each_leads_spec : forall lookup there p a, each_leads lookup there a p = true <->
  forall k l m fields i, nth_error p k = Some (NInstruction l m fields) -> statement_said lookup m fields = Some i ->
    leads_within there (counter a (firstn k p)) i = true.
Proof.
  intros lookup there. induction p as [|n p IH]; intros a; cbn [each_leads].
  - split; [intros _ [|k] l m fields i N; discriminate N | reflexivity].
  - rewrite andb_true_iff, IH. split.
    + intros [H H'] [|k] l m fields i N E.
      * injection N as ->. rewrite E in H. exact H.
      * exact (H' k l m fields i N E).
    + intros H. split.
      * destruct n as [| |l m fields]; try reflexivity. destruct (statement_said lookup m fields) as [i|] eqn:E; [|reflexivity].
        exact (H 0%nat l m fields i eq_refl E).
      * intros k l m fields i N E. exact (H (S k) l m fields i N E).
Qed.

Lemma check_spec : forall p, contained_check p = true <-> contained p.
Proof.
  intros p. unfold contained_check, contained. rewrite each_leads_spec. split; intros H k l m fields i N E.
  - apply said_says in E. apply leads_within_leads. exact (H k l m fields i N E).
  - apply leads_within_leads. apply said_says in E. exact (H k l m fields i N E).
Qed.

Lemma harmless_spec : forall p, harmless_check p = true <-> harmless p.
Proof.
  intros p. unfold harmless_check, harmless. rewrite forallb_forall. split.
  - intros H k l m fields i N Si. specialize (H _ (nth_error_In _ _ N)). cbv beta iota in H.
    apply said_says in Si. rewrite Si in H. destruct (stores i); [discriminate H | reflexivity].
  - intros H n I. apply In_nth_error in I. destruct I as (k & N). destruct n as [| |l m fields]; try reflexivity.
    destruct (statement_said (lookup p) m fields) as [i|] eqn:E; [|reflexivity].
    rewrite (H k l m fields i N (proj1 (said_says _ _ _ _) E)). reflexivity.
Qed.
