(** * KindProofs: the parser decides by the kinds of the tokens. *)

From Verif Require Import Base Text U12 Location Token Scanner Parser SpecLex SpecGrammar SpecErase SpecWrite SpecKind BaseFacts ParseProofs WriteProofs GlueProofs.
Open Scope N_scope.

Definition sorts := Forall2 same_sort.

Lemma sort_sym : forall t t', same_sort t t' -> same_sort t' t.
Proof. intros t t' []; constructor. Qed.

(** ** Accepted *)

Lemma literal_sort : forall t t' a, same_sort t t' -> literal_token t a -> exists a', literal_token t' a' /\ same_literal_sort a a'.
Proof. intros t t' a T L. inversion L; subst; inversion T; subst; eexists; (split; constructor). Qed.

Lemma operand_not_number : forall id v, operand id <> FNumeric v.
Proof. intros id v E. pose proof (operand_name id) as H. rewrite E in H. exact H. Qed.

Lemma field_sort : forall t t' a, same_sort t t' -> field_token t a -> exists a', field_token t' a' /\ same_operand_sort a a'.
Proof.
  intros t t' a T L. inversion L; subst; inversion T; subst; eexists; (split; [constructor|]).
  - apply sf_number.
  - apply sf_name; apply operand_not_number.
Qed.

Lemma field_kind : forall t t' a, same_sort t t' -> field_token t a -> exists a', field_token t' a'.
Proof. intros t t' a T L. destruct (field_sort _ _ _ T L) as (a' & L' & _). eauto. Qed.

Lemma literals_sort : forall ts args rest, literals ts args rest -> forall ts', sorts ts ts' ->
  exists args' rest', literals ts' args' rest' /\ Forall2 same_literal_sort args args' /\ sorts rest rest'.
Proof.
  induction 1 as [l rest | t a rest L | t a l ts args rest L _ IH]; intros ts' F.
  - inversion F as [|x t' y r T E]; subst. inversion T; subst. exists [], (Newline l' :: r).
    split; [constructor|]. split; [constructor|]. constructor; assumption.
  - inversion F as [|x t' y r T E]; subst. destruct (literal_sort _ _ _ T L) as (a' & L' & A). exists [a'], r.
    split; [constructor; exact L'|]. split; [constructor; [exact A | constructor] | exact E].
  - inversion F as [|x t' y r T E]; subst. inversion E as [|x c' y r2 C E2]; subst. inversion C; subst.
    destruct (literal_sort _ _ _ T L) as (a' & L' & A). destruct (IH _ E2) as (args' & rest' & Ls & Fa & Fr).
    exists (a' :: args'), rest'. split; [constructor; assumption|]. split; [constructor; assumption | exact Fr].
Qed.

Lemma fields_sort : forall ts args rest, fields ts args rest -> forall ts', sorts ts ts' ->
  exists args' rest', fields ts' args' rest' /\ Forall2 same_operand_sort args args' /\ sorts rest rest'.
Proof.
  induction 1 as [l rest | c l rest | t a rest L | t a l ts args rest L _ IH]; intros ts' F.
  - inversion F as [|x t' y r T E]; subst. inversion T; subst. exists [], (Newline l' :: r).
    split; [constructor|]. split; [constructor|]. constructor; assumption.
  - inversion F as [|x t' y r T E]; subst. inversion T; subst. exists [], (SingleLineComment c' l' :: r).
    split; [constructor|]. split; [constructor|]. constructor; assumption.
  - inversion F as [|x t' y r T E]; subst. destruct (field_sort _ _ _ T L) as (a' & L' & A). exists [a'], r.
    split; [constructor; exact L'|]. split; [constructor; [exact A | constructor] | exact E].
  - inversion F as [|x t' y r T E]; subst. inversion E as [|x c' y r2 C E2]; subst. inversion C; subst.
    destruct (field_sort _ _ _ T L) as (a' & L' & A). destruct (IH _ E2) as (args' & rest' & Ls & Fa & Fr).
    exists (a' :: args'), rest'. split; [constructor; assumption|]. split; [constructor; assumption | exact Fr].
Qed.

Theorem program_sort : forall ts p, program ts p -> forall ts', sorts ts ts' ->
  exists p', program ts' p' /\ Forall2 same_shape p p'.
Proof.
  induction 1 as [|l ts ns _ IH | c l ts ns _ IH | l0 id l ts args rest ns L _ IH | id l l1 ts ns _ IH | id l ts args rest ns L _ IH];
    intros ts' F.
  - inversion F; subst. exists []. split; constructor.
  - inversion F as [|x t' y r T E]; subst. inversion T; subst. destruct (IH _ E) as (p' & P & Q).
    exists p'. split; [constructor|]; assumption.
  - inversion F as [|x t' y r T E]; subst. inversion T; subst. destruct (IH _ E) as (p' & P & Q).
    exists p'. split; [constructor|]; assumption.
  - inversion F as [|x t' y r T E]; subst. inversion T; subst. inversion E as [|x t2 y r2 T2 E2]; subst. inversion T2; subst.
    destruct (literals_sort _ _ _ L _ E2) as (args' & rest' & L' & Fa & Fr). destruct (IH _ Fr) as (p' & P & Q).
    eexists. split; [econstructor; eassumption|]. constructor; [constructor; exact Fa | exact Q].
  - inversion F as [|x t' y r T E]; subst. inversion T; subst. inversion E as [|x t2 y r2 T2 E2]; subst. inversion T2; subst.
    destruct (IH _ E2) as (p' & P & Q). eexists. split; [constructor; exact P|]. constructor; [constructor | exact Q].
  - inversion F as [|x t' y r T E]; subst. inversion T; subst.
    destruct (fields_sort _ _ _ L _ E) as (args' & rest' & L' & Fa & Fr). destruct (IH _ Fr) as (p' & P & Q).
    eexists. split; [econstructor; eassumption|]. constructor; [constructor; exact Fa | exact Q].
Qed.

(** ** Refused *)

Inductive same_option : option token -> option token -> Prop :=
| so_none : same_option None None
| so_some : forall t t', same_sort t t' -> same_option (Some t) (Some t').

Lemma head_sort : forall ts ts', sorts ts ts' -> same_option (hd_error ts) (hd_error ts').
Proof. intros ts ts' []; constructor; assumption. Qed.

(** A test which looks at the kind only. *)
Definition of_sort (p : token -> bool) : Prop := forall t t', same_sort t t' -> p t = p t'.

Ltac by_sort := intros ? ? []; reflexivity.

Lemma option_sort : forall p f f', of_sort p -> same_option f f' -> option_map p f = option_map p f'.
Proof. intros p f f' S [|t t' T]; [reflexivity|]. cbn [option_map]. rewrite (S _ _ T). reflexivity. Qed.

Section Chunks.
  Context {A : Type} (item : token -> A -> Prop) (stop : token -> bool).
  Hypothesis item_sort : forall t t' a, same_sort t t' -> item t a -> exists a', item t' a'.
  Hypothesis stop_sort : of_sort stop.

  Lemma chunk_sort : forall c args f, chunk item stop c args f -> forall c' f', sorts c c' -> same_option f f' ->
    exists args', chunk item stop c' args' f'.
  Proof.
    induction 1 as [t St | t a f I C | t a l c args f I _ IH]; intros c2 f2 Fc Ff.
    - inversion Fc; subst. inversion Ff; subst. exists []. constructor. rewrite <- (stop_sort _ _ H0). exact St.
    - inversion Fc as [|x t' y r T E]; subst. inversion E; subst. destruct (item_sort _ _ _ T I) as (a' & I').
      exists [a']. constructor; [exact I'|]. rewrite <- (option_sort is_comma f f2); [exact C | by_sort | exact Ff].
    - inversion Fc as [|x t' y r T E]; subst. inversion E as [|x c' y r2 T2 E2]; subst. inversion T2; subst.
      destruct (item_sort _ _ _ T I) as (a' & I'). destruct (IH _ _ E2 Ff) as (args' & H). exists (a' :: args').
      constructor; assumption.
  Qed.

  Lemma chunk_err_sort : forall b f, chunk_err item stop b f -> forall b' f', sorts b b' -> same_option f f' ->
    chunk_err item stop b' f'.
  Proof.
    induction 1 as [f N | t a l b f I _ IH]; intros b2 f2 Fb Ff.
    - inversion Fb; subst. constructor. intros t' ->. inversion Ff as [|t x T]; subst.
      destruct (N t eq_refl) as [S Na]. split; [rewrite <- (stop_sort _ _ T); exact S|].
      intros a Ia. destruct (item_sort _ _ _ (sort_sym _ _ T) Ia) as (a' & Ia'). exact (Na a' Ia').
    - inversion Fb as [|x t' y r T E]; subst. inversion E as [|x c' y r2 T2 E2]; subst. inversion T2; subst.
      destruct (item_sort _ _ _ T I) as (a' & I'). econstructor; [exact I' | exact (IH _ _ E2 Ff)].
  Qed.
End Chunks.

Lemma literal_some : forall t t' a, same_sort t t' -> literal_token t a -> exists a', literal_token t' a'.
Proof. intros t t' a T L. destruct (literal_sort _ _ _ T L) as (a' & L' & _). exists a'. exact L'. Qed.

Lemma newline_sort : of_sort is_newline. Proof. by_sort. Qed.
Lemma field_stop_sort : of_sort field_stop. Proof. by_sort. Qed.

Lemma option_list_sort : forall f f', same_option f f' -> sorts (opt_list f) (opt_list f').
Proof. intros f f' [|t t' T]; [constructor | constructor; [exact T | constructor]]. Qed.

Theorem program_err_sort : forall b f e, program_err b f e -> forall b' f', sorts b b' -> same_option f f' ->
  program_err b' f' e.
Proof.
  assert (Look : forall b f b' f', sorts b b' -> same_option f f' ->
    same_option (hd_error (b ++ opt_list f)) (hd_error (b' ++ opt_list f'))).
  { intros b f b' f' B F. apply head_sort. apply Forall2_app; [exact B | apply option_list_sort; exact F]. }
  induction 1 as [t St | l b f e _ IH | c l b f e _ IH | l0 f Ni | l0 id l b f L | l0 id l c args b f e L _ IH
                 | id l l1 b f e _ IH | id l b f L Nc | id l c args b f e L _ IH]; intros b2 f2 Fb Ff.
  - inversion Fb; subst. inversion Ff as [|x t' T]; subst. constructor. rewrite <- St. symmetry.
    revert T. clear. intros T. destruct T; reflexivity.
  - inversion Fb as [|x t' y r T E]; subst. inversion T; subst. constructor. exact (IH _ _ E Ff).
  - inversion Fb as [|x t' y r T E]; subst. inversion T; subst. constructor. exact (IH _ _ E Ff).
  - inversion Fb as [|x t' y r T E]; subst. inversion T; subst. inversion E; subst. constructor.
    rewrite <- (option_sort is_identifier f f2); [exact Ni | by_sort | exact Ff].
  - inversion Fb as [|x t' y r T E]; subst. inversion T; subst. inversion E as [|x t2 y r2 T2 E2]; subst. inversion T2; subst.
    constructor. exact (chunk_err_sort _ _ literal_some newline_sort _ _ L _ _ E2 Ff).
  - inversion Fb as [|x t' y r T E]; subst. inversion T; subst. inversion E as [|x t2 y r2 T2 E2]; subst. inversion T2; subst.
    apply Forall2_app_inv_l in E2. destruct E2 as (c' & b' & Ec & Eb & ->).
    destruct (chunk_sort _ _ literal_some newline_sort _ _ _ L _ _ Ec (Look _ _ _ _ Eb Ff)) as (args' & L').
    econstructor; [exact L' | exact (IH _ _ Eb Ff)].
  - inversion Fb as [|x t' y r T E]; subst. inversion T; subst. inversion E as [|x t2 y r2 T2 E2]; subst. inversion T2; subst.
    constructor. exact (IH _ _ E2 Ff).
  - inversion Fb as [|x t' y r T E]; subst. inversion T; subst. constructor.
    + exact (chunk_err_sort _ _ field_kind field_stop_sort _ _ L _ _ E Ff).
    + rewrite <- (option_sort is_colon _ _ ltac:(by_sort) (Look _ _ _ _ E Ff)). exact Nc.
  - inversion Fb as [|x t' y r T E]; subst. inversion T; subst. apply Forall2_app_inv_l in E. destruct E as (c' & b' & Ec & Eb & ->).
    destruct (chunk_sort _ _ field_kind field_stop_sort _ _ _ L _ _ Ec (Look _ _ _ _ Eb Ff)) as (args' & L').
    econstructor; [exact L' | exact (IH _ _ Eb Ff)].
Qed.

Theorem refused_sort : forall ts err, parse ts = Done (Err err) -> forall ts', sorts ts ts' ->
  exists b r b' r' e, ts = b ++ r /\ ts' = b' ++ r' /\ sorts b b' /\ sorts r r' /\
    err = syntax_error (hd_error r) e /\ program_err b (hd_error r) e /\ parse ts' = Done (Err (syntax_error (hd_error r') e)).
Proof.
  intros ts err P ts' F. destruct (parse_cases ts) as [(ns & _ & E)|(b & r & e & -> & H & E)]; rewrite P in E; [discriminate E|].
  injection E as ->. apply Forall2_app_inv_l in F. destruct F as (b' & r' & Fb & Fr & ->).
  exists b, r, b', r', e. split; [reflexivity|]. split; [reflexivity|]. split; [exact Fb|]. split; [exact Fr|]. split; [reflexivity|].
  split; [exact H|]. unfold parse. apply parse_program_err; [|reflexivity|lia]. exact (program_err_sort _ _ _ H _ _ Fb (head_sort _ _ Fr)).
Qed.

(** ** Statements of the same shape are written with tokens of the same kinds *)

Lemma commas_sort : forall l l', sorts l l' -> sorts (commas l) (commas l').
Proof.
  induction 1 as [|t t' l l' T F IH]; [constructor|]. destruct F as [|t2 t2' l l' T2 F]; [constructor; [exact T | constructor]|].
  change (sorts (t :: Comma nowhere :: commas (t2 :: l)) (t' :: Comma nowhere :: commas (t2' :: l'))).
  constructor; [exact T|]. constructor; [constructor | exact IH].
Qed.

Lemma node_tokens_sort : forall n n', same_shape n n' -> sorts (node_tokens n) (node_tokens n').
Proof.
  intros n n' [l l' id id' args args' F | l l' id id' | l l' m m' fs fs' F]; cbn [node_tokens].
  - constructor; [constructor|]. constructor; [constructor|]. apply Forall2_app; [|constructor; constructor].
    apply commas_sort. induction F as [|a a' args args' A _ IH]; cbn [map]; constructor; [destruct A; constructor | exact IH].
  - repeat constructor.
  - constructor; [constructor|]. apply Forall2_app; [|constructor; constructor].
    apply commas_sort. induction F as [|f f' fs fs' A _ IH]; cbn [map]; constructor; [|exact IH].
    destruct A as [v v' | f f' N N']; [constructor|].
    destruct f; try (exfalso; eapply N; reflexivity); destruct f'; try (exfalso; eapply N'; reflexivity); constructor.
Qed.

Lemma nodes_tokens_sort : forall p p', Forall2 same_shape p p' -> sorts (flat_map node_tokens p) (flat_map node_tokens p').
Proof.
  induction 1 as [|n n' p p' N _ IH]; [constructor|]. cbn [flat_map]. apply Forall2_app; [apply node_tokens_sort; exact N | exact IH].
Qed.

Lemma bare_sort : forall t, same_sort t (bare t).
Proof. intros []; constructor. Qed.

Lemma sort_trans : forall a b c, same_sort a b -> same_sort b c -> same_sort a c.
Proof. intros a b c [] H; inversion H; constructor. Qed.

Lemma sorts_trans : forall a b c, sorts a b -> sorts b c -> sorts a c.
Proof.
  intros a b c H. revert c. induction H as [|x y a b X _ IH]; intros c H; inversion H as [|y' z b' c' Y B]; subst; constructor;
    [exact (sort_trans _ _ _ X Y) | apply IH; exact B].
Qed.

Lemma bare_sorts : forall ts, sorts ts (map bare ts).
Proof. induction ts; constructor; [apply bare_sort | assumption]. Qed.

Lemma sorts_sym : forall a b, sorts a b -> sorts b a.
Proof. induction 1; constructor; [apply sort_sym; assumption | assumption]. Qed.

Lemma shape_bare : forall p p' q q', Forall2 same_shape p p' -> same_program p q -> same_program p' q' -> Forall2 same_shape q q'.
Proof.
  unfold same_program. intros p p' q q' F. revert q q'.
  induction F as [|n n' p p' N _ IH]; intros q q' E E'; (destruct q as [|x q]; [|try discriminate E]); (destruct q' as [|x' q']; [|try discriminate E']);
    try discriminate E; try discriminate E'; [constructor|].
  cbn [map] in E, E'. injection E as E0 E. injection E' as E0' E'. constructor; [|apply IH; assumption].
  destruct N; destruct x; try discriminate E0; destruct x'; try discriminate E0'; cbn [bare_node] in E0, E0'; injection E0; injection E0'; intros; subst; constructor; assumption.
Qed.
