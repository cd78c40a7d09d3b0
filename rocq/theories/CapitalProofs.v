(** * CapitalProofs: to the scanner and the parser the letters are alike in either case. *)

From Verif Require Import Base Text U12 Location Token Scanner Parser SpecLex SpecGrammar SpecOpcode SpecMeta SpecPlace
  SpecBlank SpecCapital BaseFacts LexProofs ScanProofs LexTheorems LexAppend ParseProofs CaseProofs OperandProofs BlankProofs.
Open Scope N_scope.

(** ** Characters *)

Definition small_letters : str := u "abcdefghijklmnopqrstuvwxyz".

Lemma upper_cases : forall c, upper c = c \/ In c small_letters.
Proof.
  intros c. unfold upper. destruct ((97 <=? c) && (c <=? 122)) eqn:E; [right | left; reflexivity].
  apply andb_prop in E. destruct E as [A B]. apply N.leb_le in A, B.
  assert (K : forallb (fun k => existsb (N.eqb (97 + N.of_nat k)) small_letters) (seq 0 26) = true) by (vm_compute; reflexivity).
  rewrite forallb_forall in K. specialize (K (N.to_nat (c - 97))).
  assert (I : In (N.to_nat (c - 97)) (seq 0 26)) by (apply in_seq; lia).
  specialize (K I). apply existsb_exists in K. destruct K as (d & Id & Ed). apply N.eqb_eq in Ed.
  replace c with d by lia. exact Id.
Qed.

(** A function of characters which does not tell the cases apart. *)
Lemma upper_blind : forall (A : Type) (eqb : A -> A -> bool) (p : char -> A),
  (forall x y, eqb x y = true -> x = y) -> forallb (fun c => eqb (p c) (p (upper c))) small_letters = true ->
  forall c c', upper c = upper c' -> p c = p c'.
Proof.
  intros A eqb p Q H. assert (U : forall c, p c = p (upper c)).
  { intros c. destruct (upper_cases c) as [-> | I]; [reflexivity|]. apply Q. rewrite forallb_forall in H. exact (H c I). }
  intros c c' E. rewrite (U c), (U c'), E. reflexivity.
Qed.

Lemma eqb_blind : forall p, forallb (fun c => Bool.eqb (p c) (p (upper c))) small_letters = true ->
  forall c c', upper c = upper c' -> p c = p c'.
Proof. intros p. apply upper_blind. exact eqb_prop. Qed.

Definition letter (c : char) : bool := existsb (N.eqb c) (u letters).

Lemma not_letter : forall c c', upper c = upper c' -> letter c = false -> c = c'.
Proof.
  assert (U : forall c, letter c = false -> upper c = c).
  { intros c L. destruct (upper_cases c) as [E | I]; [exact E|].
    assert (K : forallb letter small_letters = true) by (vm_compute; reflexivity).
    rewrite forallb_forall in K. rewrite (K c I) in L. discriminate L. }
  intros c c' E L. assert (L' : letter c' = false).
  { rewrite <- L. symmetry. apply (eqb_blind letter); [vm_compute; reflexivity | exact E]. }
  rewrite <- (U c L), <- (U c' L'). exact E.
Qed.

Lemma digit_blind : forall c c', upper c = upper c' -> digit c = digit c'.
Proof. apply (upper_blind N N.eqb). - intros x y E. apply N.eqb_eq. exact E. - vm_compute. reflexivity. Qed.

Lemma lf_blind : forall c c', upper c = upper c' -> (c =? LF) = (c' =? LF).
Proof. apply eqb_blind. vm_compute. reflexivity. Qed.

Lemma blank_blind : forall c c', upper c = upper c' -> blank c = blank c'.
Proof. apply eqb_blind. vm_compute. reflexivity. Qed.

(** ** Texts *)

Lemma sbc_sym : forall s s', same_but_case s s' -> same_but_case s' s.
Proof. unfold same_but_case. congruence. Qed.

Lemma sbc_cons : forall c s s', same_but_case (c :: s) s' ->
  exists c' r, s' = c' :: r /\ upper c = upper c' /\ same_but_case s r.
Proof.
  unfold same_but_case. intros c s [|c' r] H; [discriminate H|]. cbn [map] in H. injection H as H1 H2.
  exists c', r. auto.
Qed.

Lemma sbc_nil : forall s', same_but_case [] s' -> s' = [].
Proof. unfold same_but_case. intros [|c r] H; [reflexivity | discriminate H]. Qed.

Lemma sbc_app : forall a a' b b', same_but_case a a' -> same_but_case b b' -> same_but_case (a ++ b) (a' ++ b').
Proof. unfold same_but_case. intros. rewrite !map_app. congruence. Qed.

Lemma sbc_split : forall a b s', same_but_case (a ++ b) s' ->
  exists a' b', s' = a' ++ b' /\ same_but_case a a' /\ same_but_case b b'.
Proof.
  induction a as [|c a IH]; intros b s' H.
  - exists [], s'. auto using sbc_sym. repeat split; auto.
  - cbn [app] in H. apply sbc_cons in H. destruct H as (c' & r & -> & C & H).
    apply IH in H. destruct H as (a' & b' & -> & A & B). exists (c' :: a'), b'. repeat split; [|exact B].
    unfold same_but_case in *. cbn [map]. congruence.
Qed.

Lemma sbc_length : forall s s', same_but_case s s' -> length s = length s'.
Proof. unfold same_but_case. intros s s' H. rewrite <- (map_length upper s), H. apply map_length. Qed.

Lemma sbc_ind2 : forall P : str -> str -> Prop, P [] [] ->
  (forall c c' s s', upper c = upper c' -> same_but_case s s' -> P s s' -> P (c :: s) (c' :: s')) ->
  forall s s', same_but_case s s' -> P s s'.
Proof.
  intros P P0 P1. induction s as [|c s IH]; intros s' H.
  - apply sbc_nil in H. subst s'. exact P0.
  - apply sbc_cons in H. destruct H as (c' & r & -> & C & H). apply P1; auto.
Qed.

Lemma sbc_newlines : forall s s', same_but_case s s' -> newlines s = newlines s'.
Proof.
  unfold newlines. intros s s' H. f_equal. revert s s' H. apply sbc_ind2; [reflexivity|].
  intros c c' s s' C _ IH. apply lf_blind in C.
  cbn [count_occ]. destruct (N.eq_dec c LF) as [->|Nc]; destruct (N.eq_dec c' LF) as [->|Nc'].
  - rewrite IH. reflexivity.
  - apply N.eqb_neq in Nc'. rewrite Nc', N.eqb_refl in C. discriminate C.
  - apply N.eqb_neq in Nc. rewrite Nc, N.eqb_refl in C. discriminate C.
  - exact IH.
Qed.

Lemma sbc_has_lf : forall s s', same_but_case s s' -> existsb (N.eqb LF) s = existsb (N.eqb LF) s'.
Proof.
  apply sbc_ind2; [reflexivity|]. intros c c' s s' C _ IH. apply lf_blind in C. cbn [existsb].
  rewrite IH, (N.eqb_sym LF c), (N.eqb_sym LF c'), C. reflexivity.
Qed.

Lemma sbc_last_line : forall s s', same_but_case s s' -> length (last_line s) = length (last_line s').
Proof.
  apply sbc_ind2; [reflexivity|]. intros c c' s s' C H IH. cbn [last_line].
  assert (E : same_but_case (c :: s) (c' :: s')) by (unfold same_but_case in *; cbn [map]; congruence).
  rewrite (sbc_has_lf _ _ E). destruct (existsb (N.eqb LF) (c' :: s')); [exact IH | apply sbc_length; exact E].
Qed.

Lemma sbc_first_line : forall s s', same_but_case s s' -> length (first_line s) = length (first_line s').
Proof.
  apply sbc_ind2; [reflexivity|]. intros c c' s s' C H IH. cbn [first_line].
  rewrite (lf_blind _ _ C). destruct (c' =? LF); [reflexivity | cbn [length]; rewrite IH; reflexivity].
Qed.

Lemma sbc_located : forall file before before' m m', same_but_case before before' -> same_but_case m m' ->
  located file before m = located file before' m'.
Proof.
  intros file before before' m m' B M. unfold located.
  rewrite (sbc_newlines _ _ B), (sbc_last_line _ _ B), (sbc_first_line _ _ M). reflexivity.
Qed.

Lemma sbc_no_letter : forall s s', same_but_case s s' -> Forall (fun c => letter c = false) s -> s = s'.
Proof.
  apply (sbc_ind2 (fun s s' => Forall (fun c => letter c = false) s -> s = s')); [reflexivity|].
  intros c c' s s' C _ IH F. inversion F as [|x y Fc Fs]; subst. rewrite (not_letter _ _ C Fc), (IH Fs). reflexivity.
Qed.

Lemma sbc_positional : forall base s s', same_but_case s s' -> positional base s = positional base s'.
Proof.
  intros base. apply sbc_ind2; [reflexivity|]. intros c c' s s' C H IH. cbn [positional].
  rewrite (digit_blind _ _ C), (sbc_length _ _ H), IH. reflexivity.
Qed.

(** ** Patterns *)

Fixpoint case_blind (r : re) : Prop :=
  match r with
  | Chr p => forall c c', upper c = upper c' -> p c = p c'
  | Eps => True
  | Cat a b | Alt a b => case_blind a /\ case_blind b
  | Star a => case_blind a
  end.

Lemma pattern_blind : forall k, case_blind (pattern k).
Proof.
  destruct k; unfold Plus, Opt; cbn [pattern case_blind lit Plus Opt]; repeat match goal with |- _ /\ _ => split end;
    first [exact I | apply eqb_blind; vm_compute; reflexivity].
Qed.

Lemma blind_match : forall r s, rmatch r s -> case_blind r -> forall s', same_but_case s s' -> rmatch r s'.
Proof.
  induction 1 as [p c P | | a b s t _ IHa _ IHb | a b s _ IH | a b s _ IH | a | a s t _ IHs _ IHt];
    cbn [case_blind]; intros U s' E.
  - apply sbc_cons in E. destruct E as (c' & r & -> & C & E). apply sbc_nil in E. subst r. constructor.
    rewrite <- (U c c' C). exact P.
  - apply sbc_nil in E. subst s'. constructor.
  - apply sbc_split in E. destruct E as (a' & b' & -> & A & B). constructor; [apply IHa | apply IHb]; tauto.
  - apply m_alt_l, IH; tauto.
  - apply m_alt_r, IH; tauto.
  - apply sbc_nil in E. subst s'. constructor.
  - apply sbc_split in E. destruct E as (a' & b' & -> & A & B). constructor; [apply IHs | apply IHt]; tauto.
Qed.

(** Patterns of which no letter is part. *)
Fixpoint free_of_letters (r : re) : Prop :=
  match r with
  | Chr p => forall c, letter c = true -> p c = false
  | Eps => True
  | Cat a b | Alt a b => free_of_letters a /\ free_of_letters b
  | Star a => free_of_letters a
  end.

Lemma on_letters : forall (p : char -> bool), forallb (fun c => negb (p c)) (u letters) = true ->
  forall c, letter c = true -> p c = false.
Proof.
  intros p H c L. unfold letter in L. apply existsb_exists in L. destruct L as (d & I & E). apply N.eqb_eq in E. subst d.
  rewrite forallb_forall in H. apply negb_true_iff. apply H. exact I.
Qed.

Definition unlettered (k : kind) : bool :=
  match k with KDot | KColon | KComma | KNewline | KBin | KDec => true | _ => false end.

Lemma pattern_unlettered : forall k, unlettered k = true -> free_of_letters (pattern k).
Proof.
  destruct k; intros E; try discriminate E; unfold Plus, Opt; cbn [pattern free_of_letters lit Plus Opt];
    repeat match goal with |- _ /\ _ => split end; first [exact I | apply on_letters; vm_compute; reflexivity].
Qed.

Lemma letterless_match : forall r s, rmatch r s -> free_of_letters r -> Forall (fun c => letter c = false) s.
Proof.
  induction 1 as [p c P | | a b s t _ IHa _ IHb | a b s _ IH | a b s _ IH | a | a s t _ IHs _ IHt];
    cbn [free_of_letters]; intros U; try apply Forall_app; try tauto; try (constructor; fail).
  constructor; [|constructor]. destruct (letter c) eqn:B; [|reflexivity]. rewrite (U c B) in P. discriminate P.
Qed.

Lemma spelling_kept : forall k m m', rmatch (pattern k) m -> same_but_case m m' -> unlettered k = true -> m = m'.
Proof.
  intros k m m' R E K. apply sbc_no_letter; [exact E|]. exact (letterless_match _ _ R (pattern_unlettered k K)).
Qed.

(** ** Lexemes and tokens *)

Lemma sbc_lexeme : forall k m rest s, lexeme k m rest s -> forall m' rest',
  same_but_case m m' -> same_but_case rest rest' -> lexeme k m' rest' (m' ++ rest').
Proof.
  intros k m rest s (-> & R & Max) m' rest' M E0. split; [reflexivity|].
  split; [exact (blind_match _ _ R (pattern_blind k) _ M)|].
  intros k2 m2 rest2 E R2.
  assert (A : same_but_case (m2 ++ rest2) (m ++ rest)).
  { rewrite <- E. apply sbc_sym, sbc_app; assumption. }
  apply sbc_split in A. destruct A as (m1 & rest1 & E1 & A1 & A2).
  pose proof (Max k2 m1 rest1 E1 (blind_match _ _ R2 (pattern_blind k2) _ A1)) as Le.
  rewrite (sbc_length _ _ A1), <- (sbc_length _ _ M). exact Le.
Qed.

Section Spelling.
  Variable R : char -> char -> Prop.
  Hypothesis R_case : forall c c', R c c' -> upper c = upper c'.

  Lemma spelled_case : forall s s', Forall2 R s s' -> same_but_case s s'.
  Proof.
    unfold same_but_case. induction 1 as [|c c' s s' C _ IH]; [reflexivity|].
    cbn [map]. rewrite IH, (R_case _ _ C). reflexivity.
  Qed.

  Lemma quote_spelled : forall c', R QUOTE c' -> c' = QUOTE.
  Proof. intros c' H. symmetry. apply not_letter; [exact (R_case _ _ H) | vm_compute; reflexivity]. Qed.

  Lemma spelled_token : forall file before k m t, token_of file before k m t -> rmatch (pattern k) m ->
    forall before' m', same_but_case before before' -> Forall2 R m m' ->
    exists t', token_of file before' k m' t' /\ respelled R t t'.
  Proof.
    intros file before k m t T Rm before' m' B F. pose proof (spelled_case _ _ F) as M.
    destruct T as [m|m|m|m|m|b|c d|c d V|d V|m|m];
    try (pose proof (spelling_kept _ _ _ Rm M eq_refl); subst m';
         rewrite (sbc_located file _ _ _ _ B M); eexists; (split; [constructor; assumption || idtac | apply rs_token; reflexivity])).
    - rewrite (sbc_located file _ _ _ _ B M). eexists. split; [constructor | apply rs_comment; exact F].
    - rewrite (sbc_located file _ _ _ _ B M).
      inversion F as [|x c1 y z C E]; subst. apply quote_spelled in C. subst c1.
      apply Forall2_app_inv_l in E. destruct E as (b' & q & E1 & E2 & ->).
      inversion E2 as [|x c2 y z' C2 E3]; subst. inversion E3; subst. apply quote_spelled in C2. subst c2.
      eexists. split; [constructor | apply rs_string; exact E1].
    - rewrite (sbc_located file _ _ _ _ B M). inversion F as [|x c1 y d' C E]; subst.
      rewrite (sbc_positional 16 _ _ (spelled_case _ _ E)). eexists. split; [constructor | apply rs_token; reflexivity].
    - rewrite (sbc_located file _ _ _ _ B M). eexists. split; [constructor | apply rs_name; exact F].
    - rewrite (sbc_located file _ _ _ _ B M). eexists. split; [constructor | apply rs_name; exact F].
  Qed.

  Lemma bad_unlettered : forall k m e, bad_lexeme k m e -> unlettered k = true.
  Proof. intros k m e []; reflexivity. Qed.

  (** A letter starts a name, so it is never where the scanner is stuck. *)
  Lemma stuck_no_letter : forall c s, (forall k m rest, c :: s = m ++ rest -> ~ rmatch (pattern k) m) -> letter c = false.
  Proof.
    intros c s N. destruct (letter c) eqn:L; [|reflexivity]. exfalso.
    apply (N KIdentifier [c] s); [reflexivity|]. cbn [pattern]. change [c] with ([c] ++ []).
    constructor; [|constructor]. constructor. unfold letter in L. unfold among. rewrite L. reflexivity.
  Qed.

  Theorem lexes_spelled : forall file before s ts, lexes file before s ts -> forall before' s',
    Forall2 R before before' -> Forall2 R s s' ->
    exists ts', lexes file before' s' ts' /\ Forall2 (respelled R) ts ts'.
  Proof.
    intros file before s ts H.
    induction H as [before | before c s ts B _ IH | before s k m rest t ts L T _ IH | before s k m rest e L Bd | before c s B N];
      intros before' s' Hb Hs.
    - inversion Hs; subst. exists []. split; constructor.
    - inversion Hs as [|x c' y r C E]; subst.
      assert (B' : blank c' = true) by (rewrite <- (blank_blind _ _ (R_case _ _ C)); exact B).
      destruct (IH (before' ++ [c']) r) as (ts' & L' & F);
        [apply Forall2_app; [exact Hb | constructor; [exact C | constructor]] | exact E|].
      exists ts'. split; [apply lex_blank; assumption | exact F].
    - pose proof L as (E & Rm & _). rewrite E in Hs. apply Forall2_app_inv_l in Hs.
      destruct Hs as (m' & rest' & M & E' & ->).
      destruct (spelled_token _ _ _ _ _ T Rm _ _ (spelled_case _ _ Hb) M) as (t' & T' & St).
      destruct (IH (before' ++ m') rest') as (ts' & L' & F); [apply Forall2_app; assumption | exact E'|].
      exists (t' :: ts'). split; [|constructor; assumption].
      apply (lex_token file before' (m' ++ rest') k m' rest' t' ts');
        [exact (sbc_lexeme _ _ _ _ L _ _ (spelled_case _ _ M) (spelled_case _ _ E')) | exact T' | exact L'].
    - pose proof L as (E & Rm & _). rewrite E in Hs. apply Forall2_app_inv_l in Hs.
      destruct Hs as (m' & rest' & M & E2 & ->).
      pose proof (spelling_kept _ _ _ Rm (spelled_case _ _ M) (bad_unlettered _ _ _ Bd)) as E'.
      exists [ErrorToken e (located file before m)]. split; [|constructor; [apply rs_token; reflexivity | constructor]].
      rewrite (sbc_located file _ _ _ _ (spelled_case _ _ Hb) (spelled_case _ _ M)).
      apply (lex_bad file before' (m' ++ rest') k m' rest' e);
        [exact (sbc_lexeme _ _ _ _ L _ _ (spelled_case _ _ M) (spelled_case _ _ E2)) | rewrite <- E'; exact Bd].
    - inversion Hs as [|x c' y r C E]; subst.
      pose proof (not_letter _ _ (R_case _ _ C) (stuck_no_letter _ _ N)) as Ec. subst c'.
      exists [ErrorToken (no_lexeme_error c) (located file before [c])]. split; [|constructor; [apply rs_token; reflexivity | constructor]].
      rewrite (sbc_located file _ _ [c] [c] (spelled_case _ _ Hb) eq_refl). apply lex_stuck; [exact B|].
      intros k m' rest' E1 R'.
      assert (A : same_but_case (m' ++ rest') (c :: s)).
      { rewrite <- E1. apply sbc_sym, spelled_case. constructor; assumption. }
      apply sbc_split in A. destruct A as (m & rest & E2 & A1 & _).
      exact (N k m rest E2 (blind_match _ _ R' (pattern_blind k) _ A1)).
  Qed.

  (** ** The parser *)

  (** A respelling which keeps the strings. *)
  Inductive respelled_name : token -> token -> Prop :=
  | rk_token : forall t, has_spelling t = false -> respelled_name t t
  | rk_comment : forall m m' l, respelled_name (SingleLineComment m l) (SingleLineComment m' l)
  | rk_string : forall b l, respelled_name (StringLiteral b l) (StringLiteral b l)
  | rk_name : forall m m' l, Forall2 R m m' -> respelled_name (Identifier m l) (Identifier m' l).

  Lemma strings_kept : forall ts ts', Forall2 (respelled R) ts ts' -> strings ts = strings ts' ->
    Forall2 respelled_name ts ts'.
  Proof.
    induction 1 as [|t t' ts ts' T _ IH]; [constructor|]. destruct T as [t E | m m' l M | b b' l B | m m' l M]; cbn [strings flat_map].
    - intros H. apply app_inv_head in H. constructor; [apply rk_token; exact E | exact (IH H)].
    - intros H. constructor; [apply rk_comment | exact (IH H)].
    - intros H. cbn [app] in H. injection H as -> H. constructor; [apply rk_string | exact (IH H)].
    - intros H. constructor; [apply rk_name; exact M | exact (IH H)].
  Qed.

  Lemma operand_spelled : forall m m', Forall2 R m m' -> ~ In m mixed -> ~ In m' mixed ->
    respelled_field R (operand m) (operand m').
  Proof.
    intros m m' F N N'. rewrite (caseless_operand m N), (caseless_operand m' N'). unfold caseless.
    pose proof (spelled_case _ _ F) as E. unfold same_but_case in E. rewrite <- E.
    destruct (assoc (map upper m) reserved) as [f|] eqn:A; [|apply rf_label; exact F].
    apply rf_same. intros x ->. apply assoc_in in A. unfold reserved in A.
    repeat (destruct A as [A|A]; [discriminate A|]). destruct A.
  Qed.

  Lemma mixed_tail : forall t ts, no_mixed_names (t :: ts) -> no_mixed_names ts.
  Proof. intros t ts H id l I. apply (H id l). right. exact I. Qed.

  Lemma mixed_head : forall id l ts, no_mixed_names (Identifier id l :: ts) -> ~ In id mixed.
  Proof. intros id l ts H. exact (H id l (or_introl eq_refl)). Qed.

  Lemma literal_spelled : forall t t' a, respelled_name t t' -> literal_token t a -> literal_token t' a.
  Proof. intros t t' a T L. inversion L; subst; inversion T; subst; constructor. Qed.

  Lemma literals_spelled : forall ts args rest, literals ts args rest -> forall ts', Forall2 respelled_name ts ts' ->
    exists rest', literals ts' args rest' /\ Forall2 respelled_name rest rest' /\
      (forall t, In t rest -> In t ts) /\ (forall t, In t rest' -> In t ts').
  Proof.
    induction 1 as [l rest | t a rest L | t a l ts args rest L _ IH]; intros ts' F.
    - inversion F as [|x t' y r T E]; subst. inversion T; subst.
      exists (Newline l :: r). split; [constructor|]. split; [constructor; assumption | auto].
    - inversion F as [|x t' y r T E]; subst. exists r. split; [constructor; eapply literal_spelled; eassumption|].
      split; [exact E|]. split; intros; right; assumption.
    - inversion F as [|x t' y r T E]; subst. inversion E as [|x c' y r2 C E2]; subst. inversion C; subst.
      destruct (IH _ E2) as (rest' & Ls & Fr & I1 & I2). exists rest'.
      split; [constructor; [eapply literal_spelled; eassumption | exact Ls]|]. split; [exact Fr|].
      split; intros x Ix; right; right; auto.
  Qed.

  Lemma field_spelled : forall t t' a ts ts', respelled_name t t' -> field_token t a ->
    no_mixed_names (t :: ts) -> no_mixed_names (t' :: ts') ->
    exists a', field_token t' a' /\ respelled_field R a a'.
  Proof.
    intros t t' a ts ts' T L N N'. inversion L; subst; inversion T; subst; try discriminate.
    - exists (FNumeric (n mod 4096)). split; [constructor | apply rf_same; intros x; discriminate].
    - eexists. split; [constructor|]. apply operand_spelled; [assumption | exact (mixed_head _ _ _ N) | exact (mixed_head _ _ _ N')].
  Qed.

  Lemma fields_spelled : forall ts args rest, fields ts args rest -> forall ts', Forall2 respelled_name ts ts' ->
    no_mixed_names ts -> no_mixed_names ts' ->
    exists args' rest', fields ts' args' rest' /\ Forall2 (respelled_field R) args args' /\
      Forall2 respelled_name rest rest' /\ no_mixed_names rest /\ no_mixed_names rest'.
  Proof.
    induction 1 as [l rest | c l rest | t a rest L | t a l ts args rest L _ IH]; intros ts' F N N'.
    - inversion F as [|x t' y r T E]; subst. inversion T; subst.
      exists [], (Newline l :: r). split; [constructor|]. split; [constructor|]. split; [constructor; assumption | auto].
    - inversion F as [|x t' y r T E]; subst. inversion T; subst; try discriminate.
      exists [], (SingleLineComment m' l :: r). split; [constructor|]. split; [constructor|]. split; [constructor; assumption | auto].
    - inversion F as [|x t' y r T E]; subst. destruct (field_spelled _ _ _ _ _ T L N N') as (a' & L' & A).
      exists [a'], r. split; [constructor; exact L'|]. split; [constructor; [exact A | constructor]|].
      split; [exact E|]. split; eapply mixed_tail; eassumption.
    - inversion F as [|x t' y r T E]; subst. inversion E as [|x c' y r2 C E2]; subst. inversion C; subst.
      destruct (field_spelled _ _ _ _ _ T L N N') as (a' & L' & A).
      destruct (IH _ E2) as (args' & rest' & Fs & Fa & Fr & I1 & I2);
        [eapply mixed_tail, mixed_tail; eassumption | eapply mixed_tail, mixed_tail; eassumption|].
      exists (a' :: args'), rest'. split; [constructor; assumption|]. split; [constructor; assumption|]. auto.
  Qed.

  Theorem program_spelled : forall ts p, program ts p -> forall ts', Forall2 respelled_name ts ts' ->
    no_mixed_names ts -> no_mixed_names ts' ->
    exists p', program ts' p' /\ Forall2 (respelled_node R) p p'.
  Proof.
    induction 1 as [|l ts ns _ IH | c l ts ns _ IH | l0 id l ts args rest ns L _ IH | id l l1 ts ns _ IH | id l ts args rest ns L _ IH];
      intros ts' F N N'.
    - inversion F; subst. exists []. split; constructor.
    - inversion F as [|x t' y r T E]; subst. inversion T; subst.
      destruct (IH _ E (mixed_tail _ _ N) (mixed_tail _ _ N')) as (p' & P & Q). exists p'. split; [constructor|]; assumption.
    - inversion F as [|x t' y r T E]; subst. inversion T; subst; try discriminate.
      destruct (IH _ E (mixed_tail _ _ N) (mixed_tail _ _ N')) as (p' & P & Q). exists p'. split; [constructor|]; assumption.
    - inversion F as [|x t' y r T E]; subst. inversion T; subst. inversion E as [|x t2 y r2 T2 E2]; subst.
      inversion T2; subst; try discriminate.
      destruct (literals_spelled _ _ _ L _ E2) as (rest' & L' & Fr & I1 & I2).
      destruct (IH rest' Fr) as (p' & P & Q);
        [intros x lx Ix; apply (N x lx); right; right; auto | intros x lx Ix; apply (N' x lx); right; right; auto |].
      exists (NDirective l m' args :: p'). split; [econstructor; eassumption|]. constructor; [constructor; assumption | exact Q].
    - inversion F as [|x t' y r T E]; subst. inversion E as [|x t2 y r2 T2 E2]; subst. inversion T2; subst.
      inversion T; subst; try discriminate.
      destruct (IH _ E2) as (p' & P & Q); [eapply mixed_tail, mixed_tail; eassumption | eapply mixed_tail, mixed_tail; eassumption|].
      exists (NLabel l m' :: p'). split; [constructor; exact P|]. constructor; [constructor; assumption | exact Q].
    - inversion F as [|x t' y r T E]; subst. inversion T; subst; try discriminate.
      destruct (fields_spelled _ _ _ L _ E (mixed_tail _ _ N) (mixed_tail _ _ N')) as (args' & rest' & L' & Fa & Fr & I1 & I2).
      destruct (IH rest' Fr I1 I2) as (p' & P & Q).
      exists (NInstruction l m' args' :: p'). split; [econstructor; eassumption|]. constructor; [constructor; assumption | exact Q].
  Qed.

  (** ** The statements *)

  Lemma field_renamed : forall f fs fs', Forall2 (respelled_field R) fs fs' ->
    flat_map (fun x => match x with FIdentifier y => [y] | _ => [] end) fs' =
    map f (flat_map (fun x => match x with FIdentifier y => [y] | _ => [] end) fs) ->
    fs' = map (rename_field f) fs.
  Proof.
    intros f. induction 1 as [|x x' fs fs' X _ IH]; [reflexivity|]. destruct X as [x Nx | m m' _]; cbn [flat_map map].
    - intros H. destruct x; cbn [app rename_field] in *; try (rewrite (IH H); reflexivity). match goal with y : str |- _ => destruct (Nx y); reflexivity end.
    - intros H. cbn [app map] in H. injection H as -> H. cbn [rename_field]. rewrite (IH H). reflexivity.
  Qed.

  Lemma field_count : forall fs fs', Forall2 (respelled_field R) fs fs' ->
    length (flat_map (fun x => match x with FIdentifier y => [y] | _ => [] end) fs') =
    length (flat_map (fun x => match x with FIdentifier y => [y] | _ => [] end) fs).
  Proof.
    induction 1 as [|x x' fs fs' X _ IH]; [reflexivity|]. destruct X as [x Nx | m m' _]; cbn [flat_map]; rewrite !app_length, IH; reflexivity.
  Qed.

  Lemma app_same_length : forall (A : Type) (a a' b b' : list A), length a = length a' -> a ++ b = a' ++ b' -> a = a' /\ b = b'.
  Proof.
    induction a as [|x a IH]; intros [|x' a'] b b' L E; try discriminate L; [auto|].
    cbn [app] in E. injection E as -> E. cbn [length] in L. injection L as L. destruct (IH _ _ _ L E) as [-> ->]. auto.
  Qed.

  Theorem respelled_renamed : forall f p p', Forall2 (respelled_node R) p p' -> label_mentions p' = map f (label_mentions p) ->
    Forall2 same_node (map (rename f) p) p'.
  Proof.
    intros f. induction 1 as [|n n' p p' N _ IH]; [constructor|]. unfold label_mentions in *. cbn [flat_map]. intros H.
    rewrite map_app in H. destruct N as [l id id' args I | l id id' I | l m m' fs fs' I Fs]; cbn [map rename].
    - constructor; [constructor; apply spelled_case; exact I | exact (IH H)].
    - cbn [app map] in H. injection H as -> H. constructor; [constructor | exact (IH H)].
    - apply app_same_length in H; [|rewrite map_length; apply field_count; exact Fs]. destruct H as [H1 H2].
      rewrite (field_renamed f _ _ Fs H1). constructor; [constructor; apply spelled_case; exact I | exact (IH H2)].
  Qed.

  Lemma respelled_names : forall p p', Forall2 (respelled_node R) p p' -> Forall2 (Forall2 R) (label_mentions p) (label_mentions p').
  Proof.
    unfold label_mentions. induction 1 as [|n n' p p' N _ IH]; [constructor|]. cbn [flat_map]. apply Forall2_app; [|exact IH].
    destruct N as [l id id' args I | l id id' I | l m m' fs fs' I Fs]; [constructor | constructor; [exact I | constructor] |].
    induction Fs as [|x x' fs fs' X _ IHf]; [constructor|]. cbn [flat_map]. apply Forall2_app; [|exact IHf].
    destruct X as [x Nx | m1 m1' F]; [|constructor; [exact F | constructor]].
    destruct x; first [exfalso; eapply Nx; reflexivity | constructor].
  Qed.
End Spelling.

Lemma case_spelled : forall s s', same_but_case s s' -> Forall2 (fun c c' => upper c = upper c') s s'.
Proof. apply sbc_ind2; [constructor|]. intros c c' s s' C _ IH. constructor; assumption. Qed.
