(** * ModeProofs: the machine of four states finds the comments and strings of the scanner. *)

From Verif Require Import Base Text U12 Location Token Scanner Parser SpecLex SpecGrammar SpecErase SpecBlank SpecKind SpecMode
  BaseFacts LexProofs ScanProofs LexTheorems LexAppend ParseProofs KindProofs TextProofs.
Open Scope N_scope.

(** ** Patterns without quotes and semicolons *)

Definition plain_char (c : char) : bool := code_char c && negb (c =? QUOTE) && negb (c =? c_ ";").

Fixpoint plain_pattern (r : re) : Prop :=
  match r with
  | Chr p => forall c, p c = true -> plain_char c = true
  | Eps => True
  | Cat a b | Alt a b => plain_pattern a /\ plain_pattern b
  | Star a => plain_pattern a
  end.

Lemma plain_among : forall s, forallb plain_char (u s) = true -> forall c, among s c = true -> plain_char c = true.
Proof.
  intros s H c A. unfold among in A. apply existsb_exists in A. destruct A as (d & I & E). apply N.eqb_eq in E. subst d.
  rewrite forallb_forall in H. exact (H c I).
Qed.

Ltac plain_class :=
  first [exact I
        | apply plain_among; vm_compute; reflexivity
        | intros c H; apply N.eqb_eq in H; subst c; vm_compute; reflexivity
        | intros c H; repeat match type of H with _ || _ = true => apply orb_true_iff in H; destruct H as [H|H] end; revert c H; apply plain_among; vm_compute; reflexivity].

Lemma pattern_plain : forall k, k <> KComment -> k <> KString -> plain_pattern (pattern k).
Proof.
  destruct k; intros Nc Ns; try congruence; unfold Plus, Opt; cbn [pattern plain_pattern lit Plus Opt];
    repeat match goal with |- _ /\ _ => split end; plain_class.
Qed.

Lemma plain_match : forall r s, rmatch r s -> plain_pattern r -> forallb plain_char s = true.
Proof.
  induction 1 as [p c P | | a b s t _ IHa _ IHb | a b s _ IH | a b s _ IH | a | a s t _ IHs _ IHt];
    cbn [plain_pattern]; intros U; try reflexivity; try tauto.
  - cbn [forallb]. rewrite (U c P). reflexivity.
  - rewrite forallb_app, IHa, IHb by tauto. reflexivity.
  - rewrite forallb_app, IHs, IHt by tauto. reflexivity.
Qed.

Lemma blank_plain : forall c, blank c = true -> plain_char c = true.
Proof.
  intros c B. unfold blank in B. apply existsb_exists in B. destruct B as (d & I & E). apply N.eqb_eq in E. subst d.
  revert c I. apply forallb_forall. vm_compute. reflexivity.
Qed.

Lemma plain_next : forall c, plain_char c = true -> next_mode InCode c = InCode.
Proof.
  intros c P. unfold plain_char in P. apply andb_true_iff in P. destruct P as [P S]. apply andb_true_iff in P.
  destruct P as [_ Q]. cbn [next_mode]. apply negb_true_iff in S, Q. rewrite Q, S. reflexivity.
Qed.

Lemma plain_code : forall c, plain_char c = true -> code_char c = true.
Proof. intros c P. unfold plain_char in P. apply andb_true_iff in P. destruct P as [P _]. apply andb_true_iff in P. tauto. Qed.

(** ** What the machine makes of each lexeme *)

Definition known (s : str) : mode * list str * list str * str * str :=
  (mode_after InCode s, comments_in InCode s, strings_in InCode s, code_in InCode s, without_comments InCode s).

Lemma known_inv : forall s a b c d e, known s = (a, b, c, d, e) ->
  mode_after InCode s = a /\ comments_in InCode s = b /\ strings_in InCode s = c /\ code_in InCode s = d /\
  without_comments InCode s = e.
Proof.
  intros s a b c d e H. unfold known in H.
  pose proof (f_equal (fun x => fst (fst (fst (fst x)))) H) as H1. pose proof (f_equal (fun x => snd (fst (fst (fst x)))) H) as H2.
  pose proof (f_equal (fun x => snd (fst (fst x))) H) as H3. pose proof (f_equal (fun x => snd (fst x)) H) as H4.
  pose proof (f_equal snd H) as H5. auto.
Qed.

Lemma known_plain : forall m r, forallb plain_char m = true ->
  known (m ++ r) = (mode_after InCode r, comments_in InCode r, strings_in InCode r, m ++ code_in InCode r,
                    m ++ without_comments InCode r).
Proof.
  induction m as [|c m IH]; intros r P; [reflexivity|]. cbn [forallb] in P. apply andb_true_iff in P. destruct P as [C P].
  specialize (IH r P). unfold known in *. cbn [app mode_after comments_in strings_in code_in without_comments]. cbv zeta.
  rewrite (plain_next c C). cbv iota. injection IH as -> -> -> -> ->. reflexivity.
Qed.

Lemma in_string : forall b r, string_body b ->
  mode_after InString (b ++ QUOTE :: r) = mode_after InCode r /\
  comments_in InString (b ++ QUOTE :: r) = comments_in InCode r /\
  strings_in InString (b ++ QUOTE :: r) = b :: strings_in InCode r /\
  code_in InString (b ++ QUOTE :: r) = code_in InCode r /\
  without_comments InString (b ++ QUOTE :: r) = b ++ QUOTE :: without_comments InCode r.
Proof.
  intros b r B. induction B as [|c b Q S _ (IH1 & IH2 & IH3 & IH4 & IH5) | c b Nl _ (IH1 & IH2 & IH3 & IH4 & IH5)].
  - cbn [app mode_after comments_in strings_in code_in without_comments next_mode]. rewrite N.eqb_refl. cbv zeta iota. auto.
  - apply N.eqb_neq in Q, S. cbn [app mode_after comments_in strings_in code_in without_comments next_mode]. rewrite Q, S. cbv zeta iota.
    rewrite IH1, IH2, IH3, IH4, IH5. auto.
  - cbn [app mode_after comments_in strings_in code_in without_comments next_mode].
    change (BACKSLASH =? QUOTE) with false. rewrite (N.eqb_refl BACKSLASH). cbv zeta iota.
    cbn [app mode_after comments_in strings_in code_in without_comments next_mode]. cbv zeta iota. rewrite IH1, IH2, IH3, IH4, IH5. auto.
Qed.

Lemma known_string : forall b r, string_body b ->
  known (QUOTE :: b ++ QUOTE :: r) =
    (mode_after InCode r, comments_in InCode r, b :: strings_in InCode r, code_in InCode r,
     QUOTE :: b ++ QUOTE :: without_comments InCode r).
Proof.
  intros b r B. destruct (in_string b r B) as (E1 & E2 & E3 & E4 & E5). unfold known.
  cbn [mode_after comments_in strings_in code_in without_comments next_mode]. rewrite N.eqb_refl. cbv zeta iota.
  rewrite E1, E2, E3, E4, E5. reflexivity.
Qed.

Lemma in_comment : forall x r, existsb (N.eqb LF) x = false -> r = [] \/ (exists r', r = LF :: r') ->
  mode_after InComment (x ++ r) = (match r with [] => InComment | _ => mode_after InCode r end) /\
  comments_in InComment (x ++ r) = x :: comments_in InCode r /\
  strings_in InComment (x ++ r) = strings_in InCode r /\
  code_in InComment (x ++ r) = code_in InCode r /\
  without_comments InComment (x ++ r) = without_comments InCode r.
Proof.
  intros x r N R. induction x as [|c x IH].
  - destruct R as [->|(r' & ->)]; [cbn; auto|]. cbn [app mode_after comments_in strings_in code_in without_comments next_mode].
    rewrite N.eqb_refl. change (LF =? QUOTE) with false. change (LF =? c_ ";") with false. cbv zeta iota. auto.
  - cbn [existsb] in N. apply orb_false_iff in N. destruct N as [C N]. rewrite N.eqb_sym in C.
    destruct (IH N) as (E1 & E2 & E3 & E4 & E5).
    cbn [app mode_after comments_in strings_in code_in without_comments next_mode]. rewrite C. cbv zeta iota.
    rewrite E1, E2, E3, E4, E5. cbn [on_first]. auto.
Qed.

Lemma known_comment : forall x r, existsb (N.eqb LF) x = false -> r = [] \/ (exists r', r = LF :: r') ->
  known (c_ ";" :: x ++ r) =
    (match r with [] => InComment | _ => mode_after InCode r end, (c_ ";" :: x) :: comments_in InCode r, strings_in InCode r,
     code_in InCode r, without_comments InCode r).
Proof.
  intros x r N R. destruct (in_comment x r N R) as (E1 & E2 & E3 & E4 & E5). unfold known.
  cbn [mode_after comments_in strings_in code_in without_comments next_mode]. change (c_ ";" =? QUOTE) with false.
  rewrite N.eqb_refl. cbv zeta iota. rewrite E1, E2, E3, E4, E5. reflexivity.
Qed.

(** The three sorts of lexemes. *)
Lemma comment_shape : forall m rest s, lexeme KComment m rest s ->
  exists x, m = c_ ";" :: x /\ existsb (N.eqb LF) x = false /\ (rest = [] \/ exists r', rest = LF :: r').
Proof.
  intros m rest s L. pose proof (lexeme_ends _ _ _ _ L) as En. destruct L as (_ & M & _). cbn [pattern] in M.
  apply rmatch_cat in M. destruct M as (a & x & -> & A & X). apply rmatch_lit in A. subst a. apply rmatch_star_chr in X.
  exists x. split; [reflexivity|]. split.
  - rewrite <- not_true_iff_false. intros H. apply existsb_exists in H. destruct H as (c & I & E). apply N.eqb_eq in E. subst c.
    rewrite forallb_forall in X. specialize (X LF I). rewrite noneof_1, N.eqb_refl in X. discriminate X.
  - destruct rest as [|c r]; [left; reflexivity|]. right. cbn [starts extends] in En. unfold extends in En.
    apply negb_false_iff in En. apply N.eqb_eq in En. subst c. eauto.
Qed.

Lemma string_shape : forall m, rmatch (pattern KString) m -> exists b, m = QUOTE :: b ++ [QUOTE] /\ string_body b.
Proof.
  intros m M. cbn [pattern] in M. apply rmatch_cat in M. destruct M as (a & x & -> & A & X). apply rmatch_lit in A. subst a.
  apply rmatch_cat in X. destruct X as (b & q & -> & B & Q). apply rmatch_lit in Q. subst q.
  exists b. split; [reflexivity|]. apply string_body_star. exact B.
Qed.

Lemma kind_shape : forall k m rest s, lexeme k m rest s ->
  (k = KComment /\ exists x, m = c_ ";" :: x /\ existsb (N.eqb LF) x = false /\ (rest = [] \/ exists r', rest = LF :: r')) \/
  (k = KString /\ exists b, m = QUOTE :: b ++ [QUOTE] /\ string_body b) \/
  (k <> KComment /\ k <> KString /\ forallb plain_char m = true).
Proof.
  intros k m rest s L.
  destruct (match k with KComment => true | _ => false end) eqn:C; [destruct k; try discriminate C; left; split; [reflexivity | exact (comment_shape _ _ _ L)]|].
  destruct (match k with KString => true | _ => false end) eqn:S; [destruct k; try discriminate S; right; left; split; [reflexivity | apply string_shape; apply L]|].
  right. right. assert (Nc : k <> KComment) by (intros ->; discriminate C). assert (Ns : k <> KString) by (intros ->; discriminate S).
  split; [exact Nc|]. split; [exact Ns|]. apply (plain_match (pattern k)); [apply L | apply pattern_plain; assumption].
Qed.

(** ** Whole texts *)

Theorem lexes_modes : forall file before s ts, lexes file before s ts -> existsb is_error ts = false ->
  (mode_after InCode s = InCode \/ mode_after InCode s = InComment) /\
  comments_in InCode s = comments ts /\ strings_in InCode s = strings ts /\ forallb code_char (code_in InCode s) = true.
Proof.
  intros file before s ts L. induction L as [before | before c s ts B _ IH | before s k m rest t ts Lx T _ IH | | ]; intros Ne.
  - cbn. auto.
  - specialize (IH Ne). destruct IH as (IH1 & IH2 & IH3 & IH4).
    pose proof (known_plain [c] s) as K. cbn [forallb app] in K. rewrite (blank_plain c B) in K. specialize (K eq_refl).
    apply known_inv in K. destruct K as (-> & -> & -> & -> & _). cbn [forallb]. rewrite (plain_code c (blank_plain c B)), IH2, IH3, IH4. auto.
  - cbn [existsb] in Ne. apply orb_false_iff in Ne. destruct Ne as [_ Ne]. destruct (IH Ne) as (IH1 & IH2 & IH3 & IH4). clear IH.
    destruct (kind_shape _ _ _ _ Lx) as [(-> & x & -> & Nl & R)|[(-> & b & -> & Sb)|(Nc & Ns & Pl)]].
    + destruct Lx as (-> & _). pose proof (known_comment x rest Nl R) as K. apply known_inv in K. cbn [app].
      destruct K as (K1 & K2 & K3 & K4 & _). rewrite K1, K2, K3, K4. inversion T; subst.
      unfold comments, strings in *. cbn [flat_map app]. rewrite IH2, IH3, IH4. split; [|auto].
      destruct R as [->|(r' & ->)]; auto.
    + destruct Lx as (-> & _). pose proof (known_string b rest Sb) as K. apply known_inv in K. rewrite <- app_comm_cons, <- app_assoc. cbn [app].
      destruct K as (K1 & K2 & K3 & K4 & _). rewrite K1, K2, K3, K4. inversion T as [| | | | | b' E0 E1 E2 | | | | |]; subst.
      apply app_inv_tail in E1. subst b'.
      unfold comments, strings in *. cbn [flat_map app]. rewrite IH2, IH3, IH4. auto.
    + destruct Lx as (-> & _). pose proof (known_plain m rest Pl) as K. apply known_inv in K.
      destruct K as (K1 & K2 & K3 & K4 & _). rewrite K1, K2, K3, K4. rewrite forallb_app, IH4, andb_true_r.
      split; [exact IH1|]. inversion T; subst; try congruence; unfold comments, strings in *; cbn [flat_map app]; rewrite IH2, IH3;
        (split; [reflexivity|]; split; [reflexivity|]); rewrite forallb_forall in Pl |- *; intros d0 I0; apply plain_code, Pl, I0.
  - cbn in Ne. discriminate Ne.
  - cbn in Ne. discriminate Ne.
Qed.

(** ** Without the comments *)

(** The first character stays, or is the newline after a comment, or there is none. *)
Lemma without_first : forall (p : char -> bool) s, mode_after InCode s = InCode -> p LF = false -> starts p s = false ->
  starts p (without_comments InCode s) = false.
Proof.
  intros p s M Pl Ps. destruct s as [|c r]; [reflexivity|]. cbn [without_comments next_mode]. cbv zeta.
  destruct (c =? QUOTE); [exact Ps|]. destruct (c =? c_ ";") eqn:C; [|exact Ps].
  cbn [mode_after next_mode] in M. apply N.eqb_eq in C. subst c. change (c_ ";" =? QUOTE) with false in M. rewrite N.eqb_refl in M.
  clear Ps. induction r as [|c r IH]; [reflexivity|]. cbn [without_comments next_mode mode_after] in *. cbv zeta.
  destruct (c =? LF) eqn:E; [apply N.eqb_eq in E; subst c; exact Pl | exact (IH M)].
Qed.

Lemma newline_lexeme : forall k m rest r, lexeme k m rest (LF :: r) -> k = KNewline /\ m = [LF].
Proof.
  intros k m rest r L.
  assert (L2 : lexeme KNewline [LF] r (LF :: r)) by (apply (lexeme_closed KNewline [LF]); [apply newline_match | destruct r; reflexivity]).
  destruct (lexeme_det _ _ _ _ _ _ _ L L2) as (-> & -> & _). auto.
Qed.

(** The places of two positions agree, or a newline stands there. *)
Definition aligned (before before' s : str) : Prop :=
  newlines before = newlines before' /\
  (length (last_line before) = length (last_line before') \/ exists r, s = LF :: r).

Lemma aligned_app : forall a a' m, newlines a = newlines a' -> length (last_line a) = length (last_line a') ->
  newlines (a ++ m) = newlines (a' ++ m) /\ length (last_line (a ++ m)) = length (last_line (a' ++ m)).
Proof.
  intros a a' m N L. rewrite !newlines_app, N. split; [reflexivity|]. rewrite !last_line_app.
  destruct (existsb (N.eqb LF) m); [reflexivity|]. rewrite !app_length, L. reflexivity.
Qed.

Lemma token_there : forall file before before' k m t, token_of file before k m t ->
  located file before m = located file before' m -> token_of file before' k m t.
Proof. intros file before before' k m t T E. inversion T; subst; rewrite E; constructor; assumption. Qed.

Theorem lexes_without : forall file before s ts, lexes file before s ts -> existsb is_error ts = false ->
  mode_after InCode s = InCode -> forall before', aligned before before' s ->
  exists ts', lexes file before' (without_comments InCode s) ts' /\ uncommented ts ts'.
Proof.
  intros file before s ts L. induction L as [before | before c s ts B _ IH | before s k m rest t ts Lx T L IH | | ]; intros Ne M before' A.
  - exists []. split; constructor.
  - pose proof (known_plain [c] s) as K. cbn [forallb app] in K. rewrite (blank_plain c B) in K. specialize (K eq_refl).
    apply known_inv in K. destruct K as (K1 & _ & _ & _ & K5). rewrite K1 in M. rewrite K5.
    destruct A as (A1 & [A2|(r & E)]); [|injection E as -> _; discriminate (eq_trans (eq_sym B) eq_refl)].
    destruct (aligned_app _ _ [c] A1 A2) as (A1' & A2').
    destruct (IH Ne M (before' ++ [c]) (conj A1' (or_introl A2'))) as (ts' & L' & U). exists ts'.
    split; [apply lex_blank; assumption | exact U].
  - cbn [existsb] in Ne. apply orb_false_iff in Ne. destruct Ne as [_ Ne].
    destruct (kind_shape _ _ _ _ Lx) as [(-> & x & -> & Nl & R)|[(-> & b & -> & Sb)|(Nc & Ns & Pl)]].
    + pose proof (known_comment x rest Nl R) as K. destruct Lx as (-> & _). apply known_inv in K. cbn [app] in M, A |- *.
      destruct K as (K1 & _ & _ & _ & K5). rewrite K1 in M. rewrite K5. destruct R as [->|(r' & ->)]; [discriminate M|].
      destruct A as (A1 & [A2|(r & E)]); [|discriminate E].
      destruct (IH Ne M before') as (ts' & L' & U).
      { split; [|right; eauto]. rewrite newlines_app, newlines_cons. change (c_ ";" =? LF) with false.
        rewrite (newlines_none x Nl), <- A1. lia. }
      exists ts'. split; [exact L'|]. inversion T; subst.
      destruct (newline_first _ _ _ _ L) as (ts2 & ->). apply un_comment. exact U.
    + pose proof (known_string b rest Sb) as K. pose proof Lx as Lx'. destruct Lx as (-> & Mt & _). apply known_inv in K. rewrite <- app_comm_cons, <- app_assoc in M, A |- *. cbn [app] in M, A |- *.
      destruct K as (K1 & _ & _ & _ & K5). rewrite K1 in M. rewrite K5. destruct A as (A1 & [A2|(r & E)]); [|discriminate E].
      destruct (aligned_app _ _ (QUOTE :: b ++ [QUOTE]) A1 A2) as (A1' & A2').
      destruct (IH Ne M (before' ++ QUOTE :: b ++ [QUOTE]) (conj A1' (or_introl A2'))) as (ts' & L' & U).
      exists (t :: ts'). split; [|apply un_other; [inversion T; exact I | exact U]].
      apply (lex_token _ _ _ KString (QUOTE :: b ++ [QUOTE]) (without_comments InCode rest)); [| |exact L'].
      * assert (E : QUOTE :: b ++ QUOTE :: without_comments InCode rest = (QUOTE :: b ++ [QUOTE]) ++ without_comments InCode rest)
          by (rewrite <- app_comm_cons, <- app_assoc; reflexivity).
        rewrite E. apply lexeme_closed; [exact Mt|]. apply (without_first _ _ M); [apply extends_lf | exact (lexeme_ends _ _ _ _ Lx')].
      * apply (token_there file before); [exact T|]. unfold located. rewrite A1, A2. reflexivity.
    + pose proof (known_plain m rest Pl) as K. pose proof Lx as Lx'. destruct Lx as (-> & Mt & _). apply known_inv in K.
      destruct K as (K1 & _ & _ & _ & K5). rewrite K1 in M. rewrite K5.
      assert (Lx2 : lexeme k m (without_comments InCode rest) (m ++ without_comments InCode rest)).
      { apply lexeme_closed; [exact Mt|]. apply (without_first _ _ M); [apply extends_lf | exact (lexeme_ends _ _ _ _ Lx')]. }
      destruct A as (A1 & [A2|(r & E)]).
      * destruct (aligned_app _ _ m A1 A2) as (A1' & A2').
        destruct (IH Ne M (before' ++ m) (conj A1' (or_introl A2'))) as (ts' & L' & U).
        exists (t :: ts'). split; [|apply un_other; [inversion T; subst; try exact I; congruence | exact U]].
        apply (lex_token _ _ _ k m (without_comments InCode rest)); [exact Lx2 | | exact L'].
        apply (token_there file before); [exact T|]. unfold located. rewrite A1, A2. reflexivity.
      * (* the newline after a comment *)
        rewrite E in Lx'. destruct (newline_lexeme _ _ _ _ Lx') as (-> & ->).
        destruct (IH Ne M (before' ++ [LF])) as (ts' & L' & U).
        { split; [rewrite !newlines_app, A1; reflexivity|]. left. rewrite !last_line_app. reflexivity. }
        inversion T; subst. exists (Newline (located file before' [LF]) :: ts'). split; [|apply un_newline; exact U].
        apply (lex_token _ _ _ KNewline [LF] (without_comments InCode rest)); [exact Lx2 | constructor | exact L'].
  - cbn in Ne. discriminate Ne.
  - cbn in Ne. discriminate Ne.
Qed.

(** The grammar does not need the comments. *)
Lemma literals_without : forall ts args rest, literals ts args rest -> forall ts', uncommented ts ts' ->
  exists rest', literals ts' args rest' /\ uncommented rest rest'.
Proof.
  induction 1 as [l rest | t a rest T | t a l ts args rest T _ IH]; intros ts' U.
  - inversion U; subst; (eexists; split; [apply ls_none | try (apply un_newline; assumption); apply un_other; assumption]).
  - destruct T; inversion U; subst; (eexists; split; [apply ls_one; constructor | assumption]).
  - destruct T; inversion U as [| | | t1 x ts1 _ U1]; subst; inversion U1 as [| | | t2 y ts2 _ U2]; subst; destruct (IH _ U2) as (rest' & L' & R');
      (exists rest'; split; [apply ls_more; [constructor | exact L'] | exact R']).
Qed.

Lemma fields_without : forall ts args rest, fields ts args rest -> forall ts', uncommented ts ts' ->
  exists rest', fields ts' args rest' /\ uncommented rest rest'.
Proof.
  induction 1 as [l rest | c l rest | t a rest T | t a l ts args rest T _ IH]; intros ts' U.
  - inversion U; subst; (eexists; split; [apply fs_none | try (apply un_newline; assumption); apply un_other; assumption]).
  - inversion U as [| c0 l0 l' ts ts0 U1 | |]; subst; [|contradiction].
    inversion U1; subst; (eexists; split; [apply fs_none | exact U]).
  - destruct T; inversion U; subst; (eexists; split; [apply fs_one; constructor | assumption]).
  - destruct T; inversion U as [| | | t1 x ts1 _ U1]; subst; inversion U1 as [| | | t2 y ts2 _ U2]; subst; destruct (IH _ U2) as (rest' & L' & R');
      (exists rest'; split; [apply fs_more; [constructor | exact L'] | exact R']).
Qed.

Theorem program_without : forall ts p, program ts p -> forall ts', uncommented ts ts' -> program ts' p.
Proof.
  induction 1 as [| l ts ns _ IH | c l ts ns _ IH | l0 id l ts args rest ns A _ IH | id l l1 ts ns _ IH | id l ts args rest ns A _ IH];
    intros ts' U.
  - inversion U; subst. constructor.
  - inversion U; subst; apply pr_newline, IH; assumption.
  - inversion U; subst; [|contradiction]. apply IH. assumption.
  - inversion U as [| | | t1 x ts1 _ U1]; subst; inversion U1 as [| | | t2 y ts2 _ U2]; subst.
    destruct (literals_without _ _ _ A _ U2) as (rest' & L' & R'). apply (pr_directive _ _ _ _ _ _ _ L'). apply IH. exact R'.
  - inversion U as [| | | t1 x ts1 _ U1]; subst; inversion U1 as [| | | t2 y ts2 _ U2]; subst. apply pr_label, IH. exact U2.
  - inversion U as [| | | t1 x ts1 _ U1]; subst.
    destruct (fields_without _ _ _ A _ U1) as (rest' & L' & R'). apply (pr_instruction _ _ _ _ _ _ L'). apply IH. exact R'.
Qed.

(** ** Comments saying something else *)

Lemma sc_refl : forall s m, same_but_comments m s s.
Proof. induction s as [|c s IH]; intros m; [constructor | apply sc_char, IH]. Qed.

Lemma sc_sym : forall m s s', same_but_comments m s s' -> same_but_comments m s' s.
Proof. induction 1; constructor; assumption. Qed.

Lemma sc_cons : forall m c s s', m <> InComment -> same_but_comments m (c :: s) s' ->
  exists r', s' = c :: r' /\ same_but_comments (next_mode m c) s r'.
Proof. intros m c s s' Nc H. inversion H; subst; try congruence. eauto. Qed.

Lemma sc_nil : forall m s', m <> InComment -> same_but_comments m [] s' -> s' = [].
Proof. intros m s' Nc H. inversion H; subst; [reflexivity | congruence]. Qed.

Lemma sc_plain : forall m r s', forallb plain_char m = true -> same_but_comments InCode (m ++ r) s' ->
  exists r', s' = m ++ r' /\ same_but_comments InCode r r'.
Proof.
  induction m as [|c m IH]; intros r s' P H; [exists s'; auto|]. cbn [forallb] in P. apply andb_true_iff in P. destruct P as [C P].
  rewrite <- app_comm_cons in H. apply sc_cons in H; [|discriminate]. destruct H as (r1 & -> & H). rewrite (plain_next c C) in H.
  destruct (IH r r1 P H) as (r' & -> & R). exists r'. auto.
Qed.

Lemma sc_in_string : forall b r, string_body b -> forall s', same_but_comments InString (b ++ QUOTE :: r) s' ->
  exists r', s' = b ++ QUOTE :: r' /\ same_but_comments InCode r r'.
Proof.
  intros b r B. induction B as [|c b Q S _ IH | c b Nl _ IH]; intros s' H.
  - cbn [app] in H. apply sc_cons in H; [|discriminate]. destruct H as (r' & -> & H). cbn [next_mode] in H. rewrite N.eqb_refl in H.
    exists r'. auto.
  - rewrite <- app_comm_cons in H. apply sc_cons in H; [|discriminate]. destruct H as (r1 & -> & H). cbn [next_mode] in H.
    apply N.eqb_neq in Q, S. rewrite Q, S in H. destruct (IH _ H) as (r' & -> & R). exists r'. auto.
  - rewrite <- !app_comm_cons in H. apply sc_cons in H; [|discriminate]. destruct H as (r1 & -> & H). cbn [next_mode] in H.
    change (BACKSLASH =? QUOTE) with false in H. rewrite (N.eqb_refl BACKSLASH) in H. cbv iota in H.
    apply sc_cons in H; [|discriminate]. destruct H as (r2 & -> & H). cbn [next_mode] in H.
    destruct (IH _ H) as (r' & -> & R). exists r'. auto.
Qed.

Lemma sc_string : forall b r s', string_body b -> same_but_comments InCode ((QUOTE :: b ++ [QUOTE]) ++ r) s' ->
  exists r', s' = (QUOTE :: b ++ [QUOTE]) ++ r' /\ same_but_comments InCode r r'.
Proof.
  intros b r s' B H. rewrite <- app_comm_cons, <- app_assoc in H. cbn [app] in H. apply sc_cons in H; [|discriminate].
  destruct H as (r1 & -> & H). cbn [next_mode] in H. rewrite N.eqb_refl in H. destruct (sc_in_string _ _ B _ H) as (r' & -> & R).
  exists r'. split; [|exact R]. rewrite <- app_comm_cons, <- app_assoc. reflexivity.
Qed.

Lemma sc_in_comment : forall m s s', same_but_comments m s s' -> m = InComment -> forall x r, s = x ++ r ->
  existsb (N.eqb LF) x = false -> r = [] \/ (exists r2, r = LF :: r2) ->
  exists x' r', s' = x' ++ r' /\ existsb (N.eqb LF) x' = false /\ (r' = [] \/ exists r2, r' = LF :: r2) /\
    same_but_comments InCode r r'.
Proof.
  induction 1 as [m | m c s s' H IH | c s s' C H IH | c s s' C H IH]; intros E0 x r E N R.
  - subst m. symmetry in E. apply app_eq_nil in E. destruct E as [-> ->]. exists [], []. repeat split; auto. constructor.
  - subst m. destruct x as [|d x]; cbn [app] in E.
    + destruct R as [->|(r2 & ->)]; [discriminate E|]. injection E as -> ->. cbn [next_mode] in H. rewrite N.eqb_refl in H.
      exists [], (LF :: s'). split; [reflexivity|]. split; [reflexivity|]. split; [right; eauto|]. apply sc_char. exact H.
    + injection E as <- ->. cbn [existsb] in N. apply orb_false_iff in N. destruct N as [Nc N]. cbn [next_mode] in IH.
      rewrite N.eqb_sym in Nc. rewrite Nc in IH. destruct (IH eq_refl x r eq_refl N R) as (x' & r' & -> & N' & R' & S').
      exists (c :: x'), r'. split; [reflexivity|]. split; [cbn [existsb]; rewrite N.eqb_sym, Nc; exact N'|]. auto.
  - destruct x as [|d x]; cbn [app] in E.
    + destruct R as [->|(r2 & ->)]; [discriminate E|]. injection E as -> ->. congruence.
    + injection E as <- ->. cbn [existsb] in N. apply orb_false_iff in N. destruct N as [_ N].
      exact (IH eq_refl x r eq_refl N R).
  - destruct (IH eq_refl x r E N R) as (x' & r' & -> & N' & R' & S'). exists (c :: x'), r'. split; [reflexivity|].
    split; [cbn [existsb]; rewrite N.eqb_sym; apply N.eqb_neq in C; rewrite C; exact N'|]. auto.
Qed.

Lemma sc_comment : forall x r s', existsb (N.eqb LF) x = false -> r = [] \/ (exists r2, r = LF :: r2) ->
  same_but_comments InCode ((c_ ";" :: x) ++ r) s' ->
  exists x' r', s' = (c_ ";" :: x') ++ r' /\ existsb (N.eqb LF) x' = false /\ (r' = [] \/ exists r2, r' = LF :: r2) /\
    same_but_comments InCode r r'.
Proof.
  intros x r s' N R H. rewrite <- app_comm_cons in H. apply sc_cons in H; [|discriminate]. destruct H as (r1 & -> & H).
  cbn [next_mode] in H. change (c_ ";" =? QUOTE) with false in H. rewrite N.eqb_refl in H.
  destruct (sc_in_comment _ _ _ H eq_refl x r eq_refl N R) as (x' & r' & -> & N' & R' & S'). exists x', r'. auto.
Qed.

Lemma sc_first : forall (p : char -> bool) s s', same_but_comments InCode s s' -> starts p s = starts p s'.
Proof.
  intros p s s' H. destruct s as [|c s]; [apply sc_nil in H; [subst; reflexivity | discriminate]|].
  apply sc_cons in H; [|discriminate]. destruct H as (r' & -> & _). reflexivity.
Qed.

(** A lexeme at the beginning of one text, other than a comment, stands at the beginning of the other. *)
Lemma sc_match : forall k m r s', rmatch (pattern k) m -> k <> KComment -> same_but_comments InCode (m ++ r) s' ->
  exists r', s' = m ++ r' /\ same_but_comments InCode r r'.
Proof.
  intros k m r s' M Nc H. destruct (match k with KString => true | _ => false end) eqn:K.
  - destruct k; try discriminate K. destruct (string_shape _ M) as (b & -> & B). exact (sc_string _ _ _ B H).
  - apply sc_plain; [|exact H]. apply (plain_match (pattern k)); [exact M|]. apply pattern_plain; [exact Nc|]. intros ->. discriminate K.
Qed.

Lemma sc_stuck : forall c s s', (forall k m rest, c :: s = m ++ rest -> ~ rmatch (pattern k) m) ->
  same_but_comments InCode (c :: s) (c :: s') -> forall k m rest, c :: s' = m ++ rest -> ~ rmatch (pattern k) m.
Proof.
  intros c s s' St H k m rest E M. apply sc_sym in H. rewrite E in H.
  destruct (match k with KComment => true | _ => false end) eqn:K.
  - destruct k; try discriminate K. cbn [pattern] in M. apply rmatch_cat in M. destruct M as (a & x & -> & A & _).
    apply rmatch_lit in A. subst a. cbn [app] in E. injection E as -> _.
    apply (St KComment [c_ ";"] s eq_refl). apply (comment_match []). reflexivity.
  - destruct (sc_match k m rest (c :: s) M) as (r' & E' & _); [intros ->; discriminate K | exact H |]. exact (St k m r' E' M).
Qed.

Lemma located_start : forall file before before' m, newlines before = newlines before' ->
  length (last_line before) = length (last_line before') -> located file before m = located file before' m.
Proof. intros file before before' m N L. unfold located. rewrite N, L. reflexivity. Qed.

Theorem lexes_recommented : forall file before s ts, lexes file before s ts -> forall b before' s',
  same_but_comments InCode s s' -> newlines before = newlines before' ->
  (length (last_line before) = length (last_line before') \/ (b = true /\ (s = [] \/ exists r, s = LF :: r))) ->
  exists ts', lexes file before' s' ts' /\ recommented b ts ts'.
Proof.
  intros file before s ts L.
  induction L as [before | before c s ts B _ IH | before s k m rest t ts Lx T L IH | before s k m rest e Lx Bd | before c s B St];
    intros b before' s' H A1 A2.
  - apply sc_nil in H; [|discriminate]. subst s'. exists []. split; constructor.
  - apply sc_cons in H; [|discriminate]. destruct H as (r' & -> & H). rewrite (plain_next c (blank_plain c B)) in H.
    destruct A2 as [A2|(_ & [E|(r & E)])]; [|discriminate E | injection E as -> _; discriminate (eq_trans (eq_sym B) eq_refl)].
    destruct (aligned_app _ _ [c] A1 A2) as (A1' & A2').
    destruct (IH b (before' ++ [c]) r' H A1' (or_introl A2')) as (ts' & L' & U). exists ts'.
    split; [apply lex_blank; assumption | exact U].
  - destruct (match k with KComment => true | _ => false end) eqn:K.
    + destruct k; try discriminate K. destruct (comment_shape _ _ _ Lx) as (x & -> & Nl & R). destruct Lx as (-> & _).
      destruct (sc_comment _ _ _ Nl R H) as (x' & r' & -> & Nl' & R' & H').
      destruct A2 as [A2|(_ & [E|(r & E)])]; [|discriminate E|discriminate E].
      destruct (IH true (before' ++ c_ ";" :: x') r' H') as (ts' & L' & U).
      { rewrite !newlines_app, !newlines_cons, (newlines_none x Nl), (newlines_none x' Nl'), A1. reflexivity. }
      { right. split; [reflexivity | exact R]. }
      inversion T; subst. exists (SingleLineComment (c_ ";" :: x') (located file before' (c_ ";" :: x')) :: ts').
      split; [|apply rc_comment; [reflexivity | cbn [located l_line]; rewrite A1; reflexivity |
                                  cbn [located l_location]; rewrite A2; reflexivity | exact U]].
      apply (lex_token _ _ _ KComment (c_ ";" :: x') r'); [| constructor | exact L'].
      apply lexeme_closed; [apply comment_match; exact Nl' | destruct R' as [->|(r2 & ->)]; reflexivity].
    + assert (Nc : k <> KComment) by (intros ->; discriminate K). pose proof (lexeme_ends _ _ _ _ Lx) as En.
      pose proof Lx as Lx0. destruct Lx as (-> & M & _). destruct (sc_match k m rest s' M Nc H) as (r' & -> & H').
      assert (Lx' : lexeme k m r' (m ++ r')).
      { apply lexeme_closed; [exact M|]. rewrite <- (sc_first _ _ _ H'). exact En. }
      destruct A2 as [A2|(-> & [E|(r & E)])].
      * destruct (aligned_app _ _ m A1 A2) as (A1' & A2').
        destruct (IH false (before' ++ m) r' H' A1' (or_introl A2')) as (ts' & L' & U).
        exists (t :: ts'). split; [|apply rc_other; [inversion T; subst; try exact I; congruence | exact U]].
        apply (lex_token _ _ _ k m r' _ _ Lx'); [|exact L'].
        apply (token_there file before); [exact T | apply located_start; assumption].
      * exfalso. apply app_eq_nil in E. destruct E as [-> _]. exact (lexeme_nonempty _ _ _ _ Lx0 eq_refl).
      * rewrite E in Lx0. destruct (newline_lexeme _ _ _ _ Lx0) as (-> & ->).
        destruct (IH false (before' ++ [LF]) r' H') as (ts' & L' & U).
        { rewrite !newlines_app, A1. reflexivity. }
        { left. rewrite !last_line_app. reflexivity. }
        inversion T; subst. exists (Newline (located file before' [LF]) :: ts'). split; [|apply rc_newline; exact U].
        apply (lex_token _ _ _ KNewline [LF] r' _ _ Lx'); [constructor | exact L'].
  - assert (Nc : k <> KComment) by (intros ->; inversion Bd). pose proof (lexeme_ends _ _ _ _ Lx) as En.
    pose proof Lx as Lx0. destruct Lx as (-> & M & _). destruct (sc_match k m rest s' M Nc H) as (r' & -> & H').
    destruct A2 as [A2|(-> & [E|(r & E)])].
    + rewrite (located_start file before before' m A1 A2). exists [ErrorToken e (located file before' m)].
      split; [|apply rc_other; [exact I | constructor]].
      apply (lex_bad _ _ _ k m r'); [|exact Bd]. apply lexeme_closed; [exact M|]. rewrite <- (sc_first _ _ _ H'). exact En.
    + exfalso. apply app_eq_nil in E. destruct E as [-> _]. exact (lexeme_nonempty _ _ _ _ Lx0 eq_refl).
    + exfalso. rewrite E in Lx0. destruct (newline_lexeme _ _ _ _ Lx0) as (-> & _). inversion Bd.
  - pose proof H as H0. apply sc_cons in H; [|discriminate]. destruct H as (r' & -> & H).
    destruct A2 as [A2|(-> & [E|(r & E)])]; [| discriminate E |].
    + rewrite (located_start file before before' [c] A1 A2). eexists.
      split; [apply lex_stuck; [exact B | exact (sc_stuck _ _ _ St H0)] | apply rc_other; [exact I | constructor]].
    + injection E as -> ->. exfalso. exact (St KNewline [LF] r eq_refl newline_match).
Qed.

(** ** What the parser makes of them *)

Lemma recommented_sorts : forall b ts ts', recommented b ts ts' -> sorts ts ts'.
Proof.
  induction 1; constructor; try assumption; try constructor. destruct t; constructor.
Qed.

Lemma literals_recommented : forall ts args rest, literals ts args rest -> forall b ts', recommented b ts ts' ->
  exists b' rest', literals ts' args rest' /\ recommented b' rest rest'.
Proof.
  induction 1 as [l rest | t a rest T | t a l ts args rest T _ IH]; intros b ts' U.
  - inversion U; subst; (eexists; eexists; split; [apply ls_none | eassumption]).
  - destruct T; inversion U; subst; (eexists; eexists; split; [apply ls_one; constructor | eassumption]).
  - destruct T; inversion U as [| | | b1 t1 x ts1 _ U1]; subst; inversion U1 as [| | | b2 t2 y ts2 _ U2]; subst;
      destruct (IH _ _ U2) as (b' & rest' & L' & R');
      (exists b', rest'; split; [apply ls_more; [constructor | exact L'] | exact R']).
Qed.

Lemma fields_recommented : forall ts args rest, fields ts args rest -> forall b ts', recommented b ts ts' ->
  exists b' rest', fields ts' args rest' /\ recommented b' rest rest'.
Proof.
  induction 1 as [l rest | c l rest | t a rest T | t a l ts args rest T _ IH]; intros b ts' U.
  - inversion U; subst; (eexists; eexists; split; [apply fs_none | eassumption]).
  - inversion U; subst; [|contradiction]. eexists. eexists. split; [apply fs_none_comment | eassumption].
  - destruct T; inversion U; subst; (eexists; eexists; split; [apply fs_one; constructor | eassumption]).
  - destruct T; inversion U as [| | | b1 t1 x ts1 _ U1]; subst; inversion U1 as [| | | b2 t2 y ts2 _ U2]; subst;
      destruct (IH _ _ U2) as (b' & rest' & L' & R');
      (exists b', rest'; split; [apply fs_more; [constructor | exact L'] | exact R']).
Qed.

Theorem program_recommented : forall ts p, program ts p -> forall b ts', recommented b ts ts' -> program ts' p.
Proof.
  induction 1 as [| l ts ns _ IH | c l ts ns _ IH | l0 id l ts args rest ns A _ IH | id l l1 ts ns _ IH | id l ts args rest ns A _ IH];
    intros b ts' U.
  - inversion U; subst. constructor.
  - inversion U; subst; apply pr_newline; eapply IH; eassumption.
  - inversion U; subst; [|contradiction]. apply pr_comment. eapply IH; eassumption.
  - inversion U as [| | | b1 t1 x ts1 _ U1]; subst; inversion U1 as [| | | b2 t2 y ts2 _ U2]; subst.
    destruct (literals_recommented _ _ _ A _ _ U2) as (b' & rest' & L' & R'). apply (pr_directive _ _ _ _ _ _ _ L'). eapply IH. exact R'.
  - inversion U as [| | | b1 t1 x ts1 _ U1]; subst; inversion U1 as [| | | b2 t2 y ts2 _ U2]; subst. apply pr_label. eapply IH. exact U2.
  - inversion U as [| | | b1 t1 x ts1 _ U1]; subst.
    destruct (fields_recommented _ _ _ A _ _ U1) as (b' & rest' & L' & R'). apply (pr_instruction _ _ _ _ _ _ L'). eapply IH. exact R'.
Qed.

(** A newline is unexpected only after a period. *)
Lemma chunk_err_newline : forall (A : Type) (item : token -> A -> Prop) stop b f, chunk_err item stop b f ->
  (forall l, stop (Newline l) = true) -> forall l, f <> Some (Newline l).
Proof.
  intros A item stop b f H N. induction H as [f H | t a l b f _ _ IH]; intros k; [|apply IH].
  intros ->. destruct (H _ eq_refl) as [H1 _]. rewrite N in H1. discriminate H1.
Qed.

Lemma newline_unexpected : forall b f e, program_err b f e -> forall l, f = Some (Newline l) ->
  exists b0 l0, b = b0 ++ [DirectiveMarker l0].
Proof.
  induction 1 as [t H | l0 b f e _ IH | c l0 b f e _ IH | l0 f H | l0 id l1 b f H | l0 id l1 c args b f e _ _ IH
    | id l0 l1 b f e _ IH | id l0 b f H | id l0 c args b f e _ _ IH]; intros k E.
  - injection E as ->. discriminate H.
  - destruct (IH _ E) as (b0 & l1 & ->). exists (Newline l0 :: b0), l1. reflexivity.
  - destruct (IH _ E) as (b0 & l1 & ->). eexists (_ :: b0), l1. reflexivity.
  - exists [], l0. reflexivity.
  - exfalso. exact (chunk_err_newline _ _ _ _ _ H (fun _ => eq_refl) k E).
  - destruct (IH _ E) as (b0 & l2 & ->). exists (DirectiveMarker l0 :: Identifier id l1 :: c ++ b0), l2.
    rewrite <- !app_comm_cons, <- app_assoc. reflexivity.
  - destruct (IH _ E) as (b0 & l2 & ->). eexists (_ :: _ :: b0), l2. reflexivity.
  - exfalso. exact (chunk_err_newline _ _ _ _ _ H (fun _ => eq_refl) k E).
  - destruct (IH _ E) as (b0 & l2 & ->). exists (Identifier id l0 :: c ++ b0), l2.
    rewrite <- app_comm_cons, <- app_assoc. reflexivity.
Qed.

Lemma app_same_length' : forall (a a' b b' : list token), length a = length a' -> a ++ b = a' ++ b' -> a = a' /\ b = b'.
Proof.
  induction a as [|x a IH]; intros [|x' a'] b b' L E; try discriminate L; [auto|]. cbn [app] in E. injection E as -> E.
  cbn [length] in L. injection L as L. destruct (IH _ _ _ L E) as [-> ->]. auto.
Qed.

Lemma recommented_split : forall x b t ts ts', recommented b (x ++ t :: ts) ts' ->
  exists x' b' t' ts2, ts' = x' ++ t' :: ts2 /\ length x = length x' /\ recommented b' (t :: ts) (t' :: ts2).
Proof.
  induction x as [|y x IH]; intros b t ts ts' U.
  - cbn [app] in U. inversion U; subst; [eexists [], b, _, _ | eexists [], true, _, _ | eexists [], b, _, _];
      (split; [reflexivity|]; split; [reflexivity | exact U]).
  - cbn [app] in U. inversion U as [| b0 c c' l l' ts1 ts2 E1 E2 E3 U1 | l l' ts1 ts2 U1 | b0 t0 ts1 ts2 N U1]; subst;
      destruct (IH _ _ _ _ U1) as (x' & b' & t' & ts3 & -> & Ln & R); eexists (_ :: x'), b', t', ts3;
      (split; [reflexivity|]; split; [cbn [length]; rewrite Ln; reflexivity | exact R]).
Qed.

Theorem refused_recommented : forall ts ts' err, recommented false ts ts' -> parse ts = Done (Err err) ->
  parse ts' = Done (Err err) \/
  exists expected c c' l l', l_file l = l_file l' /\ l_line l = l_line l' /\ l_location l = l_location l' /\
    err = UnexpectedToken expected (SingleLineComment c l) /\
    parse ts' = Done (Err (UnexpectedToken expected (SingleLineComment c' l'))).
Proof.
  intros ts ts' err U P. destruct (refused_sort ts err P ts' (recommented_sorts _ _ _ U)) as (b & r & b' & r' & e & -> & -> & Fb & Fr & -> & Pe & P').
  destruct r as [|t r]; inversion Fr as [|t0 t' r0 r2 T F E1 E2]; subst; [left; exact P'|].
  cbn [hd_error] in P' |- *.
  destruct (recommented_split _ _ _ _ _ U) as (x' & b2 & t2 & ts2 & E & Ln & R).
  assert (Lb : length b' = length x') by (rewrite <- Ln; clear - Fb; induction Fb; cbn [length]; congruence).
  destruct (app_same_length' _ _ _ _ Lb E) as (<- & E2). injection E2 as <- <-. clear E.
  inversion R as [| b3 c c' l l' ts1 ts3 L1 L2 L3 _ | l l' ts1 ts3 _ | b3 t3 ts1 ts3 _ _]; subst.
  - right. exists e, c, c', l, l'. auto.
  - left. destruct (newline_unexpected _ _ _ Pe l eq_refl) as (b0 & l0 & ->). rewrite <- app_assoc in U. cbn [app] in U.
    destruct (recommented_split _ _ _ _ _ U) as (y' & b4 & t4 & ts4 & E & Ln' & R4).
    inversion R4 as [| | | b5 t5 ts5 ts6 _ R5]; subst.
    rewrite app_length in Ln. cbn [length] in Ln.
    destruct b' as [|z b'] using rev_ind; [cbn [length] in Lb, Ln; lia|]. clear IHb'.
    rewrite <- app_assoc in E. cbn [app] in E. rewrite app_length in Lb, Ln. cbn [length] in Lb, Ln.
    assert (Lc : length b' = length y') by lia. destruct (app_same_length' _ _ _ _ Lc E) as (<- & E3). injection E3 as -> E3. subst ts4.
    inversion R5; subst. exact P'.
  - left. exact P'.
Qed.

(** ** No token but the newline after a comment begins inside a comment or a string *)
Theorem lexes_starts : forall file b0 s ts, lexes file b0 s ts -> forall i t, nth_error ts i = Some t ->
  exists before m after, s = before ++ m ++ after /\ m <> [] /\ token_location t = located file (b0 ++ before) m /\
    (mode_after InCode before = InCode \/ (mode_after InCode before = InComment /\ exists r, m = LF :: r)).
Proof.
  intros file b0 s ts L.
  induction L as [b0 | b0 c s ts B _ IH | b0 s k m rest t ts Lx T L IH | b0 s k m rest e Lx Bd | b0 c s B St]; intros i t0 Nth.
  - destruct i; discriminate Nth.
  - destruct (IH i t0 Nth) as (before & m & after & -> & Nm & El & M). exists (c :: before), m, after.
    split; [reflexivity|]. split; [exact Nm|]. split; [rewrite El, <- app_assoc; reflexivity|].
    cbn [mode_after]. rewrite (plain_next c (blank_plain c B)). exact M.
  - destruct i as [|i]; cbn [nth_error] in Nth.
    + injection Nth as <-. exists [], m, rest. split; [apply Lx|]. split; [exact (lexeme_nonempty _ _ _ _ Lx)|].
      rewrite app_nil_r. split; [exact (token_loc _ _ _ _ _ T) | left; reflexivity].
    + destruct (IH i t0 Nth) as (before & m' & after & E & Nm & El & M). exists (m ++ before), m', after.
      destruct (kind_shape _ _ _ _ Lx) as [(-> & x & -> & Nl & R)|[(-> & b & -> & Sb)|(Nc & Ns & Pl)]];
        (split; [rewrite <- app_assoc, <- E; apply Lx|]; split; [exact Nm|]; split; [rewrite El, <- app_assoc; reflexivity|]).
      * rewrite <- app_comm_cons. destruct before as [|d before].
        -- pose proof (proj1 (known_inv _ _ _ _ _ _ (known_comment x [] Nl (or_introl eq_refl)))) as K. right. split; [exact K|].
           cbn [app] in E. destruct m' as [|d m']; [congruence|]. destruct R as [->|(r' & ->)]; [discriminate E|].
           cbn [app] in E. injection E as <- _. eauto.
        -- destruct R as [->|(r' & ->)]; [discriminate E|]. cbn [app] in E. injection E as <- E.
           pose proof (proj1 (known_inv _ _ _ _ _ _ (known_comment x (LF :: before) Nl (or_intror (ex_intro _ before eq_refl))))) as K.
           cbv iota in K. rewrite K. exact M.
      * rewrite <- app_comm_cons, <- app_assoc. cbn [app].
        rewrite (proj1 (known_inv _ _ _ _ _ _ (known_string b before Sb))). exact M.
      * rewrite (proj1 (known_inv _ _ _ _ _ _ (known_plain m before Pl))). exact M.
  - destruct i as [|i]; [|destruct i; discriminate Nth]. injection Nth as <-. exists [], m, rest. split; [apply Lx|].
    split; [exact (lexeme_nonempty _ _ _ _ Lx)|]. rewrite app_nil_r. split; [reflexivity | left; reflexivity].
  - destruct i as [|i]; [|destruct i; discriminate Nth]. injection Nth as <-. exists [], [c], s. split; [reflexivity|].
    split; [discriminate|]. rewrite app_nil_r. split; [reflexivity | left; reflexivity].
Qed.
