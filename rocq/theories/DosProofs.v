(** * DosProofs: line ends. *)

From Verif Require Import Base Text Location Token Scanner Parser Assembler SpecLex SpecGrammar SpecErase SpecDos
  BaseFacts LexProofs ScanProofs LexTheorems LexAppend ParseProofs TextProofs.
Open Scope N_scope.

Lemma dos_app : forall a b, dos (a ++ b) = dos a ++ dos b.
Proof. intros a b. unfold dos. apply flat_map_app. Qed.

Lemma dos_id : forall s, ~ In LF s -> dos s = s.
Proof.
  induction s as [|c s IH]; intros N; [reflexivity|]. change (dos (c :: s)) with ((if c =? LF then [CR; LF] else [c]) ++ dos s).
  rewrite IH by (intros X; apply N; right; exact X). destruct (c =? LF) eqn:E; [|reflexivity].
  exfalso. apply N. left. apply N.eqb_eq. exact E.
Qed.

Lemma dos_cons : forall c s, c <> LF -> dos (c :: s) = c :: dos s.
Proof. intros c s N. unfold dos. cbn [flat_map]. apply N.eqb_neq in N. rewrite N. reflexivity. Qed.

Lemma dos_lf : forall s, dos (LF :: s) = CR :: LF :: dos s.
Proof. reflexivity. Qed.

Lemma dos_in_lf : forall s, In LF (dos s) <-> In LF s.
Proof.
  induction s as [|c s IH]; [reflexivity|]. destruct (N.eq_dec c LF) as [->|N].
  - rewrite dos_lf. cbn [In]. tauto.
  - rewrite dos_cons by exact N. cbn [In]. rewrite IH. tauto.
Qed.

Lemma existsb_lf : forall s, existsb (N.eqb LF) s = false <-> ~ In LF s.
Proof.
  intros s. split.
  - intros E I. assert (X : existsb (N.eqb LF) s = true) by (apply existsb_exists; exists LF; split; [exact I | reflexivity]).
    congruence.
  - intros N. destruct (existsb _ s) eqn:E; [|reflexivity]. apply existsb_exists in E. destruct E as (c & I & E).
    apply N.eqb_eq in E. subst c. contradiction.
Qed.

(** Only newlines and strings have newlines in them. *)
Lemma lexeme_lf : forall k m, rmatch (pattern k) m -> k <> KNewline -> k <> KString -> ~ In LF m.
Proof.
  intros k m R N1 N2. destruct k; try contradiction; cbn [pattern] in R;
    try (apply rmatch_lit in R; subst m; intros [X|[]]; discriminate).
  - apply existsb_lf. exact (extends_no_lf KComment m m CR R eq_refl).
  - apply existsb_lf. apply (extends_no_lf KHex m [] (c_ "0") R). reflexivity.
  - apply existsb_lf. exact (extends_no_lf KBin m m (c_ "0") R eq_refl).
  - apply existsb_lf. exact (extends_no_lf KDec m m (c_ "0") R eq_refl).
  - apply existsb_lf. exact (extends_no_lf KIdentifier m m (c_ "a") R eq_refl).
  - apply rmatch_cat in R. destruct R as (a & b & -> & Ha & Hb). apply rmatch_cat in Hb.
    destruct Hb as (d & e & -> & Hd & He). apply rmatch_lit in Ha, He. apply rmatch_chr in Hd. destruct Hd as (y & -> & Hy).
    subst a e. cbn [app In]. intros [X|[X|[X|[]]]]; try discriminate. subst y. discriminate.
Qed.

(** Nor carriage returns, but for comments and strings. *)
Lemma lexeme_cr : forall k m, rmatch (pattern k) m -> k <> KComment -> k <> KString -> ~ In CR m.
Proof.
  assert (G : forall p s, forallb p s = true -> p CR = false -> ~ In CR s).
  { intros p s F P I. rewrite forallb_forall in F. specialize (F _ I). congruence. }
  intros k m R N1 N2. destruct k; try contradiction; cbn [pattern] in R;
    try (apply rmatch_lit in R; subst m; intros [X|[]]; discriminate).
  - apply rmatch_cat in R. destruct R as (a & b & -> & Ha & Hb). apply rmatch_chr in Ha.
    destruct Ha as (y & -> & Hy). apply rmatch_hex_digits in Hb. destruct Hb as [Hb _].
    intros [X|X]; [subst y; discriminate | exact (G _ _ Hb eq_refl X)].
  - apply rmatch_cat in R. destruct R as (a & b & -> & Ha & Hb). apply rmatch_lit in Ha. subst a.
    apply rmatch_plus_chr in Hb. destruct Hb as [_ Hb]. intros [X|X]; [discriminate | exact (G _ _ Hb eq_refl X)].
  - apply rmatch_plus_chr in R. destruct R as [_ Hb]. exact (G _ _ Hb eq_refl).
  - apply rmatch_cat in R. destruct R as (a & b & -> & Ha & Hb). apply rmatch_chr in Ha.
    destruct Ha as (y & -> & Hy). apply rmatch_star_chr in Hb.
    intros [X|X]; [subst y; discriminate | exact (G _ _ Hb eq_refl X)].
  - apply rmatch_cat in R. destruct R as (a & b & -> & Ha & Hb). apply rmatch_cat in Hb.
    destruct Hb as (d & e & -> & Hd & He). apply rmatch_lit in Ha, He. apply rmatch_chr in Hd. destruct Hd as (y & -> & Hy).
    subst a e. cbn [app In]. intros [X|[X|[X|[]]]]; try discriminate. subst y. discriminate.
Qed.

Lemma string_lexeme : forall m, rmatch (pattern KString) m <-> exists b, m = QUOTE :: b ++ [QUOTE] /\ string_body b.
Proof.
  intros m. cbn [pattern]. split.
  - intros R. apply rmatch_cat in R. destruct R as (a & r & -> & Ha & Hr). apply rmatch_cat in Hr.
    destruct Hr as (b & q & -> & Hb & Hq). apply rmatch_lit in Ha, Hq. subst a q. exists b.
    split; [reflexivity|]. apply string_body_star. exact Hb.
  - intros (b & -> & B). change (QUOTE :: b ++ [QUOTE]) with ([QUOTE] ++ b ++ [QUOTE]).
    constructor; [apply rmatch_lit; reflexivity|]. constructor; [|apply rmatch_lit; reflexivity].
    apply string_body_star. exact B.
Qed.

Lemma dos_body : forall b, string_body b -> string_body (dos b).
Proof.
  induction 1 as [|c b N1 N2 _ IH|c b N _ IH].
  - constructor.
  - destruct (N.eq_dec c LF) as [->|N].
    + rewrite dos_lf. constructor; [discriminate | discriminate|]. constructor; [discriminate | discriminate | exact IH].
    + rewrite dos_cons by exact N. constructor; assumption.
  - rewrite dos_cons by discriminate. rewrite dos_cons by exact N. constructor; assumption.
Qed.

Lemma cr_blank : blank CR = true.
Proof. reflexivity. Qed.

Lemma lexes_blank_inv : forall file before c s ts, blank c = true -> lexes file before (c :: s) ts ->
  lexes file (before ++ [c]) s ts.
Proof.
  intros file before c s ts B H. inversion H as [|? ? ? ? _ H'|? ? ? ? ? ? ? L|? ? ? ? ? ? L|? ? ? B']; subst.
  - exact H'.
  - apply lexeme_not_blank in L. congruence.
  - apply lexeme_not_blank in L. congruence.
  - congruence.
Qed.

(** A lexeme not continued in [rest] is not in [dos rest], but a comment. *)
Lemma dos_starts : forall k m rest, k <> KComment -> starts (extends k m) rest = false -> starts (extends k m) (dos rest) = false.
Proof.
  intros k m [|c rest] Nk E; [reflexivity|]. destruct (N.eq_dec c LF) as [->|N].
  - rewrite dos_lf. cbn [starts]. destruct (extends k m CR) eqn:X; [|reflexivity].
    exfalso. apply Nk. exact (extends_blank _ _ _ cr_blank X).
  - rewrite dos_cons by exact N. exact E.
Qed.

(** The lexeme at the start of [dos s]. *)
Lemma dos_lexeme : forall k m rest s, lexeme k m rest s -> k <> KComment -> k <> KNewline ->
  lexeme k (dos m) (dos rest) (dos s).
Proof.
  intros k m rest s L N1 N2. pose proof (lexeme_ends _ _ _ _ L) as E. destruct L as (-> & R & _). rewrite dos_app.
  destruct (match k with KString => true | _ => false end) eqn:K.
  - destruct k; try discriminate. apply lexeme_closed; [|destruct (dos rest); reflexivity].
    apply string_lexeme in R. destruct R as (b & -> & B). apply string_lexeme. exists (dos b).
    rewrite dos_cons by discriminate. rewrite dos_app. split; [reflexivity | apply dos_body; exact B].
  - rewrite (dos_id m). 2:{ apply (lexeme_lf k); try assumption. intros ->. discriminate. }
    apply lexeme_closed; [exact R | apply dos_starts; assumption].
Qed.

(** A comment grows to the newline. *)
Lemma dos_comment : forall m rest s, lexeme KComment m rest s ->
  dos rest = [] /\ lexeme KComment m [] (dos s) \/
  exists rest', dos rest = CR :: LF :: rest' /\ lexeme KComment (m ++ [CR]) (LF :: rest') (dos s).
Proof.
  intros m rest s L. pose proof (lexeme_ends _ _ _ _ L) as E. destruct L as (-> & R & _). rewrite dos_app.
  rewrite (dos_id m) by (apply (lexeme_lf KComment); [exact R | discriminate | discriminate]).
  destruct rest as [|c rest].
  - left. split; [reflexivity|]. apply lexeme_closed; [exact R | reflexivity].
  - right. cbn [starts extends] in E. apply negb_false_iff, N.eqb_eq in E. subst c. exists (dos rest).
    split; [reflexivity|]. rewrite dos_lf. change (CR :: LF :: dos rest) with ([CR] ++ LF :: dos rest).
    rewrite app_assoc. apply lexeme_closed; [|reflexivity]. apply comment_extended; [exact R | reflexivity].
Qed.

(** ** Texts without errors *)

Lemma dos_token_of : forall file before k m t, token_of file before k m t -> rmatch (pattern k) m -> k <> KNewline ->
  forall file' before', exists t', token_of file' before' k (dos m) t' /\ bare t' = bare (dos_token t).
Proof.
  intros file before k m t T R Nk file' before'. destruct (match k with KString => true | _ => false end) eqn:K.
  - destruct k; try discriminate. inversion T; subst. rewrite dos_cons by discriminate. rewrite dos_app.
    eexists. split; [constructor | reflexivity].
  - rewrite dos_id. 2:{ apply (lexeme_lf k); try assumption. intros ->. discriminate. }
    destruct (token_of_bare _ _ _ _ _ T file' before') as (t' & T' & E). exists t'. split; [exact T'|]. rewrite E.
    inversion T; subst; try reflexivity. discriminate.
Qed.

Lemma dos_lexes : forall file before s ts, lexes file before s ts -> existsb is_error ts = false ->
  forall file' before', exists ts', lexes file' before' (dos s) ts' /\ map bare ts' = map (fun t => bare (dos_token t)) ts.
Proof.
  intros file before s ts H.
  induction H as [before | before c s ts B _ IH | before s k m rest t ts L T _ IH | before s k m rest e L B | before c s B N];
    intros Ne file' before'.
  - exists []. split; [constructor | reflexivity].
  - rewrite dos_cons by (intros ->; discriminate). destruct (IH Ne file' (before' ++ [c])) as (ts' & H' & E).
    exists ts'. split; [constructor; assumption | exact E].
  - cbn [existsb] in Ne. apply orb_false_iff in Ne. destruct Ne as [_ Ne].
    destruct (match k with KComment => true | _ => false end) eqn:K1;
      [|destruct (match k with KNewline => true | _ => false end) eqn:K2].
    + (* comment *)
      destruct k; try discriminate. inversion T; subst.
      destruct (dos_comment _ _ _ L) as [[Er L']|(r & Er & L')].
      * rewrite Er in IH. destruct (IH Ne file' (before' ++ m)) as (ts' & H' & E).
        exists (SingleLineComment m (located file' before' m) :: ts').
        split; [eapply lex_token; [exact L' | constructor | exact H']|]. cbn [map]. rewrite E. reflexivity.
      * rewrite Er in IH. destruct (IH Ne file' (before' ++ m)) as (ts' & H' & E).
        apply (lexes_blank_inv _ _ _ _ _ cr_blank) in H'. rewrite <- app_assoc in H'.
        exists (SingleLineComment (m ++ [CR]) (located file' before' (m ++ [CR])) :: ts').
        split; [eapply lex_token; [exact L' | constructor | exact H']|]. cbn [map]. rewrite E. reflexivity.
    + (* newline *)
      destruct k; try discriminate. inversion T; subst. destruct L as (-> & R & _).
      cbn [pattern] in R. apply rmatch_lit in R. subst m. rewrite dos_app. change (dos [LF]) with ([CR] ++ [LF]).
      rewrite <- app_assoc. destruct (IH Ne file' ((before' ++ [CR]) ++ [LF])) as (ts' & H' & E).
      exists (Newline (located file' (before' ++ [CR]) [LF]) :: ts'). split.
      * apply lex_blank; [exact cr_blank|]. eapply lex_token; [|constructor|exact H'].
        apply (lexeme_closed KNewline); [apply newline_match | destruct (dos rest); reflexivity].
      * cbn [map]. rewrite E. reflexivity.
    + assert (N1 : k <> KComment) by (intros ->; discriminate). assert (N2 : k <> KNewline) by (intros ->; discriminate).
      destruct (dos_token_of _ _ _ _ _ T (proj1 (proj2 L)) N2 file' before') as (t' & T' & Et).
      destruct (IH Ne file' (before' ++ dos m)) as (ts' & H' & E).
      exists (t' :: ts'). split; [eapply lex_token; [apply dos_lexeme; eassumption | exact T' | exact H']|].
      cbn [map]. rewrite Et, E. reflexivity.
  - discriminate.
  - discriminate.
Qed.

(** ** Texts with errors *)

Lemma dos_prefix : forall m x rest, dos x = m ++ rest -> ~ In LF m ->
  (exists r, x = m ++ r) \/ (exists m1 r, m = m1 ++ [CR] /\ x = m1 ++ LF :: r).
Proof.
  induction m as [|c m IH]; intros x rest E N; [left; exists x; reflexivity|].
  destruct x as [|d x]; [discriminate|]. destruct (N.eq_dec d LF) as [->|Nd].
  - rewrite dos_lf in E. cbn [app] in E. injection E as <- E. destruct m as [|c' m].
    + right. exists [], x. split; reflexivity.
    + exfalso. cbn [app] in E. injection E as <- _. apply N. right. left. reflexivity.
  - rewrite dos_cons in E by exact Nd. cbn [app] in E. injection E as <- E.
    destruct (IH x rest E) as [(r & ->)|(m1 & r & -> & ->)]; [intros X; apply N; right; exact X|..].
    + left. exists r. reflexivity.
    + right. exists (d :: m1), r. split; reflexivity.
Qed.

Definition long_string (t : token) : Prop := match t with StringLiteral b _ => In LF b | _ => False end.

Lemma dos_errors : forall file before s ts, lexes file before s ts -> existsb is_error ts = true ->
  forall file' before' ts', lexes file' before' (dos s) ts' ->
  existsb is_error ts' = true \/ exists t, In t ts' /\ long_string t.
Proof.
  intros file before s ts H.
  induction H as [before | before c s ts B _ IH | before s k m rest t ts L T _ IH | before s k m rest e L B | before c s B N];
    intros Er file' before' ts' H'.
  - discriminate.
  - rewrite dos_cons in H' by (intros ->; discriminate). apply (lexes_blank_inv _ _ _ _ _ B) in H'. exact (IH Er _ _ _ H').
  - cbn [existsb] in Er. rewrite (token_not_error _ _ _ _ _ T) in Er. cbn [orb] in Er.
    assert (G : forall t' ts1, (existsb is_error ts1 = true \/ exists t, In t ts1 /\ long_string t) ->
                existsb is_error (t' :: ts1) = true \/ exists t, In t (t' :: ts1) /\ long_string t).
    { intros t' ts1 [X|(x & I & X)]; [left; cbn [existsb]; rewrite X; apply orb_true_r | right; exists x; split; [right; exact I | exact X]]. }
    destruct (match k with KComment => true | _ => false end) eqn:K1;
      [|destruct (match k with KNewline => true | _ => false end) eqn:K2].
    + destruct k; try discriminate. destruct (dos_comment _ _ _ L) as [[Ez L']|(r & Ez & L')].
      * destruct (lexes_cons_inv _ _ _ _ _ _ _ L' H') as [(t' & ts1 & -> & T' & H1)|(x & -> & Bx)]; [|left; reflexivity].
        rewrite <- Ez in H1. apply G. exact (IH Er _ _ _ H1).
      * destruct (lexes_cons_inv _ _ _ _ _ _ _ L' H') as [(t' & ts1 & -> & T' & H1)|(x & -> & Bx)]; [|left; reflexivity].
        apply G. apply (IH Er file' (before' ++ m)). rewrite Ez. apply lex_blank; [exact cr_blank|].
        rewrite <- app_assoc. exact H1.
    + destruct k; try discriminate. destruct L as (-> & R & _). cbn [pattern] in R. apply rmatch_lit in R. subst m.
      rewrite dos_app in H'. change (dos [LF] ++ dos rest) with (CR :: LF :: dos rest) in H'.
      apply (lexes_blank_inv _ _ _ _ _ cr_blank) in H'.
      assert (L' : lexeme KNewline [LF] (dos rest) (LF :: dos rest))
        by (apply (lexeme_closed KNewline [LF]); [apply newline_match | destruct (dos rest); reflexivity]).
      destruct (lexes_cons_inv _ _ _ _ _ _ _ L' H') as [(t' & ts1 & -> & T' & H1)|(x & -> & Bx)]; [|left; reflexivity].
      apply G. exact (IH Er _ _ _ H1).
    + assert (N1 : k <> KComment) by (intros ->; discriminate). assert (N2 : k <> KNewline) by (intros ->; discriminate).
      pose proof (dos_lexeme _ _ _ _ L N1 N2) as L'.
      destruct (lexes_cons_inv _ _ _ _ _ _ _ L' H') as [(t' & ts1 & -> & T' & H1)|(x & -> & Bx)]; [|left; reflexivity].
      apply G. exact (IH Er _ _ _ H1).
  - assert (N1 : k <> KComment) by (intros ->; inversion B). assert (N2 : k <> KNewline) by (intros ->; inversion B).
    pose proof (dos_lexeme _ _ _ _ L N1 N2) as L'.
    rewrite (dos_id m) in L'. 2:{ apply (lexeme_lf k); [exact (proj1 (proj2 L)) | exact N2|]. intros ->. inversion B. }
    destruct (lexes_cons_inv _ _ _ _ _ _ _ L' H') as [(t' & ts1 & -> & T' & H1)|(x & -> & Bx)]; [|left; reflexivity].
    exfalso. eapply token_not_bad; eassumption.
  - assert (Nc : c <> LF). { intros ->. exact (N KNewline [LF] s eq_refl newline_match). }
    rewrite dos_cons in H' by exact Nc.
    inversion H' as [|? ? ? ? B' _|? ? k m rest t ts1 L T|? ? ? ? ? ? L|? ? ? B']; subst.
    + congruence.
    + right. exists t. split; [left; reflexivity|]. destruct L as (E & R & _).
      rewrite <- dos_cons in E by exact Nc.
      destruct (existsb (N.eqb LF) m) eqn:El.
      * (* a string with a newline *)
        destruct (match k with KString => true | _ => false end) eqn:K.
        { destruct k; try discriminate. inversion T; subst. cbn [long_string]. apply existsb_exists in El.
          destruct El as (y & Iy & Ey). apply N.eqb_eq in Ey. subst y. destruct Iy as [X|X]; [discriminate|].
          apply in_app_or in X. destruct X as [X|[X|[]]]; [exact X | discriminate]. }
        exfalso. apply existsb_exists in El. destruct El as (y & Iy & Ey). apply N.eqb_eq in Ey. subst y.
        destruct (match k with KNewline => true | _ => false end) eqn:K2.
        { destruct k; try discriminate. cbn [pattern] in R. apply rmatch_lit in R. subst m.
          rewrite dos_cons in E by exact Nc. cbn [app] in E. injection E as -> _. apply Nc. reflexivity. }
        apply (lexeme_lf k m R); [intros -> | intros -> | exact Iy]; discriminate.
      * exfalso. apply existsb_lf in El. destruct (dos_prefix _ _ _ E El) as [(r & Ex)|(m1 & r & -> & Ex)].
        { exact (N k m r Ex R). }
        destruct (match k with KComment => true | _ => false end) eqn:K1.
        { destruct k; try discriminate. cbn [pattern] in R. apply rmatch_cat in R.
          destruct R as (a & b & Ea & Ha & Hb). apply rmatch_lit in Ha. subst a.
          assert (c = c_ ";").
          { destruct m1 as [|y m1]; cbn [app] in Ea, Ex.
            - discriminate Ea.
            - injection Ea as -> _. injection Ex as -> _. reflexivity. }
          subst c. apply (N KComment [c_ ";"] s eq_refl). apply comment_match. reflexivity. }
        destruct (match k with KString => true | _ => false end) eqn:K3.
        { destruct k; try discriminate. apply string_lexeme in R. destruct R as (b & Eb & _).
          change (QUOTE :: b ++ [QUOTE]) with ((QUOTE :: b) ++ [QUOTE]) in Eb. apply app_inj_tail in Eb. destruct Eb as [_ Eb]. discriminate. }
        apply (lexeme_cr k _ R); [intros -> | intros -> | apply in_or_app; right; left; reflexivity]; discriminate.
    + left. reflexivity.
    + left. reflexivity.
Qed.
