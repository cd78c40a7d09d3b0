(** * FirstProofs: what stands after the first syntax error. *)

From Verif Require Import Base Text Location Token Scanner Parser Main SpecLex SpecGrammar
  BaseFacts LexProofs ScanProofs LexTheorems LexAppend ParseProofs.
Open Scope N_scope.

Lemma match_lf : forall k m, rmatch (pattern k) m -> existsb (N.eqb LF) m = true ->
  m = [LF] \/ exists m', m = QUOTE :: m'.
Proof.
  intros k m R I.
  destruct k; try (exfalso; rewrite (extends_no_lf _ _ [] (c_ "0") R) in I by reflexivity; discriminate);
    cbn [pattern] in R; try (apply rmatch_lit in R; subst m; try discriminate; left; reflexivity).
  - apply rmatch_cat in R. destruct R as (a & b & -> & Ha & _). apply rmatch_lit in Ha. subst a.
    right. exists b. reflexivity.
  - exfalso. apply rmatch_cat in R. destruct R as (a & b & -> & Ha & Hb). apply rmatch_lit in Ha. subst a.
    apply rmatch_cat in Hb. destruct Hb as (d & q & -> & Hd & Hq). apply rmatch_lit in Hq. subst q.
    apply rmatch_chr in Hd. destruct Hd as (y & -> & Hy). cbn [app existsb] in I.
    rewrite !orb_false_r in I. apply orb_true_iff in I. destruct I as [I|I]; [discriminate|].
    apply N.eqb_eq in I. subst y. discriminate.
Qed.

(** Whole lines. *)
Definition lined (s : str) : Prop := s = [] \/ exists a, s = a ++ [LF].

Lemma lined_tail : forall m rest, lined (m ++ rest) -> lined rest.
Proof.
  intros m rest [E|(a & E)].
  - apply app_eq_nil in E. left. apply E.
  - destruct rest as [|c r]; [left; reflexivity|]. right.
    destruct (exists_last (l := c :: r) ltac:(discriminate)) as (r' & x & Er). rewrite Er in *.
    rewrite app_assoc in E. apply app_inj_tail in E. destruct E as [_ ->]. exists r'. reflexivity.
Qed.

Lemma lined_lexeme : forall k m rest b, lexeme k m rest (m ++ rest) -> lined (m ++ rest) ->
  lexeme k m (rest ++ b) (m ++ rest ++ b) /\ (rest = [] -> k = KNewline).
Proof.
  intros k m rest b L N. pose proof L as (_ & R & _). pose proof (lexeme_ends _ _ _ _ L) as St.
  destruct rest as [|c rest].
  - rewrite app_nil_r in N. destruct N as [->|(a & ->)]; [destruct (lexeme_nonempty _ _ _ _ L); reflexivity|].
    destruct (match_last_lf _ _ R) as [-> ->]. split; [|reflexivity]. apply lexeme_closed; [exact R|].
    destruct b; reflexivity.
  - split; [|discriminate]. apply lexeme_closed; assumption.
Qed.

Lemma lexes_lines : forall file before s ts, lexes file before s ts -> lined s ->
  forall b ts', lexes file before (s ++ b) ts' ->
  (exists ts2, ts' = ts ++ ts2) \/
  (exists x l y, ts = x ++ [ErrorToken InvalidStringLiteral l] /\ ts' = x ++ y).
Proof.
  intros file before s ts H.
  induction H as [before | before c s ts B H IH | before s k m rest t ts L T H IH | before s k m rest e L B | before c s B St];
    intros N b ts' H'.
  - left. exists ts'. reflexivity.
  - cbn [app] in H'. inversion H' as [|? ? ? ? _ H2|? ? ? ? ? ? ? L|? ? ? ? ? ? L|? ? ? B']; subst.
    + apply (IH (lined_tail [c] s N) b _ H2).
    + apply lexeme_not_blank in L. congruence.
    + apply lexeme_not_blank in L. congruence.
    + congruence.
  - pose proof L as (-> & _). destruct (lined_lexeme _ _ _ b L N) as [L' _]. rewrite <- app_assoc in H'.
    destruct (lexes_cons_inv _ _ _ _ _ _ _ L' H') as [(t' & ts1 & -> & T' & H2)|(e & _ & Bd)].
    + rewrite (token_of_det _ _ _ _ _ _ T' T).
      destruct (IH (lined_tail _ _ N) b _ H2) as [(ts2 & ->)|(x & l & y & -> & ->)].
      * left. exists ts2. reflexivity.
      * right. exists (t :: x), l, y. split; reflexivity.
    + exfalso. eapply token_not_bad; eassumption.
  - pose proof L as (-> & _). destruct (lined_lexeme _ _ _ b L N) as [L' _]. rewrite <- app_assoc in H'.
    left. exists []. cbn [app]. eapply lexes_det; [exact H'|]. eapply lex_bad; eassumption.
  - destruct (N.eq_dec c QUOTE) as [->|Q].
    + right. exists [], (located file before [QUOTE]), ts'. split; reflexivity.
    + left. exists []. cbn [app]. eapply lexes_det; [exact H'|]. cbn [app]. apply lex_stuck; [exact B|].
      intros k m rest E R. destruct (Nat.le_gt_cases (length m) (length (c :: s))) as [Le|Gt].
      * symmetry in E. change (c :: s ++ b) with ((c :: s) ++ b) in E. destruct (prefix_compare _ _ _ _ E Le) as (z & Ez & _).
        exact (St k m z Ez R).
      * change (c :: s ++ b) with ((c :: s) ++ b) in E.
        destruct (prefix_compare _ _ _ _ E ltac:(lia)) as (z & -> & _).
        destruct N as [N|(a & N)]; [discriminate|].
        destruct (match_lf k _ R) as [F|(m' & F)].
        { rewrite N, !existsb_app. cbn [existsb]. rewrite N.eqb_refl. cbn [orb]. rewrite orb_true_r. reflexivity. }
        { cbn [app] in F. injection F as -> F. apply (St KNewline [LF] s); [reflexivity | apply rmatch_lit; reflexivity]. }
        { cbn [app] in F. injection F as -> F. contradiction. }
Qed.

(** The offending token, and everything that may follow it. *)
Theorem parse_first_error : forall ts expected t,
  parse ts = Done (Err (UnexpectedToken expected t)) ->
  exists before after, ts = before ++ t :: after /\
    forall after', parse (before ++ t :: after') = Done (Err (UnexpectedToken expected t)).
Proof.
  intros ts expected t H. destruct (parse_cases ts) as [(ns & P & E) | (b & r & x & -> & Pe & E)];
    rewrite E in H; inversion H as [H1].
  destruct r as [|t' r]; [discriminate|]. cbn [hd_error syntax_error] in H1. injection H1 as <- <-.
  exists b, r. split; [reflexivity|]. intros r'. unfold parse.
  apply parse_program_err; [exact Pe | reflexivity | lia].
Qed.

Lemma last_or_before : forall A (x b a : list A) y z, x ++ [z] = b ++ y :: a ->
  y = z \/ exists a', x = b ++ y :: a'.
Proof.
  intros A x b a y z E. destruct a as [|w a].
  - apply app_inj_tail in E. left. symmetry. apply E.
  - right. destruct (exists_last (l := w :: a) ltac:(discriminate)) as (a' & q & Ea). rewrite Ea in E.
    change (b ++ y :: a' ++ [q]) with (b ++ (y :: a') ++ [q]) in E. rewrite app_assoc in E.
    apply app_inj_tail in E. destruct E as [-> _]. exists a'. reflexivity.
Qed.

Theorem parse_first_lines : forall file a b ts ts' expected t,
  scan file (a ++ [LF]) = Done ts -> scan file (a ++ LF :: b) = Done ts' ->
  parse ts = Done (Err (UnexpectedToken expected t)) ->
  (forall l, t <> ErrorToken InvalidStringLiteral l) ->
  parse ts' = parse ts.
Proof.
  intros file a b ts ts' expected t S S' P Q. apply scan_lexes in S, S'.
  change (a ++ LF :: b) with (a ++ [LF] ++ b) in S'. rewrite app_assoc in S'.
  destruct (parse_first_error _ _ _ P) as (before & after & -> & G). rewrite P.
  destruct (lexes_lines _ _ _ _ S (or_intror (ex_intro _ a eq_refl)) _ _ S') as [(ts2 & ->)|(x & l & y & E & ->)].
  - rewrite <- app_assoc. cbn [app]. apply G.
  - symmetry in E. destruct (last_or_before _ _ _ _ _ _ E) as [->|(z & ->)]; [destruct (Q l eq_refl)|].
    rewrite <- app_assoc. cbn [app]. apply G.
Qed.
