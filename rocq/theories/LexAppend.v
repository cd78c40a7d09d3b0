(** * LexAppend: lexemes in a row, blanks between them, and texts moved about. *)

From Verif Require Import Base Text Location Token Scanner Parser Assembler SpecLex SpecGrammar SpecErase
  BaseFacts LexProofs ScanProofs LexTheorems.
Open Scope N_scope.

(** ** Which characters may continue a lexeme *)

Definition extends (k : kind) (m : str) (c : char) : bool :=
  match k with
  | KComment => negb (c =? LF)
  | KHex => (Nat.leb (length m) 3) && among hexadecimal_digits c
  | KBin => among "01." c
  | KDec => among decimal_digits c
  | KIdentifier => among letters c || among decimal_digits c || among "_" c
  | _ => false
  end.

Lemma extends_complete : forall k m c x, rmatch (pattern k) m -> rmatch (pattern k) (m ++ c :: x) ->
  extends k m c = true.
Proof.
  intros k m c x H H'.
  destruct k; cbn [pattern extends] in *;
    try (apply rmatch_lit in H, H'; subst m; discriminate).
  - (* comment *)
    apply rmatch_cat in H, H'. destruct H as (a & b & -> & Ha & Hb), H' as (a' & b' & E & Ha' & Hb').
    apply rmatch_lit in Ha, Ha'. subst a a'. cbn [app] in E. injection E as E. subst b'.
    apply rmatch_star_chr in Hb'. rewrite forallb_app in Hb'. cbn [forallb] in Hb'. rewrite noneof_1 in Hb'.
    destruct (negb (c =? LF)); [reflexivity|]. rewrite andb_false_r in Hb'. discriminate.
  - (* string *)
    exfalso. apply rmatch_cat in H, H'. destruct H as (a & b & -> & Ha & Hb), H' as (a' & b' & E & Ha' & Hb').
    apply rmatch_lit in Ha, Ha'. subst a a'. cbn [app] in E. injection E as E.
    apply rmatch_cat in Hb, Hb'. destruct Hb as (d & q & -> & Hd & Hq), Hb' as (d' & q' & -> & Hd' & Hq').
    apply rmatch_lit in Hq, Hq'. subst q q'.
    pose proof (find_string_body_complete _ Hd (c :: x)) as F.
    pose proof (find_string_body_complete _ Hd' []) as F'.
    rewrite <- app_assoc in E. cbn [app] in E.
    change [QUOTE] with (QUOTE :: []) in E. rewrite <- E, F in F'. injection F' as F'. apply app_inv_head in F'. discriminate.
  - (* hex *)
    apply rmatch_cat in H, H'. destruct H as (a & b & -> & Ha & Hb), H' as (a' & b' & E & Ha' & Hb').
    apply rmatch_chr in Ha, Ha'. destruct Ha as (y & -> & _), Ha' as (y' & -> & _).
    cbn [app] in E. injection E as _ E. subst b'. apply rmatch_hex_digits in Hb, Hb'.
    destruct Hb' as [Hb' L]. rewrite forallb_app in Hb'. cbn [forallb] in Hb'.
    rewrite !andb_true_iff in Hb'. destruct Hb' as [_ [-> _]].
    rewrite app_length in L. cbn [length app] in *. rewrite andb_true_r. apply Nat.leb_le. lia.
  - (* bin *)
    apply rmatch_cat in H, H'. destruct H as (a & b & -> & Ha & Hb), H' as (a' & b' & E & Ha' & Hb').
    apply rmatch_lit in Ha, Ha'. subst a a'. cbn [app] in E. injection E as E. subst b'.
    apply rmatch_plus_chr in Hb'. destruct Hb' as [_ Hb']. rewrite forallb_app in Hb'. cbn [forallb] in Hb'.
    rewrite !andb_true_iff in Hb'. apply Hb'.
  - (* dec *)
    apply rmatch_plus_chr in H'. destruct H' as [_ Hb']. rewrite forallb_app in Hb'. cbn [forallb] in Hb'.
    rewrite !andb_true_iff in Hb'. apply Hb'.
  - (* identifier *)
    apply rmatch_cat in H, H'. destruct H as (a & b & -> & Ha & Hb), H' as (a' & b' & E & Ha' & Hb').
    apply rmatch_chr in Ha, Ha'. destruct Ha as (y & -> & _), Ha' as (y' & -> & _).
    cbn [app] in E. injection E as _ E. subst b'. apply rmatch_star_chr in Hb'.
    rewrite forallb_app in Hb'. cbn [forallb] in Hb'. rewrite !andb_true_iff in Hb'. apply Hb'.
  - (* indirect *)
    exfalso. assert (G : forall z, rmatch (Cat (lit (c_ "[")) (Cat (Chr (among "iI")) (lit (c_ "]")))) z -> length z = 3%nat).
    { intros z Hz. apply rmatch_cat in Hz. destruct Hz as (a & b & -> & Ha & Hb).
      apply rmatch_cat in Hb. destruct Hb as (d & e & -> & Hd & He).
      apply rmatch_lit in Ha, He. apply rmatch_chr in Hd. destruct Hd as (y & -> & _). subst. reflexivity. }
    apply G in H, H'. rewrite app_length in H'. cbn [length] in H'. lia.
Qed.

Lemma extends_sound : forall k m c, rmatch (pattern k) m -> extends k m c = true ->
  rmatch (pattern k) (m ++ [c]).
Proof.
  intros k m c H E. destruct k; cbn [pattern extends] in *; try discriminate.
  - apply rmatch_cat in H. destruct H as (a & b & -> & Ha & Hb). rewrite <- app_assoc.
    constructor; [exact Ha|]. apply rmatch_star_chr in Hb. apply rmatch_star_chr.
    rewrite forallb_app, Hb. cbn [forallb]. rewrite noneof_1, E. reflexivity.
  - apply rmatch_cat in H. destruct H as (a & b & -> & Ha & Hb). rewrite <- app_assoc.
    constructor; [exact Ha|]. apply rmatch_hex_digits in Hb. apply rmatch_hex_digits.
    apply rmatch_chr in Ha. destruct Ha as (y & -> & _). rewrite app_length in *. cbn [length app] in *.
    apply andb_true_iff in E. destruct E as [El Ec]. apply Nat.leb_le in El.
    split; [|lia]. rewrite forallb_app. destruct Hb as [-> _]. cbn [forallb]. rewrite Ec. reflexivity.
  - apply rmatch_cat in H. destruct H as (a & b & -> & Ha & Hb). rewrite <- app_assoc.
    constructor; [exact Ha|]. apply rmatch_plus_chr in Hb. apply rmatch_plus_chr.
    destruct Hb as [Hn Hb]. split; [destruct b; discriminate|].
    rewrite forallb_app, Hb. cbn [forallb]. rewrite E. reflexivity.
  - apply rmatch_plus_chr in H. apply rmatch_plus_chr. destruct H as [Hn Hb].
    split; [destruct m; discriminate|]. rewrite forallb_app, Hb. cbn [forallb]. rewrite E. reflexivity.
  - apply rmatch_cat in H. destruct H as (a & b & -> & Ha & Hb). rewrite <- app_assoc.
    constructor; [exact Ha|]. apply rmatch_star_chr in Hb. apply rmatch_star_chr.
    rewrite forallb_app, Hb. cbn [forallb]. rewrite E. reflexivity.
Qed.

Lemma prefix_compare : forall (a b x y : str), a ++ x = b ++ y -> (length a <= length b)%nat ->
  exists z, b = a ++ z /\ x = z ++ y.
Proof.
  induction a as [|h a IH]; intros b x y E L.
  - exists b. split; [reflexivity | exact E].
  - destruct b as [|h' b]; cbn [length] in L; [lia|]. cbn [app] in E. injection E as <- E.
    destruct (IH b x y E ltac:(lia)) as (z & -> & ->). exists z. split; reflexivity.
Qed.

(** A lexeme ends where no character continues it. *)
Lemma lexeme_closed : forall k m rest, rmatch (pattern k) m -> starts (extends k m) rest = false ->
  lexeme k m rest (m ++ rest).
Proof.
  intros k m rest H C. destruct (find_complete k m rest H) as (m' & F & L).
  destruct (find_lexeme _ _ _ F) as (rest' & E & Lx). pose proof Lx as (_ & R & _).
  destruct (prefix_compare _ _ _ _ E L) as (z & -> & ->).
  destruct z as [|c x].
  - rewrite app_nil_r in *. exact Lx.
  - pose proof (extends_complete _ _ _ _ H R) as X. cbn [starts app] in C. congruence.
Qed.

Lemma lexeme_ends : forall k m rest s, lexeme k m rest s -> starts (extends k m) rest = false.
Proof.
  intros k m rest s (-> & R & Max). destruct rest as [|c rest]; [reflexivity|]. cbn [starts].
  destruct (extends k m c) eqn:E; [|reflexivity].
  pose proof (extends_sound _ _ _ R E) as R'.
  specialize (Max k (m ++ [c]) rest). rewrite <- app_assoc in Max. specialize (Max eq_refl R').
  rewrite app_length in Max. cbn in Max. lia.
Qed.

Lemma lexeme_kind : forall k m rest s k' m' rest', lexeme k m rest s ->
  rmatch (pattern k') m' -> s = m' ++ rest' -> k = k'.
Proof.
  intros k m rest s k' m' rest' (E & R & _) R' E'.
  destruct (first_char _ _ R) as (c & x & -> & O). destruct (first_char _ _ R') as (c' & x' & -> & O').
  rewrite E in E'. cbn [app] in E'. injection E' as <- _. eapply first_ok_inj; eassumption.
Qed.

(** ** The same text elsewhere *)

Lemma token_of_bare : forall file before k m t, token_of file before k m t -> forall file' before',
  exists t', token_of file' before' k m t' /\ bare t' = bare t.
Proof. intros file before k m t H file' before'. destruct H; eexists; (split; [constructor; assumption || idtac | reflexivity]). Qed.

Lemma lexes_moved : forall file before s ts, lexes file before s ts -> forall file' before',
  exists ts', lexes file' before' s ts' /\ same_tokens ts' ts.
Proof.
  unfold same_tokens. intros file before s ts H.
  induction H as [before | before c s ts B _ IH | before s k m rest t ts L T _ IH | before s k m rest e L B | before c s B N];
    intros file' before'.
  - exists []. split; [constructor | reflexivity].
  - destruct (IH file' (before' ++ [c])) as (ts' & H & E). exists ts'. split; [constructor; assumption | exact E].
  - destruct (IH file' (before' ++ m)) as (ts' & H & E).
    destruct (token_of_bare _ _ _ _ _ T file' before') as (t' & T' & Et).
    exists (t' :: ts'). split; [econstructor; eassumption|]. cbn [map]. rewrite Et, E. reflexivity.
  - exists [ErrorToken e (located file' before' m)]. split; [econstructor; eassumption | reflexivity].
  - exists [ErrorToken (no_lexeme_error c) (located file' before' [c])].
    split; [apply lex_stuck; assumption | reflexivity].
Qed.

(** ** A text cut in two *)

(** [cut file b before a ts]: in [a ++ b], standing after [before], the part [a] is
    exactly the tokens [ts] and blanks. *)
Inductive cut (file b : str) : str -> str -> list token -> Prop :=
| cut_end : forall before, cut file b before [] []
| cut_blank : forall before c a ts, blank c = true ->
    cut file b (before ++ [c]) a ts -> cut file b before (c :: a) ts
| cut_token : forall before k m a t ts,
    rmatch (pattern k) m -> starts (extends k m) (a ++ b) = false ->
    token_of file before k m t -> cut file b (before ++ m) a ts ->
    cut file b before (m ++ a) (t :: ts).

Lemma cut_lexes : forall file b before a ts, cut file b before a ts ->
  forall ts2, lexes file (before ++ a) b ts2 -> lexes file before (a ++ b) (ts ++ ts2).
Proof.
  induction 1 as [before | before c a ts B _ IH | before k m a t ts R C T _ IH]; intros ts2 H.
  - rewrite app_nil_r in H. exact H.
  - cbn [app]. constructor; [exact B|]. apply IH. rewrite <- app_assoc. exact H.
  - rewrite <- app_assoc. cbn [app]. eapply lex_token; [apply lexeme_closed; eassumption | exact T|].
    apply IH. rewrite <- app_assoc. exact H.
Qed.

Lemma cut_inv : forall file b before a ts, cut file b before a ts ->
  forall ts', lexes file before (a ++ b) ts' ->
  exists ts2, ts' = ts ++ ts2 /\ lexes file (before ++ a) b ts2.
Proof.
  induction 1 as [before | before c a ts B _ IH | before k m a t ts R C T _ IH]; intros ts' H.
  - exists ts'. rewrite app_nil_r. split; [reflexivity | exact H].
  - cbn [app] in H. inversion H as [|? ? ? ? _ H'|? ? ? ? ? ? ? L|? ? ? ? ? ? L|? ? ? B']; subst.
    + destruct (IH _ H') as (ts2 & -> & H2). rewrite <- app_assoc in H2. exists ts2. split; [reflexivity | exact H2].
    + apply lexeme_not_blank in L. congruence.
    + apply lexeme_not_blank in L. congruence.
    + congruence.
  - rewrite <- app_assoc in H.
    destruct (lexes_cons_inv _ _ _ _ _ _ _ (lexeme_closed _ _ _ R C) H) as [(t' & ts1 & -> & T' & H')|(e & _ & Bd)].
    + rewrite (token_of_det _ _ _ _ _ _ T' T). destruct (IH _ H') as (ts2 & -> & H2).
      rewrite <- app_assoc in H2. exists ts2. split; [reflexivity | exact H2].
    + exfalso. eapply token_not_bad; eassumption.
Qed.

(** Lexemes which a character can continue are on one line. *)
Lemma extends_no_lf : forall k m m' c, rmatch (pattern k) m -> extends k m' c = true ->
  existsb (N.eqb LF) m = false.
Proof.
  assert (G : forall p s, forallb p s = true -> p LF = false -> existsb (N.eqb LF) s = false).
  { intros p s F P. induction s as [|x s IH]; [reflexivity|]. cbn [forallb existsb] in *.
    apply andb_true_iff in F. destruct F as [Fx F]. rewrite (IH F), orb_false_r.
    apply N.eqb_neq. intros <-. congruence. }
  intros k m m' c H E. destruct k; cbn [pattern extends] in *; try discriminate.
  - apply rmatch_cat in H. destruct H as (a & b & -> & Ha & Hb). apply rmatch_lit in Ha. subst a.
    apply rmatch_star_chr in Hb. cbn [app existsb]. rewrite (G _ _ Hb); reflexivity.
  - apply rmatch_cat in H. destruct H as (a & b & -> & Ha & Hb). apply rmatch_chr in Ha.
    destruct Ha as (y & -> & Hy). apply rmatch_hex_digits in Hb. destruct Hb as [Hb _].
    cbn [app existsb]. rewrite (G _ _ Hb) by reflexivity. rewrite orb_false_r.
    apply N.eqb_neq. intros <-. discriminate.
  - apply rmatch_cat in H. destruct H as (a & b & -> & Ha & Hb). apply rmatch_lit in Ha. subst a.
    apply rmatch_plus_chr in Hb. destruct Hb as [_ Hb]. cbn [app existsb]. rewrite (G _ _ Hb); reflexivity.
  - apply rmatch_plus_chr in H. destruct H as [_ Hb]. rewrite (G _ _ Hb); reflexivity.
  - apply rmatch_cat in H. destruct H as (a & b & -> & Ha & Hb). apply rmatch_chr in Ha.
    destruct Ha as (y & -> & Hy). apply rmatch_star_chr in Hb.
    cbn [app existsb]. rewrite (G _ _ Hb) by reflexivity. rewrite orb_false_r.
    apply N.eqb_neq. intros <-. discriminate.
Qed.

(** If [a] alone gives the first tokens of [a ++ b], the text is cut there. *)
Lemma boundary_cut : forall file before a ts1, lexes file before a ts1 ->
  existsb is_error ts1 = false ->
  forall b ts2, lexes file before (a ++ b) (ts1 ++ ts2) ->
  cut file b before a ts1 /\ lexes file (before ++ a) b ts2.
Proof.
  intros file before a ts1 H.
  induction H as [before | before c s ts B _ IH | before s k m rest t ts L T H IH | before s k m rest e L B | before c s B N];
    intros Ne b ts2 Hb.
  - rewrite app_nil_r. split; [constructor | exact Hb].
  - cbn [app] in Hb. inversion Hb as [|? ? ? ? _ H'|? ? ? ? ? ? ? L|? ? ? ? ? ? L|? ? ? B']; subst.
    + destruct (IH Ne _ _ H') as [C H2]. rewrite <- app_assoc in H2. split; [constructor; assumption | exact H2].
    + apply lexeme_not_blank in L. congruence.
    + apply lexeme_not_blank in L. congruence.
    + congruence.
  - cbn [existsb] in Ne. apply orb_false_iff in Ne. destruct Ne as [Nt Ne].
    pose proof L as (-> & R & _). rewrite <- app_assoc in Hb. cbn [app] in Hb.
    assert (St : starts (extends k m) (rest ++ b) = false).
    { inversion Hb as [|? ? ? ? Bl|? ? k' m' rest' ? ? L' T' H'|? ? ? ? ? ? L'|? ? ? ? N]; subst.
      - exfalso. destruct (first_char _ _ R) as (c' & x & -> & O). cbn [app] in *.
        match goal with E : _ = _ |- _ => injection E as -> _ end. apply first_not_blank in O. congruence.
      - pose proof (lexeme_kind _ _ _ _ _ _ _ L' R eq_refl) as ->.
        pose proof L' as (E & R' & Max). specialize (Max _ _ _ eq_refl R).
        destruct (prefix_compare _ _ _ _ E Max) as ([|c x] & -> & Er).
        + rewrite app_nil_r in L'. cbn [app] in Er. rewrite Er. exact (lexeme_ends _ _ _ _ L').
        + exfalso. pose proof (extends_complete _ _ _ _ R R') as X.
          pose proof (extends_no_lf _ _ _ _ R' X) as X'.
          pose proof (extends_no_lf _ _ _ _ R X) as X0.
          apply token_loc in T. apply token_loc in T'. rewrite T in T'. unfold located in T'.
          injection T' as T'. rewrite (first_line_none _ X0), (first_line_none _ X'), app_length in T'.
          cbn [length] in T'. lia.
      - discriminate.
      - discriminate. }
    destruct (lexes_cons_inv _ _ _ _ _ _ _ (lexeme_closed _ _ _ R St) Hb) as [(t' & ts1 & Et & T' & H')|(e & Et & _)].
    + injection Et as <- <-. destruct (IH Ne _ _ H') as [C H2]. rewrite <- app_assoc in H2.
      split; [|exact H2]. eapply cut_token; eassumption.
    + injection Et as -> _. discriminate.
  - discriminate.
  - discriminate.
Qed.

(** Only the next character matters. *)
Lemma cut_next : forall file b b' before a ts, cut file b before a ts ->
  (forall k m, starts (extends k m) b = false -> starts (extends k m) b' = false) ->
  cut file b' before a ts.
Proof.
  induction 1 as [before | before c a ts B _ IH | before k m a t ts R C T _ IH]; intros N.
  - constructor.
  - constructor; auto.
  - econstructor; eauto. destruct a as [|c a]; [apply N; exact C | exact C].
Qed.

Lemma extends_lf : forall k m, extends k m LF = false.
Proof. intros k m. destruct k; try reflexivity. cbn [extends]. rewrite andb_false_r. reflexivity. Qed.

Lemma cut_newline : forall file b before a ts, cut file b before a ts -> forall b',
  cut file (LF :: b') before a ts.
Proof. intros file b before a ts C b'. eapply cut_next; [exact C|]. intros k m _. cbn [starts]. apply extends_lf. Qed.

Lemma cut_nothing : forall file b before a ts, cut file b before a ts -> cut file [] before a ts.
Proof. intros file b before a ts C. eapply cut_next; [exact C|]. reflexivity. Qed.

Lemma extends_blank : forall k m c, blank c = true -> extends k m c = true -> k = KComment.
Proof.
  intros k m c B E. destruct k; try reflexivity; exfalso; cbn [extends] in E; try discriminate;
    try (apply andb_true_iff in E; destruct E as [_ E]);
    rewrite <- ?is_id_char_spec, <- ?is_hex_digit_spec, <- ?is_bin_digit_spec, <- ?is_digit_spec in E;
    rewrite <- blank_spec in B; unfold is_whitespace, newline in B.
  - unfold is_hex_digit in E. unfold_classes. lia.
  - unfold is_bin_digit in E. unfold_classes. lia.
  - unfold_classes. lia.
  - unfold is_id_char in E. unfold_classes. lia.
Qed.

Lemma comment_extended : forall m w, rmatch (pattern KComment) m -> existsb (N.eqb LF) w = false ->
  rmatch (pattern KComment) (m ++ w).
Proof.
  intros m w R F. cbn [pattern] in *. apply rmatch_cat in R. destruct R as (a & b & -> & Ha & Hb).
  rewrite <- app_assoc. constructor; [exact Ha|]. apply rmatch_star_chr in Hb. apply rmatch_star_chr.
  rewrite forallb_app, Hb. cbn [andb]. induction w as [|c w IH]; [reflexivity|]. cbn [forallb existsb] in *.
  apply orb_false_iff in F. destruct F as [F1 F2]. rewrite (IH F2), noneof_1. lia.
Qed.

Lemma blank_not_lf : forall c, blank c = true -> (LF =? c) = false.
Proof. intros c B. apply N.eqb_neq. intros <-. discriminate. Qed.

Lemma blanks_no_lf : forall w, forallb blank w = true -> existsb (N.eqb LF) w = false.
Proof.
  induction w as [|c w IH]; intros B; [reflexivity|]. cbn [forallb existsb] in *.
  apply andb_true_iff in B. destruct B as [Bc B]. rewrite (IH B), (blank_not_lf _ Bc). reflexivity.
Qed.

Lemma cut_empty : forall file b before ts, cut file b before [] ts -> ts = [].
Proof.
  intros file b before ts C. remember [] as a eqn:E. destruct C as [| |before k m a t ts R]; [reflexivity | discriminate|].
  apply app_eq_nil in E. destruct E as [-> _]. destruct (first_char _ _ R) as (? & ? & X & _). discriminate.
Qed.

(** Blanks between tokens. *)
Lemma cut_blanks : forall file b before a ts, cut file b before a ts ->
  forall w ts2, forallb blank w = true -> lexes file (before ++ a ++ w) b ts2 ->
  exists ts', lexes file before (a ++ w ++ b) ts' /\ same_tokens ts' (ts ++ ts2).
Proof.
  induction 1 as [before | before c a ts B _ IH | before k m a t ts R C T Ct IH]; intros w ts2 Bw H.
  - exists ts2. split; [|reflexivity]. cbn [app]. apply lexes_blanks; assumption.
  - destruct (IH w ts2 Bw) as (ts' & H' & S); [rewrite <- app_assoc; exact H|].
    exists ts'. split; [|exact S]. constructor; assumption.
  - destruct (starts (extends k m) (a ++ w ++ b)) eqn:E.
    + (* a comment which takes the blanks *)
      destruct a as [|c a]; [|cbn [app starts] in *; congruence]. cbn [app] in *.
      destruct w as [|c w]; [cbn [app] in *; congruence|]. cbn [app starts] in E.
      cbn [forallb] in Bw. pose proof Bw as Bw'. apply andb_true_iff in Bw'. destruct Bw' as [Bc Bw'].
      pose proof (extends_blank _ _ _ Bc E) as ->. rewrite app_nil_r in *.
      apply cut_empty in Ct. subst ts.
      exists (SingleLineComment (m ++ c :: w) (located file before (m ++ c :: w)) :: ts2). split.
      * cbn [app]. change (c :: w ++ b) with ((c :: w) ++ b). rewrite app_assoc.
        apply (lex_token _ _ _ KComment (m ++ c :: w) b).
        { apply lexeme_closed; [apply comment_extended; [exact R | apply blanks_no_lf; exact Bw]|].
          destruct b as [|c' b]; [reflexivity | exact C]. }
        { constructor. }
        exact H.
      * inversion T; subst. reflexivity.
    + destruct (IH w ts2 Bw) as (ts' & H' & S); [rewrite <- app_assoc; rewrite <- app_assoc in H; exact H|].
      exists (t :: ts'). split.
      * rewrite <- app_assoc. eapply lex_token; [apply lexeme_closed; eassumption | exact T | exact H'].
      * unfold same_tokens in *. cbn [app map]. rewrite S. reflexivity.
Qed.

(** A comment, with blanks before it, at the end of a line. *)
Definition trailing_comment (x : str) : Prop :=
  exists w text, x = w ++ c_ ";" :: text /\ forallb blank w = true /\ existsb (N.eqb LF) text = false.

Lemma trailing_no_lf : forall x, trailing_comment x -> existsb (N.eqb LF) x = false.
Proof.
  intros x (w & text & -> & B & F). rewrite existsb_app, (blanks_no_lf _ B). cbn [existsb]. rewrite F. reflexivity.
Qed.

Lemma extends_semicolon : forall k m, extends k m (c_ ";") = true -> k = KComment.
Proof.
  intros k m E. destruct k; try reflexivity; try discriminate.
  cbn [extends] in E. change (among hexadecimal_digits (c_ ";")) with false in E. rewrite andb_false_r in E. discriminate.
Qed.

Lemma comment_match : forall text, existsb (N.eqb LF) text = false -> rmatch (pattern KComment) (c_ ";" :: text).
Proof.
  intros text F. apply (comment_extended [c_ ";"]); [|exact F]. cbn [pattern].
  change [c_ ";"] with ([c_ ";"] ++ []). constructor; [apply rmatch_lit; reflexivity | constructor].
Qed.

Definition ends_in_comment (ts : list token) : Prop :=
  exists ts0 c l, ts = ts0 ++ [SingleLineComment c l].

Lemma cut_comment : forall file b before a ts, cut file b before a ts ->
  starts (fun c => negb (c =? LF)) b = false ->
  forall x ts2, trailing_comment x -> lexes file (before ++ a ++ x) b ts2 ->
  exists ts' l, lexes file before (a ++ x ++ b) ts' /\
    (same_tokens ts' (ts ++ SingleLineComment [] l :: ts2) \/
     (ends_in_comment ts /\ same_tokens ts' (ts ++ ts2))).
Proof.
  induction 1 as [before | before c a ts B _ IH | before k m a t ts R C T Ct IH]; intros Nb x ts2 X H.
  - destruct X as (w & text & -> & B & F). cbn [app] in *.
    exists (SingleLineComment (c_ ";" :: text) (located file (before ++ w) (c_ ";" :: text)) :: ts2), nowhere.
    split; [|left; reflexivity]. rewrite <- app_assoc. apply lexes_blanks; [exact B|].
    apply (lex_token _ _ _ KComment (c_ ";" :: text) b).
    + apply lexeme_closed; [apply comment_match; exact F|]. destruct b; [reflexivity | exact Nb].
    + constructor.
    + rewrite <- app_assoc. exact H.
  - destruct (IH Nb x ts2 X) as (ts' & l & H' & S); [rewrite <- app_assoc; exact H|].
    exists ts', l. split; [|exact S]. constructor; assumption.
  - destruct (starts (extends k m) (a ++ x ++ b)) eqn:E.
    + destruct a as [|c a]; [|cbn [app starts] in *; congruence]. cbn [app] in *.
      assert (k = KComment).
      { destruct X as (w & text & -> & B & F). destruct w as [|c w]; cbn [app starts] in E.
        - eapply extends_semicolon; exact E.
        - cbn [forallb] in B. apply andb_true_iff in B. destruct B as [B _]. eapply extends_blank; eassumption. }
      subst k. rewrite app_nil_r in *. apply cut_empty in Ct. subst ts.
      exists (SingleLineComment (m ++ x) (located file before (m ++ x)) :: ts2), nowhere. split.
      * rewrite app_assoc. apply (lex_token _ _ _ KComment (m ++ x) b).
        { apply lexeme_closed; [apply comment_extended; [exact R | apply trailing_no_lf; exact X]|].
          destruct b as [|c' b]; [reflexivity | exact C]. }
        { constructor. }
        exact H.
      * right. inversion T; subst. split; [exists [], m; eexists; reflexivity | reflexivity].
    + destruct (IH Nb x ts2 X) as (ts' & l & H' & S); [rewrite <- app_assoc; rewrite <- app_assoc in H; exact H|].
      exists (t :: ts'), l. split.
      * rewrite <- app_assoc. eapply lex_token; [apply lexeme_closed; eassumption | exact T | exact H'].
      * unfold same_tokens in *. cbn [app map]. destruct S as [->|[(ts0 & c & l' & ->) ->]]; [left; reflexivity|].
        right. split; [exists (t :: ts0), c, l'; reflexivity | reflexivity].
Qed.

(** A final newline is a token of its own. *)
Lemma match_last_lf : forall k m, rmatch (pattern k) (m ++ [LF]) -> k = KNewline /\ m = [].
Proof.
  intros k m R. assert (I : existsb (N.eqb LF) (m ++ [LF]) = true).
  { rewrite existsb_app. cbn [existsb]. rewrite N.eqb_refl. cbn [orb]. apply orb_true_r. }
  destruct k;
    try (exfalso; rewrite (extends_no_lf _ _ [] (c_ "0") R) in I by reflexivity; discriminate);
    cbn [pattern] in R.
  - exfalso. apply rmatch_lit in R. destruct m as [|? [|]]; discriminate.
  - exfalso. apply rmatch_lit in R. destruct m as [|? [|]]; discriminate.
  - exfalso. apply rmatch_lit in R. destruct m as [|? [|]]; discriminate.
  - apply rmatch_lit in R. destruct m as [|? [|]]; try discriminate. auto.
  - exfalso. apply rmatch_cat in R. destruct R as (a & b & E & _ & Hb).
    apply rmatch_cat in Hb. destruct Hb as (d & q & -> & _ & Hq). apply rmatch_lit in Hq. subst q.
    rewrite app_assoc in E. apply app_inj_tail in E. destruct E as [_ E]. discriminate.
  - exfalso. apply rmatch_cat in R. destruct R as (a & b & E & _ & Hb).
    apply rmatch_cat in Hb. destruct Hb as (d & q & -> & _ & Hq). apply rmatch_lit in Hq. subst q.
    rewrite app_assoc in E. apply app_inj_tail in E. destruct E as [_ E]. discriminate.
Qed.

Lemma lexes_nil : forall file before ts, lexes file before [] ts -> ts = [].
Proof. intros file before ts H. exact (lexes_det _ _ _ _ H _ (lex_end file before)). Qed.

Lemma final_newline : forall file before s0 ts, lexes file before s0 ts ->
  forall s, s0 = s ++ [LF] -> existsb is_error ts = false ->
  exists ts1, ts = ts1 ++ [Newline (located file (before ++ s) [LF])] /\ cut file [LF] before s ts1.
Proof.
  intros file before s0 ts H.
  induction H as [before | before c s0 ts B H IH | before s0 k m rest t ts L T H IH | before s0 k m rest e L B | before c s0 B N];
    intros s E Ne; try discriminate.
  - destruct s; discriminate.
  - destruct s as [|c' s]; cbn [app] in E; injection E as E1 E2; subst; [discriminate|].
    destruct (IH s eq_refl Ne) as (ts1 & -> & C). exists ts1. rewrite <- app_assoc.
    split; [reflexivity | constructor; assumption].
  - cbn [existsb] in Ne. apply orb_false_iff in Ne. destruct Ne as [Nt Ne].
    pose proof L as (E' & R & _). rewrite E' in E.
    destruct rest as [|c rest].
    + rewrite app_nil_r in E. subst m. destruct (match_last_lf _ _ R) as [-> ->].
      apply lexes_nil in H. subst ts. inversion T; subst. exists []. cbn [app]. rewrite app_nil_r. split; [reflexivity | constructor].
    + destruct (exists_last (l := c :: rest) ltac:(discriminate)) as (r & x & Er). rewrite Er in *.
      rewrite app_assoc in E. apply app_inj_tail in E. destruct E as [<- ->].
      destruct (IH r eq_refl Ne) as (ts1 & -> & C). exists (t :: ts1). rewrite <- app_assoc.
      split; [reflexivity|]. eapply cut_token; try eassumption. exact (lexeme_ends _ _ _ _ L).
Qed.
