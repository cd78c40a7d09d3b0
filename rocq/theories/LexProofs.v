(** * LexProofs: the scanner implements the lexical grammar of SpecLex.v. *)

From Verif Require Import Base Text Location Token Scanner SpecLex BaseFacts.
Open Scope N_scope.

(** ** Character classes *)

Lemma among_big : forall s c,
  forallb (fun x => x <? 128) (u s) = true -> 128 <= c -> among s c = false.
Proof.
  intros s c H Hc. unfold among. induction (u s) as [|x r IH]; [reflexivity|].
  cbn [forallb existsb] in *. apply andb_true_iff in H. destruct H as [H1 H2].
  rewrite (IH H2). lia.
Qed.

Lemma class_agree : forall p q : char -> bool,
  forallb (fun n => Bool.eqb (p (N.of_nat n)) (q (N.of_nat n))) (seq 0 128) = true ->
  (forall c, 128 <= c -> p c = q c) ->
  forall c, p c = q c.
Proof.
  intros p q H H' c. destruct (N.lt_ge_cases c 128) as [Hc|Hc]; [|apply H'; assumption].
  rewrite forallb_forall in H. specialize (H (N.to_nat c)).
  rewrite N2Nat.id in H. apply eqb_prop. apply H. apply in_seq. lia.
Qed.

Lemma is_digit_spec : forall c, is_digit c = among decimal_digits c.
Proof.
  apply class_agree; [vm_compute; reflexivity|]. intros c Hc.
  rewrite among_big by (try reflexivity; assumption).
  unfold is_digit. change (c_ "9") with 57. lia.
Qed.

Lemma is_hex_digit_spec : forall c, is_hex_digit c = among hexadecimal_digits c.
Proof.
  apply class_agree; [vm_compute; reflexivity|]. intros c Hc.
  rewrite among_big by (try reflexivity; assumption).
  unfold is_hex_digit, is_digit.
  change (c_ "9") with 57. change (c_ "f") with 102. change (c_ "F") with 70. lia.
Qed.

Lemma is_bin_digit_spec : forall c, is_bin_digit c = among "01." c.
Proof.
  apply class_agree; [vm_compute; reflexivity|]. intros c Hc.
  rewrite among_big by (try reflexivity; assumption).
  unfold is_bin_digit.
  change (c_ "0") with 48. change (c_ "1") with 49. change (c_ ".") with 46. lia.
Qed.

Lemma is_id_start_spec : forall c, is_id_start c = among letters c || among "_" c.
Proof.
  apply class_agree; [vm_compute; reflexivity|]. intros c Hc.
  rewrite !among_big by (try reflexivity; assumption).
  unfold is_id_start, is_alpha.
  change (c_ "z") with 122. change (c_ "Z") with 90. change (c_ "_") with 95. lia.
Qed.

Lemma is_id_char_spec : forall c,
  is_id_char c = among letters c || among decimal_digits c || among "_" c.
Proof.
  intros. unfold is_id_char. rewrite is_id_start_spec, is_digit_spec.
  destruct (among letters c), (among decimal_digits c), (among "_" c); reflexivity.
Qed.

Lemma blank_spec : forall c, is_whitespace c && negb (c =? newline) = blank c.
Proof.
  intros c. unfold is_whitespace, blank, blank_code_points, newline. cbn [existsb].
  apply eq_true_iff_eq. split; intros H; lia.
Qed.

(** ** Inversion of [rmatch] *)

Lemma rmatch_chr : forall p s, rmatch (Chr p) s <-> exists c, s = [c] /\ p c = true.
Proof.
  split.
  - intros H. inversion H; subst. eauto.
  - intros (c & -> & H). constructor. exact H.
Qed.

Lemma rmatch_lit : forall c s, rmatch (lit c) s <-> s = [c].
Proof.
  intros. unfold lit. rewrite rmatch_chr. split.
  - intros (d & -> & H). apply N.eqb_eq in H. congruence.
  - intros ->. exists c. rewrite N.eqb_refl. auto.
Qed.

Lemma rmatch_eps : forall s, rmatch Eps s <-> s = [].
Proof. split; intros H; [inversion H; reflexivity | subst; constructor]. Qed.

Lemma rmatch_cat : forall a b s,
  rmatch (Cat a b) s <-> exists s1 s2, s = s1 ++ s2 /\ rmatch a s1 /\ rmatch b s2.
Proof.
  split.
  - intros H. inversion H; subst. eauto.
  - intros (s1 & s2 & -> & H1 & H2). constructor; assumption.
Qed.

Lemma rmatch_alt : forall a b s, rmatch (Alt a b) s <-> rmatch a s \/ rmatch b s.
Proof.
  split.
  - intros H. inversion H; subst; auto.
  - intros [H|H]; [apply m_alt_l | apply m_alt_r]; assumption.
Qed.

Lemma rmatch_star_chr : forall p s, rmatch (Star (Chr p)) s <-> forallb p s = true.
Proof.
  split.
  - intros H. remember (Star (Chr p)) as r eqn:E. induction H; inversion E; subst.
    + reflexivity.
    + rewrite forallb_app, IHrmatch2 by reflexivity. apply rmatch_chr in H.
      destruct H as (c & -> & Hc). cbn. rewrite Hc. reflexivity.
  - induction s as [|c s IH]; cbn; intros H.
    + constructor.
    + apply andb_true_iff in H. destruct H as [H1 H2].
      change (c :: s) with ([c] ++ s). constructor; [constructor; exact H1 | apply IH; exact H2].
Qed.

Lemma rmatch_plus_chr : forall p s,
  rmatch (Plus (Chr p)) s <-> s <> [] /\ forallb p s = true.
Proof.
  intros. unfold Plus. rewrite rmatch_cat. split.
  - intros (s1 & s2 & -> & H1 & H2). apply rmatch_chr in H1. destruct H1 as (c & -> & Hc).
    apply rmatch_star_chr in H2. cbn. rewrite Hc. split; [discriminate | exact H2].
  - intros [H1 H2]. destruct s as [|c s]; [contradiction|]. cbn in H2.
    apply andb_true_iff in H2. destruct H2 as [Hc H2].
    exists [c], s. repeat split; [constructor; exact Hc | apply rmatch_star_chr; exact H2].
Qed.

Lemma starts_with_nil : forall s, starts_with s [] = true.
Proof. destruct s; reflexivity. Qed.

(** ** Greedy loops *)

Lemma take_while_split : forall p s, exists r, s = take_while p s ++ r /\
  match r with [] => True | c :: _ => p c = false end.
Proof.
  induction s as [|c s (r & E & H)].
  - exists []. auto.
  - cbn. destruct (p c) eqn:Hc.
    + exists r. cbn. rewrite <- E. auto.
    + exists (c :: s). auto.
Qed.

Lemma take_while_all : forall p s, forallb p (take_while p s) = true.
Proof.
  induction s as [|c s IH]; [reflexivity|]. cbn. destruct (p c) eqn:Hc; [|reflexivity].
  cbn. rewrite Hc. exact IH.
Qed.

Lemma take_while_longest : forall p m r,
  forallb p m = true -> (length m <= length (take_while p (m ++ r)))%nat.
Proof.
  induction m as [|c m IH]; intros r H; cbn in *; [lia|].
  apply andb_true_iff in H. destruct H as [Hc H]. rewrite Hc. cbn.
  specialize (IH r H). lia.
Qed.

Lemma take_while_app : forall p m r,
  forallb p m = true -> match r with [] => True | c :: _ => p c = false end ->
  take_while p (m ++ r) = m.
Proof.
  induction m as [|c m IH]; intros r H Hr.
  - destruct r as [|c r]; [reflexivity|]. cbn. rewrite Hr. reflexivity.
  - cbn in *. apply andb_true_iff in H. destruct H as [Hc H]. rewrite Hc, IH by assumption.
    reflexivity.
Qed.

Lemma take_while_ext : forall p q s, (forall c, p c = q c) -> take_while p s = take_while q s.
Proof.
  intros p q s H. induction s as [|c s IH]; [reflexivity|]. cbn. rewrite H, IH. reflexivity.
Qed.

Lemma take_while_max_split : forall n p s, exists r, s = take_while_max n p s ++ r.
Proof.
  induction n as [|n IH]; intros p s; cbn; [exists s; reflexivity|].
  destruct s as [|c s]; [exists []; reflexivity|]. destruct (p c).
  - destruct (IH p s) as (r & E). exists r. cbn. rewrite <- E. reflexivity.
  - exists (c :: s). reflexivity.
Qed.

Lemma take_while_max_all : forall n p s, forallb p (take_while_max n p s) = true.
Proof.
  induction n as [|n IH]; intros p s; [reflexivity|]. cbn.
  destruct s as [|c s]; [reflexivity|]. destruct (p c) eqn:Hc; [|reflexivity].
  cbn. rewrite Hc. apply IH.
Qed.

Lemma take_while_max_length : forall n p s, (length (take_while_max n p s) <= n)%nat.
Proof.
  induction n as [|n IH]; intros p s; cbn; [lia|].
  destruct s as [|c s]; cbn; [lia|]. destruct (p c); cbn; [specialize (IH p s)|]; lia.
Qed.

Lemma take_while_max_longest : forall n p m r,
  forallb p m = true -> (length m <= n)%nat ->
  (length m <= length (take_while_max n p (m ++ r)))%nat.
Proof.
  induction n as [|n IH]; intros p m r H L; [lia|].
  destruct m as [|c m]; cbn in *; [lia|].
  apply andb_true_iff in H. destruct H as [Hc H]. rewrite Hc. cbn.
  specialize (IH p m r H). lia.
Qed.

Lemma forallb_ext : forall (p q : char -> bool) s, (forall c, p c = q c) -> forallb p s = forallb q s.
Proof. intros p q s H. induction s as [|c s IH]; [reflexivity|]. cbn. rewrite H, IH. reflexivity. Qed.

(** ** The matchers agree with the patterns *)

(** The prefix which the scanner consumes for a lexeme of kind [k]. *)
Definition find (k : kind) (s : str) : option str :=
  let single x := match s with c :: _ => if c =? x then Some [c] else None | [] => None end in
  match k with
  | KComment =>
      match s with
      | c :: r => if c =? c_ ";" then Some (c :: take_while (fun c => negb (c =? newline)) r)
                  else None
      | [] => None
      end
  | KDot => single (c_ ".")
  | KColon => single (c_ ":")
  | KComma => single (c_ ",")
  | KNewline => single newline
  | KString => find_string_literal s
  | KHex => find_hex_literal s
  | KBin => find_bin_literal s
  | KDec => find_decimal_literal s
  | KIdentifier => find_identifier s
  | KIndirect =>
      if starts_with s (u "[i]") || starts_with s (u "[I]") then Some (firstn 3 s) else None
  end.

Definition string_item : re :=
  Alt (Chr (noneof [QUOTE; BACKSLASH])) (Cat (lit BACKSLASH) (Chr (noneof [LF]))).

Lemma noneof_2 : forall a b c, noneof [a; b] c = negb (c =? a) && negb (c =? b).
Proof. intros. unfold noneof. cbn. destruct (c =? a), (c =? b); reflexivity. Qed.

Lemma noneof_1 : forall a c, noneof [a] c = negb (c =? a).
Proof. intros. unfold noneof. cbn. destruct (c =? a); reflexivity. Qed.

Lemma find_string_body_complete : forall b,
  rmatch (Star string_item) b -> forall r, find_string_body (b ++ QUOTE :: r) = Some (b ++ [QUOTE]).
Proof.
  intros b H. remember (Star string_item) as p eqn:E. induction H; inversion E; subst.
  - intros r. reflexivity.
  - intros r. apply rmatch_alt in H. destruct H as [H|H].
    + apply rmatch_chr in H. destruct H as (c & -> & Hc). rewrite noneof_2 in Hc.
      cbn [app find_string_body]. change 34 with QUOTE. change 92 with BACKSLASH.
      destruct (c =? QUOTE); [discriminate|]. destruct (c =? BACKSLASH); [discriminate|].
      rewrite IHrmatch2 by reflexivity. reflexivity.
    + apply rmatch_cat in H. destruct H as (s1 & s2 & -> & H1 & H2).
      apply rmatch_lit in H1. apply rmatch_chr in H2. destruct H2 as (c & -> & Hc). subst s1.
      rewrite noneof_1 in Hc. cbn [app find_string_body].
      change (BACKSLASH =? 34) with false. change (BACKSLASH =? 92) with true. cbn iota.
      change newline with LF. destruct (c =? LF); [discriminate|].
      rewrite IHrmatch2 by reflexivity. reflexivity.
Qed.

Lemma find_string_body_sound : forall n s m, (length s <= n)%nat ->
  find_string_body s = Some m ->
  exists b r, m = b ++ [QUOTE] /\ s = b ++ QUOTE :: r /\ rmatch (Star string_item) b.
Proof.
  induction n as [|n IH]; intros s m L H; destruct s as [|c s]; cbn [length] in L;
    try discriminate; try lia.
  cbn [find_string_body] in H. destruct (c =? 34) eqn:Hq.
  - apply N.eqb_eq in Hq. subst c. inversion H; subst. exists [], s.
    repeat split. constructor.
  - destruct (c =? 92) eqn:Hb.
    + apply N.eqb_eq in Hb. subst c. destruct s as [|d s]; [discriminate|].
      cbn [length] in L. destruct (d =? newline) eqn:Hd; [discriminate|].
      destruct (find_string_body s) as [m'|] eqn:F; [|discriminate].
      inversion H; subst. destruct (IH s m' ltac:(lia) F) as (b & r & -> & -> & Hm).
      exists (92 :: d :: b), r. repeat split.
      change (92 :: d :: b) with ([92; d] ++ b). constructor; [|exact Hm].
      apply m_alt_r. change [92; d] with ([92] ++ [d]). constructor.
      * apply rmatch_lit. reflexivity.
      * constructor. rewrite noneof_1. change newline with LF in Hd. rewrite Hd. reflexivity.
    + destruct (find_string_body s) as [m'|] eqn:F; [|discriminate].
      inversion H; subst. destruct (IH s m' ltac:(lia) F) as (b & r & -> & -> & Hm).
      exists (c :: b), r. repeat split.
      change (c :: b) with ([c] ++ b). constructor; [|exact Hm].
      apply m_alt_l. constructor. rewrite noneof_2. change QUOTE with 34. change BACKSLASH with 92.
      rewrite Hq, Hb. reflexivity.
Qed.

Lemma rmatch_hex_digits : forall p s,
  rmatch (Cat (Chr p) (Cat (Opt (Chr p)) (Opt (Chr p)))) s <->
  forallb p s = true /\ (1 <= length s <= 3)%nat.
Proof.
  intros p s. rewrite rmatch_cat. split.
  - intros (a & b & -> & Ha & Hb). apply rmatch_chr in Ha. destruct Ha as (x & -> & Hx).
    apply rmatch_cat in Hb. destruct Hb as (b1 & b2 & -> & Hb1 & Hb2).
    unfold Opt in *. apply rmatch_alt in Hb1. apply rmatch_alt in Hb2.
    rewrite rmatch_eps, rmatch_chr in Hb1. rewrite rmatch_eps, rmatch_chr in Hb2.
    destruct Hb1 as [(y & -> & Hy)| ->]; destruct Hb2 as [(z & -> & Hz)| ->];
      cbn; rewrite ?Hx, ?Hy, ?Hz; (split; [reflexivity|lia]).
  - intros [H L].
    assert (Ho : forall c, p c = true -> rmatch (Opt (Chr p)) [c])
      by (intros; apply m_alt_l; constructor; assumption).
    assert (He : rmatch (Opt (Chr p)) []) by (apply m_alt_r; constructor).
    destruct s as [|x [|y [|z [|? ?]]]]; cbn in L, H; try lia;
      repeat (apply andb_true_iff in H; destruct H as [? H]).
    + exists [x], ([] ++ []). repeat split; constructor; auto.
    + exists [x], ([y] ++ []). repeat split; constructor; auto.
    + exists [x], ([y] ++ [z]). repeat split; constructor; auto.
Qed.

Lemma find_sound : forall k s m, find k s = Some m ->
  exists r, s = m ++ r /\ rmatch (pattern k) m.
Proof.
  assert (single : forall (x : char) s m,
    match s with c :: _ => if c =? x then Some [c] else None | [] => None end = Some m ->
    exists r, s = m ++ r /\ rmatch (lit x) m).
  { intros x s m H. destruct s as [|c s]; [discriminate|].
    destruct (c =? x) eqn:E; [|discriminate]. apply N.eqb_eq in E. inversion H; subst.
    exists s. split; [reflexivity|]. apply rmatch_lit. reflexivity. }
  intros k s m H. destruct k; cbn [find pattern] in *; try (apply single; exact H).
  - destruct s as [|c s]; [discriminate|]. destruct (c =? c_ ";") eqn:E; [|discriminate].
    apply N.eqb_eq in E. inversion H; subst.
    destruct (take_while_split (fun c => negb (c =? newline)) s) as (r & Er & _).
    exists r. split; [cbn; rewrite <- Er; reflexivity|].
    change (?a :: ?b) with ([a] ++ b). constructor; [apply rmatch_lit; reflexivity|].
    apply rmatch_star_chr. rewrite (forallb_ext _ (fun c => negb (c =? newline)));
      [apply take_while_all | intros; apply noneof_1].
  - unfold find_string_literal in H. destruct s as [|c s]; [discriminate|].
    destruct (c =? 34) eqn:E; [|discriminate]. apply N.eqb_eq in E. subst c.
    destruct (find_string_body s) as [b|] eqn:F; [|discriminate]. inversion H; subst.
    destruct (find_string_body_sound _ _ _ (le_n _) F) as (b' & r & -> & -> & Hb).
    exists r. split; [cbn; rewrite <- app_assoc; reflexivity|].
    change (34 :: b' ++ [QUOTE]) with ([QUOTE] ++ (b' ++ [QUOTE])).
    constructor; [apply rmatch_lit; reflexivity|].
    constructor; [exact Hb | apply rmatch_lit; reflexivity].
  - unfold find_hex_literal in H. destruct s as [|c s]; [discriminate|].
    destruct ((c =? c_ "$") || (c =? c_ "#")) eqn:E; [|discriminate].
    pose proof (take_while_max_length 3 is_hex_digit s) as L.
    pose proof (take_while_max_all 3 is_hex_digit s) as A.
    destruct (take_while_max_split 3 is_hex_digit s) as (r & Er).
    destruct (take_while_max 3 is_hex_digit s) as [|d ds] eqn:T; [discriminate|].
    inversion H; subst m. exists r. split; [cbn; rewrite Er at 1; reflexivity|].
    change (c :: d :: ds) with ([c] ++ (d :: ds)). constructor.
    + constructor. unfold among. cbn. rewrite orb_false_r. exact E.
    + apply rmatch_hex_digits. split; [|cbn in *; lia].
      rewrite <- (forallb_ext is_hex_digit) by (apply is_hex_digit_spec). exact A.
  - unfold find_bin_literal in H. destruct s as [|c s]; [discriminate|].
    destruct (c =? c_ "%") eqn:E; [|discriminate]. apply N.eqb_eq in E. subst c.
    pose proof (take_while_all is_bin_digit s) as A.
    destruct (take_while_split is_bin_digit s) as (r & Er & _).
    destruct (take_while is_bin_digit s) as [|d ds] eqn:T; [discriminate|].
    inversion H; subst m. exists r. split; [cbn; rewrite Er at 1; reflexivity|].
    change (?c :: d :: ds) with ([c] ++ (d :: ds)). constructor.
    + apply rmatch_lit. reflexivity.
    + apply rmatch_plus_chr. split; [discriminate|].
      rewrite <- (forallb_ext is_bin_digit) by (apply is_bin_digit_spec). exact A.
  - unfold find_decimal_literal, non_empty in H.
    pose proof (take_while_all is_digit s) as A.
    destruct (take_while_split is_digit s) as (r & Er & _).
    destruct (take_while is_digit s) as [|d ds] eqn:T; [discriminate|].
    inversion H; subst m. exists r. split; [exact Er|].
    apply rmatch_plus_chr. split; [discriminate|].
    rewrite <- (forallb_ext is_digit) by (apply is_digit_spec). exact A.
  - unfold find_identifier in H. destruct s as [|c s]; [discriminate|].
    destruct (is_id_start c) eqn:E; [|discriminate].
    pose proof (take_while_all is_id_char s) as A.
    destruct (take_while_split is_id_char s) as (r & Er & _).
    inversion H; subst m. exists r. split; [cbn; rewrite <- Er; reflexivity|].
    change (c :: ?b) with ([c] ++ b). constructor.
    + constructor. rewrite <- is_id_start_spec. exact E.
    + apply rmatch_star_chr.
      rewrite <- (forallb_ext is_id_char) by (apply is_id_char_spec). exact A.
  - destruct (starts_with s (u "[i]") || starts_with s (u "[I]")) eqn:E; [|discriminate].
    inversion H; subst m. destruct s as [|a [|b [|c s]]]; try discriminate;
      try (cbn in E; rewrite ?andb_false_r in E; discriminate).
    exists s. split; [reflexivity|].
    change (u "[i]") with [91; 105; 93] in E. change (u "[I]") with [91; 73; 93] in E.
    cbn [starts_with] in E.
    assert (Ha : a = 91) by lia. assert (Hc : c = 93) by lia. subst a c.
    assert (Hb : among "iI" b = true) by (unfold among; change (u "iI") with [105; 73]; cbn [existsb]; lia).
    change [91; b; 93] with ([91] ++ ([b] ++ [93])).
    constructor; [apply rmatch_lit; reflexivity|].
    constructor; [constructor; exact Hb | apply rmatch_lit; reflexivity].
Qed.

Lemma find_complete : forall k m r, rmatch (pattern k) m ->
  exists m', find k (m ++ r) = Some m' /\ (length m <= length m')%nat.
Proof.
  assert (single : forall (x : char) m r, rmatch (lit x) m ->
    exists m', match m ++ r with c :: _ => if c =? x then Some [c] else None | [] => None end
               = Some m' /\ (length m <= length m')%nat).
  { intros x m r H. apply rmatch_lit in H. subst m. exists [x]. cbn.
    rewrite N.eqb_refl. auto. }
  intros k m r H. destruct k; cbn [find pattern] in *; try (apply single; exact H).
  - apply rmatch_cat in H. destruct H as (a & b & -> & Ha & Hb).
    apply rmatch_lit in Ha. subst a. apply rmatch_star_chr in Hb. cbn [app].
    rewrite N.eqb_refl. eexists. split; [reflexivity|]. cbn [length].
    apply le_n_S. apply take_while_longest.
    rewrite (forallb_ext _ (noneof [LF])); [exact Hb | intros; symmetry; apply noneof_1].
  - apply rmatch_cat in H. destruct H as (a & b & -> & Ha & Hb).
    apply rmatch_lit in Ha. subst a. apply rmatch_cat in Hb.
    destruct Hb as (b1 & b2 & -> & Hb1 & Hb2). apply rmatch_lit in Hb2. subst b2.
    unfold find_string_literal. cbn [app]. change (QUOTE =? 34) with true. cbn iota.
    replace ((b1 ++ [QUOTE]) ++ r) with (b1 ++ QUOTE :: r) by (rewrite <- app_assoc; reflexivity).
    rewrite find_string_body_complete by exact Hb1. eexists. split; [reflexivity|].
    cbn. lia.
  - apply rmatch_cat in H. destruct H as (a & b & -> & Ha & Hb).
    apply rmatch_chr in Ha. destruct Ha as (c & -> & Hc).
    apply rmatch_hex_digits in Hb. destruct Hb as [Hb L].
    rewrite <- (forallb_ext is_hex_digit) in Hb by (apply is_hex_digit_spec).
    unfold find_hex_literal. cbn [app].
    assert (E : (c =? c_ "$") || (c =? c_ "#") = true)
      by (unfold among in Hc; cbn in Hc; rewrite orb_false_r in Hc; exact Hc).
    rewrite E. pose proof (take_while_max_longest 3 is_hex_digit b r Hb ltac:(lia)) as T.
    destruct (take_while_max 3 is_hex_digit (b ++ r)); [cbn in T; lia|].
    eexists. split; [reflexivity|]. cbn in *. lia.
  - apply rmatch_cat in H. destruct H as (a & b & -> & Ha & Hb).
    apply rmatch_lit in Ha. subst a. apply rmatch_plus_chr in Hb. destruct Hb as [Hn Hb].
    rewrite <- (forallb_ext is_bin_digit) in Hb by (apply is_bin_digit_spec).
    unfold find_bin_literal. cbn [app]. rewrite N.eqb_refl.
    pose proof (take_while_longest is_bin_digit b r Hb) as T.
    destruct (take_while is_bin_digit (b ++ r)).
    + destruct b; [contradiction | cbn in T; lia].
    + eexists. split; [reflexivity|]. cbn in *. lia.
  - apply rmatch_plus_chr in H. destruct H as [Hn Hb].
    rewrite <- (forallb_ext is_digit) in Hb by (apply is_digit_spec).
    unfold find_decimal_literal, non_empty.
    pose proof (take_while_longest is_digit m r Hb) as T.
    destruct (take_while is_digit (m ++ r)).
    + destruct m; [contradiction | cbn in T; lia].
    + eexists. split; [reflexivity|]. exact T.
  - apply rmatch_cat in H. destruct H as (a & b & -> & Ha & Hb).
    apply rmatch_chr in Ha. destruct Ha as (c & -> & Hc).
    apply rmatch_star_chr in Hb.
    rewrite <- (forallb_ext is_id_char) in Hb by (apply is_id_char_spec).
    unfold find_identifier. cbn [app]. rewrite is_id_start_spec, Hc.
    eexists. split; [reflexivity|]. cbn. apply le_n_S. apply take_while_longest. exact Hb.
  - apply rmatch_cat in H. destruct H as (a & b & -> & Ha & Hb).
    apply rmatch_lit in Ha. subst a. apply rmatch_cat in Hb.
    destruct Hb as (b1 & b2 & -> & Hb1 & Hb2). apply rmatch_lit in Hb2. subst b2.
    apply rmatch_chr in Hb1. destruct Hb1 as (c & -> & Hc).
    exists (c_ "[" :: c :: [c_ "]"]). cbn [app].
    assert (E : starts_with (c_ "[" :: c :: c_ "]" :: r) (u "[i]")
                || starts_with (c_ "[" :: c :: c_ "]" :: r) (u "[I]") = true).
    { unfold among in Hc. change (u "iI") with [105; 73] in Hc. cbn [existsb] in Hc.
      change (u "[i]") with [91; 105; 93]. change (u "[I]") with [91; 73; 93].
      change (c_ "[") with 91. change (c_ "]") with 93. cbn [starts_with].
      rewrite starts_with_nil. lia. }
    rewrite E. split; [reflexivity|]. cbn. lia.
Qed.

(** ** Kinds are told apart by their first character *)

Definition first_ok (k : kind) (c : char) : bool :=
  match k with
  | KComment => c =? c_ ";"
  | KDot => c =? c_ "."
  | KColon => c =? c_ ":"
  | KComma => c =? c_ ","
  | KNewline => c =? LF
  | KString => c =? QUOTE
  | KHex => (c =? c_ "$") || (c =? c_ "#")
  | KBin => c =? c_ "%"
  | KDec => is_digit c
  | KIdentifier => is_id_start c
  | KIndirect => c =? c_ "["
  end.

Lemma find_first : forall k s m, find k s = Some m ->
  exists c m' s', s = c :: s' /\ m = c :: m' /\ first_ok k c = true.
Proof.
  intros k s m H. destruct k; cbn [find first_ok] in *;
    try (destruct s as [|c s]; [discriminate|];
         destruct (c =? _) eqn:E; [|discriminate]; inversion H; subst;
         do 3 eexists; repeat split; exact E).
  - unfold find_string_literal in H. destruct s as [|c s]; [discriminate|].
    destruct (c =? 34) eqn:E; [|discriminate].
    destruct (find_string_body s) as [b|]; [|discriminate]. inversion H; subst.
    do 3 eexists; repeat split; exact E.
  - unfold find_hex_literal in H. destruct s as [|c s]; [discriminate|].
    destruct ((c =? c_ "$") || (c =? c_ "#")) eqn:E; [|discriminate].
    destruct (take_while_max 3 is_hex_digit s); [discriminate|]. inversion H; subst.
    do 3 eexists; repeat split; exact E.
  - unfold find_bin_literal in H. destruct s as [|c s]; [discriminate|].
    destruct (c =? c_ "%") eqn:E; [|discriminate].
    destruct (take_while is_bin_digit s); [discriminate|]. inversion H; subst.
    do 3 eexists; repeat split; exact E.
  - unfold find_decimal_literal, non_empty in H. destruct s as [|c s]; [discriminate|].
    cbn [take_while] in H. destruct (is_digit c) eqn:E; [|discriminate]. inversion H; subst.
    do 3 eexists; repeat split; exact E.
  - unfold find_identifier in H. destruct s as [|c s]; [discriminate|].
    destruct (is_id_start c) eqn:E; [|discriminate]. inversion H; subst.
    do 3 eexists; repeat split; exact E.
  - destruct (starts_with s (u "[i]") || starts_with s (u "[I]")) eqn:E; [|discriminate].
    inversion H; subst m. destruct s as [|a s]; [discriminate|].
    exists a, (firstn 2 s), s. repeat split.
    change (u "[i]") with [91; 105; 93] in E. change (u "[I]") with [91; 73; 93] in E.
    cbn [starts_with] in E. change (c_ "[") with 91. lia.
Qed.

Lemma first_char : forall k m, rmatch (pattern k) m ->
  exists c m', m = c :: m' /\ first_ok k c = true.
Proof.
  intros k m H. destruct (find_complete k m [] H) as (m' & F & L). rewrite app_nil_r in F.
  destruct (find_first _ _ _ F) as (c & m'' & s' & -> & _ & E). eauto.
Qed.

Ltac unfold_classes :=
  unfold first_ok, is_digit, is_id_start, is_alpha, LF, QUOTE in *;
  repeat match goal with
         | |- context [c_ ?a] => let v := eval vm_compute in (c_ a) in change (c_ a) with v in *
         | H : context [c_ ?a] |- _ =>
             let v := eval vm_compute in (c_ a) in change (c_ a) with v in *
         end.

Lemma first_ok_inj : forall k k' c, first_ok k c = true -> first_ok k' c = true -> k = k'.
Proof.
  intros k k' c H H'. destruct k, k'; try reflexivity; exfalso; unfold_classes; lia.
Qed.

Lemma first_not_blank : forall k c, first_ok k c = true -> blank c = false.
Proof.
  intros k c H. rewrite <- blank_spec. unfold is_whitespace, newline.
  destruct k; unfold_classes; lia.
Qed.

Lemma find_lexeme : forall k s m, find k s = Some m ->
  exists rest, s = m ++ rest /\ lexeme k m rest s.
Proof.
  intros k s m F. destruct (find_sound _ _ _ F) as (rest & E & R).
  exists rest. split; [exact E|]. repeat split; [exact E | exact R |].
  intros k' m' rest' E' R'. destruct (find_complete k' m' rest' R') as (m2 & F' & L).
  rewrite <- E' in F'.
  destruct (find_first _ _ _ F) as (c & ? & ? & Ec & _ & O).
  destruct (find_first _ _ _ F') as (c' & ? & ? & Ec' & _ & O').
  assert (c = c') by congruence. subst c'.
  assert (k = k') by (eapply first_ok_inj; eassumption). subst k'.
  assert (m = m2) by congruence. subst m2. exact L.
Qed.

Lemma lexeme_find : forall k s m rest, lexeme k m rest s -> find k s = Some m.
Proof.
  intros k s m rest (E & R & Max).
  destruct (find_complete k m rest R) as (m' & F & L). rewrite <- E in F.
  destruct (find_sound _ _ _ F) as (rest' & E' & R').
  specialize (Max _ _ _ E' R'). rewrite F. f_equal.
  assert (length m = length m') by lia.
  rewrite E' in E. symmetry. eapply app_inv_head_iff.
  (* equal-length prefixes of the same list are equal *)
  instantiate (1 := []). cbn.
  assert (P : forall (a b x y : str), a ++ x = b ++ y -> length a = length b -> a = b).
  { induction a as [|h a IH]; destruct b as [|h' b]; cbn; intros x y Q Q'; try discriminate; auto.
    inversion Q; subst. f_equal. eapply IH; eauto. }
  symmetry in E. eapply P; eauto.
Qed.
