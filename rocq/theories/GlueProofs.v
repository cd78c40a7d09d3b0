(** * GlueProofs: where white space is needed. *)

From Verif Require Import Base Text Location Token Scanner Parser Assembler SpecLex SpecGrammar SpecErase SpecCode SpecGlue
  BaseFacts LexProofs ScanProofs LexTheorems LexAppend GrammarLines TextProofs TextCode.
Open Scope N_scope.

Lemma digit_not_letter : forall c, among decimal_digits c = true -> among letters c || among "_" c = false.
Proof.
  intros c H. unfold among in H. cbn [u decimal_digits existsb] in H.
  repeat (apply orb_true_iff in H; destruct H as [H|H]; [apply N.eqb_eq in H; subst c; vm_compute; reflexivity|]). discriminate H.
Qed.

Lemma hex_length : forall m, rmatch (pattern KHex) m -> (length m <= 4)%nat.
Proof.
  intros m R. cbn [pattern] in R. apply rmatch_cat in R. destruct R as (a & b & -> & Ha & Hb).
  apply rmatch_cat in Hb. destruct Hb as (b1 & b2 & -> & H1 & H2). apply rmatch_cat in H2. destruct H2 as (b3 & b4 & -> & H3 & H4).
  assert (C : forall p x, rmatch (Chr p) x -> length x = 1%nat) by (intros p x H; inversion H; reflexivity).
  assert (O : forall p x, rmatch (Opt (Chr p)) x -> (length x <= 1)%nat).
  { intros p x H. inversion H as [| | |? ? ? X|? ? ? X| |]; subst; [rewrite (C _ _ X); lia|]. inversion X. cbn [length]. lia. }
  rewrite !app_length, (C _ _ Ha), (C _ _ H1). pose proof (O _ _ H3). pose proof (O _ _ H4). lia.
Qed.

Lemma joins_extends : forall k m c, rmatch (pattern k) m -> k <> KComment -> joins m c = extends k m c.
Proof.
  intros k m c R K. destruct (first_char _ _ R) as (f & x & E & O).
  assert (L : k = KHex -> (length m <= 4)%nat) by (intros ->; apply hex_length; exact R).
  destruct k; cbn [first_ok] in O; try congruence.
  - apply N.eqb_eq in O. subst. reflexivity.
  - apply N.eqb_eq in O. subst. reflexivity.
  - apply N.eqb_eq in O. subst. reflexivity.
  - apply N.eqb_eq in O. subst. reflexivity.
  - apply N.eqb_eq in O. subst. reflexivity.
  - specialize (L eq_refl). cbn [extends].
    assert (J : joins m c = among hexadecimal_digits c && negb (Nat.eqb (length m) 4)).
    { apply orb_true_iff in O. destruct O as [O|O]; apply N.eqb_eq in O; subst; reflexivity. }
    rewrite J, andb_comm. f_equal. destruct (Nat.eqb_spec (length m) 4), (Nat.leb_spec (length m) 3); try reflexivity; lia.
  - apply N.eqb_eq in O. subst. reflexivity.
  - rewrite is_digit_spec in O. subst m. cbn [extends]. unfold joins. rewrite (digit_not_letter f O), O. reflexivity.
  - rewrite is_id_start_spec in O. subst m. cbn [extends]. unfold joins. rewrite O. reflexivity.
  - apply N.eqb_eq in O. subst. reflexivity.
Qed.

(** A lexeme followed by a blank is no comment. *)
Lemma before_blank : forall k m c r s, lexeme k m (c :: r) s -> blank c = true -> k <> KComment.
Proof.
  intros k m c r s L B ->. apply lexeme_ends in L. cbn [starts extends] in L. pose proof (blank_not_lf c B) as F.
  rewrite N.eqb_sym in F. rewrite F in L. discriminate L.
Qed.

(** The lexeme stays where it was exactly if it does not join. *)
Lemma joins_exact : forall k m r c b, lexeme k m r (m ++ r) -> k <> KComment ->
  (joins m c = false <-> lexeme k m (c :: b) (m ++ c :: b)).
Proof.
  intros k m r c b L K. pose proof L as (_ & R & _). rewrite (joins_extends k m c R K). split; intros H.
  - apply lexeme_closed; [exact R | exact H].
  - apply lexeme_ends in H. exact H.
Qed.

(** If it does, a longer one of its kind stands there. *)
Lemma joins_longer : forall k m r c b, lexeme k m r (m ++ r) -> k <> KComment -> joins m c = true ->
  exists x rest, x <> [] /\ lexeme k (m ++ x) rest (m ++ c :: b).
Proof.
  intros k m r c b (_ & R & _) K J. rewrite (joins_extends k m c R K) in J. pose proof (extends_sound _ _ _ R J) as R'.
  destruct (find_complete k (m ++ [c]) b R') as (m' & F & L). rewrite <- app_assoc in F. cbn [app] in F.
  destruct (find_lexeme _ _ _ F) as (rest & E & Lx).
  assert (E2 : (m ++ [c]) ++ b = m' ++ rest) by (rewrite <- app_assoc; exact E).
  destruct (prefix_compare _ _ _ _ E2 L) as (z & -> & _). exists (c :: z), rest. split; [discriminate|].
  rewrite <- app_assoc in Lx. exact Lx.
Qed.

Lemma lexes_blanks : forall file w before s ts, forallb blank w = true -> lexes file before (w ++ s) ts ->
  lexes file (before ++ w) s ts.
Proof.
  intros file. induction w as [|c w IH]; intros before s ts B H; [rewrite app_nil_r; exact H|].
  cbn [forallb] in B. apply andb_true_iff in B. destruct B as [Bc B]. cbn [app] in H.
  inversion H as [|? ? ? ? _ H'|? ? ? ? ? ? ? L|? ? ? ? ? ? L|? ? ? B']; subst.
  - apply IH in H'; [|exact B]. rewrite <- app_assoc in H'. exact H'.
  - apply lexeme_not_blank in L. congruence.
  - apply lexeme_not_blank in L. congruence.
  - congruence.
Qed.

Theorem squeeze : forall file a k m w c b ts1 ts2,
  boundary file a (m ++ w ++ c :: b) ts1 ts2 -> lexeme k m (w ++ c :: b) (m ++ w ++ c :: b) ->
  forallb blank w = true -> lexeme k m (c :: b) (m ++ c :: b) ->
  exists ts', lexes file [] (a ++ m ++ c :: b) ts' /\ same_tokens ts' (ts1 ++ ts2).
Proof.
  intros file a k m w c b ts1 ts2 (La & L & Ne) Lx B Lx'.
  destruct (boundary_cut _ _ _ _ La Ne _ _ L) as [C L2]. cbn [app] in *.
  assert (C' : cut file (m ++ c :: b) [] a ts1).
  { eapply cut_next; [exact C|]. pose proof (lexeme_nonempty _ _ _ _ Lx) as Nm. destruct m as [|f m]; [congruence|].
    intros k0 m0 H. exact H. }
  destruct (lexes_cons_inv _ _ _ _ _ _ _ Lx L2) as [(t & ts & -> & T & H)|(e & -> & Bd)].
  - apply lexes_blanks in H; [|exact B]. destruct (lexes_moved _ _ _ _ H file (a ++ m)) as (ts' & H' & S).
    exists (ts1 ++ t :: ts'). split.
    + apply (cut_lexes _ _ _ _ _ C'). eapply lex_token; [exact Lx' | exact T | exact H'].
    + unfold same_tokens in *. rewrite !map_app. cbn [map]. rewrite S. reflexivity.
  - exists (ts1 ++ [ErrorToken e (located file a m)]). split; [|reflexivity].
    apply (cut_lexes _ _ _ _ _ C'). eapply lex_bad; [exact Lx' | exact Bd].
Qed.

Lemma squeeze_same : forall file a k m w c b ts1 ts2,
  boundary file a (m ++ w ++ c :: b) ts1 ts2 -> lexeme k m (w ++ c :: b) (m ++ w ++ c :: b) ->
  forallb blank w = true -> lexeme k m (c :: b) (m ++ c :: b) ->
  same_text file (a ++ m ++ w ++ c :: b) (a ++ m ++ c :: b).
Proof.
  intros file a k m w c b ts1 ts2 Bd Lx B Lx'. destruct (squeeze _ _ _ _ _ _ _ _ _ Bd Lx B Lx') as (ts' & L' & S).
  destruct Bd as (_ & L & _).
  eapply same_text_tokens; [exact L | exact L' | exact S | |]; intros p P; exists p; (split; [exact P | reflexivity]).
Qed.

(** ** Accepted programs *)

(** What is the same for all ways to write a program: the number of names and values, with weight [a], the sum of the
    numbers, with weight [b], and the number of directives, with weight [d]. *)
Definition token_weight (a b d : N) (t : token) : N :=
  match t with
  | Identifier _ _ | StringLiteral _ _ => a
  | NumericLiteral v _ => a + b * (v mod 4096)
  | DirectiveMarker _ => d
  | _ => 0
  end.
Definition weight (a b d : N) (ts : list token) : N := fold_right (fun t n => token_weight a b d t + n) 0 ts.

Definition literal_weight (a b : N) (x : literal) : N :=
  match x with LString _ => a | LNumeric v => a + b * (v mod 4096) end.
Definition field_weight (a b : N) (x : field) : N :=
  match x with FNumeric v => a + b * v | _ => a end.
Definition total {A : Type} (f : A -> N) (l : list A) : N := fold_right (fun x n => f x + n) 0 l.
Definition node_weight (a b d : N) (n : node) : N :=
  match n with
  | NDirective _ _ args => d + a + total (literal_weight a b) args
  | NLabel _ _ => a
  | NInstruction _ _ fs => a + total (field_weight a b) fs
  end.

Lemma weight_app : forall a b d ts ts', weight a b d (ts ++ ts') = weight a b d ts + weight a b d ts'.
Proof. intros. unfold weight. induction ts as [|t ts IH]; cbn [app fold_right]; lia. Qed.

Lemma operand_name : forall id, match operand id with FNumeric _ => False | _ => True end.
Proof.
  intros id. unfold operand. destruct (assoc id _) as [f|] eqn:E; [|exact I].
  assert (G : forall l, assoc id l = Some f -> In f (map snd l)).
  { induction l as [|[k v] l IH]; [discriminate|]. cbn [assoc map]. destruct (list_eq_dec N.eq_dec id k); intros X.
    - injection X as ->. left. reflexivity.
    - right. exact (IH X). }
  apply G in E. assert (F : forallb (fun f => match f with FNumeric _ => false | _ => true end)
    (map snd (special_operands ++ register_operands)) = true) by (vm_compute; reflexivity).
  rewrite forallb_forall in F. specialize (F f E). destruct f; try exact I. discriminate F.
Qed.

Lemma literals_weight : forall a b d ts args rest, literals ts args rest ->
  weight a b d ts = total (literal_weight a b) args + weight a b d rest.
Proof.
  induction 1 as [l rest|t x rest H|t x l ts args rest H _ IH].
  - reflexivity.
  - destruct H; cbn [weight fold_right total token_weight literal_weight]; fold (weight a b d rest); lia.
  - destruct H; cbn [weight fold_right total token_weight literal_weight];
      fold (weight a b d ts); fold (total (literal_weight a b) args); lia.
Qed.

Lemma field_token_weight : forall a b d t x, field_token t x -> token_weight a b d t = field_weight a b x.
Proof.
  intros a b d t x []; [reflexivity|]. cbn [token_weight]. pose proof (operand_name id) as O. destruct (operand id); try reflexivity.
  destruct O.
Qed.

Lemma fields_weight : forall a b d ts args rest, fields ts args rest ->
  weight a b d ts = total (field_weight a b) args + weight a b d rest.
Proof.
  induction 1 as [l rest|c l rest|t x rest H|t x l ts args rest H _ IH]; try reflexivity.
  - cbn [weight fold_right total]. rewrite (field_token_weight a b d t x H). fold (weight a b d rest). lia.
  - cbn [weight fold_right total]. rewrite (field_token_weight a b d t x H). cbn [token_weight].
    fold (weight a b d ts). fold (total (field_weight a b) args). lia.
Qed.

Lemma program_weight : forall a b d ts p, program ts p -> weight a b d ts = total (node_weight a b d) p.
Proof.
  induction 1 as [|l ts ns H IH|c l ts ns H IH|l0 id l ts args rest ns L H IH|id l l1 ts ns H IH
                  |id l ts args rest ns L H IH]; cbn [weight fold_right total token_weight node_weight];
    try (fold (weight a b d ts)); try (fold (total (node_weight a b d) ns)); try lia.
  - rewrite (literals_weight a b d _ _ _ L), IH. lia.
  - rewrite (fields_weight a b d _ _ _ L), IH. lia.
Qed.

Lemma same_weight : forall a b d ts ts' p p', program ts p -> program ts' p' -> same_program p p' ->
  weight a b d ts = weight a b d ts'.
Proof.
  intros a b d ts ts' p p' P P' S. rewrite (program_weight a b d _ _ P), (program_weight a b d _ _ P').
  assert (G : forall q, total (node_weight a b d) q = total (node_weight a b d) (map bare_node q)).
  { induction q as [|n q IH]; [reflexivity|]. cbn [total fold_right map]. fold (total (node_weight a b d) q).
    fold (total (node_weight a b d) (map bare_node q)). rewrite IH. destruct n; reflexivity. }
  rewrite (G p), (G p'). f_equal. exact S.
Qed.

(** Two numbers do not follow one another. *)
Definition is_number (t : token) : bool := match t with NumericLiteral _ _ => true | _ => false end.
Fixpoint apart (ts : list token) : bool :=
  match ts with
  | t :: r => negb (is_number t && match r with t' :: _ => is_number t' | [] => false end) && apart r
  | [] => true
  end.
Definition no_number (ts : list token) : bool := match ts with t :: _ => negb (is_number t) | [] => true end.

Lemma apart_one : forall t rest, no_number rest = true -> apart rest = true -> apart (t :: rest) = true.
Proof.
  intros t rest N A. cbn [apart]. rewrite A, andb_true_r. destruct rest as [|x r]; [rewrite andb_false_r; reflexivity|].
  cbn [no_number] in N. apply negb_true_iff in N. rewrite N, andb_false_r. reflexivity.
Qed.

Lemma literals_apart : forall ts args rest, literals ts args rest -> no_number rest = true -> apart rest = true -> apart ts = true.
Proof.
  induction 1 as [l rest|t x rest H|t x l ts args rest H _ IH]; intros N A; [exact A | apply apart_one; assumption|].
  cbn [apart]. rewrite (IH N A), !andb_false_r. reflexivity.
Qed.
Lemma fields_apart : forall ts args rest, fields ts args rest -> no_number rest = true -> apart rest = true -> apart ts = true.
Proof.
  induction 1 as [l rest|c l rest|t x rest H|t x l ts args rest H _ IH]; intros N A;
    [exact A | exact A | apply apart_one; assumption|].
  cbn [apart]. rewrite (IH N A), !andb_false_r. reflexivity.
Qed.

Lemma program_apart : forall ts p, program ts p -> no_number ts = true /\ apart ts = true.
Proof.
  induction 1 as [|l ts ns H IH|c l ts ns H IH|l0 id l ts args rest ns L H IH|id l l1 ts ns H IH
                  |id l ts args rest ns L H IH]; (split; [reflexivity|]); cbn [apart is_number andb negb];
    try (apply IH); try reflexivity.
  - apply (literals_apart _ _ _ L); apply IH.
  - apply (fields_apart _ _ _ L); apply IH.
Qed.

Lemma numbers_apart : forall ts1 v l v' l' ts2 p, ~ program (ts1 ++ NumericLiteral v l :: NumericLiteral v' l' :: ts2) p.
Proof.
  intros ts1 v l v' l' ts2 p P. apply program_apart in P. destruct P as [_ A]. induction ts1 as [|t ts1 IH].
  - discriminate A.
  - cbn [app apart] in A. apply andb_true_iff in A. apply IH. apply A.
Qed.

Definition word_char (c : char) : bool := among letters c || among decimal_digits c || among "_" c.

Lemma word_chars : forall k m, k = KIdentifier \/ k = KDec -> rmatch (pattern k) m -> forallb word_char m = true.
Proof.
  assert (W : forall (p : char -> bool) (s : str), (forall c, p c = true -> word_char c = true) -> forallb p s = true ->
    forallb word_char s = true).
  { intros p s P F. rewrite forallb_forall in *. intros c I. apply P, F, I. }
  intros k m [-> | ->] R; cbn [pattern] in R.
  - apply rmatch_cat in R. destruct R as (a & b & -> & Ha & Hb). apply rmatch_chr in Ha. destruct Ha as (y & -> & Hy).
    apply rmatch_star_chr in Hb. cbn [app forallb]. apply andb_true_iff. split.
    + unfold word_char. rewrite <- orb_assoc, (orb_comm (among decimal_digits y)), orb_assoc, Hy. reflexivity.
    + revert Hb. apply W. intros c H. exact H.
  - apply rmatch_plus_chr in R. destruct R as [_ R]. revert R. apply W. intros c H. unfold word_char. rewrite H, orb_true_r. reflexivity.
Qed.

(** At a word character stands a word or a decimal number, within the characters of words. *)
Lemma word_lexeme : forall c x rest, forallb word_char (c :: x) = true -> starts word_char rest = false ->
  exists k m y, (k = KIdentifier \/ k = KDec) /\ c :: x = m ++ y /\ lexeme k m (y ++ rest) ((c :: x) ++ rest).
Proof.
  intros c x rest W S.
  assert (K : exists k, (k = KIdentifier \/ k = KDec) /\ rmatch (pattern k) [c]).
  { cbn [forallb] in W. apply andb_true_iff in W. destruct W as [W _]. unfold word_char in W.
    destruct (among decimal_digits c) eqn:D.
    - exists KDec. split; [right; reflexivity|]. cbn [pattern]. apply rmatch_plus_chr. split; [discriminate|]. cbn [forallb]. rewrite D. reflexivity.
    - exists KIdentifier. split; [left; reflexivity|]. cbn [pattern]. apply rmatch_cat. exists [c], []. split; [reflexivity|].
      rewrite orb_false_r in W. split; [apply rmatch_chr; exists c; split; [reflexivity | exact W] | apply rmatch_star_chr; reflexivity]. }
  destruct K as (k & K & R). destruct (find_complete k [c] (x ++ rest) R) as (m & F & _).
  destruct (find_lexeme _ _ _ F) as (r & E & L). pose proof L as (_ & Rm & _). apply (word_chars k m K) in Rm.
  exists k, m. change ([c] ++ x ++ rest) with ((c :: x) ++ rest) in *.
  destruct (Nat.le_gt_cases (length m) (length (c :: x))) as [Le|Gt].
  - symmetry in E. destruct (prefix_compare _ _ _ _ E Le) as (y & Ey & ->). exists y. split; [exact K|]. split; [exact Ey | exact L].
  - destruct (prefix_compare _ _ _ _ E ltac:(lia)) as (z & -> & ->). exfalso. rewrite forallb_app in Rm.
    destruct z as [|d z]; [rewrite app_length in Gt; cbn [length] in Gt; lia|].
    cbn [starts app] in S. cbn [forallb] in Rm. rewrite S, andb_false_r in Rm. discriminate Rm.
Qed.

Lemma run_tokens : forall file n x, (length x <= n)%nat -> forallb word_char x = true -> forall before rest ts,
  starts word_char rest = false -> lexes file before (x ++ rest) ts -> existsb is_error ts = false ->
  exists tsx tsr, ts = tsx ++ tsr /\ lexes file (before ++ x) rest tsr /\ (x <> [] -> 1 <= weight 1 0 0 tsx).
Proof.
  intros file. induction n as [|n IH]; intros x Ln W before rest ts S L Ne.
  - destruct x; [|cbn [length] in Ln; lia]. exists [], ts. rewrite app_nil_r. split; [reflexivity|]. split; [exact L | congruence].
  - destruct x as [|c x]. { exists [], ts. rewrite app_nil_r. split; [reflexivity|]. split; [exact L | congruence]. }
    destruct (word_lexeme c x rest W S) as (k & m & y & K & E & Lx). rewrite E in *.
    destruct (lexes_cons_inv _ _ _ _ _ _ _ Lx L) as [(t & ts' & -> & T & L')|(e & -> & _)]; [|discriminate Ne].
    cbn [existsb] in Ne. apply orb_false_iff in Ne. destruct Ne as [_ Ne].
    rewrite forallb_app in W. apply andb_true_iff in W. destruct W as [_ W].
    pose proof (lexeme_nonempty _ _ _ _ Lx) as Nm. rewrite app_length in Ln.
    destruct (IH y ltac:(destruct m; [congruence | cbn [length] in Ln; lia]) W _ _ _ S L' Ne) as (tsx & tsr & -> & Lr & _).
    exists (t :: tsx), tsr. split; [reflexivity|]. split; [rewrite <- app_assoc in Lr; exact Lr|]. intros _.
    cbn [weight fold_right]. destruct K as [-> | ->]; inversion T; subst; cbn [token_weight]; lia.
Qed.

Lemma moved_weight : forall a b d file before before' s ts ts', lexes file before s ts -> lexes file before' s ts' ->
  weight a b d ts = weight a b d ts'.
Proof.
  intros a b d file before before' s ts ts' L L'. destruct (lexes_moved _ _ _ _ L file before') as (ts2 & L2 & S).
  rewrite <- (lexes_det _ _ _ _ L2 _ L') in *. unfold same_tokens in S.
  assert (G : forall q, weight a b d q = weight a b d (map bare q)).
  { induction q as [|t q IH]; [reflexivity|]. cbn [weight fold_right map]. fold (weight a b d q). fold (weight a b d (map bare q)).
    rewrite IH. destruct t; reflexivity. }
  rewrite (G ts), (G ts2), S. reflexivity.
Qed.

Lemma positional_app : forall base a b, positional base (a ++ b) = positional base a * base ^ N.of_nat (length b) + positional base b.
Proof.
  intros base a b. induction a as [|c a IH]; [reflexivity|]. cbn [app positional]. rewrite IH, app_length, Nat2N.inj_add, N.pow_add_r. lia.
Qed.

Lemma word_run : forall s, exists y r, s = y ++ r /\ forallb word_char y = true /\ starts word_char r = false.
Proof.
  induction s as [|c s (y & r & -> & W & S)]; [exists [], []; split; [reflexivity|]; split; reflexivity|].
  destruct (word_char c) eqn:E.
  - exists (c :: y), r. split; [reflexivity|]. split; [|exact S]. cbn [forallb]. rewrite E. exact W.
  - exists [], (c :: y ++ r). split; [reflexivity|]. split; [reflexivity | exact E].
Qed.

Lemma hex_letter : forall c, among hexadecimal_digits c = true -> among decimal_digits c = false ->
  among letters c = true /\ 1 <= digit c.
Proof.
  intros c H D. unfold among in H. cbn [u hexadecimal_digits existsb] in H.
  repeat (apply orb_true_iff in H; destruct H as [H|H];
    [apply N.eqb_eq in H; subst c; first [discriminate D | split; [reflexivity | vm_compute; discriminate]]|]).
  discriminate H.
Qed.

(** A number stands where a digit stands. *)
Lemma digit_number : forall file before c b ts, among decimal_digits c = true -> lexes file before (c :: b) ts ->
  existsb is_error ts = false -> exists v l ts', ts = NumericLiteral v l :: ts'.
Proof.
  intros file before c b ts D L Ne.
  assert (R : rmatch (pattern KDec) [c]).
  { cbn [pattern]. apply rmatch_plus_chr. split; [discriminate|]. cbn [forallb]. rewrite D. reflexivity. }
  destruct (find_complete KDec [c] b R) as (m & F & _). destruct (find_lexeme _ _ _ F) as (r & _ & Lx). cbn [app] in Lx.
  destruct (lexes_cons_inv _ _ _ _ _ _ _ Lx L) as [(t & ts' & -> & T & _)|(e & -> & _)]; [|discriminate Ne].
  inversion T; subst. eauto.
Qed.

Lemma hex_parts : forall m, rmatch (pattern KHex) m -> exists f d, m = f :: d /\ forallb (among hexadecimal_digits) d = true
  /\ (length d <= 3)%nat.
Proof.
  intros m R. cbn [pattern] in R. apply rmatch_cat in R. destruct R as (a & b & -> & Ha & Hb).
  apply rmatch_chr in Ha. destruct Ha as (f & -> & _). apply rmatch_hex_digits in Hb. exists f, b. split; [reflexivity|]. split; apply Hb.
Qed.

Theorem needed_blank : forall file a k m w c b ts1 ts2 ts' p p',
  boundary file a (m ++ w ++ c :: b) ts1 ts2 -> lexeme k m (w ++ c :: b) (m ++ w ++ c :: b) -> k <> KComment ->
  forallb blank w = true -> joins m c = true -> lexes file [] (a ++ m ++ c :: b) ts' ->
  program (ts1 ++ ts2) p -> program ts' p' -> ~ same_program p p'.
Proof.
  intros file a k m w c b ts1 ts2 ts' p p' (La & L & Ne) Lx K B J L' P P' S.
  destruct (boundary_cut _ _ _ _ La Ne _ _ L) as [C L2]. cbn [app] in *.
  destruct (joins_longer _ _ _ c b Lx K J) as (x & rest & Nx & Lx').
  assert (C' : cut file (m ++ c :: b) [] a ts1).
  { eapply cut_next; [exact C|]. pose proof (lexeme_nonempty _ _ _ _ Lx) as Nm. destruct m as [|f m]; [congruence|].
    intros k0 m0 H. exact H. }
  destruct (cut_inv _ _ _ _ _ C' _ L') as (ts3 & -> & L3). cbn [app] in L3.
  pose proof (program_errors _ _ P) as E2. pose proof (program_errors _ _ P') as E3. rewrite existsb_app in E2, E3.
  apply orb_false_iff in E2, E3. destruct E2 as [_ E2], E3 as [_ E3].
  assert (Wt : forall i j d, weight i j d ts2 = weight i j d ts3).
  { intros i j d. pose proof (same_weight i j d _ _ _ _ P P' S) as W. rewrite !weight_app in W. lia. }
  destruct (lexes_cons_inv _ _ _ _ _ _ _ Lx L2) as [(t & ts & -> & T & H)|(e & -> & Bd)]; [|discriminate E2].
  destruct (lexes_cons_inv _ _ _ _ _ _ _ Lx' L3) as [(t' & ts4 & -> & T' & H')|(e & -> & Bd)]; [|discriminate E3].
  apply lexes_blanks in H; [|exact B]. cbn [existsb] in E2, E3. apply orb_false_iff in E2, E3. destruct E2 as [_ E2], E3 as [_ E3].
  assert (Ex : c :: b = x ++ rest).
  { destruct Lx' as (E & _). rewrite <- app_assoc in E. apply app_inv_head in E. exact E. }
  assert (Ww : forall i j d, token_weight i j d t + weight i j d ts = token_weight i j d t' + weight i j d ts4).
  { intros i j d. exact (Wt i j d). }
  clear Wt. pose proof Lx as (_ & R & _). pose proof Lx' as (_ & R' & _). rewrite (joins_extends k m c R K) in J.
  (* a number before a digit *)
  assert (Nd : is_number t = true -> among decimal_digits c = false).
  { intros Nt. destruct (among decimal_digits c) eqn:D; [|reflexivity]. exfalso.
    destruct (digit_number _ _ _ _ _ D H E2) as (v & l & tr & ->). destruct t; try discriminate Nt.
    exact (numbers_apart _ _ _ _ _ _ _ P). }
  destruct k; cbn [extends] in J; try discriminate J; try congruence.
  - (* hexadecimal *)
    inversion T; subst. inversion T' as [| | | | | |f d' E Et| | | |]; subst. specialize (Nd eq_refl).
    apply andb_true_iff in J. destruct J as [_ J]. destruct (hex_letter c J Nd) as [Lc Dc].
    destruct (hex_parts _ R') as (f' & d' & Eh & Hd & Ld). cbn [app] in Eh. injection Eh as _ Eh. subst d'.
    rewrite forallb_app in Hd. apply andb_true_iff in Hd. destruct Hd as [Hd Hx].
    assert (Wx : forallb word_char x = true).
    { rewrite forallb_forall in *. intros z Iz. specialize (Hx z Iz). unfold word_char.
      destruct (among decimal_digits z) eqn:Dz; [rewrite orb_true_r; reflexivity|].
      destruct (hex_letter z Hx Dz) as [-> _]. reflexivity. }
    destruct (word_run rest) as (y & r & -> & Wy & Sr).
    destruct x as [|c' x]; [congruence|]. cbn [app] in Ex. injection Ex as <- Eb. subst b.
    assert (Li : lexeme KIdentifier (c :: x ++ y) r ((c :: x ++ y) ++ r)).
    { apply lexeme_closed; [|exact Sr]. cbn [pattern]. apply rmatch_cat. exists [c], (x ++ y). split; [reflexivity|]. split.
      - apply rmatch_chr. exists c. split; [reflexivity|]. rewrite Lc. reflexivity.
      - apply rmatch_star_chr. rewrite forallb_app. cbn [forallb] in Wx. apply andb_true_iff in Wx. destruct Wx as [_ Wx].
        unfold word_char in Wx, Wy. rewrite Wx, Wy. reflexivity. }
    replace (c :: x ++ y ++ r) with ((c :: x ++ y) ++ r) in H by (cbn [app]; rewrite <- app_assoc; reflexivity).
    destruct (lexes_cons_inv _ _ _ _ _ _ _ Li H) as [(t & tsr & -> & Ti & Hr)|(e & -> & Bd)]; [|discriminate E2].
    destruct (run_tokens file (length y) y ltac:(lia) Wy _ _ _ Sr H' E3) as (tsy & tsr' & -> & Hr' & _).
    specialize (Ww 0 1 0). rewrite weight_app in Ww. rewrite (moved_weight 0 1 0 _ _ _ _ _ _ Hr' Hr) in Ww.
    inversion Ti; subst. cbn [weight fold_right token_weight] in Ww. fold (weight 0 1 0 tsr) in Ww.
    assert (V : positional 16 (d ++ c :: x) < 16 ^ N.of_nat (length (d ++ c :: x))).
    { apply positional_lt; [lia|]. intros z Iz. apply hex_digit_value. rewrite is_hex_digit_spec.
      apply in_app_iff in Iz. rewrite forallb_forall in Hd, Hx. destruct Iz as [Iz|Iz]; [exact (Hd z Iz) | exact (Hx z Iz)]. }
    assert (V4 : 16 ^ N.of_nat (length (d ++ c :: x)) <= 16 ^ 3) by (apply N.pow_le_mono_r; lia).
    change (16 ^ 3) with 4096 in V4.
    assert (Vx : positional 16 d < positional 16 (d ++ c :: x)).
    { rewrite positional_app. cbn [positional length]. rewrite Nat2N.inj_succ, N.pow_succ_r'.
      set (q := 16 ^ N.of_nat (length x)). assert (1 <= q) by (unfold q; pose proof (N.pow_nonzero 16 (N.of_nat (length x))); lia).
      nia. }
    rewrite !N.mod_small in Ww by lia. lia.
  - (* binary *)
    inversion T; subst. inversion T' as [| | | | | | |f d' E Et| | |]; subst. specialize (Nd eq_refl).
    assert (c = c_ ".").
    { unfold among in J. cbn [u existsb] in J. repeat (apply orb_true_iff in J; destruct J as [J|J]); try discriminate J;
        apply N.eqb_eq in J; subst c; try discriminate Nd; reflexivity. }
    subst c.
    assert (Ld : lexeme KDot [c_ "."] b ([c_ "."] ++ b)).
    { apply lexeme_closed; [apply rmatch_lit; reflexivity | destruct b; reflexivity]. }
    destruct (lexes_cons_inv _ _ _ _ _ _ _ Ld H) as [(t & ts5 & -> & Td & H5)|(e & -> & Bd)]; [|discriminate E2].
    inversion Td; subst.
    destruct x as [|c' x]; [congruence|]. cbn [app] in Ex. injection Ex as <- Eb.
    destruct x as [|c' x].
    + cbn [app] in Eb. subst rest. specialize (Ww 0 0 1). cbn [token_weight weight fold_right] in Ww. fold (weight 0 0 1 ts5) in Ww.
      rewrite (moved_weight 0 0 1 _ _ _ _ _ _ H5 H') in Ww. lia.
    + exfalso. assert (M : exists q l, program (DirectiveMarker l :: ts5) q).
      { match type of P with program (ts1 ++ ?t :: DirectiveMarker ?l :: _) _ =>
          destruct (program_marker _ _ P (ts1 ++ [t]) l ts5) as (q & Q); [rewrite <- (app_assoc ts1); reflexivity | exists q, l; exact Q] end. }
      destruct M as (q & l9 & Q).
      inversion Q as [| | |l0 id l ts args rs ns Li _| |]; subst.
      cbn [existsb] in E2. apply orb_false_iff in E2. destruct E2 as [_ E2].
      assert (Jx : among "01." c' = true).
      { cbn [pattern] in R'. apply rmatch_cat in R'. destruct R' as (a1 & b1 & Ea & Ha & Hb). apply rmatch_lit in Ha. subst a1.
        cbn [app] in Ea. injection Ea as _ Ea. subst b1. apply rmatch_plus_chr in Hb. destruct Hb as [_ Hb].
        rewrite forallb_app in Hb. cbn [forallb] in Hb. rewrite !andb_true_iff in Hb. apply Hb. }
      destruct (among decimal_digits c') eqn:D.
      * destruct (digit_number _ _ _ _ _ D H5 E2) as (v & l' & tr & X). discriminate X.
      * assert (c' = c_ ".").
        { unfold among in Jx. cbn [u existsb] in Jx. repeat (apply orb_true_iff in Jx; destruct Jx as [Jx|Jx]); try discriminate Jx;
            apply N.eqb_eq in Jx; subst c'; try discriminate D; reflexivity. }
        subst c'. assert (Ld' : lexeme KDot [c_ "."] (x ++ rest) ([c_ "."] ++ x ++ rest)).
        { apply lexeme_closed; [apply rmatch_lit; reflexivity | destruct (x ++ rest); reflexivity]. }
        destruct (lexes_cons_inv _ _ _ _ _ _ _ Ld' H5) as [(t & ts6 & X & Tx & _)|(e & X & _)]; [|discriminate X].
        inversion Tx; subst. discriminate X.
  - (* decimal *)
    inversion T; subst. specialize (Nd eq_refl). congruence.
  - (* words *)
    inversion T; subst. inversion T'; subst.
    assert (Wx : forallb word_char x = true).
    { apply (word_chars KIdentifier) in R'; [|left; reflexivity]. rewrite forallb_app in R'. apply andb_true_iff in R'. apply R'. }
    assert (Sr : starts word_char rest = false) by (apply lexeme_ends in Lx'; exact Lx').
    rewrite Ex in H. destruct (run_tokens file (length x) x ltac:(lia) Wx _ _ _ Sr H E2) as (tsx & tsr & -> & Hr & W1).
    specialize (Ww 1 0 0). rewrite weight_app, (moved_weight 1 0 0 _ _ _ _ _ _ Hr H') in Ww. cbn [token_weight] in Ww.
    specialize (W1 Nx). lia.
Qed.
