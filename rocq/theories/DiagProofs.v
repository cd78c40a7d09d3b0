(** * DiagProofs: which diagnostics can be provoked (C73). *)

From Verif Require Import Base Text U12 Location Token Scanner Parser Directive Instruction DataRange Assembler
  SpecUtf8 SpecLex SpecGrammar SpecOpcode SpecRefusal SpecLayout SpecErase SpecWrite SpecDiag
  BaseFacts LexProofs ScanProofs LexTheorems ParseProofs InstructionProofs InstructionTheorems LayoutProofs EmitProofs
  PipelineProofs UtfProofs MainProofs LexAppend GrammarLines TextProofs WriteProofs.
Open Scope string_scope.
Open Scope list_scope.
Open Scope N_scope.

(** ** The scanner *)

Lemma begins_first : forall c, begins c = false -> forall k, first_ok k c = false.
Proof.
  intros c B k. destruct (first_ok k c) eqn:O; [exfalso|reflexivity].
  unfold begins in B. apply orb_false_iff in B. destruct B as [B B5]. apply orb_false_iff in B. destruct B as [B B4].
  apply orb_false_iff in B. destruct B as [B B3]. apply orb_false_iff in B. destruct B as [B1 B2].
  unfold among in B3. change (u "_;.:,$#%[") with [c_ "_"; c_ ";"; c_ "."; c_ ":"; c_ ","; c_ "$"; c_ "#"; c_ "%"; c_ "["] in B3.
  cbn [existsb] in B3.
  destruct k; cbn [first_ok] in O; try (rewrite O, ?orb_true_r in B3; discriminate); try congruence.
  - apply orb_true_iff in O. destruct O as [O|O]; rewrite O, ?orb_true_r in B3; discriminate.
  - rewrite is_digit_spec in O. congruence.
  - rewrite is_id_start_spec in O. apply orb_true_iff in O. destruct O as [O|O]; [congruence|].
    unfold among in O. change (u "_") with [c_ "_"] in O. cbn [existsb] in O. rewrite orb_false_r in O.
    rewrite O in B3. discriminate.
Qed.

Lemma first_begins : forall k c, first_ok k c = true -> begins c = true.
Proof.
  intros k c O. destruct (begins c) eqn:B; [reflexivity|]. rewrite (begins_first c B k) in O. discriminate.
Qed.

Lemma begins_matches : forall c, begins c = true -> c <> QUOTE -> among "$#%[" c = false ->
  exists k, rmatch (pattern k) [c].
Proof.
  intros c B Q A. unfold begins in B. change QUOTE with 34 in *.
  assert (X : forall k c, pattern k = lit c -> exists k, rmatch (pattern k) [c]).
  { intros k x P. exists k. rewrite P. apply rmatch_lit. reflexivity. }
  rewrite !orb_true_iff in B. destruct B as [[[[B|B]|B]|B]|B].
  - exists KIdentifier. cbn [pattern]. change [c] with ([c] ++ []). constructor.
    + constructor. rewrite B. reflexivity.
    + constructor.
  - exists KDec. cbn [pattern]. apply rmatch_plus_chr. split; [discriminate|]. cbn [forallb]. rewrite B. reflexivity.
  - unfold among in A, B. change (u "_;.:,$#%[") with [c_ "_"; c_ ";"; c_ "."; c_ ":"; c_ ","; c_ "$"; c_ "#"; c_ "%"; c_ "["] in B.
    change (u "$#%[") with [c_ "$"; c_ "#"; c_ "%"; c_ "["] in A. cbn [existsb] in A, B.
    apply orb_false_iff in A. destruct A as [A1 A]. apply orb_false_iff in A. destruct A as [A2 A].
    apply orb_false_iff in A. destruct A as [A3 A]. apply orb_false_iff in A. destruct A as [A4 _].
    rewrite A1, A2, A3, A4 in B.
    repeat (apply orb_true_iff in B; destruct B as [B|B]); try discriminate; apply N.eqb_eq in B; subst c.
    + exists KIdentifier. cbn [pattern]. change [c_ "_"] with ([c_ "_"] ++ []). constructor; constructor. reflexivity.
    + exists KComment. cbn [pattern]. change [c_ ";"] with ([c_ ";"] ++ []). constructor; [apply rmatch_lit; reflexivity | constructor].
    + exact (X KDot _ eq_refl).
    + exact (X KColon _ eq_refl).
    + exact (X KComma _ eq_refl).
  - apply N.eqb_eq in B. contradiction.
  - apply N.eqb_eq in B. subst c. exact (X KNewline _ eq_refl).
Qed.

(** The errors among the tokens of a text. *)
Lemma lexes_errors : forall file before s ts, lexes file before s ts -> Forall scalar s ->
  forall e l, In (ErrorToken e l) ts -> scan_diagnostic e.
Proof.
  intros file before s ts H.
  induction H as [before | before c s ts Hb H IH | before s k m rest t ts L T H IH
                  | before s k m rest e L B | before c s Hb St]; intros F e0 l0 I.
  - destruct I.
  - inversion F; subst. eapply IH; eassumption.
  - destruct L as (-> & _ & _). apply Forall_app in F. destruct I as [I|I]; [subst t; inversion T|].
    eapply IH; [apply F | exact I].
  - destruct I as [I|[]]. injection I as <- _. destruct L as (_ & R & _). destruct B as [c d V|d V]; cbn [pattern] in R.
    + apply sd_binary_range; [|exact V]. apply rmatch_cat in R. destruct R as (a & b & E & Ra & Rb).
      apply rmatch_lit in Ra. subst a. injection E as _ <-. apply rmatch_plus_chr in Rb. apply Rb.
    + apply sd_decimal_range; [|exact V]. apply rmatch_plus_chr in R. apply R.
  - destruct I as [I|[]]. injection I as <- _. unfold no_lexeme_error.
    destruct (c =? QUOTE) eqn:Q; [constructor|]. destruct (among "$#" c) eqn:A1; [constructor|].
    destruct (among "%" c) eqn:A2; [constructor|]. destruct (among "[" c) eqn:A3; [constructor|].
    apply sd_character; [inversion F; assumption | | exact Hb].
    destruct (begins c) eqn:B; [exfalso|reflexivity].
    destruct (begins_matches c B) as (k & R).
    + intros ->. discriminate Q.
    + unfold among in *. change (u "$#%[") with (u "$#" ++ u "%" ++ u "["). rewrite !existsb_app, A1, A2, A3. reflexivity.
    + exact (St k [c] s eq_refl R).
Qed.

(** A text which provokes the error. *)
Definition bad_text (e : scan_error) : str :=
  match e with
  | InvalidStringLiteral => [QUOTE]
  | InvalidHexadecimalLiteral => u "$"
  | InvalidBinaryLiteral => u "%"
  | ExpectedRegisterIndirect => u "["
  | DecimalLiteralOutOfRange d => d
  | BinaryLiteralOutOfRange d => c_ "%" :: d
  | InvalidCharacter c => [c]
  | _ => []
  end.

Lemma among_scalar : forall s c, among s c = true -> forallb (fun x => x <? 0xD800) (u s) = true -> scalar c.
Proof.
  intros s c A F. rewrite forallb_forall in F. unfold among in A. apply existsb_exists in A.
  destruct A as (x & I & E). apply N.eqb_eq in E. subst x. specialize (F _ I). left. lia.
Qed.

Lemma forallb_scalar : forall s d, forallb (among s) d = true -> forallb (fun x => x <? 0xD800) (u s) = true -> Forall scalar d.
Proof.
  intros s d H F. rewrite forallb_forall in H. apply Forall_forall. intros c I. eapply among_scalar; [apply H; exact I | exact F].
Qed.

Lemma bad_text_scalar : forall e, scan_diagnostic e -> Forall scalar (bad_text e).
Proof.
  intros e D. destruct D as [| | | |d A V|d A V|c S B W]; cbn [bad_text].
  1-4: repeat constructor.
  - eapply forallb_scalar; [exact A | reflexivity].
  - constructor; [left; reflexivity|]. eapply forallb_scalar; [exact A | reflexivity].
  - constructor; [exact S | constructor].
Qed.

Lemma bad_text_lexes : forall e, scan_diagnostic e -> forall file before, exists l,
  lexes file before (bad_text e) [ErrorToken e l].
Proof.
  assert (K : forall c k, first_ok k c = true -> blank c = false -> find k [c] = None -> forall file before,
    exists l, lexes file before [c] [ErrorToken (no_lexeme_error c) l]).
  { intros c k O W Fd file before. eexists. apply lex_stuck; [exact W|]. apply stuck_when.
    intros k' O'. assert (k' = k) by (eapply first_ok_inj; eassumption). subst k'. exact Fd. }
  intros e D file before. destruct D as [| | | |d A V|d A V|c S B W]; cbn [bad_text].
  - exact (K QUOTE KString eq_refl eq_refl eq_refl file before).
  - exact (K (c_ "$") KHex eq_refl eq_refl eq_refl file before).
  - exact (K (c_ "%") KBin eq_refl eq_refl eq_refl file before).
  - exact (K (c_ "[") KIndirect eq_refl eq_refl eq_refl file before).
  - eexists. apply (lex_bad _ _ _ KDec d []); [|constructor; exact V]. rewrite <- (app_nil_r d) at 2.
    apply lexeme_closed; [|reflexivity]. cbn [pattern]. apply rmatch_plus_chr. split; [|exact A].
    intros ->. cbn [positional] in V. lia.
  - eexists. apply (lex_bad _ _ _ KBin (c_ "%" :: d) []); [|constructor; exact V]. rewrite <- (app_nil_r (c_ "%" :: d)) at 2.
    apply lexeme_closed; [|reflexivity]. cbn [pattern]. change (c_ "%" :: d) with ([c_ "%"] ++ d).
    constructor; [apply rmatch_lit; reflexivity|]. apply rmatch_plus_chr. split; [|exact A].
    intros ->. cbn [undot map positional] in V. rewrite N.mod_0_l in V by discriminate. lia.
  - assert (N : no_lexeme_error c = InvalidCharacter c).
    { unfold no_lexeme_error. unfold begins in B. apply orb_false_iff in B. destruct B as [B _]. apply orb_false_iff in B.
      destruct B as [B Q]. apply orb_false_iff in B. destruct B as [_ B]. rewrite Q.
      unfold among in *. change (u "_;.:,$#%[") with (u "_;.:," ++ u "$#" ++ u "%" ++ u "[") in B.
      rewrite !existsb_app in B. apply orb_false_iff in B. destruct B as [_ B]. apply orb_false_iff in B.
      destruct B as [B1 B]. apply orb_false_iff in B. destruct B as [B2 B3]. rewrite B1, B2, B3. reflexivity. }
    rewrite <- N. eexists. apply lex_stuck; [exact W|]. apply stuck_when. intros k O.
    rewrite (begins_first c B k) in O. discriminate.
Qed.

(** ** Texts which begin with a given token *)

Lemma name_scalar : forall id, name id -> Forall scalar id.
Proof.
  intros id N. assert (A : ascii id) by (destruct N as [N|N]; [apply identifier_ascii | apply indirect_ascii]; exact N).
  eapply Forall_impl; [|exact A]. intros c L. left. cbv beta in L. lia.
Qed.

Lemma digit_scalar : forall d, scalar (hex_digit d).
Proof.
  intros d. unfold hex_digit. left.
  destruct (nth_in_or_default (N.to_nat d) (u "0123456789ABCDEF") 0) as [J|E]; [|rewrite E; lia].
  revert J. generalize (nth (N.to_nat d) (u "0123456789ABCDEF") 0). intros x J. vm_compute in J.
  repeat (destruct J as [<-|J]; [lia|]). contradiction.
Qed.

Lemma number_scalar : forall v, Forall scalar (write_number v).
Proof.
  intros v. unfold write_number. constructor; [left; reflexivity|].
  repeat (constructor; [apply digit_scalar|]). constructor.
Qed.

Lemma spells_lexes : forall a ts, spells [] a ts -> forall file before, exists ts', lexes file before a ts' /\ map bare ts' = ts.
Proof.
  intros a ts S file before. destruct (S file before) as (ts' & C & E). exists ts'. split; [|exact E].
  pose proof (cut_lexes _ _ _ _ _ C [] (lex_end file _)) as L. rewrite !app_nil_r in L. exact L.
Qed.

Definition token_text (t : token) : str :=
  match t with
  | Identifier id _ => id
  | StringLiteral s _ => QUOTE :: s ++ [QUOTE]
  | NumericLiteral v _ => write_number v
  | ErrorToken e _ => bad_text e
  | SingleLineComment _ _ => u ";"
  | DirectiveMarker _ => u "."
  | LabelMarker _ => u ":"
  | Comma _ => u ", "
  | Newline _ => [LF]
  end.

Lemma token_text_scalar : forall t, scannable t -> Forall scalar (token_text t).
Proof.
  intros t S. destruct t; cbn [scannable token_text] in *; try (repeat constructor; fail).
  - apply name_scalar, S.
  - destruct S as (_ & S & _). constructor; [left; reflexivity|]. apply Forall_app. split; [exact S | repeat constructor].
  - apply number_scalar.
  - apply bad_text_scalar, S.
Qed.

Lemma token_text_lexes : forall t, scannable t -> forall file before, exists t', lexes file before (token_text t) [t'] /\ bare t' = t.
Proof.
  intros t S file before.
  assert (G : spells [] (token_text t) [t] -> exists t', lexes file before (token_text t) [t'] /\ bare t' = t).
  { intros Sp. destruct (spells_lexes _ _ Sp file before) as (ts & L & E). destruct ts as [|t' [|]]; try discriminate.
    injection E as E. exists t'. auto. }
  destruct t; cbn [scannable token_text] in *.
  - apply G. destruct S as [-> ->]. eapply (spells_token _ KComment); [| reflexivity |].
    + cbn [pattern]. change (u ";") with ([c_ ";"] ++ []). constructor; [apply rmatch_lit; reflexivity | constructor].
    + intros f b. eexists. split; [constructor | reflexivity].
  - apply G. subst. apply spells_dot.
  - apply G. destruct S as [S ->]. apply spells_name; [exact S | reflexivity].
  - apply G. subst. apply spells_colon.
  - apply G. destruct S as (S & _ & ->). apply spells_string, S.
  - apply G. destruct S as (S & ->). apply spells_number, S.
  - apply G. subst. apply spells_comma.
  - apply G. subst. apply spells_newline.
  - destruct S as [S ->]. destruct (bad_text_lexes _ S file before) as (l' & L). eexists. split; [exact L | reflexivity].
Qed.

(** ** The parser *)

Lemma chunk_err_here : forall (A : Type) (item : token -> A -> Prop) stop b f, chunk_err item stop b f ->
  forall t, f = Some t -> stop t = false /\ forall a, ~ item t a.
Proof. induction 1 as [f Hf | t a l b f Ha H IH]; intros t' E; [apply Hf; exact E | apply IH; exact E]. Qed.

Lemma err_place : forall b f e, program_err b f e -> exists accepted,
  In (e, accepted) (match f with Some _ => places | None => tl places end) /\
  forall t, f = Some t -> accepted t = false.
Proof.
  induction 1 as [t St | l b f e H IH | c l b f e H IH | l0 f Hf | l0 id l b f H | l0 id l c args b f e Hc H IH
                 | id l l1 b f e H IH | id l b f H Hc | id l c args b f e Hc H IH]; try exact IH.
  - exists statement_place. split; [left; reflexivity|]. intros t' E. injection E as <-. exact St.
  - exists directive_place. split; [destruct f; [right; left | left]; reflexivity|].
    intros t ->. cbn [option_map] in Hf. destruct t; try reflexivity. exfalso. apply Hf. reflexivity.
  - exists literal_place. split; [destruct f; [right; right; left | right; left]; reflexivity|].
    intros t ->. destruct (chunk_err_here _ _ _ _ _ H _ eq_refl) as [N I].
    destruct t; try reflexivity; [| |discriminate N]; exfalso; eapply I; constructor.
  - exists field_place. split; [destruct f; [right; right; right; left | right; right; left]; reflexivity|].
    intros t ->. destruct (chunk_err_here _ _ _ _ _ H _ eq_refl) as [N I].
    destruct t; try reflexivity; try (discriminate N); exfalso; eapply I; constructor.
Qed.

Lemma lexes_scannable : forall file before s ts, lexes file before s ts -> Forall scalar s ->
  Forall (fun t => scannable (bare t)) ts.
Proof.
  intros file before s ts L F. pose proof (lexes_writable _ _ _ _ L) as W. pose proof (lexes_scalar _ _ _ _ L F) as S.
  pose proof (lexes_errors _ _ _ _ L F) as E. apply Forall_forall. intros t I.
  rewrite Forall_forall in W, S. specialize (W t I). specialize (S t I).
  destruct t; cbn [bare scannable token_writable token_scalar] in *; auto. split; [eapply E; exact I | reflexivity].
Qed.

Lemma syntax_sound : forall file s ts e, Forall scalar s -> scan file s = Done ts -> parse ts = Done (Err e) ->
  syntax_diagnostic (bare_syntax e).
Proof.
  intros file s ts e F S P. apply scan_lexes in S. pose proof (lexes_scannable _ _ _ _ S F) as W.
  destruct (parse_cases ts) as [(ns & _ & E)|(b & r & x & -> & Pe & E)]; rewrite E in P; [discriminate|].
  injection P as <-. destruct (err_place _ _ _ Pe) as (acc & I & A).
  destruct r as [|t r]; cbn [hd_error syntax_error bare_syntax] in *.
  - eapply yd_end. exact I.
  - apply Forall_app in W. destruct W as [_ W]. inversion W as [|? ? Wt _]; subst.
    eapply yd_token; [exact I | exact Wt|]. rewrite <- (A t eq_refl).
    repeat (destruct I as [I|I]; [injection I as _ <-; destruct t; reflexivity|]). destruct I.
Qed.

(** What stands before each of the places. *)
Definition prefix (expected : list str) : str :=
  match expected with
  | [_; _] as e => if str_eqb (hd [] e) (u "numeric literal") then u ".db " else []
  | [e] => if str_eqb e (u "identifier") then u ". " else u "jp " ++ write_number 0 ++ u ", "
  | _ => []
  end.

Definition prefix_tokens (expected : list str) : list token :=
  match expected with
  | [_; _] as e =>
      if str_eqb (hd [] e) (u "numeric literal") then [DirectiveMarker nowhere; Identifier (u "db") nowhere] else []
  | [e] => if str_eqb e (u "identifier") then [DirectiveMarker nowhere]
           else [Identifier (u "jp") nowhere; NumericLiteral 0 nowhere; Comma nowhere]
  | _ => []
  end.

Lemma known_name : forall s, find KIdentifier s = Some s -> name s.
Proof. intros s F. left. destruct (find_lexeme _ _ _ F) as (r & _ & L). apply L. Qed.

Lemma prefix_spells : forall expected accepted b, In (expected, accepted) places ->
  spells b (prefix expected) (prefix_tokens expected).
Proof.
  intros e a b I. destruct I as [I|[I|[I|[I|[]]]]]; injection I as <- _.
  - exact (spells_nil b).
  - change (spells b (u "." ++ u " ") ([DirectiveMarker nowhere] ++ [])).
    apply spells_app; [apply spells_dot | apply spells_blank; reflexivity].
  - change (spells b (u "." ++ u "db" ++ u " ") ([DirectiveMarker nowhere] ++ [Identifier (u "db") nowhere] ++ [])).
    apply spells_app; [apply spells_dot|]. apply spells_app; [|apply spells_blank; reflexivity].
    apply spells_name; [apply known_name; reflexivity | reflexivity].
  - change (spells b (u "jp" ++ u " " ++ write_number 0 ++ u ", ")
      ([Identifier (u "jp") nowhere] ++ [] ++ [NumericLiteral 0 nowhere] ++ [Comma nowhere])).
    apply spells_app; [apply spells_name; [apply known_name; reflexivity | reflexivity]|].
    apply spells_app; [apply spells_blank; reflexivity|].
    apply spells_app; [apply spells_number; lia | apply spells_comma].
Qed.

Lemma prefix_scalar : forall expected accepted, In (expected, accepted) places -> Forall scalar (prefix expected).
Proof.
  assert (G : forall s, forallb (fun x => x <? 0xD800) s = true -> Forall scalar s).
  { intros s F. rewrite forallb_forall in F. apply Forall_forall. intros c I. specialize (F c I). left. lia. }
  intros e a I. apply G. destruct I as [I|[I|[I|[I|[]]]]]; injection I as <- _; vm_compute; reflexivity.
Qed.

Lemma prefix_err : forall expected accepted t ts, In (expected, accepted) places -> accepted t = false ->
  map bare ts = prefix_tokens expected -> parse (ts ++ [t]) = Done (Err (UnexpectedToken expected t)).
Proof.
  intros e a t ts I A M.
  assert (G : program_err ts (Some t) e -> parse (ts ++ [t]) = Done (Err (UnexpectedToken e t))).
  { intros P. unfold parse. change (UnexpectedToken e t) with (syntax_error (Some t) e).
    apply parse_program_err; [exact P | reflexivity | lia]. }
  apply G. clear G.
  destruct I as [I|[I|[I|[I|[]]]]]; injection I as <- <-; vm_compute in M.
  - destruct ts; [|discriminate]. constructor. exact A.
  - destruct ts as [|[] [|]]; try discriminate. constructor. destruct t; try discriminate; cbn; congruence.
  - destruct ts as [|t0 [|t1 [|]]]; try discriminate. destruct t0; try discriminate. destruct t1; try discriminate.
    apply pe_literals. constructor. intros t' E. injection E as <-.
    split; [destruct t; try reflexivity; discriminate|]. intros x L. destruct L; discriminate.
  - destruct ts as [|t0 [|t1 [|t2 [|]]]]; try discriminate. destruct t0; try discriminate. destruct t1; try discriminate.
    destruct t2; try discriminate. apply pe_fields; [|cbn; congruence].
    eapply ce_more; [constructor|]. constructor. intros t' E. injection E as <-.
    split; [destruct t; try reflexivity; discriminate|]. intros x L. destruct L; discriminate.
Qed.

Lemma accepted_bare : forall expected accepted t, In (expected, accepted) places -> accepted (bare t) = accepted t.
Proof. intros e a t I. repeat (destruct I as [I|I]; [injection I as _ <-; destruct t; reflexivity|]). destruct I. Qed.

Lemma syntax_complete : forall file e, syntax_diagnostic e ->
  exists s ts e0, Forall scalar s /\ scan file s = Done ts /\ parse ts = Done (Err e0) /\ bare_syntax e0 = e.
Proof.
  intros file e D. destruct D as [expected accepted t I S A | expected accepted I].
  - destruct (prefix_spells _ _ (token_text t) I file []) as (ts & C & E).
    destruct (token_text_lexes t S file ([] ++ prefix expected)) as (t' & L & Et).
    exists (prefix expected ++ token_text t), (ts ++ [t']), (UnexpectedToken expected t'). split; [|split; [|split]].
    + apply Forall_app. split; [eapply prefix_scalar; exact I | apply token_text_scalar; exact S].
    + apply scan_lexes. exact (cut_lexes _ _ _ _ _ C _ L).
    + eapply prefix_err; [exact I | | exact E]. rewrite <- (accepted_bare _ _ _ I), Et. exact A.
    + cbn [bare_syntax]. rewrite Et. reflexivity.
  - destruct I as [I|[I|[I|[]]]]; injection I as <- _.
    + exists (u "."). eexists. eexists. split; [repeat constructor|]. split; [vm_compute; reflexivity|].
      split; [vm_compute; reflexivity | reflexivity].
    + exists (u ".db"). eexists. eexists. split; [repeat constructor|]. split; [vm_compute; reflexivity|].
      split; [vm_compute; reflexivity | reflexivity].
    + exists (u "cls"). eexists. eexists. split; [repeat constructor|]. split; [vm_compute; reflexivity|].
      split; [vm_compute; reflexivity | reflexivity].
Qed.

(** ** The assembler: soundness *)

Lemma name_ascii : forall id, name id -> ascii id.
Proof. intros id [N|N]; [apply identifier_ascii | apply indirect_ascii]; exact N. Qed.

Lemma literal_byte : forall args, Forall byte_literal args ->
  Forall (fun a => match a with LString s => Forall scalar s | LNumeric _ => True end) args ->
  Forall (fun b => b < 256) (flat_map literal_bytes args).
Proof.
  induction args as [|[s|v] args IH]; intros B S; [constructor| |]; inversion B; subst; inversion S; subst;
    cbn [flat_map literal_bytes]; apply Forall_app; (split; [|apply IH; assumption]).
  - apply utf8_byte. assumption.
  - constructor; [cbn [byte_literal] in *; lia | constructor].
Qed.

Lemma directive_sound : forall id args e, name id -> Forall writable_literal args -> rejects id args e ->
  directive_diagnostic e.
Proof.
  intros id args e N W R.
  destruct R as [id args N1 N2 N3 | id args nm low I N1 L | id s nm low I N1 | id v nm low I N1 V | id N1 | id b v a N1 F V].
  - apply dd_unknown; assumption.
  - apply dd_count; [|lia]. destruct I as [I|[I|[]]]; injection I as <- <-; [left | right; left]; reflexivity.
  - apply dd_string. destruct I as [I|[I|[]]]; injection I as <- <-; [left | right; left]; reflexivity.
  - inversion W as [|? ? Wv _]; subst. cbn [writable_literal] in Wv. lia.
  - apply dd_empty.
  - apply Forall_app in W. destruct W as [_ W]. inversion W as [|? ? Wv _]; subst. cbn [writable_literal] in Wv.
    apply dd_wide. lia.
Qed.

Lemma instruction_sound : forall look m fs e, (forall l v, look l = Some v -> v <= 4095) -> name m ->
  Forall writable_field fs -> refuses look m fs e -> instruction_diagnostic e.
Proof.
  intros look m fs e B N W R.
  assert (V : forall row op f v, row_for m fs row -> operand_is row fs op f -> value_of look f = Some v -> v <= 4095).
  { intros [[pt nm] os] op f v _ O E. cbn [operand_is] in O. apply in_combine_r in O. rewrite Forall_forall in W.
    specialize (W f O). destruct f; cbn [value_of writable_field] in *; try discriminate; [injection E as <-; exact W|].
    eapply B. exact E. }
  destruct R as [row l R I G | row fl v R O E L | row fl v R O E L | X].
  - rewrite Forall_forall in W. destruct (W _ I) as [Nl Ol]. apply id_label; assumption.
  - apply id_byte. pose proof (V _ _ _ _ R O E). lia.
  - apply id_nibble. pose proof (V _ _ _ _ R O E). lia.
  - apply id_unknown; assumption.
Qed.

Lemma semantic_sound : forall file s p e, Forall scalar s -> stands_for file s p -> assemble p = Done (Err e) ->
  diagnostic (bare_error e).
Proof.
  intros file s p e F S A. pose proof (read_writable _ _ _ S) as W. destruct S as (ts & L & P).
  assert (O : Forall node_ok p) by (eapply parsed_node_ok; [apply scan_lexes; exact L | apply parse_program; exact P]).
  pose proof (program_scalar _ _ P (lexes_scalar _ _ _ _ L F)) as Sc.
  apply (assemble_err _ _ O) in A. rewrite Forall_forall in W, Sc.
  destruct A as [(i & V)|(NV & i & (l & m & fs & r & H & R & ->) & _)].
  - pose proof (first_address _ _ _ O V) as Ad. destruct V as [V _].
    assert (D : forall l id args d, nth_error p i = Some (NDirective l id args) -> means id args d ->
      1 <= size (NDirective l id args) ->
      exists bytes, d = Db bytes /\ Forall (fun b => b < 256) bytes /\ N.of_nat (length bytes) = size (NDirective l id args)).
    { intros l id args d H M Z. pose proof (Sc _ (nth_error_In _ _ H)) as Sn. cbn [node_scalar] in Sn.
      destruct (means_size l _ _ _ M) as (Sz & _). inversion M; subst; cbn [directive_size] in Sz; try lia.
      eexists. split; [reflexivity|]. split; [apply literal_byte; assumption | lia]. }
    destruct V as [l id args e H R | l id args d H M Z | l id args d H M Z X | l id args c H M Lb | l m fs H X | l id H I];
      cbn [bare_error].
    + apply di_directive. pose proof (W _ (nth_error_In _ _ H)) as [N Wa]. eapply directive_sound; eassumption.
    + destruct (D _ _ _ _ H M) as (bytes & -> & B & E); [lia|]. apply di_size; [exact B | lia].
    + destruct (D _ _ _ _ H M) as (bytes & -> & B & E); [lia|]. apply di_space; [exact B | lia].
    + apply di_constant.
    + apply di_instruction_space.
    + apply di_label. exact (W _ (nth_error_In _ _ H)).
  - cbn [bare_error]. apply di_instruction. pose proof (W _ (nth_error_In _ _ H)) as [N Wf].
    eapply instruction_sound; [|exact N | exact Wf | exact R]. intros l' v E. eapply lookup_small; eassumption.
Qed.

(** ** The assembler: a program for every diagnostic *)

Definition literal_scalar (a : literal) : Prop := match a with LString s => Forall scalar s | LNumeric _ => True end.

Lemma separated_scalar : forall l, Forall (Forall scalar) l -> Forall scalar (separated l).
Proof.
  induction l as [|x l IH]; intros Fl; [constructor|]. inversion Fl; subst. destruct l as [|y l]; [assumption|].
  change (separated (x :: y :: l)) with (x ++ u ", " ++ separated (y :: l)).
  apply Forall_app. split; [assumption|]. apply Forall_app. split; [repeat constructor | apply IH; assumption].
Qed.

Lemma write_scalar : forall p, Forall writable_node p -> Forall node_scalar p -> Forall scalar (write p).
Proof.
  intros p W S. unfold write. apply Forall_flat_map. rewrite Forall_forall in *. intros n I. specialize (W n I). specialize (S n I).
  destruct n as [l id args|l id|l m fs]; cbn [write_node writable_node node_scalar] in *.
  - destruct W as [N W]. apply Forall_app. split; [repeat constructor|]. apply Forall_app. split; [apply name_scalar; exact N|].
    apply Forall_app. split; [repeat constructor|]. apply Forall_app. split; [|repeat constructor].
    apply separated_scalar, Forall_map. eapply Forall_impl; [|exact S]. intros [s|v] X; cbn [write_literal].
    + constructor; [left; reflexivity|]. apply Forall_app. split; [exact X | repeat constructor].
    + apply number_scalar.
  - apply Forall_app. split; [apply name_scalar; exact W | repeat constructor].
  - destruct W as [N W]. apply Forall_app. split; [apply name_scalar; exact N|].
    apply Forall_app. split; [repeat constructor|]. apply Forall_app. split; [|repeat constructor].
    apply separated_scalar, Forall_map. eapply Forall_impl; [|exact W]. intros f X.
    destruct f; cbn [write_field writable_field] in *; try (repeat constructor; fail).
    + apply number_scalar.
    + constructor; [left; reflexivity|]. constructor; [apply digit_scalar | constructor].
    + apply name_scalar, X.
Qed.

Lemma writable_ok : forall p, Forall writable_node p -> Forall node_ok p.
Proof.
  intros p W. eapply Forall_impl; [|exact W]. intros [l id args|l id|l m fs] H; cbn [writable_node node_ok] in *.
  - apply name_ascii, H.
  - exact I.
  - destruct H as [N F]. split; [apply name_ascii; exact N|]. eapply Forall_impl; [|exact F].
    intros [] X; cbn [writable_field field_ok] in *; auto.
Qed.

Definition provoked (file : str) (e : semantic_error) : Prop :=
  exists s p e0, Forall scalar s /\ stands_for file s p /\ assemble p = Done (Err e0) /\ bare_error e0 = e.

Lemma provoke : forall file p e, Forall writable_node p -> Forall node_scalar p -> reported p e -> provoked file (bare_error e).
Proof.
  intros file p e W S R. destruct (write_read file p W) as (p' & St & Sm).
  apply (assemble_err _ _ (writable_ok _ W)) in R. pose proof (assemble_same _ _ Sm) as A. rewrite R in A. cbn [bare_run] in A.
  destruct (assemble p') as [[rs|e0]|c] eqn:E; try discriminate. injection A as A.
  exists (write p), p', e0. split; [apply write_scalar; assumption|]. auto.
Qed.

Lemma reported_one : forall n e, violates [n] 0 e -> reported [n] e.
Proof. intros n e V. left. exists 0%nat. split; [exact V|]. intros j e' L. lia. Qed.

Lemma reported_second : forall n n' e, (forall e', ~ violates [n; n'] 0 e') -> violates [n; n'] 1 e -> reported [n; n'] e.
Proof.
  intros n n' e N V. left. exists 1%nat. split; [exact V|]. intros j e' L. assert (j = 0%nat) by lia. subst j. apply N.
Qed.

Lemma reported_instruction : forall l m fs r, refuses (lookup [NInstruction l m fs]) m fs r ->
  reported [NInstruction l m fs] (AssemblyFailed l r).
Proof.
  intros l m fs r R. right. split.
  - intros i e V. destruct i as [|[|i]]; inversion V as [? ? ? ? H|? ? ? ? H|? ? ? ? H|? ? ? ? H|? ? ? H X|? ? H]; try discriminate H.
    change (4095 < 0 + 2) in X. lia.
  - exists 0%nat. split; [|intros j e L; lia]. exists l, m, fs, r. auto.
Qed.

Lemma directive_complete : forall file e, directive_diagnostic e -> provoked file (DirectiveInvalid nowhere e).
Proof.
  assert (K : forall file id args e, name id -> Forall writable_literal args -> Forall literal_scalar args -> rejects id args e ->
    provoked file (DirectiveInvalid nowhere e)).
  { intros file id args e N W S R. apply (provoke file [NDirective nowhere id args] (DirectiveInvalid nowhere e)).
    - constructor; [split; assumption | constructor].
    - constructor; [exact S | constructor].
    - apply reported_one. eapply violates_directive; [reflexivity | exact R]. }
  intros file e D. destruct D as [id N N1 N2 N3 | low n I L | low I | | v V].
  - apply (K file id []); [exact N | constructor | constructor | constructor; assumption].
  - set (args := repeat (LNumeric 0) (N.to_nat n)).
    assert (E : N.of_nat (length args) = n) by (unfold args; rewrite repeat_length; lia).
    assert (W : Forall writable_literal args).
    { apply Forall_forall. intros a J. apply repeat_spec in J. subst a. cbn [writable_literal]. lia. }
    assert (S : Forall literal_scalar args).
    { apply Forall_forall. intros a J. apply repeat_spec in J. subst a. exact Logic.I. }
    rewrite <- E. destruct I as [<-|[<-|[]]].
    + apply (K file (u "org") args); try assumption; [apply known_name; reflexivity|].
      apply (rejects_count _ _ "ORG" "org"); [left; reflexivity | reflexivity | lia].
    + apply (K file (u "equ") args); try assumption; [apply known_name; reflexivity|].
      apply (rejects_count _ _ "EQU" "equ"); [right; left; reflexivity | reflexivity | lia].
  - assert (W : Forall writable_literal [LString []]).
    { constructor; [|constructor]. cbn [writable_literal]. unfold quotable. cbn [app].
      assert (F : find KString [QUOTE; QUOTE] = Some [QUOTE; QUOTE]) by reflexivity.
      destruct (find_lexeme _ _ _ F) as (r & _ & L). apply L. }
    assert (S : Forall literal_scalar [LString []]) by (repeat constructor).
    destruct I as [<-|[<-|[]]].
    + apply (K file (u "org") [LString []]); try assumption; [apply known_name; reflexivity|].
      apply (rejects_string _ _ "ORG" "org"); [left; reflexivity | reflexivity].
    + apply (K file (u "equ") [LString []]); try assumption; [apply known_name; reflexivity|].
      apply (rejects_string _ _ "EQU" "equ"); [right; left; reflexivity | reflexivity].
  - apply (K file (u "db") []); [apply known_name; reflexivity | constructor | constructor | constructor; reflexivity].
  - apply (K file (u "db") [LNumeric v]).
    + apply known_name. reflexivity.
    + constructor; [cbn [writable_literal]; lia | constructor].
    + repeat constructor.
    + apply (rejects_wide (u "db") []); [reflexivity | constructor | lia].
Qed.

Lemma row_in : forall k m fs row, nth_error table k = Some row ->
  (let '(_, name, operands) := row in named m name /\ Forall2 fits operands fs) -> row_for m fs row.
Proof. intros k m fs [[pt nm] os] H [N F]. split; [eapply nth_error_In; exact H | auto]. Qed.

Lemma instruction_complete : forall file e, instruction_diagnostic e -> provoked file (AssemblyFailed nowhere e).
Proof.
  assert (K : forall file m fs e, name m -> Forall writable_field fs -> refuses (lookup [NInstruction nowhere m fs]) m fs e ->
    provoked file (AssemblyFailed nowhere e)).
  { intros file m fs e N W R. apply (provoke file [NInstruction nowhere m fs] (AssemblyFailed nowhere e)).
    - constructor; [split; assumption | constructor].
    - repeat constructor.
    - apply reported_instruction. exact R. }
  intros file e D. destruct D as [id N O | v V | v V | m fs N W X].
  - apply (K file (u "jp") [FIdentifier id]); [apply known_name; reflexivity | constructor; [split; assumption | constructor]|].
    apply (refuses_label _ _ _ ("1nnn", "JP", ["addr"])%string); [|left; reflexivity | reflexivity].
    apply (row_in 2); [reflexivity|]. split; [reflexivity|]. constructor; [|constructor].
    apply fits_value; [left; reflexivity | reflexivity].
  - apply (K file (u "rnd") [FRegister 0; FNumeric v]);
      [apply known_name; reflexivity | constructor; [cbn; lia|]; constructor; [cbn; lia | constructor]|].
    apply (refuses_byte _ _ _ ("Cxkk", "RND", ["Vx"; "nn"])%string (FNumeric v)); [|right; left; reflexivity | reflexivity | lia].
    apply (row_in 21); [reflexivity|]. split; [reflexivity|]. constructor; [constructor|]. constructor; [|constructor].
    apply fits_value; [right; left; reflexivity | reflexivity].
  - apply (K file (u "drw") [FRegister 0; FRegister 0; FNumeric v]);
      [apply known_name; reflexivity
      | constructor; [cbn; lia|]; constructor; [cbn; lia|]; constructor; [cbn; lia | constructor]|].
    apply (refuses_nibble _ _ _ ("Dxyn", "DRW", ["Vx"; "Vy"; "n"])%string (FNumeric v));
      [|right; right; left; reflexivity | reflexivity | lia].
    apply (row_in 22); [reflexivity|]. split; [reflexivity|]. constructor; [constructor|]. constructor; [constructor|].
    constructor; [|constructor]. apply fits_value; [right; right; left; reflexivity | reflexivity].
  - apply (K file m fs); [exact N | exact W | constructor; exact X].
Qed.

Lemma bytes_literals : forall bytes, Forall (fun b => b < 256) bytes ->
  Forall writable_literal (map LNumeric bytes) /\ Forall literal_scalar (map LNumeric bytes) /\
  Forall byte_literal (map LNumeric bytes) /\ flat_map literal_bytes (map LNumeric bytes) = bytes.
Proof.
  induction 1 as [|b bytes L _ (IH1 & IH2 & IH3 & IH4)]; [repeat constructor|].
  cbn [map flat_map literal_bytes app]. rewrite IH4. split; [|split; [|split; [|reflexivity]]];
    constructor; try assumption; cbn; [lia | exact Logic.I | lia].
Qed.

Lemma db_means : forall bytes, Forall (fun b => b < 256) bytes -> bytes <> [] -> means (u "db") (map LNumeric bytes) (Db bytes).
Proof.
  intros bytes B Ne. destruct (bytes_literals bytes B) as (_ & _ & F & E).
  rewrite <- E at 2. apply means_db; [reflexivity | destruct bytes; [contradiction | discriminate] | exact F].
Qed.

Lemma db_size : forall l bytes, Forall (fun b => b < 256) bytes ->
  size (NDirective l (u "db") (map LNumeric bytes)) = N.of_nat (length bytes).
Proof.
  intros l bytes B. destruct (bytes_literals bytes B) as (_ & _ & _ & E). cbn [size].
  change (names (u "db") "DB") with true. cbn iota. rewrite E. reflexivity.
Qed.

Definition to_the_end : node := NDirective nowhere (u "org") [LNumeric 4095].

Lemma end_fine : forall n e, ~ violates [to_the_end; n] 0 e.
Proof.
  intros n e V. assert (M : means (u "org") [LNumeric 4095] (Org 4095)) by (constructor; [reflexivity | lia]).
  assert (Z : size to_the_end = 0) by reflexivity.
  destruct V as [l id args e H R | l id args d H _ S | l id args d H _ _ X | l id args c H Q _ | l m fs H _ | l id H _];
    cbn [nth_error] in H; try discriminate H; injection H as <- <- <-.
  - eapply means_not_rejects; eassumption.
  - change (4095 < size to_the_end) in S. lia.
  - change (4095 < 0 + size to_the_end) in X. lia.
  - destruct (means_size nowhere _ _ _ Q) as (_ & _ & C). discriminate C.
Qed.

Lemma semantic_complete : forall file e, diagnostic e -> provoked file e.
Proof.
  intros file e D. destruct D as [e D | bytes B L | bytes B L | | id N | | e D].
  - apply directive_complete. exact D.
  - destruct (bytes_literals bytes B) as (W & S & _ & _).
    apply (provoke file [NDirective nowhere (u "db") (map LNumeric bytes)] (DirectiveTooLarge nowhere (Db bytes))).
    + constructor; [|constructor]. split; [apply known_name; reflexivity | exact W].
    + constructor; [exact S | constructor].
    + apply reported_one. eapply violates_size; [reflexivity | apply db_means; [exact B|] | rewrite (db_size _ _ B); lia].
      intros ->. cbn [length] in L. lia.
  - destruct (bytes_literals bytes B) as (W & S & _ & _).
    apply (provoke file [to_the_end; NDirective nowhere (u "db") (map LNumeric bytes)] (DirectiveWouldOverflow nowhere (Db bytes))).
    + constructor; [split; [apply known_name; reflexivity | constructor; [cbn; lia | constructor]]|].
      constructor; [|constructor]. split; [apply known_name; reflexivity | exact W].
    + constructor; [repeat constructor|]. constructor; [exact S | constructor].
    + apply reported_second; [apply end_fine|].
      eapply violates_space; [reflexivity | apply db_means; [exact B|] | rewrite (db_size _ _ B); lia|].
      * intros ->. cbn [length] in L. lia.
      * rewrite (db_size _ _ B). change (4095 < 4095 + N.of_nat (length bytes)). lia.
  - apply (provoke file [to_the_end; NInstruction nowhere (u "cls") []] (InstructionWouldOverflow nowhere)).
    + constructor; [split; [apply known_name; reflexivity | constructor; [cbn; lia | constructor]]|].
      constructor; [|constructor]. split; [apply known_name; reflexivity | constructor].
    + repeat constructor.
    + apply reported_second; [apply end_fine|]. eapply violates_instruction; [reflexivity|]. change (4095 < 4095 + 2). lia.
  - apply (provoke file [NLabel nowhere id; NLabel nowhere id] (RedefinitionOfLabel nowhere id)).
    + constructor; [exact N|]. constructor; [exact N | constructor].
    + repeat constructor.
    + apply reported_second.
      * intros e V. inversion V as [? ? ? ? H|? ? ? ? H|? ? ? ? H|? ? ? ? H|? ? ? H X|? ? H J]; try discriminate H. destruct J.
      * eapply violates_label; [reflexivity|]. left. reflexivity.
  - apply (provoke file [NDirective nowhere (u "equ") [LNumeric 0]] (ConstantWithoutLabel nowhere)).
    + constructor; [split; [apply known_name; reflexivity | constructor; [cbn; lia | constructor]] | constructor].
    + repeat constructor.
    + apply reported_one. eapply (violates_constant _ _ _ _ _ 0); [reflexivity | constructor; [reflexivity | lia]|].
      intros (j & l & id & E & _). discriminate E.
  - apply instruction_complete. exact D.
Qed.
