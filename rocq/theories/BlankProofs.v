(** * BlankProofs: to the scanner all blanks are alike, to the parser all comments. *)

From Verif Require Import Base Text U12 Location Token Scanner Parser SpecLex SpecPlace SpecBlank
  BaseFacts LexProofs ScanProofs LexTheorems LexAppend.
Open Scope N_scope.

(** ** Texts *)

Lemma sbb_refl : forall s, same_but_blanks s s.
Proof. induction s; constructor; auto. Qed.

Lemma sbb_sym : forall s s', same_but_blanks s s' -> same_but_blanks s' s.
Proof. induction 1 as [|c c' s s' [-> | [A B]] _ IH]; constructor; auto. Qed.

Lemma sbb_app : forall a a' b b', same_but_blanks a a' -> same_but_blanks b b' -> same_but_blanks (a ++ b) (a' ++ b').
Proof. intros. apply Forall2_app; assumption. Qed.

Lemma sbb_split : forall a b s', same_but_blanks (a ++ b) s' ->
  exists a' b', s' = a' ++ b' /\ same_but_blanks a a' /\ same_but_blanks b b'.
Proof.
  intros a b s' H. apply Forall2_app_inv_l in H. destruct H as (a' & b' & A & B & ->).
  exists a', b'. repeat split; assumption.
Qed.

Lemma sbb_length : forall s s', same_but_blanks s s' -> length s = length s'.
Proof. induction 1; cbn [length]; congruence. Qed.

Lemma sbb_lf : forall c c', c = c' \/ (blank c = true /\ blank c' = true) -> (c =? LF) = (c' =? LF).
Proof.
  intros c c' [-> | [A B]]; [reflexivity|]. apply blank_not_lf in A, B. rewrite N.eqb_sym, A, N.eqb_sym, B. reflexivity.
Qed.

Lemma sbb_newlines : forall s s', same_but_blanks s s' -> newlines s = newlines s'.
Proof.
  unfold newlines. intros s s' H. f_equal. induction H as [|c c' s s' C _ IH]; [reflexivity|].
  apply sbb_lf in C. cbn [count_occ]. destruct (N.eq_dec c LF) as [->|Nc]; destruct (N.eq_dec c' LF) as [->|Nc'].
  - rewrite IH. reflexivity.
  - apply N.eqb_neq in Nc'. rewrite Nc', N.eqb_refl in C. discriminate C.
  - apply N.eqb_neq in Nc. rewrite Nc, N.eqb_refl in C. discriminate C.
  - exact IH.
Qed.

Lemma sbb_has_lf : forall s s', same_but_blanks s s' -> existsb (N.eqb LF) s = existsb (N.eqb LF) s'.
Proof.
  induction 1 as [|c c' s s' C _ IH]; [reflexivity|]. apply sbb_lf in C. cbn [existsb].
  rewrite IH, (N.eqb_sym LF c), (N.eqb_sym LF c'), C. reflexivity.
Qed.

Lemma sbb_last_line : forall s s', same_but_blanks s s' -> length (last_line s) = length (last_line s').
Proof.
  intros s s' H. induction H as [|c c' s s' C H IH]; [reflexivity|]. cbn [last_line].
  assert (S : same_but_blanks (c :: s) (c' :: s')) by (constructor; assumption).
  rewrite (sbb_has_lf _ _ S). destruct (existsb (N.eqb LF) (c' :: s')); [exact IH | apply sbb_length; exact S].
Qed.

Lemma sbb_first_line : forall s s', same_but_blanks s s' -> length (first_line s) = length (first_line s').
Proof.
  intros s s' H. induction H as [|c c' s s' C H IH]; [reflexivity|]. cbn [first_line].
  rewrite (sbb_lf _ _ C). destruct (c' =? LF); [reflexivity | cbn [length]; rewrite IH; reflexivity].
Qed.

Lemma sbb_located : forall file before before' m m', same_but_blanks before before' -> same_but_blanks m m' ->
  located file before m = located file before' m'.
Proof.
  intros file before before' m m' B M. unfold located.
  rewrite (sbb_newlines _ _ B), (sbb_last_line _ _ B), (sbb_first_line _ _ M). reflexivity.
Qed.

Lemma sbb_no_blank : forall s s', same_but_blanks s s' -> Forall (fun c => blank c = false) s -> s = s'.
Proof.
  induction 1 as [|c c' s s' C _ IH]; intros F; [reflexivity|]. inversion F as [|x y Fc Fs]; subst.
  destruct C as [-> | [A _]]; [|congruence]. rewrite (IH Fs). reflexivity.
Qed.

(** ** Patterns treat all blanks alike *)

Definition uniform_class (p : char -> bool) : Prop := forall c c', blank c = true -> blank c' = true -> p c = p c'.

Fixpoint uniform (r : re) : Prop :=
  match r with
  | Chr p => uniform_class p
  | Eps => True
  | Cat a b | Alt a b => uniform a /\ uniform b
  | Star a => uniform a
  end.

Lemma on_blanks : forall (p : char -> bool) b, forallb (fun c => Bool.eqb (p c) b) blank_code_points = true ->
  forall c, blank c = true -> p c = b.
Proof.
  intros p b H c B. unfold blank in B. apply existsb_exists in B. destruct B as (d & I & E). apply N.eqb_eq in E. subst d.
  rewrite forallb_forall in H. apply eqb_prop. apply H. exact I.
Qed.

Lemma uniform_by : forall p b, forallb (fun c => Bool.eqb (p c) b) blank_code_points = true -> uniform_class p.
Proof.
  intros p b H c c' C C'. rewrite (on_blanks p b H c C), (on_blanks p b H c' C'). reflexivity.
Qed.

Ltac by_class := first [exact I | apply (uniform_by _ false); vm_compute; reflexivity | apply (uniform_by _ true); vm_compute; reflexivity].

Lemma pattern_uniform : forall k, uniform (pattern k).
Proof.
  destruct k; unfold Plus, Opt; cbn [pattern uniform lit Plus Opt]; repeat match goal with |- _ /\ _ => split end; by_class.
Qed.

Lemma uniform_match : forall r s, rmatch r s -> uniform r -> forall s', same_but_blanks s s' -> rmatch r s'.
Proof.
  induction 1 as [p c P | | a b s t _ IHa _ IHb | a b s _ IH | a b s _ IH | a | a s t _ IHs _ IHt];
    cbn [uniform]; intros U s' S.
  - inversion S as [|x c' y z C E]; subst. inversion E; subst. constructor.
    destruct C as [<- | [A B]]; [exact P | rewrite <- (U c c' A B); exact P].
  - inversion S; subst. constructor.
  - apply sbb_split in S. destruct S as (a' & b' & -> & A & B). constructor; [apply IHa | apply IHb]; tauto.
  - apply m_alt_l, IH; tauto.
  - apply m_alt_r, IH; tauto.
  - inversion S; subst. constructor.
  - apply sbb_split in S. destruct S as (a' & b' & -> & A & B). constructor; [apply IHs | apply IHt]; tauto.
Qed.

(** Patterns of which no blank is part. *)
Fixpoint free_of_blanks (r : re) : Prop :=
  match r with
  | Chr p => forall c, blank c = true -> p c = false
  | Eps => True
  | Cat a b | Alt a b => free_of_blanks a /\ free_of_blanks b
  | Star a => free_of_blanks a
  end.

Lemma pattern_free : forall k, k <> KComment -> k <> KString -> free_of_blanks (pattern k).
Proof.
  destruct k; intros Nc Ns; try congruence; unfold Plus, Opt; cbn [pattern free_of_blanks lit Plus Opt];
    repeat match goal with |- _ /\ _ => split end; first [exact I | apply on_blanks; vm_compute; reflexivity].
Qed.

Lemma free_match : forall r s, rmatch r s -> free_of_blanks r -> Forall (fun c => blank c = false) s.
Proof.
  induction 1 as [p c P | | a b s t _ IHa _ IHb | a b s _ IH | a b s _ IH | a | a s t _ IHs _ IHt];
    cbn [free_of_blanks]; intros U; try apply Forall_app; try tauto; try (constructor; fail).
  constructor; [|constructor]. destruct (blank c) eqn:B; [|reflexivity]. rewrite (U c B) in P. discriminate P.
Qed.

(** ** Lexemes and tokens *)

Lemma sbb_lexeme : forall k m rest s, lexeme k m rest s -> forall m' rest',
  same_but_blanks m m' -> same_but_blanks rest rest' -> lexeme k m' rest' (m' ++ rest').
Proof.
  intros k m rest s (-> & R & Max) m' rest' M S. split; [reflexivity|].
  split; [exact (uniform_match _ _ R (pattern_uniform k) _ M)|].
  intros k2 m2 rest2 E R2.
  assert (A : same_but_blanks (m2 ++ rest2) (m ++ rest)).
  { rewrite <- E. apply sbb_sym, sbb_app; assumption. }
  apply sbb_split in A. destruct A as (m1 & rest1 & E1 & A1 & A2).
  pose proof (Max k2 m1 rest1 E1 (uniform_match _ _ R2 (pattern_uniform k2) _ A1)) as Le.
  rewrite (sbb_length _ _ A1), <- (sbb_length _ _ M). exact Le.
Qed.

Lemma lexeme_kept : forall k m m', rmatch (pattern k) m -> same_but_blanks m m' -> k <> KComment -> k <> KString -> m = m'.
Proof.
  intros k m m' R S Nc Ns. apply sbb_no_blank; [exact S|]. exact (free_match _ _ R (pattern_free k Nc Ns)).
Qed.

Lemma quote_kept : forall c', QUOTE = c' \/ (blank QUOTE = true /\ blank c' = true) -> c' = QUOTE.
Proof. intros c' [<- | [B _]]; [reflexivity | discriminate B]. Qed.

Lemma sbb_token : forall file before k m t, token_of file before k m t -> rmatch (pattern k) m ->
  forall before' m', same_but_blanks before before' -> same_but_blanks m m' ->
  exists t', token_of file before' k m' t' /\ same_but_text t t'.
Proof.
  intros file before k m t T R before' m' B M. destruct T as [m|m|m|m|m|b|c d|c d V|d V|m|m];
  try (pose proof (lexeme_kept _ _ _ R M ltac:(discriminate) ltac:(discriminate)); subst m';
       rewrite (sbb_located file _ _ _ _ B M); eexists; (split; [constructor; assumption || idtac | apply same_token])).
  - rewrite (sbb_located file _ _ _ _ B M). eexists. split; [constructor | apply same_comment; exact M].
  - rewrite (sbb_located file _ _ _ _ B M).
    inversion M as [|x c1 y z C E]; subst. apply quote_kept in C. subst c1.
    apply sbb_split in E. destruct E as (b' & q & -> & E1 & E2).
    inversion E2 as [|x c2 y z' C2 E3]; subst. inversion E3; subst. apply quote_kept in C2. subst c2.
    eexists. split; [constructor | apply same_string; exact E1].
Qed.

Lemma bad_kept : forall k m e, bad_lexeme k m e -> k <> KComment /\ k <> KString.
Proof. intros k m e []; split; discriminate. Qed.

Theorem lexes_blanks_alike : forall file before s ts, lexes file before s ts -> forall before' s',
  same_but_blanks before before' -> same_but_blanks s s' ->
  exists ts', lexes file before' s' ts' /\ Forall2 same_but_text ts ts'.
Proof.
  intros file before s ts H.
  induction H as [before | before c s ts B _ IH | before s k m rest t ts L T _ IH | before s k m rest e L Bd | before c s B N];
    intros before' s' Hb Hs.
  - inversion Hs; subst. exists []. split; constructor.
  - inversion Hs as [|x c' y r C S]; subst.
    assert (B' : blank c' = true) by (destruct C as [<- | [_ C]]; assumption).
    destruct (IH (before' ++ [c']) r) as (ts' & L' & F);
      [apply sbb_app; [exact Hb | constructor; [exact C | constructor]] | exact S|].
    exists ts'. split; [apply lex_blank; assumption | exact F].
  - pose proof L as (E & R & _). rewrite E in Hs. apply sbb_split in Hs. destruct Hs as (m' & rest' & -> & M & S).
    destruct (sbb_token _ _ _ _ _ T R _ _ Hb M) as (t' & T' & St).
    destruct (IH (before' ++ m') rest') as (ts' & L' & F); [apply sbb_app; assumption | exact S|].
    exists (t' :: ts'). split; [|constructor; assumption].
    apply (lex_token file before' (m' ++ rest') k m' rest' t' ts'); [exact (sbb_lexeme _ _ _ _ L _ _ M S) | exact T' | exact L'].
  - pose proof L as (E & R & _). rewrite E in Hs. apply sbb_split in Hs. destruct Hs as (m' & rest' & -> & M & S).
    destruct (bad_kept _ _ _ Bd) as [Nc Ns]. pose proof (lexeme_kept _ _ _ R M Nc Ns) as E'.
    exists [ErrorToken e (located file before m)]. split; [|repeat constructor].
    rewrite (sbb_located file _ _ _ _ Hb M).
    apply (lex_bad file before' (m' ++ rest') k m' rest' e); [exact (sbb_lexeme _ _ _ _ L _ _ M S) | rewrite <- E'; exact Bd].
  - inversion Hs as [|x c' y r C S]; subst. destruct C as [<- | [C _]]; [|congruence].
    exists [ErrorToken (no_lexeme_error c) (located file before [c])]. split; [|repeat constructor].
    rewrite (sbb_located file _ _ [c] [c] Hb (sbb_refl _)). apply lex_stuck; [exact B|].
    intros k m' rest' E R'.
    assert (A : same_but_blanks (m' ++ rest') (c :: s)) by (rewrite <- E; apply sbb_sym; constructor; [left; reflexivity | exact S]).
    apply sbb_split in A. destruct A as (m & rest & E1 & A1 & _).
    exact (N k m rest E1 (uniform_match _ _ R' (pattern_uniform k) _ A1)).
Qed.

(** ** The parser *)

(** The token without the text of a comment. *)
Definition uncomment (t : token) : token :=
  match t with SingleLineComment _ l => SingleLineComment [] l | _ => t end.

Definition syntax_error_uncomment (e : parse_error) : parse_error :=
  match e with
  | UnexpectedEndOfFile expected => UnexpectedEndOfFile expected
  | UnexpectedToken expected t => UnexpectedToken expected (uncomment t)
  end.

Definition parser_uncomment (p : parser) : parser :=
  mk_parser (map uncomment (p_scanner p)) (option_map uncomment (p_current p)) (option_map uncomment (p_next p)).

Definition presult_uncomment {A} (r : presult A) : presult A :=
  outcome_via syntax_error_uncomment (fun x => (fst x, parser_uncomment (snd x))) r.

Lemma new_uncomment : forall ts, parser_new (map uncomment ts) = parser_uncomment (parser_new ts).
Proof. destruct ts as [|t [|t' ts]]; reflexivity. Qed.

Lemma consume_uncomment : forall p,
  consume_token (parser_uncomment p) = (option_map uncomment (fst (consume_token p)), parser_uncomment (snd (consume_token p))).
Proof. intros [[|t ts] c n]; reflexivity. Qed.

Lemma identifier_uncomment : forall p, parse_identifier (parser_uncomment p) = presult_uncomment (parse_identifier p).
Proof.
  intros p. unfold parse_identifier. rewrite consume_uncomment. destruct (consume_token p) as [[t|] p']; [|reflexivity].
  destruct t; reflexivity.
Qed.

Lemma literal_uncomment : forall p, parse_literal (parser_uncomment p) = presult_uncomment (parse_literal p).
Proof.
  intros p. unfold parse_literal. rewrite consume_uncomment. cbn [parser_uncomment p_current].
  destruct (p_current p) as [t|]; [|reflexivity]. destruct t; reflexivity.
Qed.

Lemma field_uncomment : forall p, parse_field (parser_uncomment p) = presult_uncomment (parse_field p).
Proof.
  intros p. unfold parse_field. rewrite consume_uncomment. cbn [parser_uncomment p_current].
  destruct (p_current p) as [t|]; [|reflexivity]. destruct t; try reflexivity.
  cbn [option_map uncomment]. destruct (identifier_field id); reflexivity.
Qed.

Lemma literals_uncomment : forall fuel p acc,
  parse_literal_list fuel (parser_uncomment p) acc = presult_uncomment (parse_literal_list fuel p acc).
Proof.
  induction fuel as [|n IH]; intros p acc; [reflexivity|]. cbn [parse_literal_list].
  assert (X : (try* (lit, p) := parse_literal (parser_uncomment p) in
      let acc := acc ++ [lit] in
      match p_current p with
      | Some (Comma _) => parse_literal_list n (snd (consume_token p)) acc
      | _ => Done (Ok (acc, p)) end) = presult_uncomment
      (try* (lit, p) := parse_literal p in
      let acc := acc ++ [lit] in
      match p_current p with
      | Some (Comma _) => parse_literal_list n (snd (consume_token p)) acc
      | _ => Done (Ok (acc, p)) end)).
  { rewrite literal_uncomment. destruct (parse_literal p) as [[[lit q]|e]|why]; [|reflexivity|reflexivity].
    unfold presult_uncomment. cbn [outcome_via try_ fst snd].
    change (p_current (parser_uncomment q)) with (option_map uncomment (p_current q)).
    destruct (p_current q) as [t|] eqn:C; [|reflexivity]. destruct t; try reflexivity.
    cbn [option_map uncomment]. rewrite consume_uncomment. cbn [snd]. apply IH. }
  change (p_current (parser_uncomment p)) with (option_map uncomment (p_current p)).
  destruct (p_current p) as [t|]; [|exact X]. destruct t; try exact X; reflexivity.
Qed.

Lemma fields_uncomment : forall fuel p acc,
  parse_field_list fuel (parser_uncomment p) acc = presult_uncomment (parse_field_list fuel p acc).
Proof.
  induction fuel as [|n IH]; intros p acc; [reflexivity|]. cbn [parse_field_list].
  assert (X : (try* (lit, p) := parse_field (parser_uncomment p) in
      let acc := acc ++ [lit] in
      match p_current p with
      | Some (Comma _) => parse_field_list n (snd (consume_token p)) acc
      | _ => Done (Ok (acc, p)) end) = presult_uncomment
      (try* (lit, p) := parse_field p in
      let acc := acc ++ [lit] in
      match p_current p with
      | Some (Comma _) => parse_field_list n (snd (consume_token p)) acc
      | _ => Done (Ok (acc, p)) end)).
  { rewrite field_uncomment. destruct (parse_field p) as [[[lit q]|e]|why]; [|reflexivity|reflexivity].
    unfold presult_uncomment. cbn [outcome_via try_ fst snd].
    change (p_current (parser_uncomment q)) with (option_map uncomment (p_current q)).
    destruct (p_current q) as [t|] eqn:C; [|reflexivity]. destruct t; try reflexivity.
    cbn [option_map uncomment]. rewrite consume_uncomment. cbn [snd]. apply IH. }
  change (p_current (parser_uncomment p)) with (option_map uncomment (p_current p)).
  destruct (p_current p) as [t|]; [|exact X]. destruct t; try exact X; reflexivity.
Qed.

Lemma statement_uncomment : forall fuel p,
  parse_statement fuel (parser_uncomment p) = presult_uncomment (parse_statement fuel p).
Proof.
  intros fuel p.
  assert (D : parse_directive fuel (parser_uncomment p) = presult_uncomment (parse_directive fuel p)).
  { unfold parse_directive. rewrite consume_uncomment. destruct (consume_token p) as [[t|] q]; [|reflexivity].
    cbn [fst snd option_map]. destruct t; try reflexivity. cbn [uncomment]. rewrite identifier_uncomment.
    destruct (parse_identifier q) as [[[[id lo] q']|e]|why]; [|reflexivity|reflexivity].
    unfold presult_uncomment. cbn [outcome_via try_ fst snd]. rewrite literals_uncomment.
    destruct (parse_literal_list fuel q' []) as [[[lits q'']|e]|why]; reflexivity. }
  assert (L : parse_label (parser_uncomment p) = presult_uncomment (parse_label p)).
  { unfold parse_label. rewrite identifier_uncomment.
    destruct (parse_identifier p) as [[[[id lo] q']|e]|why]; [|reflexivity|reflexivity].
    unfold presult_uncomment. cbn [outcome_via try_ fst snd]. rewrite consume_uncomment.
    destruct (consume_token q') as [[t|] q]; [|reflexivity]. destruct t; reflexivity. }
  assert (I : parse_instruction fuel (parser_uncomment p) = presult_uncomment (parse_instruction fuel p)).
  { unfold parse_instruction. rewrite identifier_uncomment.
    destruct (parse_identifier p) as [[[[id lo] q']|e]|why]; [|reflexivity|reflexivity].
    unfold presult_uncomment. cbn [outcome_via try_ fst snd]. rewrite fields_uncomment.
    destruct (parse_field_list fuel q' []) as [[[lits q'']|e]|why]; reflexivity. }
  unfold parse_statement.
  change (p_current (parser_uncomment p)) with (option_map uncomment (p_current p)).
  change (p_next (parser_uncomment p)) with (option_map uncomment (p_next p)).
  destruct (p_current p) as [t|]; [|reflexivity].
  destruct t; try reflexivity; cbn [option_map uncomment]; [exact D|].
  destruct (p_next p) as [t'|]; [|exact I]. destruct t'; try exact I. exact L.
Qed.

Lemma statements_uncomment : forall fuel p acc,
  parse_statement_list fuel (parser_uncomment p) acc =
  outcome_via syntax_error_uncomment (fun x => x) (parse_statement_list fuel p acc).
Proof.
  induction fuel as [|n IH]; intros p acc; [reflexivity|]. cbn [parse_statement_list].
  assert (X : (try* (nd, p) := parse_statement (S n) (parser_uncomment p) in parse_statement_list n p (acc ++ [nd])) =
     outcome_via syntax_error_uncomment (fun x => x)
       (try* (nd, p) := parse_statement (S n) p in parse_statement_list n p (acc ++ [nd]))).
  { rewrite statement_uncomment. destruct (parse_statement (S n) p) as [[[nd q]|e]|why]; [|reflexivity|reflexivity].
    unfold presult_uncomment. cbn [outcome_via try_ fst snd]. apply IH. }
  change (p_current (parser_uncomment p)) with (option_map uncomment (p_current p)).
  destruct (p_current p) as [t|]; [|reflexivity].
  destruct t; try exact X; cbn [option_map uncomment]; rewrite consume_uncomment; cbn [snd]; apply IH.
Qed.

Lemma parse_uncomment : forall ts,
  parse (map uncomment ts) = outcome_via syntax_error_uncomment (fun x => x) (parse ts).
Proof. intros ts. unfold parse. rewrite map_length, new_uncomment. apply statements_uncomment. Qed.

Lemma message_uncomment : forall e, parse_error_fmt (syntax_error_uncomment e) = parse_error_fmt e.
Proof. intros [expected|expected t]; [reflexivity|]. destruct t; reflexivity. Qed.

(** Tokens which are the same up to the texts of comments and strings, with the same strings. *)
Lemma uncomment_same : forall ts ts', Forall2 same_but_text ts ts' -> strings ts = strings ts' ->
  map uncomment ts = map uncomment ts'.
Proof.
  induction 1 as [|t t' ts ts' T _ IH]; [reflexivity|]. destruct T as [t | m m' l M | b b' l B]; cbn [strings flat_map].
  - intros E. apply app_inv_head in E. cbn [map]. rewrite (IH E). reflexivity.
  - intros E. cbn [map uncomment]. rewrite (IH E). reflexivity.
  - intros E. cbn [app] in E. injection E as -> E. cbn [map uncomment]. rewrite (IH E). reflexivity.
Qed.
