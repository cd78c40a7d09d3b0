(** * PlaceProofs: places are only passed on. *)

From Verif Require Import Base Text U12 Location Token Scanner Parser Directive Opcode Instruction DataRange Assembler
  SpecLex SpecErase SpecPlace BaseFacts LexProofs ScanProofs LexTheorems LexAppend.
Open Scope N_scope.

Section Via.
Variable g : loc -> loc.

Definition parser_via (p : parser) : parser :=
  mk_parser (map (token_via g) (p_scanner p)) (option_map (token_via g) (p_current p)) (option_map (token_via g) (p_next p)).

Definition with_parser {A} (h : A -> A) (x : A * parser) : A * parser := (h (fst x), parser_via (snd x)).
Definition presult_via {A} (h : A -> A) (r : presult A) : presult A := outcome_via (syntax_error_via g) (with_parser h) r.

Lemma new_via : forall ts, parser_new (map (token_via g) ts) = parser_via (parser_new ts).
Proof. destruct ts as [|t [|t' ts]]; reflexivity. Qed.

Lemma consume_via : forall p,
  consume_token (parser_via p) = (option_map (token_via g) (fst (consume_token p)), parser_via (snd (consume_token p))).
Proof. intros [[|t ts] c n]; reflexivity. Qed.

Lemma found_via : forall found expected,
  syntax_error (option_map (token_via g) found) expected = syntax_error_via g (syntax_error found expected).
Proof. destruct found; reflexivity. Qed.

Lemma identifier_via : forall p,
  parse_identifier (parser_via p) = presult_via (fun x => (fst x, g (snd x))) (parse_identifier p).
Proof.
  intros p. unfold parse_identifier. rewrite consume_via. destruct (consume_token p) as [[t|] p']; [|reflexivity].
  destruct t; reflexivity.
Qed.

Lemma literal_via : forall p, parse_literal (parser_via p) = presult_via (fun x => x) (parse_literal p).
Proof.
  intros p. unfold parse_literal. rewrite consume_via. cbn [parser_via p_current].
  destruct (p_current p) as [t|]; [|reflexivity]. destruct t; reflexivity.
Qed.

Lemma field_via : forall p, parse_field (parser_via p) = presult_via (fun x => x) (parse_field p).
Proof.
  intros p. unfold parse_field. rewrite consume_via. cbn [parser_via p_current].
  destruct (p_current p) as [t|]; [|reflexivity]. destruct t; try reflexivity.
  cbn [option_map token_via]. destruct (identifier_field id); reflexivity.
Qed.

Lemma literals_via : forall fuel p acc,
  parse_literal_list fuel (parser_via p) acc = presult_via (fun x => x) (parse_literal_list fuel p acc).
Proof.
  induction fuel as [|n IH]; intros p acc; [reflexivity|]. cbn [parse_literal_list].
  assert (X : (try* (lit, p) := parse_literal (parser_via p) in
      let acc := acc ++ [lit] in
      match p_current p with
      | Some (Comma _) => parse_literal_list n (snd (consume_token p)) acc
      | _ => Done (Ok (acc, p)) end) = presult_via (fun x => x)
      (try* (lit, p) := parse_literal p in
      let acc := acc ++ [lit] in
      match p_current p with
      | Some (Comma _) => parse_literal_list n (snd (consume_token p)) acc
      | _ => Done (Ok (acc, p)) end)).
  { rewrite literal_via. destruct (parse_literal p) as [[[lit q]|e]|why]; [|reflexivity|reflexivity].
    unfold presult_via. cbn [outcome_via try_]. unfold with_parser at 1. cbn [fst snd].
    change (p_current (parser_via q)) with (option_map (token_via g) (p_current q)).
    destruct (p_current q) as [t|] eqn:C; [|reflexivity]. destruct t; try reflexivity.
    cbn [option_map token_via]. rewrite consume_via. cbn [snd]. apply IH. }
  change (p_current (parser_via p)) with (option_map (token_via g) (p_current p)).
  destruct (p_current p) as [t|]; [|exact X]. destruct t; try exact X. reflexivity.
Qed.

Lemma fields_via : forall fuel p acc,
  parse_field_list fuel (parser_via p) acc = presult_via (fun x => x) (parse_field_list fuel p acc).
Proof.
  induction fuel as [|n IH]; intros p acc; [reflexivity|]. cbn [parse_field_list].
  assert (X : (try* (lit, p) := parse_field (parser_via p) in
      let acc := acc ++ [lit] in
      match p_current p with
      | Some (Comma _) => parse_field_list n (snd (consume_token p)) acc
      | _ => Done (Ok (acc, p)) end) = presult_via (fun x => x)
      (try* (lit, p) := parse_field p in
      let acc := acc ++ [lit] in
      match p_current p with
      | Some (Comma _) => parse_field_list n (snd (consume_token p)) acc
      | _ => Done (Ok (acc, p)) end)).
  { rewrite field_via. destruct (parse_field p) as [[[lit q]|e]|why]; [|reflexivity|reflexivity].
    unfold presult_via. cbn [outcome_via try_]. unfold with_parser at 1. cbn [fst snd].
    change (p_current (parser_via q)) with (option_map (token_via g) (p_current q)).
    destruct (p_current q) as [t|] eqn:C; [|reflexivity]. destruct t; try reflexivity.
    cbn [option_map token_via]. rewrite consume_via. cbn [snd]. apply IH. }
  change (p_current (parser_via p)) with (option_map (token_via g) (p_current p)).
  destruct (p_current p) as [t|]; [|exact X]. destruct t; try exact X; reflexivity.
Qed.

Lemma statement_via : forall fuel p,
  parse_statement fuel (parser_via p) = presult_via (node_via g) (parse_statement fuel p).
Proof.
  intros fuel p.
  assert (D : parse_directive fuel (parser_via p) = presult_via (node_via g) (parse_directive fuel p)).
  { unfold parse_directive. rewrite consume_via. destruct (consume_token p) as [[t|] q]; [|reflexivity].
    cbn [fst snd option_map]. destruct t; try reflexivity. cbn [token_via]. rewrite identifier_via.
    destruct (parse_identifier q) as [[[[id lo] q']|e]|why]; [|reflexivity|reflexivity].
    unfold presult_via. cbn [outcome_via try_]. unfold with_parser at 1. cbn [fst snd]. rewrite literals_via.
    destruct (parse_literal_list fuel q' []) as [[[lits q'']|e]|why]; reflexivity. }
  assert (L : parse_label (parser_via p) = presult_via (node_via g) (parse_label p)).
  { unfold parse_label. rewrite identifier_via.
    destruct (parse_identifier p) as [[[[id lo] q']|e]|why]; [|reflexivity|reflexivity].
    unfold presult_via. cbn [outcome_via try_]. unfold with_parser at 1. cbn [fst snd]. rewrite consume_via.
    destruct (consume_token q') as [[t|] q]; [|reflexivity]. destruct t; reflexivity. }
  assert (I : parse_instruction fuel (parser_via p) = presult_via (node_via g) (parse_instruction fuel p)).
  { unfold parse_instruction. rewrite identifier_via.
    destruct (parse_identifier p) as [[[[id lo] q']|e]|why]; [|reflexivity|reflexivity].
    unfold presult_via. cbn [outcome_via try_]. unfold with_parser at 1. cbn [fst snd]. rewrite fields_via.
    destruct (parse_field_list fuel q' []) as [[[lits q'']|e]|why]; reflexivity. }
  unfold parse_statement.
  change (p_current (parser_via p)) with (option_map (token_via g) (p_current p)).
  change (p_next (parser_via p)) with (option_map (token_via g) (p_next p)).
  destruct (p_current p) as [t|]; [|reflexivity].
  destruct t; try reflexivity; cbn [option_map token_via]; [exact D|].
  destruct (p_next p) as [t'|]; [|exact I]. destruct t'; try exact I. exact L.
Qed.

Lemma statements_via : forall fuel p acc,
  parse_statement_list fuel (parser_via p) (map (node_via g) acc) =
  outcome_via (syntax_error_via g) (map (node_via g)) (parse_statement_list fuel p acc).
Proof.
  induction fuel as [|n IH]; intros p acc; [reflexivity|]. cbn [parse_statement_list].
  assert (X : (try* (nd, p) := parse_statement (S n) (parser_via p) in
                parse_statement_list n p (map (node_via g) acc ++ [nd])) =
     outcome_via (syntax_error_via g) (map (node_via g))
       (try* (nd, p) := parse_statement (S n) p in parse_statement_list n p (acc ++ [nd]))).
  { rewrite statement_via. destruct (parse_statement (S n) p) as [[[nd q]|e]|why]; [|reflexivity|reflexivity].
    unfold presult_via. cbn [outcome_via try_]. unfold with_parser at 1. cbn [fst snd].
    change [node_via g nd] with (map (node_via g) [nd]). rewrite <- map_app. apply IH. }
  change (p_current (parser_via p)) with (option_map (token_via g) (p_current p)).
  destruct (p_current p) as [t|]; [|reflexivity].
  destruct t; try exact X; cbn [option_map token_via]; rewrite consume_via; cbn [snd]; apply IH.
Qed.

Lemma parse_via : forall ts,
  parse (map (token_via g) ts) = outcome_via (syntax_error_via g) (map (node_via g)) (parse ts).
Proof. intros ts. unfold parse. rewrite map_length, new_via. apply (statements_via _ _ []). Qed.

(** ** The assembler *)

Lemma constant_via : forall l, peek_constant (map (node_via g) l) = peek_constant l.
Proof. destruct l as [|[] l]; reflexivity. Qed.

Lemma labels_via : forall l labels a,
  define_labels_loop labels a (map (node_via g) l) =
  match define_labels_loop labels a l with Ok m => Ok m | Err e => Err (semantic_error_via g e) end.
Proof.
  intros l. remember (length l) as k eqn:K. assert (Le : (length l <= k)%nat) by lia. clear K. revert l Le.
  induction k as [|k IH]; intros l Le labels a; [destruct l; [reflexivity | cbn [length] in Le; lia]|].
  destruct l as [|n l]; [reflexivity|]. cbn [length] in Le. destruct n as [pl id args|pl id|pl m fields]; cbn [map node_via define_labels_loop].
  - destruct (directive_from id args) as [d|e]; [|reflexivity]. cbn [map_err rbind].
    destruct (u12_failable_into (directive_size d)) as [sz|]; [|reflexivity]. cbn [ok_or rbind].
    destruct (u12_checked_add a sz) as [ad|]; [|reflexivity]. cbn [ok_or rbind].
    destruct d; [apply IH; lia | apply IH; lia | reflexivity].
  - destruct l as [|n' l]; cbn [map].
    + cbn [peek_constant]. destruct (contains_key labels id); reflexivity.
    + pose proof (constant_via (n' :: l)) as Ec. cbn [map] in Ec. rewrite Ec. clear Ec.
      destruct (peek_constant (n' :: l)) as [c|].
      * destruct (contains_key labels id); [reflexivity|]. apply IH. cbn [length] in Le. lia.
      * destruct (contains_key labels id); [reflexivity|]. apply (IH (n' :: l)). lia.
  - destruct (u12_checked_add a bytes_per_instruction); [|reflexivity]. cbn [ok_or rbind]. apply IH. lia.
Qed.

Lemma emit_via : forall labels l ranges cur,
  emit_loop labels ranges cur (map (node_via g) l) =
  outcome_via (semantic_error_via g) (fun x => x) (emit_loop labels ranges cur l).
Proof.
  intros labels. induction l as [|n l IH]; intros ranges cur; [reflexivity|].
  destruct n as [pl id args|pl id|pl m fields]; cbn [map node_via emit_loop].
  - destruct (directive_from id args) as [d|e]; [|reflexivity].
    destruct d; [apply IH | |]; destruct (append_asserted _ _); [apply IH | reflexivity | apply IH | reflexivity].
  - apply IH.
  - destruct (instruction_from m fields labels) as [o|r]; [|reflexivity].
    destruct (instruction_into_vec o); [|reflexivity]. cbn [bind].
    destruct (append_asserted _ _); [apply IH | reflexivity].
Qed.

Lemma assemble_via : forall p,
  assemble (map (node_via g) p) = outcome_via (semantic_error_via g) (fun x => x) (assemble p).
Proof.
  intros p. unfold assemble, define_labels. rewrite labels_via.
  destruct (define_labels_loop [] 0 p) as [labels|e]; [|reflexivity]. apply emit_via.
Qed.

End Via.

(** ** Idle lines *)

Lemma parse_newline : forall l ts, parse (Newline l :: ts) = parse ts.
Proof. intros l [|t [|t' ts]]; reflexivity. Qed.

Lemma parse_comment : forall s l ts, parse (SingleLineComment s l :: ts) = parse ts.
Proof. intros s l [|t [|t' ts]]; reflexivity. Qed.

Definition idle_token (t : token) : bool :=
  match t with Newline _ | SingleLineComment _ _ => true | _ => false end.

Lemma parse_idle : forall a ts, forallb idle_token a = true -> parse (a ++ ts) = parse ts.
Proof.
  induction a as [|t a IH]; intros ts H; [reflexivity|]. cbn [forallb app] in *. apply andb_true_iff in H. destruct H as [T H].
  destruct t; try discriminate; [rewrite parse_comment | rewrite parse_newline]; apply IH; exact H.
Qed.

Lemma further_located : forall file file' k pre before m,
  idle_lines k pre -> located file' (pre ++ before) m = further file' k (located file before m).
Proof.
  intros file file' k pre before m I. unfold located, further. cbn [l_line l_location l_length].
  assert (X : newlines pre = k /\ last_line pre = []).
  { induction I as [|k w rest B _ [IH1 IH2]|k w text rest B F _ [IH1 IH2]].
    - split; reflexivity.
    - rewrite newlines_app, newlines_cons, IH1, (newlines_none _ (blanks_no_lf _ B)), N.eqb_refl. split; [lia|].
      rewrite last_line_app. cbn [existsb last_line]. rewrite N.eqb_refl. exact IH2.
    - rewrite newlines_app, newlines_cons, newlines_app, newlines_cons, IH1, (newlines_none _ (blanks_no_lf _ B)), (newlines_none _ F), N.eqb_refl.
      change (c_ ";" =? LF) with false. split; [lia|].
      rewrite last_line_app. change (c_ ";" :: text ++ LF :: rest) with ((c_ ";" :: text) ++ LF :: rest).
      rewrite existsb_app, last_line_app. cbn [existsb last_line]. rewrite N.eqb_refl, !orb_true_r. exact IH2. }
  destruct X as [X1 X2]. rewrite newlines_app, last_line_app, X1, X2. cbn [app].
  f_equal; [lia|]. destruct (existsb (N.eqb LF) before) eqn:E; [reflexivity|]. rewrite (last_line_none _ E). reflexivity.
Qed.

Lemma token_further : forall file file' k pre before kd m t, idle_lines k pre -> token_of file before kd m t ->
  token_of file' (pre ++ before) kd m (token_via (further file' k) t).
Proof.
  intros file file' k pre before kd m t I T.
  destruct T; cbn [token_via]; rewrite <- (further_located file file' k pre) by exact I; constructor; assumption.
Qed.

Lemma lexes_further : forall file before s ts, lexes file before s ts -> forall file' k pre, idle_lines k pre ->
  lexes file' (pre ++ before) s (map (token_via (further file' k)) ts).
Proof.
  intros file before s ts H.
  induction H as [before | before c s ts B _ IH | before s kd m rest t ts L T _ IH | before s kd m rest e L B | before c s B N];
    intros file' k pre I; cbn [map].
  - constructor.
  - constructor; [exact B|]. rewrite <- app_assoc. apply IH. exact I.
  - eapply lex_token; [exact L | eapply token_further; eassumption |]. rewrite <- app_assoc. apply IH. exact I.
  - cbn [token_via]. rewrite <- (further_located file file' k pre) by exact I. econstructor; eassumption.
  - cbn [token_via]. rewrite <- (further_located file file' k pre) by exact I. constructor; assumption.
Qed.

Lemma newline_lexeme : forall rest, lexeme KNewline [LF] rest (LF :: rest).
Proof.
  intros rest. apply (lexeme_closed KNewline [LF] rest); [apply rmatch_lit; reflexivity|]. destruct rest; reflexivity.
Qed.

Lemma idle_lexes : forall k pre, idle_lines k pre -> forall file before s ts, lexes file (before ++ pre) s ts ->
  exists idle, forallb idle_token idle = true /\ lexes file before (pre ++ s) (idle ++ ts).
Proof.
  induction 1 as [|k w rest B _ IH|k w text rest B F _ IH]; intros file before s ts H.
  - exists []. split; [reflexivity|]. rewrite app_nil_r in H. exact H.
  - destruct (IH file (before ++ w ++ [LF]) s ts) as (idle & I & L).
    { rewrite <- !app_assoc. exact H. }
    exists (Newline (located file (before ++ w) [LF]) :: idle). split; [exact I|].
    rewrite <- app_assoc. apply lexes_blanks; [exact B|]. cbn [app].
    eapply lex_token; [apply newline_lexeme | constructor |]. rewrite <- app_assoc. exact L.
  - destruct (IH file (before ++ w ++ (c_ ";" :: text) ++ [LF]) s ts) as (idle & I & L).
    { rewrite <- !app_assoc. cbn [app]. exact H. }
    exists (SingleLineComment (c_ ";" :: text) (located file (before ++ w) (c_ ";" :: text)) ::
            Newline (located file ((before ++ w) ++ c_ ";" :: text) [LF]) :: idle). split; [exact I|].
    rewrite <- app_assoc. apply lexes_blanks; [exact B|]. cbn [app]. rewrite <- app_assoc.
    change (c_ ";" :: text ++ (LF :: rest) ++ s) with ((c_ ";" :: text) ++ LF :: rest ++ s).
    eapply lex_token; [apply lexeme_closed; [apply comment_match; exact F | reflexivity] | constructor |].
    eapply lex_token; [apply newline_lexeme | constructor |].
    replace (((before ++ w) ++ c_ ";" :: text) ++ [LF]) with (before ++ w ++ (c_ ";" :: text) ++ [LF]) by (rewrite <- !app_assoc; reflexivity).
    exact L.
Qed.

Theorem reading_further : forall file s ts, scan file s = Done ts -> forall file' k pre, idle_lines k pre ->
  exists ts', scan file' (pre ++ s) = Done ts' /\
    exists idle, forallb idle_token idle = true /\ ts' = idle ++ map (token_via (further file' k)) ts.
Proof.
  intros file s ts S file' k pre I. apply scan_lexes in S.
  pose proof (lexes_further _ _ _ _ S file' k pre I) as L. rewrite app_nil_r in L.
  destruct (idle_lexes k pre I file' [] s _ L) as (idle & Id & L'). apply scan_lexes in L'.
  exists (idle ++ map (token_via (further file' k)) ts). split; [exact L'|]. exists idle. split; [exact Id | reflexivity].
Qed.
