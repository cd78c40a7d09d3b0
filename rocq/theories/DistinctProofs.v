(** * DistinctProofs: different errors have different messages (C74). *)

From Verif Require Import Base Text U12 Location Token Scanner Parser Directive Instruction DataRange Assembler
  SpecUtf8 SpecLex SpecGrammar SpecOpcode SpecRefusal SpecLayout SpecErase SpecWrite SpecCode SpecDiag SpecDistinct
  BaseFacts LexProofs ScanProofs LexTheorems LexAppend ParseProofs InstructionTheorems LayoutProofs EmitProofs PipelineProofs FmtProofs
  TextCode DiagProofs Main PropLayout PropMessage.
Open Scope string_scope.
Open Scope list_scope.
Open Scope N_scope.

(** ** Texts *)

Lemma span_inj : forall (P : char -> bool) a b x y, forallb P a = true -> forallb P b = true ->
  starts P x = false -> starts P y = false -> a ++ x = b ++ y -> a = b /\ x = y.
Proof.
  intros P a. induction a as [|c a IH]; intros [|d b] x y A B X Y E; cbn [app forallb] in *.
  - auto.
  - subst x. cbn [starts] in X. destruct (P d); discriminate.
  - subst y. cbn [starts] in Y. destruct (P c); discriminate.
  - injection E as <- E. apply andb_true_iff in A, B. destruct (IH b x y) as [-> ->]; tauto.
Qed.

Lemma fmt_dec_inj : forall a b, fmt_dec a = fmt_dec b -> a = b.
Proof. intros a b E. rewrite <- (fmt_dec_value a), E. apply fmt_dec_value. Qed.

Lemma fmt_hex_inj : forall up a b, fmt_hex up a = fmt_hex up b -> a = b.
Proof. intros up a b E. rewrite <- (fmt_hex_value up a), E. apply fmt_hex_value. Qed.

Lemma dec_span : forall a b x y, fmt_dec a ++ x = fmt_dec b ++ y ->
  starts (among decimal_digits) x = false -> starts (among decimal_digits) y = false -> a = b /\ x = y.
Proof.
  intros a b x y E X Y. destruct (span_inj _ _ _ _ _ (fmt_dec_digits a) (fmt_dec_digits b) X Y E) as [D ->].
  apply fmt_dec_inj in D. auto.
Qed.

(** The texts differ at a position both have. *)
Fixpoint differ (a b : str) : bool :=
  match a, b with
  | x :: a, y :: b => if x =? y then differ a b else true
  | _, _ => false
  end.

Lemma differ_neq : forall a b, differ a b = true -> forall x y, a ++ x <> b ++ y.
Proof.
  induction a as [|c a IH]; intros [|d b] D x y E; cbn [differ app] in *; try discriminate.
  injection E as <- E. rewrite N.eqb_refl in D. exact (IH b D x y E).
Qed.

Lemma differ_end : forall a b, differ (rev a) (rev b) = true -> forall x y, x ++ a <> y ++ b.
Proof.
  intros a b D x y E. apply (f_equal (@rev char)) in E. rewrite !rev_app_distr in E. exact (differ_neq _ _ D _ _ E).
Qed.

(** ** Locations *)

Lemma loc_inj : forall l l' x y, l_file l = l_file l' -> 1 <= l_length l -> 1 <= l_length l' ->
  loc_fmt l ++ u ": error: " ++ x = loc_fmt l' ++ u ": error: " ++ y -> l = l' /\ x = y.
Proof.
  intros [file line col len] [file' line' col' len'] x y F L L' E. cbn [l_file l_length] in *. subst file'.
  assert (H : exists t t', loc_fmt (mk_loc file line col len) ++ u ": error: " ++ x = file ++ u ":" ++ fmt_dec line ++ u ":" ++ fmt_dec col ++ t /\
    loc_fmt (mk_loc file line' col' len') ++ u ": error: " ++ y = file ++ u ":" ++ fmt_dec line' ++ u ":" ++ fmt_dec col' ++ t' /\
    starts (among decimal_digits) t = false /\ starts (among decimal_digits) t' = false /\
    (col = col' -> t = t' -> len = len' /\ x = y)).
  { unfold loc_fmt. cbn [l_file l_line l_location l_length]. destruct (len =? 1) eqn:A, (len' =? 1) eqn:B;
      do 2 eexists; (split; [rewrite <- !app_assoc; reflexivity|]); (split; [rewrite <- !app_assoc; reflexivity|]);
      (split; [reflexivity|]); (split; [reflexivity|]); intros <- T.
    - apply app_inv_head in T. split; [lia | exact T].
    - discriminate T.
    - discriminate T.
    - apply app_inv_head in T. apply dec_span in T; [|reflexivity | reflexivity]. destruct T as [T1 T2].
      apply app_inv_head in T2. split; [lia | exact T2]. }
  destruct H as (t & t' & E1 & E2 & S & S' & K). rewrite E1, E2 in E.
  apply app_inv_head in E. apply app_inv_head in E. apply dec_span in E; [|reflexivity | reflexivity]. destruct E as [-> E].
  apply app_inv_head in E. apply dec_span in E; [|exact S | exact S']. destruct E as [-> E].
  destruct (K eq_refl E) as [-> ->]. auto.
Qed.

(** ** Names *)

Definition name_char (c : char) : bool := among letters c || among decimal_digits c || among "_[]" c.

Lemma name_chars : forall id, name id -> forallb name_char id = true.
Proof.
  assert (Sub : forall c, among letters c || among decimal_digits c || among "_" c = true -> name_char c = true).
  { intros c H. unfold name_char. unfold among at 3. change (u "_[]") with (u "_" ++ u "[]"). rewrite existsb_app.
    change (existsb (N.eqb c) (u "_")) with (among "_" c). rewrite orb_assoc, H. reflexivity. }
  intros id [N|N]; cbn [pattern] in N.
  - apply rmatch_cat in N. destruct N as (a & b & -> & Na & Nb). apply rmatch_chr in Na. destruct Na as (c & -> & C).
    apply rmatch_star_chr in Nb. cbn [app forallb]. rewrite Sub.
    + cbn [andb]. rewrite forallb_forall in *. intros x I. apply Sub, Nb, I.
    + apply orb_true_iff in C. destruct C as [-> | ->]; [reflexivity | apply orb_true_r].
  - apply rmatch_cat in N. destruct N as (a & b & -> & Na & Nb). apply rmatch_lit in Na. subst a.
    apply rmatch_cat in Nb. destruct Nb as (a & b' & -> & Na & Nb). apply rmatch_chr in Na. destruct Na as (c & -> & C).
    apply rmatch_lit in Nb. subst b'. unfold among in C. change (u "iI") with [c_ "i"; c_ "I"] in C. cbn [existsb] in C.
    rewrite orb_false_r in C. apply orb_true_iff in C. destruct C as [C|C]; apply N.eqb_eq in C; subst c; reflexivity.
Qed.

Lemma name_span : forall a b x y, name a -> name b -> starts name_char x = false -> starts name_char y = false ->
  a ++ x = b ++ y -> a = b /\ x = y.
Proof. intros a b x y A B X Y. apply (span_inj name_char); [apply name_chars; exact A | apply name_chars; exact B | exact X | exact Y]. Qed.

(** ** Tokens *)

Lemma reason_no_lf : forall e, scan_diagnostic e -> forallb (fun c => negb (c =? LF)) (scan_error_fmt e) = true.
Proof.
  intros e D. destruct D as [| | | |d A V|d A V|c S B W]; try (vm_compute; reflexivity); cbn [scan_error_fmt].
  - rewrite !forallb_app. change (forallb (fun c => negb (c =? LF)) (u "Decimal literal ")) with true.
    change (forallb (fun c => negb (c =? LF)) (u " not in range (0...4095).")) with true.
    rewrite andb_true_r. cbn [andb]. rewrite forallb_forall in *. intros c I. specialize (A c I).
    rewrite <- is_digit_spec in A. unfold is_digit in A. change (c_ "0") with 48 in A. change LF with 10. lia.
  - rewrite !forallb_app. change (forallb (fun c => negb (c =? LF)) (u "Invalid character '")) with true.
    change (forallb (fun c => negb (c =? LF)) (u "'.")) with true. rewrite andb_true_r. cbn [andb forallb].
    unfold begins in B. apply orb_false_iff in B. destruct B as [_ B]. rewrite B. reflexivity.
Qed.

Ltac apart E := exfalso; revert E; apply differ_neq; vm_compute; reflexivity.

Lemma reason_inj : forall e e', scan_diagnostic e -> scan_diagnostic e' -> scan_error_fmt e = scan_error_fmt e' ->
  said_reason e = said_reason e'.
Proof.
  intros e e' D D' E.
  assert (K : forall x p (q : str), p ++ q = x -> x ++ [] = p ++ q) by (intros; subst; apply app_nil_r).
  destruct D as [| | | |d A V|d A V|c S B W], D' as [| | | |d' A' V'|d' A' V'|c' S' B' W'];
    cbn [scan_error_fmt said_reason] in *; try reflexivity.
  all: try (vm_compute in E; discriminate E).
  all: try (apart E).
  - apply app_inv_head, app_inv_tail in E. subst. reflexivity.
  - apply app_inv_head, app_inv_tail in E. injection E as ->. reflexivity.
Qed.

Lemma token_inj : forall t t', scannable (bare t) -> scannable (bare t') -> token_location t = token_location t' ->
  is_error_token t = false -> is_error_token t' = false -> token_fmt t = token_fmt t' -> said_token t = said_token t'.
Proof.
  intros t t' S S' L N N' E. destruct t, t'; try discriminate N; try discriminate N'; cbn [token_location] in L; subst;
    cbn [token_fmt said_token] in *; try reflexivity; try (exfalso; vm_compute in E; discriminate E);
    try (apart E).
  - apply app_inv_head, app_inv_head, app_inv_tail in E. subst. reflexivity.
  - apply app_inv_head, app_inv_head, app_inv_head, app_inv_tail in E. subst. reflexivity.
  - apply app_inv_head, app_inv_head in E. apply dec_span in E; [|reflexivity | reflexivity]. destruct E as [-> _]. reflexivity.
Qed.

Definition expecting (expected : list str) : str :=
  u "xpecting " ++ (match expected with
                    | [x] => x ++ u "."
                    | _ => u "one of: " ++ join (u ", ") expected ++ u "."
                    end).

Lemma expecting_inj : forall e a e' a' x y, In (e, a) places -> In (e', a') places ->
  x ++ expecting e = y ++ expecting e' -> e = e' /\ x = y.
Proof.
  intros e a e' a' x y I I' E.
  assert (K : e = e').
  { destruct I as [I|[I|[I|[I|[]]]]]; injection I as <- _; destruct I' as [I'|[I'|[I'|[I'|[]]]]]; injection I' as <- _;
      try reflexivity; exfalso; revert E; apply differ_end; vm_compute; reflexivity. }
  subst e'. apply app_inv_tail in E. auto.
Qed.

(** The message about a token, in two parts. *)
Definition token_tag (t : token) : string :=
  if is_error_token t then "Encountered syntax error: " else "Unexpected token found: ".

Definition token_body (expected : list str) (t : token) : str :=
  match t with
  | ErrorToken e l => scan_error_fmt e ++ [LF] ++ (loc_fmt l ++ u ": error: E") ++ expecting expected
  | _ => (token_fmt t ++ u ", e") ++ expecting expected
  end.

Lemma token_message : forall expected a t, In (expected, a) places ->
  parse_error_fmt (UnexpectedToken expected t) =
  Done (loc_fmt (token_location t) ++ u ": error: " ++ u (token_tag t) ++ token_body expected t).
Proof.
  intros e a t I. destruct I as [I|[I|[I|[I|[]]]]]; injection I as <- _;
    destruct t; unfold parse_error_fmt, token_body, token_location; rewrite <- ?app_assoc;
    apply (f_equal (fun x => Done (app (loc_fmt _) x))); reflexivity.
Qed.

Lemma token_message_inj : forall e a e' a' t t', In (e, a) places -> In (e', a') places ->
  scannable (bare t) -> scannable (bare t') -> token_location t = token_location t' ->
  u (token_tag t) ++ token_body e t = u (token_tag t') ++ token_body e' t' -> e = e' /\ said_token t = said_token t'.
Proof.
  intros e a e' a' t t' I I' S S' L E. destruct (is_error_token t) eqn:T, (is_error_token t') eqn:T';
    unfold token_tag in E; rewrite T, T' in E; try (apart E); apply app_inv_head in E.
  - destruct t as [| | | | | | | |r l]; try discriminate T. destruct t' as [| | | | | | | |r' l']; try discriminate T'.
    cbn [token_location] in L. subst l'. cbn [bare scannable] in S, S'. cbn [token_body] in E.
    apply (span_inj (fun c => negb (c =? LF))) in E;
      [|apply reason_no_lf; apply S | apply reason_no_lf; apply S' | reflexivity | reflexivity]. destruct E as [R X].
    injection X as X. destruct (expecting_inj _ _ _ _ _ _ I I' X) as [-> _]. split; [reflexivity|].
    cbn [said_token]. f_equal. apply reason_inj; [apply S | apply S' | exact R].
  - assert (X : (token_fmt t ++ u ", e") ++ expecting e = (token_fmt t' ++ u ", e") ++ expecting e')
      by (destruct t, t'; try discriminate T; try discriminate T'; exact E).
    destruct (expecting_inj _ _ _ _ _ _ I I' X) as [-> Y]. split; [reflexivity|]. apply app_inv_tail in Y.
    apply token_inj; assumption.
Qed.

(** ** Errors of the assembler *)

Definition semantic_tag (e : semantic_error) : string :=
  match e with
  | DirectiveInvalid _ (IncorrectNumberOfParameters _ _ _ _) => "Incorrect number of parameters ("
  | DirectiveInvalid _ (DirectiveRequiresOneNumericLiteral _) => "Directive ."
  | DirectiveInvalid _ (AllNumericParametersMustBeByteLiterals _ _) => "All numeric parameters to ."
  | DirectiveInvalid _ (UnrecognizedDirective _) => "Unrecognized directive '."
  | DirectiveTooLarge _ _ | DirectiveWouldOverflow _ _ => "Directive ("
  | RedefinitionOfLabel _ _ => "Attempted re-definition of label '"
  | InstructionWouldOverflow _ => "Instruction would"
  | ConstantWithoutLabel _ => "A constant must"
  | AssemblyFailed _ (UnableToResolveLabel _) => "Unable to resolve label "
  | AssemblyFailed _ (ExpectingEightBitValue _) => "Found 12-bit numeric value $"
  | AssemblyFailed _ (ExpectingFourBitValue _) => "Found 8/12-bit numeric value $"
  | AssemblyFailed _ (NoMatchingFormat _ _) => "No matching instruction: "
  end.

Definition semantic_body (e : semantic_error) : str :=
  match e with
  | DirectiveInvalid _ (IncorrectNumberOfParameters d count from more) =>
      fmt_dec count ++ u ") for directive ." ++ d ++ u ", expecting " ++ fmt_dec from ++
      (if more then u " or more." else u ".")
  | DirectiveInvalid _ (DirectiveRequiresOneNumericLiteral d) => d ++ u " requires 1 numeric literal in the range $000-$FFF."
  | DirectiveInvalid _ (AllNumericParametersMustBeByteLiterals d v) =>
      d ++ u " must be 1-byte literals ($" ++ fmt_hex true v ++ u " > $FF)."
  | DirectiveInvalid _ (UnrecognizedDirective id) => id ++ u "'."
  | DirectiveTooLarge _ d => directive_fmt d ++ u ") size " ++ fmt_dec (directive_size d) ++ u " exceeds 4096 bytes."
  | DirectiveWouldOverflow _ d => directive_fmt d ++ u ") would cause the 12-bit address counter to overflow."
  | RedefinitionOfLabel _ label => label ++ u "'."
  | InstructionWouldOverflow _ => u " cause address counter to overflow $FFF."
  | ConstantWithoutLabel _ => u " be defined immediately following a label name."
  | AssemblyFailed _ (UnableToResolveLabel name) => name ++ u "."
  | AssemblyFailed _ (ExpectingEightBitValue v) => fmt_hex true v ++ u ", expecting 8-bit value."
  | AssemblyFailed _ (ExpectingFourBitValue v) => fmt_hex true v ++ u ", expecting 4-bit value."
  | AssemblyFailed _ (NoMatchingFormat m (Some fields)) => m ++ u " " ++ fields ++ u "."
  | AssemblyFailed _ (NoMatchingFormat m None) => m ++ u "."
  end.

Lemma semantic_message : forall e, semantic_error_fmt e =
  loc_fmt (error_location e) ++ u ": error: " ++ u (semantic_tag e) ++ semantic_body e.
Proof.
  intros e. destruct e as [l r|l d|l d|l|l id|l r|l]; try reflexivity.
  - destruct r as [d n k []| | |]; reflexivity.
  - destruct r as [| | |m []]; reflexivity.
Qed.

Definition tags : list string :=
  [ "Incorrect number of parameters ("; "Directive ."; "All numeric parameters to ."; "Unrecognized directive '.";
    "Directive ("; "Attempted re-definition of label '"; "Instruction would"; "A constant must"; "Unable to resolve label ";
    "Found 12-bit numeric value $"; "Found 8/12-bit numeric value $"; "No matching instruction: ";
    "Encountered syntax error: "; "Unexpected token found: " ].

Lemma tags_differ : forallb (fun a => forallb (fun b => String.eqb a b || differ (u a) (u b)) tags) tags = true.
Proof. vm_compute. reflexivity. Qed.

Lemma tags_inj : forall a b x y, In a tags -> In b tags -> u a ++ x = u b ++ y -> a = b /\ x = y.
Proof.
  intros a b x y A B E. pose proof tags_differ as D. rewrite forallb_forall in D. specialize (D a A). cbv beta in D.
  rewrite forallb_forall in D. specialize (D b B). cbv beta in D. apply orb_true_iff in D. destruct D as [D|D].
  - apply String.eqb_eq in D. subst b. apply app_inv_head in E. auto.
  - exfalso. exact (differ_neq _ _ D _ _ E).
Qed.

Ltac nth_tag n := let H := fresh in pose proof (nth_error_In tags n) as H; apply H; reflexivity.

Lemma semantic_tag_in : forall e, In (semantic_tag e) tags.
Proof.
  intros e. destruct e as [l r|l d|l d|l|l id|l r|l]; try destruct r; cbn [semantic_tag];
    first [nth_tag 0%nat | nth_tag 1%nat | nth_tag 2%nat | nth_tag 3%nat | nth_tag 4%nat | nth_tag 5%nat | nth_tag 6%nat
          | nth_tag 7%nat | nth_tag 8%nat | nth_tag 9%nat | nth_tag 10%nat | nth_tag 11%nat].
Qed.

Lemma token_tag_in : forall t, In (token_tag t) tags.
Proof. intros t. unfold token_tag. destruct (is_error_token t); [nth_tag 12%nat | nth_tag 13%nat]. Qed.

Lemma tags_apart : forall e t, semantic_tag e <> token_tag t.
Proof.
  intros e t. unfold token_tag. destruct (is_error_token t), e as [l r|l d|l d|l|l id|l r|l]; try destruct r; discriminate.
Qed.

Lemma low_name_inj : forall low low' x y, In low ["org"; "equ"]%string -> In low' ["org"; "equ"]%string ->
  u low ++ x = u low' ++ y -> low = low' /\ x = y.
Proof.
  intros low low' x y [<-|[<-|[]]] [<-|[<-|[]]] E; try (apart E); apply app_inv_head in E; auto.
Qed.

Lemma directive_error_inj : forall l r r', directive_diagnostic r -> directive_diagnostic r' ->
  semantic_tag (DirectiveInvalid l r) = semantic_tag (DirectiveInvalid l r') ->
  semantic_body (DirectiveInvalid l r) = semantic_body (DirectiveInvalid l r') -> r = r'.
Proof.
  intros l r r' D D' T E.
  destruct D as [id N N1 N2 N3 | low n I L | low I | | v V], D' as [id' N' N1' N2' N3' | low' n' I' L' | low' I' | | v' V'];
    cbn [semantic_tag] in T; try discriminate T; clear T; cbn [semantic_body] in E; try reflexivity.
  - apply app_inv_tail in E. subst. reflexivity.
  - apply dec_span in E; [|reflexivity | reflexivity]. destruct E as [-> E]. apply app_inv_head in E.
    apply low_name_inj in E; [|exact I | exact I']. destruct E as [-> _]. reflexivity.
  - exfalso. apply dec_span in E; [|reflexivity | reflexivity]. destruct E as [_ E]. apply app_inv_head in E.
    destruct I as [<-|[<-|[]]]; apart E.
  - apply low_name_inj in E; [|exact I | exact I']. destruct E as [-> _]. reflexivity.
  - exfalso. apply dec_span in E; [|reflexivity | reflexivity]. destruct E as [_ E]. apply app_inv_head in E.
    destruct I' as [<-|[<-|[]]]; apart E.
  - apply app_inv_head, app_inv_head, app_inv_tail, fmt_hex_inj in E. subst. reflexivity.
Qed.

Lemma instruction_error_inj : forall l r r', instruction_diagnostic r -> instruction_diagnostic r' ->
  semantic_tag (AssemblyFailed l r) = semantic_tag (AssemblyFailed l r') ->
  semantic_body (AssemblyFailed l r) = semantic_body (AssemblyFailed l r') -> r = r'.
Proof.
  intros l r r' D D' T E.
  destruct D as [id N O | v V | v V | m fs N W X], D' as [id' N' O' | v' V' | v' V' | m' fs' N' W' X'];
    cbn [semantic_tag] in T; try discriminate T; clear T; cbn [semantic_body] in E.
  - apply app_inv_tail in E. subst. reflexivity.
  - apply app_inv_tail, fmt_hex_inj in E. subst. reflexivity.
  - apply app_inv_tail, fmt_hex_inj in E. subst. reflexivity.
  - clear X X'. destruct (listed fs) as [a|], (listed fs') as [b|]; apply name_span in E; try assumption; try reflexivity;
      destruct E as [-> E]; try discriminate E; [|reflexivity].
    apply app_inv_head, app_inv_tail in E. subst. reflexivity.
Qed.

Lemma db_span : forall b b' x y, directive_fmt (Db b) ++ x = directive_fmt (Db b') ++ y ->
  said_directive (Db b) = said_directive (Db b') /\ x = y.
Proof.
  intros b b' x y E. cbn [directive_fmt] in E. rewrite <- !app_assoc in E. do 3 apply app_inv_head in E.
  apply dec_span in E; [|reflexivity | reflexivity]. destruct E as [L E]. apply app_inv_head in E.
  apply Nnat.Nat2N.inj in L. cbn [said_directive]. rewrite L. auto.
Qed.

Lemma semantic_inj : forall e e', diagnostic (bare_error e) -> diagnostic (bare_error e') -> error_location e = error_location e' ->
  semantic_tag e = semantic_tag e' -> semantic_body e = semantic_body e' -> said (Semantic e) = said (Semantic e').
Proof.
  intros e e' D D' L T E.
  destruct e as [l r|l d|l d|l|l id|l r|l], e' as [l' r'|l' d'|l' d'|l'|l' id'|l' r'|l']; cbn [error_location] in L; subst l';
    try (exfalso; clear - T; repeat match goal with r : directive_error |- _ => destruct r | r : instruction_error |- _ => destruct r end; discriminate T);
    cbn [bare_error] in D, D'; cbn [said].
  - inversion D; subst. inversion D'; subst. do 2 f_equal. eapply directive_error_inj; eassumption.
  - inversion D; subst. inversion D'; subst. cbn [semantic_body] in E. apply db_span in E. destruct E as [-> _]. reflexivity.
  - exfalso. inversion D; subst. inversion D'; subst. cbn [semantic_body] in E. apply db_span in E. destruct E as [_ E].
    change (u ") would cause the 12-bit address counter to overflow.")
      with (u ") would" ++ u " cause the 12-bit address counter to overflow.") in E. apart E.
  - exfalso. inversion D; subst. inversion D'; subst. cbn [semantic_body] in E. apply db_span in E. destruct E as [_ E].
    change (u ") would cause the 12-bit address counter to overflow.")
      with (u ") would" ++ u " cause the 12-bit address counter to overflow.") in E. apart E.
  - inversion D; subst. inversion D'; subst. cbn [semantic_body] in E. apply db_span in E. destruct E as [-> _]. reflexivity.
  - reflexivity.
  - cbn [semantic_body] in E. apply app_inv_tail in E. subst. reflexivity.
  - inversion D; subst. inversion D'; subst. do 2 f_equal. eapply instruction_error_inj; eassumption.
  - reflexivity.
Qed.

(** ** Both *)

(** What is known of the reason for which a text is refused. *)
Inductive reason (file : str) : refusal -> Prop :=
| reason_end : forall expected a, In (expected, a) (tl places) -> reason file (Syntax (UnexpectedEndOfFile expected))
| reason_token : forall expected a t, In (expected, a) places -> scannable (bare t) ->
    l_file (token_location t) = file -> 1 <= l_length (token_location t) -> reason file (Syntax (UnexpectedToken expected t))
| reason_semantic : forall e, diagnostic (bare_error e) -> l_file (error_location e) = file -> 1 <= l_length (error_location e) ->
    reason file (Semantic e).

Lemma refused_reason : forall file s r, Forall scalar s -> refused file s r -> reason file r.
Proof.
  assert (K : forall file before m, m <> [] -> l_file (located file before m) = file /\ 1 <= l_length (located file before m)).
  { intros file before m Hm. split; [reflexivity|]. cbn [located l_length]. pose proof (first_line_pos m Hm). lia. }
  intros file s [e|e] F R; cbn [refused] in R.
  - destruct R as (ts & S & P). pose proof (syntax_sound _ _ _ _ F S P) as D. destruct e as [expected|expected t]; cbn [bare_syntax] in D.
    + inversion D; subst. eapply reason_end. eassumption.
    + destruct (parse_error_token _ _ _ P) as (b & a & E & _).
      destruct (scan_location file s ts (length b) t S) as (before & m & after & Es & Hm & El & _).
      { rewrite E, nth_error_app2, Nat.sub_diag by reflexivity. reflexivity. }
      destruct (K file before m Hm) as [K1 K2]. rewrite <- El in K1, K2.
      inversion D as [x acc t0 I Sc A|]; subst x t0. exact (reason_token _ _ _ _ I Sc K1 K2).
  - destruct R as (p & S & A). pose proof S as S0. apply parsed_stands in S0. pose proof (semantic_sound _ _ _ _ F S0 A) as D.
    destruct S as (ts & S & P). destruct (C30_location p e (parsed_node_ok _ _ _ _ S P) A) as (i & n & Ni & El & _).
    apply parse_program in P. pose proof (program_names _ _ P n (nth_error_In _ _ Ni)) as I.
    apply In_nth_error in I. destruct I as (j & Nj).
    destruct (scan_location file s ts j _ S Nj) as (before & m & after & Es & Hm & Lm & _).
    cbn [token_location] in Lm. rewrite <- El in Lm. destruct (K file before m Hm) as [K1 K2]. rewrite <- Lm in K1, K2.
    apply reason_semantic; assumption.
Qed.

(** A colon and a digit after it. *)
Fixpoint colon_digit (s : str) : bool :=
  match s with
  | [] => false
  | a :: r => ((a =? c_ ":") && starts (among decimal_digits) r) || colon_digit r
  end.

Lemma colon_digit_app : forall a d r, among decimal_digits d = true -> colon_digit (a ++ c_ ":" :: d :: r) = true.
Proof.
  induction a as [|c a IH]; intros d r D; cbn [app colon_digit].
  - cbn [starts]. rewrite D. reflexivity.
  - rewrite (IH d r D). apply orb_true_r.
Qed.

Lemma located_colon : forall l x, colon_digit (loc_fmt l ++ x) = true.
Proof.
  intros l x. destruct (fmt_dec_normal (l_line l)) as (c & r & E & _). pose proof (fmt_dec_digits (l_line l)) as D.
  rewrite E in D. cbn [forallb] in D. apply andb_true_iff in D. unfold loc_fmt.
  destruct (l_length l =? 1); rewrite E, <- !app_assoc; apply colon_digit_app; apply D.
Qed.

Lemma end_message : forall expected a, In (expected, a) (tl places) -> exists m,
  parse_error_fmt (UnexpectedEndOfFile expected) = Done m /\ colon_digit m = false.
Proof.
  intros e a [I|[I|[I|[]]]]; injection I as <- _; eexists; (split; [reflexivity|]); vm_compute; reflexivity.
Qed.

Lemma end_inj : forall e a e' a', In (e, a) (tl places) -> In (e', a') (tl places) ->
  parse_error_fmt (UnexpectedEndOfFile e) = parse_error_fmt (UnexpectedEndOfFile e') -> e = e'.
Proof.
  intros e a e' a' [I|[I|[I|[]]]] [I'|[I'|[I'|[]]]] E; injection I as <- _; injection I' as <- _; try reflexivity;
    vm_compute in E; discriminate E.
Qed.

Theorem message_inj : forall file r r', reason file r -> reason file r' -> message r = message r' -> said r = said r'.
Proof.
  intros file r r' R R' E.
  destruct R as [e a I | e a t I S F L | e D F L], R' as [e' a' I' | e' a' t' I' S' F' L' | e' D' F' L']; cbn [message] in E.
  - cbn [said]. do 2 f_equal. eapply end_inj; eassumption.
  - exfalso. destruct (end_message _ _ I) as (m & Em & C). rewrite Em, (token_message _ _ t' I') in E. injection E as ->.
    rewrite located_colon in C. discriminate C.
  - exfalso. destruct (end_message _ _ I) as (m & Em & C). rewrite Em, semantic_message in E. injection E as ->.
    rewrite located_colon in C. discriminate C.
  - exfalso. destruct (end_message _ _ I') as (m & Em & C). rewrite Em, (token_message _ _ t I) in E. injection E as <-.
    rewrite located_colon in C. discriminate C.
  - rewrite (token_message _ _ t I), (token_message _ _ t' I') in E. apply (f_equal (fun x => match x with Done m => m | _ => [] end)) in E.
    apply loc_inj in E; [|congruence | exact L | exact L']. destruct E as [Lo E].
    destruct (token_message_inj _ _ _ _ _ _ I I' S S' Lo E) as [-> T]. cbn [said]. rewrite T. reflexivity.
  - exfalso. rewrite (token_message _ _ t I), semantic_message in E. apply (f_equal (fun x => match x with Done m => m | _ => [] end)) in E.
    apply loc_inj in E; [|congruence | exact L | exact L']. destruct E as [_ E].
    apply tags_inj in E; [|apply token_tag_in | apply semantic_tag_in]. apply (tags_apart e' t). symmetry. apply E.
  - exfalso. destruct (end_message _ _ I') as (m & Em & C). rewrite Em, semantic_message in E. injection E as <-.
    rewrite located_colon in C. discriminate C.
  - exfalso. rewrite (token_message _ _ t' I'), semantic_message in E. apply (f_equal (fun x => match x with Done m => m | _ => [] end)) in E.
    apply loc_inj in E; [|congruence | exact L | exact L']. destruct E as [_ E].
    apply tags_inj in E; [|apply semantic_tag_in | apply token_tag_in]. apply (tags_apart e t'). apply E.
  - rewrite !semantic_message in E. apply (f_equal (fun x => match x with Done m => m | _ => [] end)) in E.
    apply loc_inj in E; [|congruence | exact L | exact L']. destruct E as [Lo E].
    apply tags_inj in E; [|apply semantic_tag_in | apply semantic_tag_in]. destruct E as [T B].
    apply semantic_inj; assumption.
Qed.

(** The message depends on what is said only. *)
Theorem message_said : forall r, message (said r) = message r.
Proof.
  intros [[expected|expected t]|[l r|l d|l d|l|l id|l r|l]]; try reflexivity.
  - destruct t as [c l|l|id l|l|s l|v l|l|l|e l]; try reflexivity. destruct e; reflexivity.
  - destruct d as [a|b|c]; try reflexivity. cbn [said said_directive message semantic_error_fmt directive_fmt directive_size].
    rewrite repeat_length. reflexivity.
  - destruct d as [a|b|c]; try reflexivity. cbn [said said_directive message semantic_error_fmt directive_fmt].
    rewrite repeat_length. reflexivity.
Qed.

(** ** The operands listed in a message *)

Lemma field_no_comma : forall f, writable_field f -> forallb (fun c => negb (c =? c_ ",")) (field_fmt f) = true.
Proof.
  assert (H : forall s d, forallb (among s) d = true -> forallb (fun c => negb (c =? c_ ",")) (u s) = true ->
    forallb (fun c => negb (c =? c_ ",")) d = true).
  { intros s d A F. rewrite forallb_forall in *. intros c I. specialize (A c I). unfold among in A. apply existsb_exists in A.
    destruct A as (x & J & E). apply N.eqb_eq in E. subst x. exact (F c J). }
  intros f W. destruct f; cbn [field_fmt]; try (vm_compute; reflexivity); rewrite forallb_app; apply andb_true_iff;
    (split; [vm_compute; reflexivity|]).
  - apply (H hexadecimal_digits); [apply fmt_hex_digits | reflexivity].
  - apply (H hexadecimal_digits); [apply fmt_hex_digits | reflexivity].
  - destruct W as [N _]. apply name_chars in N. rewrite forallb_forall in *. intros c I. specialize (N c I).
    unfold name_char in N. rewrite !orb_true_iff in N. destruct (c =? c_ ",") eqn:E; [|reflexivity].
    apply N.eqb_eq in E. subst c. vm_compute in N. destruct N as [[N|N]|N]; discriminate N.
Qed.

Lemma register_not_word : forallb (fun r => forallb (fun w => negb (str_eqb (fmt_hex false r) (u w)))
  ["delay-timer"; "sound-timer"; "keypad"; "index"]%string) (map N.of_nat (seq 0 16)) = true.
Proof. vm_compute. reflexivity. Qed.

Lemma register_word : forall r w, r <= 15 -> In w ["delay-timer"; "sound-timer"; "keypad"; "index"]%string ->
  fmt_hex false r <> u w.
Proof.
  intros r w L I E. pose proof register_not_word as F. rewrite forallb_forall in F. specialize (F r). cbv beta in F.
  rewrite forallb_forall in F. assert (J : In r (map N.of_nat (seq 0 16))).
  { rewrite <- (N2Nat.id r). apply in_map, in_seq. lia. }
  specialize (F J w I). cbv beta in F. rewrite E in F. apply negb_true_iff in F.
  assert (X : str_eqb (u w) (u w) = true) by (apply str_eqb_eq; reflexivity). congruence.
Qed.

Lemma field_fmt_inj : forall f f', writable_field f -> writable_field f' -> field_fmt f = field_fmt f' -> f = f'.
Proof.
  assert (K : forall r w, writable_field (FRegister r) -> In w ["delay-timer"; "sound-timer"; "keypad"; "index"]%string ->
    u "register:" ++ fmt_hex false r <> u "register:" ++ u w).
  { intros r w W I E. apply app_inv_head in E. exact (register_word r w W I E). }
  assert (A : forall x y : str, x = y -> x ++ [] = y ++ []) by (intros; congruence).
  intros f f' W W' E. destruct f, f'; cbn [field_fmt] in E; try reflexivity;
    try (exfalso; vm_compute in E; discriminate E);
    try (exfalso; revert E; first [ exact (K _ "delay-timer" W (or_introl eq_refl))
          | exact (K _ "sound-timer" W (or_intror (or_introl eq_refl)))
          | exact (K _ "keypad" W (or_intror (or_intror (or_introl eq_refl))))
          | exact (K _ "index" W (or_intror (or_intror (or_intror (or_introl eq_refl))))) ]);
    try (exfalso; symmetry in E; revert E; first [ exact (K _ "delay-timer" W' (or_introl eq_refl))
          | exact (K _ "sound-timer" W' (or_intror (or_introl eq_refl)))
          | exact (K _ "keypad" W' (or_intror (or_intror (or_introl eq_refl))))
          | exact (K _ "index" W' (or_intror (or_intror (or_intror (or_introl eq_refl))))) ]);
    try (apply app_inv_head in E; first [apply fmt_hex_inj in E|idtac]; subst; reflexivity);
    apply A in E; rewrite <- ?app_assoc in E; apart E.
Qed.

Theorem listed_inj : forall fs fs', Forall writable_field fs -> Forall writable_field fs' -> listed fs = listed fs' -> fs = fs'.
Proof.
  assert (J : forall a fs b fs', Forall writable_field (a :: fs) -> Forall writable_field (b :: fs') ->
    join (u ", ") (map field_fmt (a :: fs)) = join (u ", ") (map field_fmt (b :: fs')) -> a :: fs = b :: fs').
  { intros a fs. revert a. induction fs as [|x fs IH]; intros a b fs' W W' E; inversion W as [|? ? Wa W1]; subst;
      inversion W' as [|? ? Wb W1']; subst; destruct fs' as [|y fs'].
    - cbn [map join] in E. f_equal. apply field_fmt_inj; assumption.
    - exfalso. change (field_fmt a = field_fmt b ++ u ", " ++ join (u ", ") (map field_fmt (y :: fs'))) in E.
      rewrite <- (app_nil_r (field_fmt a)) in E.
      apply (span_inj (fun c => negb (c =? c_ ","))) in E; [|apply field_no_comma; exact Wa | apply field_no_comma; exact Wb | reflexivity | reflexivity].
      destruct E as [_ E]. discriminate E.
    - exfalso. change (field_fmt a ++ u ", " ++ join (u ", ") (map field_fmt (x :: fs)) = field_fmt b) in E.
      rewrite <- (app_nil_r (field_fmt b)) in E.
      apply (span_inj (fun c => negb (c =? c_ ","))) in E; [|apply field_no_comma; exact Wa | apply field_no_comma; exact Wb | reflexivity | reflexivity].
      destruct E as [_ E]. discriminate E.
    - change (field_fmt a ++ u ", " ++ join (u ", ") (map field_fmt (x :: fs)) =
              field_fmt b ++ u ", " ++ join (u ", ") (map field_fmt (y :: fs'))) in E.
      apply (span_inj (fun c => negb (c =? c_ ","))) in E; [|apply field_no_comma; exact Wa | apply field_no_comma; exact Wb | reflexivity | reflexivity].
      destruct E as [Ea E]. apply app_inv_head in E. f_equal; [apply field_fmt_inj; assumption|]. apply IH; assumption. }
  intros [|a fs] [|b fs'] W W' E; cbn [listed] in E; try discriminate E; [reflexivity|].
  apply J; [exact W | exact W'|]. injection E as E. exact E.
Qed.

(** ** Overlapping ranges *)

Lemma reason_full_stop : forall file r, reason file r -> exists x, message r = Done (x ++ u ".").
Proof.
  assert (G : forall a x : str, exists y, a ++ x ++ u "." = y ++ u ".") by (intros a x; exists (a ++ x); apply app_assoc).
  assert (X : forall e a, In (e, a) places -> exists x, expecting e = x ++ u ".").
  { intros e a [I|[I|[I|[I|[]]]]]; injection I as <- _.
    - exists (u "xpecting one of: directive marker, identifier"). vm_compute. reflexivity.
    - exists (u "xpecting identifier"). vm_compute. reflexivity.
    - exists (u "xpecting one of: numeric literal, string literal"). vm_compute. reflexivity.
    - exists (u "xpecting instruction field"). vm_compute. reflexivity. }
  intros file r R. destruct R as [e a I | e a t I S F L | e D F L]; cbn [message].
  - destruct I as [I|[I|[I|[]]]]; injection I as <- _; cbn [parse_error_fmt].
    + eexists. f_equal. rewrite app_assoc. reflexivity.
    + eexists. f_equal. rewrite app_assoc. reflexivity.
    + eexists. f_equal. rewrite app_assoc. reflexivity.
  - rewrite (token_message _ _ t I). destruct (X _ _ I) as (x & E).
    destruct t; unfold token_body; rewrite E; eexists; f_equal; rewrite !app_assoc; reflexivity.
  - rewrite semantic_message.
    assert (B : exists x, semantic_body e = x ++ u ".").
    { destruct e as [l r|l d|l d|l|l id|l r|l]; cbn [semantic_body].
      - destruct r as [d n k []|d|d v|id].
        + exists (fmt_dec n ++ u ") for directive ." ++ d ++ u ", expecting " ++ fmt_dec k ++ u " or more"). rewrite <- !app_assoc. reflexivity.
        + exists (fmt_dec n ++ u ") for directive ." ++ d ++ u ", expecting " ++ fmt_dec k). rewrite <- !app_assoc. reflexivity.
        + exists (d ++ u " requires 1 numeric literal in the range $000-$FFF"). rewrite <- !app_assoc. reflexivity.
        + exists (d ++ u " must be 1-byte literals ($" ++ fmt_hex true v ++ u " > $FF)"). rewrite <- !app_assoc. reflexivity.
        + exists (id ++ u "'"). rewrite <- !app_assoc. reflexivity.
      - exists (directive_fmt d ++ u ") size " ++ fmt_dec (directive_size d) ++ u " exceeds 4096 bytes"). rewrite <- !app_assoc. reflexivity.
      - exists (directive_fmt d ++ u ") would cause the 12-bit address counter to overflow"). rewrite <- !app_assoc. reflexivity.
      - exists (u " cause address counter to overflow $FFF"). reflexivity.
      - exists (id ++ u "'"). rewrite <- !app_assoc. reflexivity.
      - destruct r as [id|v|v|m [fs|]].
        + exists id. reflexivity.
        + exists (fmt_hex true v ++ u ", expecting 8-bit value"). rewrite <- !app_assoc. reflexivity.
        + exists (fmt_hex true v ++ u ", expecting 4-bit value"). rewrite <- !app_assoc. reflexivity.
        + exists (m ++ u " " ++ fs). rewrite <- !app_assoc. reflexivity.
        + exists m. reflexivity.
      - exists (u " be defined immediately following a label name"). reflexivity. }
    destruct B as (x & ->). eexists. f_equal. rewrite !app_assoc. reflexivity.
Qed.

Lemma done_inj : forall (a b : str), Done a = Done b -> a = b.
Proof. intros a b E. injection E as E. exact E. Qed.

Lemma pad_inj : forall a b x y, pad_left (c_ "0") 3 (fmt_hex true a) ++ x = pad_left (c_ "0") 3 (fmt_hex true b) ++ y ->
  starts (among hexadecimal_digits) x = false -> starts (among hexadecimal_digits) y = false -> a = b /\ x = y.
Proof.
  assert (D : forall n, forallb (among hexadecimal_digits) (pad_left (c_ "0") 3 (fmt_hex true n)) = true).
  { intros n. unfold pad_left. rewrite forallb_app, fmt_hex_digits, andb_true_r. apply forallb_forall. intros c I.
    apply repeat_spec in I. subst c. reflexivity. }
  assert (V : forall k s, positional 16 (repeat (c_ "0") k ++ s) = positional 16 s).
  { induction k as [|k IH]; intros s; cbn [repeat app positional]; [reflexivity|]. rewrite IH.
    change (digit (c_ "0")) with 0. lia. }
  intros a b x y E X Y. destruct (span_inj _ _ _ _ _ (D a) (D b) X Y E) as [P ->]. split; [|reflexivity].
  rewrite <- (fmt_hex_value true a), <- (fmt_hex_value true b). unfold pad_left in P.
  rewrite <- (V (3 - length (fmt_hex true a))%nat (fmt_hex true a)), P. apply V.
Qed.

Lemma range_inj : forall a b (sa sb x y : str), range_fmt a = Done sa -> range_fmt b = Done sb -> sa ++ x = sb ++ y ->
  said_range a = said_range b /\ x = y.
Proof.
  unfold range_fmt, said_range, address_range. intros a b sa sb x y A B E.
  destruct (1 <=? _); [|discriminate A]. destruct (1 <=? _); [|discriminate B]. apply done_inj in A, B. subst sa sb.
  rewrite <- !app_assoc in E. apply app_inv_head in E. apply pad_inj in E; [|reflexivity | reflexivity]. destruct E as [S E].
  apply app_inv_head in E. apply pad_inj in E; [|reflexivity | reflexivity]. destruct E as [_ E].
  apply app_inv_head in E. apply dec_span in E; [|reflexivity | reflexivity]. destruct E as [L E].
  apply app_inv_head in E. split; [f_equal; assumption | exact E].
Qed.

Theorem report_inj : forall e l l' m, overlap_report e l = Done m -> overlap_report e l' = Done m -> said_ranges l = said_ranges l'.
Proof.
  assert (P : forall e x (y : str), program_error e x ++ y = e_program e ++ u ": error: " ++ x ++ [10] ++ y).
  { intros. unfold program_error. rewrite <- !app_assoc. reflexivity. }
  assert (Z : forall e x (y : str), program_error e x ++ y <> []).
  { intros e x y E. rewrite P in E. apply app_eq_nil in E. destruct E as [_ E]. discriminate E. }
  intros e. induction l as [|[a b] l IH]; intros [|[a' b'] l'] m H H'; cbn [overlap_report] in H, H'.
  - reflexivity.
  - exfalso. injection H as <-. destruct (range_fmt a'); [|discriminate H']. destruct (range_fmt b'); [|discriminate H'].
    cbn [bind] in H'. destruct (overlap_report e l'); [|discriminate H']. injection H' as H'. exact (Z _ _ _ H').
  - exfalso. injection H' as <-. destruct (range_fmt a); [|discriminate H]. destruct (range_fmt b); [|discriminate H].
    cbn [bind] in H. destruct (overlap_report e l); [|discriminate H]. injection H as H. exact (Z _ _ _ H).
  - destruct (range_fmt a) as [sa|] eqn:A; [|discriminate H]. destruct (range_fmt b) as [sb|] eqn:B; [|discriminate H].
    destruct (range_fmt a') as [sa'|] eqn:A'; [|discriminate H']. destruct (range_fmt b') as [sb'|] eqn:B'; [|discriminate H'].
    cbn [bind] in H, H'. destruct (overlap_report e l) as [t|] eqn:R; [|discriminate H].
    destruct (overlap_report e l') as [t'|] eqn:R'; [|discriminate H']. cbn [bind] in H, H'. apply done_inj in H. subst m. apply done_inj in H'. rename H' into E.
    rewrite !P in E. apply app_inv_head, app_inv_head in E. rewrite <- !app_assoc in E. apply app_inv_head in E.
    symmetry in E. destruct (range_inj _ _ _ _ _ _ A A' E) as [EA E1]. apply app_inv_head, app_inv_head in E1.
    apply app_inv_head, app_inv_head, app_inv_head in E1.
    destruct (range_inj _ _ _ _ _ _ B B' E1) as [EB E2]. apply app_inv_head in E2. subst t'.
    cbn [said_ranges map]. rewrite EA, EB. f_equal. exact (IH l' t eq_refl R').
Qed.

Lemma report_bracket : forall e l m, l <> [] -> overlap_report e l = Done m -> exists x, m = x ++ u ")" ++ [10].
Proof.
  intros e. induction l as [|[a b] l IH]; intros m N H; [congruence|]. cbn [overlap_report] in H.
  destruct (range_fmt a) as [sa|] eqn:A; [|discriminate H]. destruct (range_fmt b) as [sb|] eqn:B; [|discriminate H].
  cbn [bind] in H. destruct (overlap_report e l) as [t|] eqn:R; [|discriminate H]. cbn [bind] in H. apply done_inj in H. subst m.
  destruct l as [|p l].
  - cbn [overlap_report] in R. injection R as <-. unfold range_fmt in B. destruct (address_range b) as [f g].
    destruct (1 <=? g); [|discriminate B]. apply done_inj in B. subst sb. unfold program_error.
    change (u " bytes)") with (u " bytes" ++ u ")"). rewrite !app_assoc, app_nil_r, <- (app_assoc _ (u ")")). eexists. reflexivity.
  - destruct (IH t) as (x & ->); [discriminate | reflexivity|].
    rewrite !app_assoc, <- (app_assoc _ (u ")")). eexists. reflexivity.
Qed.
