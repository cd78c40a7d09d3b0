(** * ParseProofs: the parser decides the grammar of SpecGrammar, and its errors are at
    the first token no program can go on with. *)

From Verif Require Import Base Text U12 Location Token Parser SpecLex SpecGrammar
  BaseFacts LexProofs ScanProofs Scanner.
Open Scope N_scope.

(** ** The parser's state is the list of the tokens ahead *)

Lemma consume_new : forall t r, consume_token (parser_new (t :: r)) = (Some t, parser_new r).
Proof. intros t [|a [|b r]]; reflexivity. Qed.

Lemma consume_new_nil : consume_token (parser_new []) = (None, parser_new []).
Proof. reflexivity. Qed.

Lemma current_new : forall ts, p_current (parser_new ts) = hd_error ts.
Proof. intros [|a [|b r]]; reflexivity. Qed.

Lemma next_new : forall ts, p_next (parser_new ts) = hd_error (tl ts).
Proof. intros [|a [|b r]]; reflexivity. Qed.

(** ** Operand names *)

Lemma to_digit_hex : forall c, to_digit 16 c = if among hexadecimal_digits c then Some (digit c) else None.
Proof.
  intros c. destruct (among hexadecimal_digits c) eqn:E.
  - rewrite <- is_hex_digit_spec in E. apply hex_digit_value in E. apply E.
  - rewrite <- is_hex_digit_spec in E. unfold to_digit.
    unfold is_hex_digit, is_digit in E.
    change (c_ "0") with 48 in *. change (c_ "9") with 57 in *. change (c_ "a") with 97 in *.
    change (c_ "f") with 102 in *. change (c_ "A") with 65 in *. change (c_ "F") with 70 in *.
    destruct ((48 <=? c) && (c <=? 57)) eqn:E1; [cbn [orb andb] in E; exfalso; lia|].
    destruct ((97 <=? c) && (c <=? 102)) eqn:E2; [exfalso; lia|].
    destruct ((65 <=? c) && (c <=? 70)) eqn:E3; [exfalso; lia|]. reflexivity.
Qed.

Lemma eq_dec_eqb : forall (A : Type) (a b : str) (x y : A),
  (if list_eq_dec N.eq_dec a b then x else y) = if str_eqb a b then x else y.
Proof.
  intros. destruct (list_eq_dec N.eq_dec a b) as [->|H].
  - rewrite str_eqb_refl. reflexivity.
  - apply str_eqb_neq in H. rewrite H. reflexivity.
Qed.

Lemma assoc_app : forall (A : Type) k (a b : list (str * A)),
  assoc k (a ++ b) = match assoc k a with Some x => Some x | None => assoc k b end.
Proof.
  induction a as [|[k' x] a IH]; intros b; [reflexivity|]. cbn [app assoc].
  destruct (list_eq_dec N.eq_dec k k'); [reflexivity | apply IH].
Qed.

Lemma assoc_pairs : forall (A : Type) (g : char -> A) v ds a b,
  assoc [a; b] (map (fun d => ([v; d], g d)) ds)
  = if (a =? v) && existsb (N.eqb b) ds then Some (g b) else None.
Proof.
  induction ds as [|d ds IH]; intros a b; cbn [map assoc existsb].
  - rewrite andb_false_r. reflexivity.
  - rewrite eq_dec_eqb, IH. cbn [str_eqb]. rewrite andb_true_r.
    destruct (N.eqb_spec a v) as [->|]; [|reflexivity].
    destruct (N.eqb_spec b d) as [->|]; reflexivity.
Qed.

Lemma assoc_pairs_other : forall (A : Type) (g : char -> A) v ds k, length k <> 2%nat ->
  assoc k (map (fun d => ([v; d], g d)) ds) = None.
Proof.
  induction ds as [|d ds IH]; intros k H; [reflexivity|]. cbn [map assoc].
  rewrite IH by exact H. destruct (list_eq_dec N.eq_dec k [v; d]) as [->|]; [|reflexivity].
  cbn in H. lia.
Qed.

Lemma register_assoc : forall id, assoc id register_operands =
  match id with
  | [v; d] => if among "vV" v && among hexadecimal_digits d then Some (FRegister (digit d)) else None
  | _ => None
  end.
Proof.
  intros id. unfold register_operands. cbn [u flat_map]. rewrite app_nil_r, assoc_app.
  destruct id as [|v [|d [|x r]]]; try (rewrite !assoc_pairs_other by discriminate; reflexivity).
  rewrite !assoc_pairs. unfold among.
  change (u "vV") with [118; 86]. change (N_of_ascii "v") with 118. change (N_of_ascii "V") with 86.
  cbn [existsb]. rewrite orb_false_r.
  destruct (v =? 118), (v =? 86), (existsb (N.eqb d) (u hexadecimal_digits)); reflexivity.
Qed.

Lemma identifier_field_operand : forall id, identifier_field id = Done (operand id).
Proof.
  intros id. unfold operand. rewrite assoc_app, register_assoc.
  unfold identifier_field, special_operands. cbn [assoc]. rewrite !eq_dec_eqb.
  repeat match goal with
  | |- context [str_eqb id ?x] =>
      let E := fresh "E" in destruct (str_eqb id x) eqn:E; cbn [orb]; [reflexivity|]
  end.
  destruct id as [|v [|d [|x r]]]; cbn [length Nat.eqb andb]; try reflexivity.
  unfold starts_with. change (u "v") with [118]. change (u "V") with [86].
  cbn [starts_with]. rewrite !andb_true_r.
  unfold among at 1. change (u "vV") with [118; 86]. cbn [existsb]. rewrite orb_false_r.
  rewrite (N.eqb_sym 118 v), (N.eqb_sym 86 v).
  destruct ((v =? 118) || (v =? 86)) eqn:Ev; cbn [andb]; [|reflexivity].
  change (len_utf8 (c_ "v")) with 1.
  assert (Hv : len_utf8 v = 1) by (apply ascii_len; lia).
  cbn [drop_bytes]. change (1 =? 0) with false. rewrite Hv. change (1 <=? 1) with true.
  change (1 - 1) with 0. cbn [bind drop_bytes N.eqb].
  cbn [from_str_radix radix_digits]. change (c_ "+") with 43.
  rewrite to_digit_hex.
  destruct (d =? 43) eqn:Ed.
  - assert (d = 43) by lia. subst d. reflexivity.
  - destruct (among hexadecimal_digits d) eqn:Eh; [|reflexivity].
    assert (digit d < 16).
    { rewrite <- is_hex_digit_spec in Eh. apply hex_digit_value in Eh. apply Eh. }
    change (0 * 16) with 0. change (2 ^ u8_bits) with 256. change (0 <? 256) with true.
    cbn iota. replace (0 + digit d <? 256) with true by lia. reflexivity.
Qed.

(** ** Lists of literals and of fields, with one token of lookahead.

    [chunk item stop c args f]: the tokens [c], looking at [f] after them, are a list
    standing for [args].  [chunk_err item stop b f]: after [b], [f] cannot go on. *)

Definition is_comma (t : token) : bool := match t with Comma _ => true | _ => false end.
Definition is_newline (t : token) : bool := match t with Newline _ => true | _ => false end.
Definition is_comment (t : token) : bool := match t with SingleLineComment _ _ => true | _ => false end.

Inductive chunk {A : Type} (item : token -> A -> Prop) (stop : token -> bool)
  : list token -> list A -> option token -> Prop :=
| ch_none : forall t, stop t = true -> chunk item stop [] [] (Some t)
| ch_one : forall t a f, item t a -> option_map is_comma f <> Some true -> chunk item stop [t] [a] f
| ch_more : forall t a l c args f, item t a -> chunk item stop c args f ->
    chunk item stop (t :: Comma l :: c) (a :: args) f.

Inductive chunk_err {A : Type} (item : token -> A -> Prop) (stop : token -> bool)
  : list token -> option token -> Prop :=
| ce_here : forall f, (forall t, f = Some t -> stop t = false /\ forall a, ~ item t a) ->
    chunk_err item stop [] f
| ce_more : forall t a l b f, item t a -> chunk_err item stop b f ->
    chunk_err item stop (t :: Comma l :: b) f.

Lemma chunk_cases : forall (A : Type) (item : token -> A -> Prop) stop,
  (forall t, (exists a, item t a) \/ forall a, ~ item t a) ->
  forall n ts, (length ts <= n)%nat ->
  (exists c args rest, ts = c ++ rest /\ chunk item stop c args (hd_error rest)) \/
  (exists b r, ts = b ++ r /\ chunk_err item stop b (hd_error r)).
Proof.
  intros A item stop D. induction n as [|n IH]; intros ts L.
  - destruct ts; [|cbn in L; lia]. right. exists [], []. split; [reflexivity|].
    constructor. discriminate.
  - destruct ts as [|t ts].
    { right. exists [], []. split; [reflexivity|]. constructor. discriminate. }
    destruct (stop t) eqn:St.
    { left. exists [], [], (t :: ts). split; [reflexivity|]. constructor. exact St. }
    destruct (D t) as [[a Ha]|Hn].
    2: { right. exists [], (t :: ts). split; [reflexivity|]. constructor.
         intros t' E. inversion E; subst. auto. }
    destruct ts as [|t' ts].
    { left. exists [t], [a], []. split; [reflexivity|]. constructor; [exact Ha | discriminate]. }
    destruct (is_comma t') eqn:Ec.
    + destruct t'; try discriminate. cbn in L.
      destruct (IH ts ltac:(lia)) as [(c & args & rest & -> & H) | (b & r & -> & H)].
      * left. exists (t :: Comma l :: c), (a :: args), rest. split; [reflexivity|].
        constructor; assumption.
      * right. exists (t :: Comma l :: b), r. split; [reflexivity|]. econstructor; eassumption.
    + left. exists [t], [a], (t' :: ts). split; [reflexivity|].
      constructor; [exact Ha | cbn; congruence].
Qed.

Lemma literal_dec : forall t, (exists a, literal_token t a) \/ forall a, ~ literal_token t a.
Proof.
  destruct t; try (right; intros a H; inversion H; fail); left; eexists; constructor.
Qed.

Lemma field_dec : forall t, (exists a, field_token t a) \/ forall a, ~ field_token t a.
Proof.
  destruct t; try (right; intros a H; inversion H; fail); left; eexists; constructor.
Qed.

Definition field_stop (t : token) : bool := is_newline t || is_comment t.

Notation literals_c := (chunk literal_token is_newline).
Notation literals_err := (chunk_err literal_token is_newline).
Notation fields_c := (chunk field_token field_stop).
Notation fields_err := (chunk_err field_token field_stop).

(** ** The parser on lists *)

Lemma parse_literal_item : forall t a r, literal_token t a ->
  parse_literal (parser_new (t :: r)) = Done (Ok (a, parser_new r)).
Proof.
  intros t a r H. unfold parse_literal. rewrite current_new, consume_new.
  cbn [hd_error]. inversion H; subst; reflexivity.
Qed.

Lemma parse_literal_no_item : forall ts, (forall t a, hd_error ts = Some t -> ~ literal_token t a) ->
  parse_literal (parser_new ts)
  = Done (Err (syntax_error (hd_error ts) [dn_numeric_literal; dn_string_literal])).
Proof.
  intros ts H. unfold parse_literal. rewrite current_new.
  destruct (hd_error ts) as [t|] eqn:E; [|reflexivity].
  destruct t; try reflexivity; exfalso; eapply (H _ _ eq_refl); constructor.
Qed.

Lemma newline_cases : forall (f : option token),
  (exists l, f = Some (Newline l)) \/ option_map is_newline f <> Some true.
Proof. intros [[]|]; cbn; try (right; congruence); eauto. Qed.

Ltac case_head f :=
  destruct f as [[]|]; cbn [option_map is_newline is_comma is_comment] in *; try congruence.

Lemma parse_literals_ok : forall c args f, literals_c c args f ->
  forall n rest acc, f = hd_error rest -> (length (c ++ rest) < n)%nat ->
  parse_literal_list n (parser_new (c ++ rest)) acc = Done (Ok (acc ++ args, parser_new rest)).
Proof.
  induction 1 as [t St | t a f Ha Hf | t a l c args f Ha H IH]; intros n rest acc E L;
    (destruct n as [|n]; [lia|]); cbn [parse_literal_list app]; rewrite current_new.
  - rewrite <- E. destruct t; try discriminate. rewrite app_nil_r. reflexivity.
  - cbn [hd_error].
    assert (G : (try* (lit, p) := parse_literal (parser_new (t :: rest)) in
            match p_current p with
            | Some (Comma _) => parse_literal_list n (snd (consume_token p)) (acc ++ [lit])
            | _ => Done (Ok (acc ++ [lit], p))
            end) = Done (Ok (acc ++ [a], parser_new rest))).
    { rewrite (parse_literal_item t a rest Ha). cbn [try_]. rewrite current_new, <- E.
      case_head f; reflexivity. }
    inversion Ha; subst; exact G.
  - cbn [hd_error].
    assert (G : (try* (lit, p) := parse_literal (parser_new (t :: Comma l :: c ++ rest)) in
            match p_current p with
            | Some (Comma _) => parse_literal_list n (snd (consume_token p)) (acc ++ [lit])
            | _ => Done (Ok (acc ++ [lit], p))
            end) = Done (Ok (acc ++ a :: args, parser_new rest))).
    { rewrite (parse_literal_item t a _ Ha). cbn [try_]. rewrite current_new. cbn [hd_error].
      rewrite consume_new. cbn [snd]. rewrite IH; [|exact E|cbn in L; lia].
      rewrite <- app_assoc. reflexivity. }
    inversion Ha; subst; exact G.
Qed.

Lemma parse_literals_err : forall b f, literals_err b f ->
  forall n r acc, f = hd_error r -> (length (b ++ r) < n)%nat ->
  parse_literal_list n (parser_new (b ++ r)) acc
  = Done (Err (syntax_error f [dn_numeric_literal; dn_string_literal])).
Proof.
  induction 1 as [f Hf | t a l b f Ha H IH]; intros n r acc E L;
    (destruct n as [|n]; [lia|]); cbn [parse_literal_list app]; rewrite current_new.
  - rewrite (parse_literal_no_item r) by (intros t a Et; subst f; apply Hf; assumption).
    cbn [try_]. rewrite <- E. destruct f as [[]|]; try reflexivity.
    destruct (Hf _ eq_refl). discriminate.
  - cbn [hd_error].
    assert (G : (try* (lit, p) := parse_literal (parser_new (t :: Comma l :: b ++ r)) in
            match p_current p with
            | Some (Comma _) => parse_literal_list n (snd (consume_token p)) (acc ++ [lit])
            | _ => Done (Ok (acc ++ [lit], p))
            end) = Done (Err (syntax_error f [dn_numeric_literal; dn_string_literal]))).
    { rewrite (parse_literal_item t a _ Ha). cbn [try_]. rewrite current_new. cbn [hd_error].
      rewrite consume_new. cbn [snd]. rewrite IH; [reflexivity|exact E|cbn in L; lia]. }
    inversion Ha; subst; exact G.
Qed.

Lemma parse_field_item : forall t a r, field_token t a ->
  parse_field (parser_new (t :: r)) = Done (Ok (a, parser_new r)).
Proof.
  intros t a r H. unfold parse_field. rewrite current_new, consume_new.
  cbn [hd_error]. inversion H; subst; [reflexivity|].
  rewrite identifier_field_operand. reflexivity.
Qed.

Lemma parse_field_no_item : forall ts, (forall t a, hd_error ts = Some t -> ~ field_token t a) ->
  parse_field (parser_new ts) = Done (Err (syntax_error (hd_error ts) [dn_instruction_field])).
Proof.
  intros ts H. unfold parse_field. rewrite current_new.
  destruct (hd_error ts) as [t|] eqn:E; [|reflexivity].
  destruct t; try reflexivity; exfalso; eapply (H _ _ eq_refl); constructor.
Qed.

Lemma parse_fields_ok : forall c args f, fields_c c args f ->
  forall n rest acc, f = hd_error rest -> (length (c ++ rest) < n)%nat ->
  parse_field_list n (parser_new (c ++ rest)) acc = Done (Ok (acc ++ args, parser_new rest)).
Proof.
  induction 1 as [t St | t a f Ha Hf | t a l c args f Ha H IH]; intros n rest acc E L;
    (destruct n as [|n]; [lia|]); cbn [parse_field_list app]; rewrite current_new.
  - rewrite <- E. destruct t; try discriminate; rewrite app_nil_r; reflexivity.
  - cbn [hd_error].
    assert (G : (try* (fl, p) := parse_field (parser_new (t :: rest)) in
            match p_current p with
            | Some (Comma _) => parse_field_list n (snd (consume_token p)) (acc ++ [fl])
            | _ => Done (Ok (acc ++ [fl], p))
            end) = Done (Ok (acc ++ [a], parser_new rest))).
    { rewrite (parse_field_item t a rest Ha). cbn [try_]. rewrite current_new, <- E.
      case_head f; reflexivity. }
    inversion Ha; subst; exact G.
  - cbn [hd_error].
    assert (G : (try* (fl, p) := parse_field (parser_new (t :: Comma l :: c ++ rest)) in
            match p_current p with
            | Some (Comma _) => parse_field_list n (snd (consume_token p)) (acc ++ [fl])
            | _ => Done (Ok (acc ++ [fl], p))
            end) = Done (Ok (acc ++ a :: args, parser_new rest))).
    { rewrite (parse_field_item t a _ Ha). cbn [try_]. rewrite current_new. cbn [hd_error].
      rewrite consume_new. cbn [snd]. rewrite IH; [|exact E|cbn in L; lia].
      rewrite <- app_assoc. reflexivity. }
    inversion Ha; subst; exact G.
Qed.

Lemma parse_fields_err : forall b f, fields_err b f ->
  forall n r acc, f = hd_error r -> (length (b ++ r) < n)%nat ->
  parse_field_list n (parser_new (b ++ r)) acc
  = Done (Err (syntax_error f [dn_instruction_field])).
Proof.
  induction 1 as [f Hf | t a l b f Ha H IH]; intros n r acc E L;
    (destruct n as [|n]; [lia|]); cbn [parse_field_list app]; rewrite current_new.
  - rewrite (parse_field_no_item r) by (intros t a Et; subst f; apply Hf; assumption).
    cbn [try_]. rewrite <- E. destruct f as [[]|]; try reflexivity;
      destruct (Hf _ eq_refl); discriminate.
  - cbn [hd_error].
    assert (G : (try* (fl, p) := parse_field (parser_new (t :: Comma l :: b ++ r)) in
            match p_current p with
            | Some (Comma _) => parse_field_list n (snd (consume_token p)) (acc ++ [fl])
            | _ => Done (Ok (acc ++ [fl], p))
            end) = Done (Err (syntax_error f [dn_instruction_field]))).
    { rewrite (parse_field_item t a _ Ha). cbn [try_]. rewrite current_new. cbn [hd_error].
      rewrite consume_new. cbn [snd]. rewrite IH; [reflexivity|exact E|cbn in L; lia]. }
    inversion Ha; subst; exact G.
Qed.

(** ** Programs, deterministically *)

Definition is_colon (t : token) : bool := match t with LabelMarker _ => true | _ => false end.
Definition is_identifier (t : token) : bool := match t with Identifier _ _ => true | _ => false end.
Definition starts_statement (t : token) : bool :=
  match t with
  | Newline _ | SingleLineComment _ _ | DirectiveMarker _ | Identifier _ _ => true
  | _ => false
  end.

Inductive program_c : list token -> list node -> Prop :=
| pc_end : program_c [] []
| pc_newline : forall l ts ns, program_c ts ns -> program_c (Newline l :: ts) ns
| pc_comment : forall c l ts ns, program_c ts ns -> program_c (SingleLineComment c l :: ts) ns
| pc_directive : forall l0 id l c args rest ns,
    literals_c c args (hd_error rest) -> program_c rest ns ->
    program_c (DirectiveMarker l0 :: Identifier id l :: c ++ rest) (NDirective l id args :: ns)
| pc_label : forall id l l1 ts ns,
    program_c ts ns ->
    program_c (Identifier id l :: LabelMarker l1 :: ts) (NLabel l id :: ns)
| pc_instruction : forall id l c args rest ns,
    fields_c c args (hd_error rest) -> program_c rest ns ->
    program_c (Identifier id l :: c ++ rest) (NInstruction l id args :: ns).

Definition opt_list {A : Type} (o : option A) : list A :=
  match o with Some a => [a] | None => [] end.

Inductive program_err : list token -> option token -> list str -> Prop :=
| pe_here : forall t, starts_statement t = false ->
    program_err [] (Some t) [dn_directive_marker; dn_identifier]
| pe_newline : forall l b f e, program_err b f e -> program_err (Newline l :: b) f e
| pe_comment : forall c l b f e, program_err b f e -> program_err (SingleLineComment c l :: b) f e
| pe_no_name : forall l0 f, option_map is_identifier f <> Some true ->
    program_err [DirectiveMarker l0] f [dn_identifier]
| pe_literals : forall l0 id l b f, literals_err b f ->
    program_err (DirectiveMarker l0 :: Identifier id l :: b) f [dn_numeric_literal; dn_string_literal]
| pe_directive : forall l0 id l c args b f e,
    literals_c c args (hd_error (b ++ opt_list f)) -> program_err b f e ->
    program_err (DirectiveMarker l0 :: Identifier id l :: c ++ b) f e
| pe_label : forall id l l1 b f e, program_err b f e ->
    program_err (Identifier id l :: LabelMarker l1 :: b) f e
| pe_fields : forall id l b f, fields_err b f -> option_map is_colon (hd_error (b ++ opt_list f)) <> Some true ->
    program_err (Identifier id l :: b) f [dn_instruction_field]
| pe_instruction : forall id l c args b f e,
    fields_c c args (hd_error (b ++ opt_list f)) -> program_err b f e ->
    program_err (Identifier id l :: c ++ b) f e.

Lemma program_cases : forall n ts, (length ts <= n)%nat ->
  (exists ns, program_c ts ns) \/
  (exists b r e, ts = b ++ r /\ program_err b (hd_error r) e).
Proof.
  assert (HD : forall (b r : list token), hd_error (b ++ r) = hd_error (b ++ opt_list (hd_error r)))
    by (intros [|x b] [|y r]; reflexivity).
  induction n as [|n IH]; intros ts L.
  - destruct ts; [|cbn in L; lia]. left. exists []. constructor.
  - destruct ts as [|t ts]; [left; exists []; constructor|]. cbn in L.
    destruct (starts_statement t) eqn:St.
    2: { right. exists [], (t :: ts), [dn_directive_marker; dn_identifier].
         split; [reflexivity|]. constructor. exact St. }
    destruct t; try discriminate; clear St.
    + destruct (IH ts ltac:(lia)) as [(ns & H) | (b & r & e & -> & H)].
      * left. exists ns. constructor. exact H.
      * right. eexists (_ :: b), r, e. split; [reflexivity|]. constructor. exact H.
    + destruct (option_map is_identifier (hd_error ts)) as [[]|] eqn:Ei.
      * destruct ts as [|[] ts]; try discriminate. clear Ei. cbn in L.
        destruct (chunk_cases _ literal_token is_newline literal_dec _ ts (le_n _))
          as [(c & args & rest & -> & H) | (b & r & -> & H)].
        -- rewrite app_length in L.
           destruct (IH rest ltac:(lia)) as [(ns & Hn) | (b & r & e & -> & Hn)].
           ++ left. eexists. econstructor; eassumption.
           ++ right. exists (DirectiveMarker l :: Identifier id l0 :: c ++ b), r, e.
              split; [cbn; rewrite <- app_assoc; reflexivity|].
              econstructor; [|exact Hn]. rewrite <- HD. exact H.
        -- right. eexists (DirectiveMarker l :: Identifier id l0 :: b), r, _. split; [reflexivity|].
           apply pe_literals. exact H.
      * right. exists [DirectiveMarker l], ts, [dn_identifier]. split; [reflexivity|].
        constructor. congruence.
      * right. exists [DirectiveMarker l], ts, [dn_identifier]. split; [reflexivity|].
        constructor. congruence.
    + assert (LM : (exists l1 ts', ts = LabelMarker l1 :: ts') \/
                   option_map is_colon (hd_error ts) <> Some true).
      { destruct ts as [|[] ts]; cbn; try (right; congruence); eauto. }
      destruct LM as [(l1 & ts' & ->) | Hc].
      * cbn in L. destruct (IH ts' ltac:(lia)) as [(ns & H) | (b & r & e & -> & H)].
        -- left. eexists. constructor. exact H.
        -- right. exists (Identifier id l :: LabelMarker l1 :: b), r, e. split; [reflexivity|].
           constructor. exact H.
      * destruct (chunk_cases _ field_token field_stop field_dec _ ts (le_n _))
          as [(c & args & rest & -> & H) | (b & r & -> & H)].
        -- rewrite app_length in L.
           destruct (IH rest ltac:(lia)) as [(ns & Hn) | (b & r & e & -> & Hn)].
           ++ left. eexists. econstructor; eassumption.
           ++ right. exists (Identifier id l :: c ++ b), r, e.
              split; [cbn; rewrite <- app_assoc; reflexivity|].
              econstructor; [|exact Hn]. rewrite <- HD. exact H.
        -- right. eexists (Identifier id l :: b), r, _. split; [reflexivity|].
           apply pe_fields; [exact H|]. rewrite <- HD. exact Hc.
    + destruct (IH ts ltac:(lia)) as [(ns & H) | (b & r & e & -> & H)].
      * left. exists ns. constructor. exact H.
      * right. eexists (_ :: b), r, e. split; [reflexivity|]. constructor. exact H.
Qed.

(** ** The parser on programs *)

Lemma fields_not_colon : forall c args rest, fields_c c args (hd_error rest) ->
  option_map is_colon (hd_error (c ++ rest)) <> Some true.
Proof.
  intros c args rest H. inversion H; subst; cbn [app hd_error option_map];
    match goal with
    | Ha : field_token _ _ |- _ => inversion Ha; subst; cbn; congruence
    | E : Some ?t = hd_error rest |- _ => rewrite <- E; destruct t; cbn in *; congruence
    end.
Qed.

Lemma parse_identifier_new : forall id l r,
  parse_identifier (parser_new (Identifier id l :: r)) = Done (Ok ((id, l), parser_new r)).
Proof. intros. unfold parse_identifier. rewrite consume_new. reflexivity. Qed.

Lemma statement_not_label : forall m id l ts,
  option_map is_colon (hd_error ts) <> Some true ->
  parse_statement m (parser_new (Identifier id l :: ts))
  = parse_instruction m (parser_new (Identifier id l :: ts)).
Proof.
  intros. unfold parse_statement. rewrite current_new, next_new. cbn [hd_error tl].
  destruct ts as [|[] ts]; try reflexivity. cbn in *. congruence.
Qed.

Lemma parse_program_ok : forall ts ns, program_c ts ns ->
  forall n acc, (length ts < n)%nat ->
  parse_statement_list n (parser_new ts) acc = Done (Ok (acc ++ ns)).
Proof.
  induction 1 as [ | l ts ns H IH | c l ts ns H IH | l0 id l c args rest ns Hc H IH
                 | id l l1 ts ns H IH | id l c args rest ns Hc H IH];
    intros n acc L; (destruct n as [|n]; [lia|]); cbn [parse_statement_list];
    rewrite current_new; cbn [hd_error]; cbn in L; rewrite ?app_length in L.
  - rewrite app_nil_r. reflexivity.
  - rewrite consume_new. cbn [snd]. apply IH. lia.
  - rewrite consume_new. cbn [snd]. apply IH. lia.
  - unfold parse_statement. rewrite current_new. cbn [hd_error]. unfold parse_directive.
    rewrite consume_new, parse_identifier_new. cbn [try_].
    rewrite (parse_literals_ok _ _ _ Hc); [|reflexivity|rewrite app_length; lia]. cbn [try_].
    rewrite IH by lia. rewrite <- app_assoc. reflexivity.
  - unfold parse_statement. rewrite current_new, next_new. cbn [hd_error tl]. unfold parse_label.
    rewrite parse_identifier_new. cbn [try_]. rewrite consume_new. cbn [try_].
    rewrite IH by lia. rewrite <- app_assoc. reflexivity.
  - rewrite statement_not_label by (eapply fields_not_colon; exact Hc). unfold parse_instruction.
    rewrite parse_identifier_new. cbn [try_].
    rewrite (parse_fields_ok _ _ _ Hc); [|reflexivity|rewrite app_length; lia]. cbn [try_].
    rewrite IH by lia. rewrite <- app_assoc. reflexivity.
Qed.

Lemma parse_program_err : forall b f e, program_err b f e ->
  forall n r acc, f = hd_error r -> (length (b ++ r) < n)%nat ->
  parse_statement_list n (parser_new (b ++ r)) acc = Done (Err (syntax_error f e)).
Proof.
  assert (HD : forall (b r : list token), hd_error (b ++ r) = hd_error (b ++ opt_list (hd_error r)))
    by (intros [|x b] [|y r]; reflexivity).
  induction 1 as [ t Ht | l b f e H IH | c l b f e H IH | l0 f Hf | l0 id l b f H
                 | l0 id l c args b f e Hc H IH | id l l1 b f e H IH | id l b f H Hc
                 | id l c args b f e Hc H IH];
    intros n r acc E L; (destruct n as [|n]; [lia|]); cbn [parse_statement_list app];
    rewrite current_new; cbn [hd_error]; cbn in L; rewrite ?app_length in L.
  - rewrite <- E. destruct r as [|t' r]; [discriminate|]. cbn in E. inversion E; subst t'.
    unfold parse_statement. rewrite current_new. cbn [hd_error].
    destruct t; try discriminate; reflexivity.
  - rewrite consume_new. cbn [snd]. apply IH; [exact E | rewrite app_length; lia].
  - rewrite consume_new. cbn [snd]. apply IH; [exact E | rewrite app_length; lia].
  - unfold parse_statement. rewrite current_new. cbn [hd_error]. unfold parse_directive.
    rewrite consume_new. unfold parse_identifier.
    destruct r as [|t r]; [subst f; reflexivity|]. cbn in E. rewrite consume_new. subst f.
    destruct t; try reflexivity. cbn in Hf. congruence.
  - unfold parse_statement. rewrite current_new. cbn [hd_error]. unfold parse_directive.
    rewrite consume_new, parse_identifier_new. cbn [try_].
    rewrite (parse_literals_err _ _ H); [reflexivity|exact E|rewrite app_length; lia].
  - unfold parse_statement. rewrite current_new. cbn [hd_error]. unfold parse_directive.
    rewrite consume_new, parse_identifier_new. cbn [try_]. rewrite <- app_assoc.
    rewrite (parse_literals_ok _ _ _ Hc);
      [|subst f; symmetry; apply HD | rewrite !app_length; lia]. cbn [try_].
    rewrite IH; [reflexivity | exact E | rewrite app_length; lia].
  - unfold parse_statement. rewrite current_new, next_new. cbn [hd_error tl]. unfold parse_label.
    rewrite parse_identifier_new. cbn [try_]. rewrite consume_new. cbn [try_].
    rewrite IH; [reflexivity | exact E | rewrite app_length; lia].
  - rewrite statement_not_label by (rewrite HD, <- E; exact Hc). unfold parse_instruction.
    rewrite parse_identifier_new. cbn [try_].
    rewrite (parse_fields_err _ _ H); [reflexivity|exact E|rewrite app_length; lia].
  - rewrite <- app_assoc.
    assert (Hc' : fields_c c args (hd_error (b ++ r))) by (rewrite HD, <- E; exact Hc).
    rewrite statement_not_label by (eapply fields_not_colon; exact Hc'). unfold parse_instruction.
    rewrite parse_identifier_new. cbn [try_].
    rewrite (parse_fields_ok _ _ _ Hc'); [|reflexivity|rewrite !app_length; lia]. cbn [try_].
    rewrite IH; [reflexivity | exact E | rewrite app_length; lia].
Qed.

(** ** The two forms of the grammar agree *)

Lemma literals_of_c : forall c args f rest, literals_c c args f -> f = hd_error rest ->
  literals (c ++ rest) args rest.
Proof.
  intros c args f rest H. induction H as [t St | t a f Ha Hf | t a l c args f Ha H IH]; intros E.
  - destruct rest as [|t' rest]; [discriminate|]. cbn in E. inversion E; subst t'.
    destruct t; try discriminate. constructor.
  - constructor. exact Ha.
  - constructor; auto.
Qed.

Lemma c_of_literals : forall ts args rest, literals ts args rest ->
  option_map is_comma (hd_error rest) <> Some true ->
  exists c, ts = c ++ rest /\ literals_c c args (hd_error rest).
Proof.
  intros ts args rest H Hr. induction H as [l rest | t a rest Ha | t a l ts args rest Ha H IH].
  - exists []. split; [reflexivity|]. constructor. reflexivity.
  - exists [t]. split; [reflexivity|]. constructor; assumption.
  - destruct (IH Hr) as (c & -> & Hc). exists (t :: Comma l :: c). split; [reflexivity|].
    constructor; assumption.
Qed.

Lemma fields_of_c : forall c args f rest, fields_c c args f -> f = hd_error rest ->
  fields (c ++ rest) args rest.
Proof.
  intros c args f rest H. induction H as [t St | t a f Ha Hf | t a l c args f Ha H IH]; intros E.
  - destruct rest as [|t' rest]; [discriminate|]. cbn in E. inversion E; subst t'.
    destruct t; try discriminate; constructor.
  - constructor. exact Ha.
  - constructor; auto.
Qed.

Lemma c_of_fields : forall ts args rest, fields ts args rest ->
  option_map is_comma (hd_error rest) <> Some true ->
  exists c, ts = c ++ rest /\ fields_c c args (hd_error rest).
Proof.
  intros ts args rest H Hr. induction H as [l rest | cm l rest | t a rest Ha | t a l ts args rest Ha H IH].
  - exists []. split; [reflexivity|]. constructor. reflexivity.
  - exists []. split; [reflexivity|]. constructor. reflexivity.
  - exists [t]. split; [reflexivity|]. constructor; assumption.
  - destruct (IH Hr) as (c & -> & Hc). exists (t :: Comma l :: c). split; [reflexivity|].
    constructor; assumption.
Qed.

Lemma program_no_comma : forall ts ns, program ts ns -> option_map is_comma (hd_error ts) <> Some true.
Proof. intros ts ns H. inversion H; cbn; congruence. Qed.

Lemma program_program_c : forall ts ns, program ts ns <-> program_c ts ns.
Proof.
  split.
  - induction 1 as [ | l ts ns H IH | c l ts ns H IH | l0 id l ts args rest ns Hc H IH
                   | id l l1 ts ns H IH | id l ts args rest ns Hc H IH]; try (constructor; assumption).
    + destruct (c_of_literals _ _ _ Hc (program_no_comma _ _ H)) as (c & -> & Hc').
      econstructor; eassumption.
    + destruct (c_of_fields _ _ _ Hc (program_no_comma _ _ H)) as (c & -> & Hc').
      econstructor; eassumption.
  - induction 1 as [ | l ts ns H IH | c l ts ns H IH | l0 id l c args rest ns Hc H IH
                   | id l l1 ts ns H IH | id l c args rest ns Hc H IH]; try (constructor; assumption).
    + econstructor; [|exact IH]. eapply literals_of_c; [exact Hc | reflexivity].
    + econstructor; [|exact IH]. eapply fields_of_c; [exact Hc | reflexivity].
Qed.

(** ** Main theorems *)

Lemma parse_cases : forall ts,
  (exists ns, program ts ns /\ parse ts = Done (Ok ns)) \/
  (exists b r e, ts = b ++ r /\ program_err b (hd_error r) e /\
                 parse ts = Done (Err (syntax_error (hd_error r) e))).
Proof.
  intros ts. destruct (program_cases _ ts (le_n _)) as [(ns & H) | (b & r & e & -> & H)].
  - left. exists ns. split; [apply program_program_c; exact H|].
    unfold parse. rewrite (parse_program_ok _ _ H) by lia. reflexivity.
  - right. exists b, r, e. repeat split; [exact H|].
    unfold parse. apply parse_program_err; [exact H | reflexivity | lia].
Qed.

Theorem parse_program : forall ts ns, parse ts = Done (Ok ns) <-> program ts ns.
Proof.
  split; intros H.
  - destruct (parse_cases ts) as [(ns' & P & E) | (b & r & e & _ & _ & E)];
      rewrite E in H; inversion H; subst; assumption.
  - apply program_program_c in H. unfold parse. rewrite (parse_program_ok _ _ H) by lia. reflexivity.
Qed.

Theorem parse_total : forall ts, exists r, parse ts = Done r.
Proof.
  intros ts. destruct (parse_cases ts) as [(ns' & P & E) | (b & r & e & _ & _ & E)]; eauto.
Qed.

Lemma program_err_expected : forall b f e, program_err b f e -> e <> [].
Proof. induction 1; congruence. Qed.

Lemma parse_error_printable : forall found expected, expected <> [] ->
  exists s, parse_error_fmt (syntax_error found expected) = Done s.
Proof.
  intros [[]|] [|x [|y r]] H; try contradiction; cbn; eauto.
Qed.

Theorem parse_error_fmt_total : forall ts e, parse ts = Done (Err e) ->
  exists s, parse_error_fmt e = Done s.
Proof.
  intros ts e H. destruct (parse_cases ts) as [(ns' & P & E) | (b & r & x & _ & Pe & E)];
    rewrite E in H; inversion H; subst.
  apply parse_error_printable. eapply program_err_expected. exact Pe.
Qed.

(** Completing an erroneous program. *)

Lemma chunk_err_viable : forall (A : Type) (item : token -> A -> Prop) stop t b f,
  chunk_err item stop b f -> stop t = true -> exists args, chunk item stop b args (Some t).
Proof.
  intros A item stop t b f H St. induction H as [f Hf | t' a l b f Ha H IH].
  - exists []. constructor. exact St.
  - destruct (IH) as (args & Hc). exists (a :: args). constructor; assumption.
Qed.

Lemma chunk_other_look : forall (A : Type) (item : token -> A -> Prop) stop c args f,
  chunk item stop c args f -> (forall t, f = Some t -> stop t = false) ->
  forall f', option_map is_comma f' <> Some true -> chunk item stop c args f'.
Proof.
  intros A item stop c args f H. induction H as [t St | t a f Ha Hf | t a l c args f Ha H IH];
    intros Hs f' Hf'.
  - rewrite (Hs _ eq_refl) in St. discriminate.
  - constructor; assumption.
  - constructor; auto.
Qed.

Lemma program_err_start : forall b f e, program_err b f e -> b = [] ->
  forall t, f = Some t -> starts_statement t = false.
Proof.
  intros b f e H Eb t Ef. destruct H; try discriminate. inversion Ef; subst. assumption.
Qed.

Lemma program_err_viable : forall b f e, program_err b f e -> exists cont ns, program_c (b ++ cont) ns.
Proof.
  assert (NL : exists l : loc, True) by (exists (mk_loc [] 1 1 1); trivial). destruct NL as [nl _].
  assert (LOOK : forall (A : Type) (item : token -> A -> Prop) stop c args b f e cont ns,
    (forall t, stop t = true -> starts_statement t = true) ->
    chunk item stop c args (hd_error (b ++ opt_list f)) -> program_err b f e ->
    program_c (b ++ cont) ns -> chunk item stop c args (hd_error (b ++ cont))).
  { intros A item stop c args b f e cont ns S Hc Pe Pc. destruct b as [|t b].
    - eapply chunk_other_look; [exact Hc| |].
      + intros t Et. destruct f as [t0|]; [|discriminate]. cbn in Et. inversion Et; subst t0.
        destruct (stop t) eqn:X; [|reflexivity]. apply S in X.
        rewrite (program_err_start _ _ _ Pe eq_refl t eq_refl) in X. discriminate.
      + apply program_program_c in Pc. eapply program_no_comma. exact Pc.
    - exact Hc. }
  induction 1 as [ t Ht | l b f e H IH | c l b f e H IH | l0 f Hf | l0 id l b f H
                 | l0 id l c args b f e Hc H IH | id l l1 b f e H IH | id l b f H Hc
                 | id l c args b f e Hc H IH].
  - exists [], []. constructor.
  - destruct IH as (cont & ns & P). exists cont, ns. constructor. exact P.
  - destruct IH as (cont & ns & P). exists cont, ns. constructor. exact P.
  - exists [Identifier [] nl; Newline nl]. eexists. cbn [app].
    apply (pc_directive l0 [] nl [] [] [Newline nl]); [|constructor; constructor].
    constructor. reflexivity.
  - destruct (chunk_err_viable _ _ _ (Newline nl) _ _ H eq_refl) as (args & Hc).
    exists [Newline nl]. eexists. cbn [app].
    apply (pc_directive l0 id l b args [Newline nl]); [exact Hc | constructor; constructor].
  - destruct IH as (cont & ns & P). exists cont. eexists. cbn [app]. rewrite <- app_assoc.
    apply pc_directive; [|exact P]. eapply LOOK; try eassumption. intros []; cbn; congruence.
  - destruct IH as (cont & ns & P). exists cont. eexists. cbn [app]. constructor. exact P.
  - destruct (chunk_err_viable _ _ _ (Newline nl) _ _ H eq_refl) as (args & Hc').
    exists [Newline nl]. eexists. cbn [app].
    apply (pc_instruction id l b args [Newline nl]); [exact Hc' | constructor; constructor].
  - destruct IH as (cont & ns & P). exists cont. eexists. cbn [app]. rewrite <- app_assoc.
    apply pc_instruction; [|exact P]. eapply LOOK; try eassumption. intros []; cbn; congruence.
Qed.

Theorem parse_error_token : forall ts expected t,
  parse ts = Done (Err (UnexpectedToken expected t)) ->
  exists before after, ts = before ++ t :: after /\
    (exists cont ns, program (before ++ cont) ns) /\
    (forall cont ns, ~ program (before ++ t :: cont) ns).
Proof.
  intros ts expected t H. destruct (parse_cases ts) as [(ns' & P & E) | (b & r & x & -> & Pe & E)];
    rewrite E in H; inversion H as [H1].
  destruct r as [|t' r]; [discriminate|]. cbn in H1. inversion H1; subst t' x.
  exists b, r. repeat split.
  - destruct (program_err_viable _ _ _ Pe) as (cont & ns & Pc). exists cont, ns.
    apply program_program_c. exact Pc.
  - intros cont ns Pr. apply parse_program in Pr. unfold parse in Pr.
    rewrite (parse_program_err _ _ _ Pe) in Pr; [discriminate | reflexivity | lia].
Qed.

Theorem parse_error_eof : forall ts expected,
  parse ts = Done (Err (UnexpectedEndOfFile expected)) ->
  (exists cont ns, program (ts ++ cont) ns) /\ (forall ns, ~ program ts ns).
Proof.
  intros ts expected H. split.
  - destruct (parse_cases ts) as [(ns' & P & E) | (b & r & x & -> & Pe & E)];
      rewrite E in H; inversion H as [H1].
    destruct r as [|t' r]; [|discriminate]. rewrite app_nil_r.
    destruct (program_err_viable _ _ _ Pe) as (cont & ns & Pc). exists cont, ns.
    apply program_program_c. exact Pc.
  - intros ns P. apply parse_program in P. rewrite P in H. discriminate.
Qed.

(** No error token in a program. *)
Lemma literals_rest : forall ts args rest t, literals ts args rest -> In t ts ->
  In t rest \/ match t with ErrorToken _ _ => False | _ => True end.
Proof.
  intros ts args rest t H. induction H as [l rest | t' a rest Ha | t' a l ts args rest Ha H IH]; intros I.
  - auto.
  - destruct I as [->|I]; [right; inversion Ha; trivial | auto].
  - destruct I as [->|[<-|I]]; [right; inversion Ha; trivial | right; trivial | auto].
Qed.

Lemma fields_rest : forall ts args rest t, fields ts args rest -> In t ts ->
  In t rest \/ match t with ErrorToken _ _ => False | _ => True end.
Proof.
  intros ts args rest t H. induction H as [l rest | cm l rest | t' a rest Ha | t' a l ts args rest Ha H IH]; intros I.
  - auto.
  - auto.
  - destruct I as [->|I]; [right; inversion Ha; trivial | auto].
  - destruct I as [->|[<-|I]]; [right; inversion Ha; trivial | right; trivial | auto].
Qed.

Theorem program_no_error : forall ts ns, program ts ns -> forall e l, ~ In (ErrorToken e l) ts.
Proof.
  induction 1 as [ | l ts ns H IH | c l ts ns H IH | l0 id l ts args rest ns Hc H IH
                 | id l l1 ts ns H IH | id l ts args rest ns Hc H IH]; intros e x I.
  - destruct I.
  - destruct I as [I|I]; [discriminate | eapply IH; exact I].
  - destruct I as [I|I]; [discriminate | eapply IH; exact I].
  - destruct I as [I|[I|I]]; try discriminate.
    destruct (literals_rest _ _ _ _ Hc I) as [I'|[]]. eapply IH; exact I'.
  - destruct I as [I|[I|I]]; try discriminate. eapply IH; exact I.
  - destruct I as [I|I]; try discriminate.
    destruct (fields_rest _ _ _ _ Hc I) as [I'|[]]. eapply IH; exact I'.
Qed.
