(** * StreamProofs: the parser over an iterator, and over the list of its tokens. *)

From Verif Require Import Base Text Location Token Scanner Parser Main SpecLex SpecGrammar SpecStream StreamParser
  BaseFacts LexTheorems ParseProofs.

Lemma delivers_next : forall I (next : I -> run (option token * I)) i ts, delivers next i ts ->
  exists i', next i = Done (hd_error ts, i') /\ delivers next i' (tl ts).
Proof.
  intros I next i ts D. destruct (D 1%nat) as (i1 & E). cbn [pulls] in E.
  destruct (next i) as [[t i']|c] eqn:N; [|discriminate]. cbn [bind] in E. injection E as E _.
  exists i'. split.
  - destruct ts; cbn in E; injection E as ->; reflexivity.
  - intros n. destruct (D (S n)) as (i2 & E2). cbn [pulls] in E2. rewrite N in E2. cbn [bind] in E2.
    destruct (pulls next n i') as [[ts' i3]|c]; [|discriminate]. cbn [bind] in E2. injection E2 as E2 _.
    exists i3. f_equal. f_equal. destruct ts as [|t0 ts]; cbn in E2 |- *.
    + rewrite firstn_nil. injection E2 as _ E2. rewrite Nat.sub_0_r. exact E2.
    + injection E2 as _ E2. exact E2.
Qed.

(** ** The two parsers in step *)

Definition alike {I : Type} (next : I -> run (option token * I)) (s : stream I) (p : parser) : Prop :=
  s_current s = p_current p /\ s_next s = p_next p /\ delivers next (s_scanner s) (p_scanner p).

Definition alike_results {I A : Type} (next : I -> run (option token * I)) (x : sresult I A) (y : presult A) : Prop :=
  match x, y with
  | Done (Ok (a, s)), Done (Ok (b, p)) => a = b /\ alike next s p
  | Done (Err e), Done (Err e') => e = e'
  | Crash c, Crash c' => c = c'
  | _, _ => False
  end.

Lemma alike_consume : forall I (next : I -> run (option token * I)) s p, alike next s p ->
  exists s', stream_consume next s = Done (fst (consume_token p), s') /\ alike next s' (snd (consume_token p)).
Proof.
  intros I next s p (C & N & D). unfold stream_consume, consume_token.
  destruct (delivers_next _ _ _ _ D) as (i & E & D'). rewrite E. cbn [bind].
  destruct (p_scanner p) as [|t r]; cbn [hd_error iter_next fst snd]; eexists; (split; [rewrite C; reflexivity|]);
    (split; [exact N | split; [reflexivity | exact D']]).
Qed.

Lemma alike_try : forall I A B (next : I -> run (option token * I)) (x : sresult I A) (y : presult A)
  (f : A * stream I -> sresult I B) (g : A * parser -> presult B),
  alike_results next x y ->
  (forall a s p, alike next s p -> alike_results next (f (a, s)) (g (a, p))) ->
  alike_results next (try_ x f) (try_ y g).
Proof.
  intros I A B next x y f g R H. unfold try_.
  destruct x as [[[a s]|e]|c], y as [[[b p]|e']|c']; cbn in R; try contradiction; try exact R.
  destruct R as [<- R]. apply H. exact R.
Qed.

Ltac step_consume H :=
  let s' := fresh "s" in let E := fresh "E" in let H' := fresh "H" in
  destruct (alike_consume _ _ _ _ H) as (s' & E & H'); rewrite E; cbn [bind].

Lemma alike_identifier : forall I (next : I -> run (option token * I)) s p, alike next s p ->
  alike_results next (stream_identifier next s) (parse_identifier p).
Proof.
  intros I next s p H. unfold stream_identifier, parse_identifier. step_consume H.
  destruct (consume_token p) as [[[]|] p']; cbn [fst snd] in *; try reflexivity.
  split; [reflexivity | assumption].
Qed.

Lemma alike_literal : forall I (next : I -> run (option token * I)) s p, alike next s p ->
  alike_results next (stream_literal next s) (parse_literal p).
Proof.
  intros I next s p H. unfold stream_literal, parse_literal. pose proof H as (C & _). rewrite C.
  destruct (p_current p) as [[]|]; try reflexivity; step_consume H; (split; [reflexivity | assumption]).
Qed.

Lemma alike_field : forall I (next : I -> run (option token * I)) s p, alike next s p ->
  alike_results next (stream_field next s) (parse_field p).
Proof.
  intros I next s p H. unfold stream_field, parse_field. pose proof H as (C & _). rewrite C.
  destruct (p_current p) as [[]|]; try reflexivity.
  - destruct (identifier_field id) as [f|c]; cbn [bind]; [|reflexivity]. step_consume H.
    split; [reflexivity | assumption].
  - step_consume H. split; [reflexivity | assumption].
Qed.

Lemma alike_literal_list : forall I (next : I -> run (option token * I)) n s p acc, alike next s p ->
  alike_results next (stream_literal_list next n s acc) (parse_literal_list n p acc).
Proof.
  intros I next. induction n as [|n IH]; intros s p acc H; [reflexivity|].
  cbn [stream_literal_list parse_literal_list]. pose proof H as (C & _). rewrite C.
  assert (G : alike_results next
    (try* (lit, p) := stream_literal next s in
     let acc := acc ++ [lit] in
     match s_current p with
     | Some (Comma _) => let* (_, p) := stream_consume next p in stream_literal_list next n p acc
     | _ => Done (Ok (acc, p))
     end)
    (try* (lit, p) := parse_literal p in
     let acc := acc ++ [lit] in
     match p_current p with
     | Some (Comma _) => parse_literal_list n (snd (consume_token p)) acc
     | _ => Done (Ok (acc, p))
     end)).
  { apply alike_try; [apply alike_literal; exact H|]. intros a s1 p1 H1. cbv zeta.
    pose proof H1 as (C1 & _). rewrite C1.
    destruct (p_current p1) as [[]|]; try (split; [reflexivity | exact H1]).
    step_consume H1. apply IH. assumption. }
  destruct (p_current p) as [[]|]; try exact G. split; [reflexivity | exact H].
Qed.

Lemma alike_field_list : forall I (next : I -> run (option token * I)) n s p acc, alike next s p ->
  alike_results next (stream_field_list next n s acc) (parse_field_list n p acc).
Proof.
  intros I next. induction n as [|n IH]; intros s p acc H; [reflexivity|].
  cbn [stream_field_list parse_field_list]. pose proof H as (C & _). rewrite C.
  assert (G : alike_results next
    (try* (f, p) := stream_field next s in
     let acc := acc ++ [f] in
     match s_current p with
     | Some (Comma _) => let* (_, p) := stream_consume next p in stream_field_list next n p acc
     | _ => Done (Ok (acc, p))
     end)
    (try* (f, p) := parse_field p in
     let acc := acc ++ [f] in
     match p_current p with
     | Some (Comma _) => parse_field_list n (snd (consume_token p)) acc
     | _ => Done (Ok (acc, p))
     end)).
  { apply alike_try; [apply alike_field; exact H|]. intros a s1 p1 H1. cbv zeta.
    pose proof H1 as (C1 & _). rewrite C1.
    destruct (p_current p1) as [[]|]; try (split; [reflexivity | exact H1]).
    step_consume H1. apply IH. assumption. }
  destruct (p_current p) as [[]|]; try exact G; (split; [reflexivity | exact H]).
Qed.

Lemma alike_statement : forall I (next : I -> run (option token * I)) n s p, alike next s p ->
  alike_results next (stream_statement next n s) (parse_statement n p).
Proof.
  intros I next n s p H.
  assert (D : alike_results next (stream_directive next n s) (parse_directive n p)).
  { unfold stream_directive, parse_directive. step_consume H.
    destruct (consume_token p) as [[[]|] p']; cbn [fst snd] in *; try reflexivity.
    apply alike_try; [apply alike_identifier; assumption|]. intros [id l0] s1 p1 H1.
    apply alike_try; [apply alike_literal_list; exact H1|]. intros a s2 p2 H2. split; [reflexivity | exact H2]. }
  assert (L : alike_results next (stream_label next s) (parse_label p)).
  { unfold stream_label, parse_label. apply alike_try; [apply alike_identifier; exact H|].
    intros [id l] s1 p1 H1. step_consume H1.
    destruct (consume_token p1) as [[[]|] p']; cbn [fst snd] in *; try reflexivity.
    split; [reflexivity | assumption]. }
  assert (N : alike_results next (stream_instruction next n s) (parse_instruction n p)).
  { unfold stream_instruction, parse_instruction. apply alike_try; [apply alike_identifier; exact H|].
    intros [id l] s1 p1 H1. apply alike_try; [apply alike_field_list; exact H1|].
    intros a s2 p2 H2. split; [reflexivity | exact H2]. }
  unfold stream_statement, parse_statement. destruct H as (C & X & _). rewrite C, X.
  destruct (p_current p) as [[]|]; try reflexivity; [exact D|].
  destruct (p_next p) as [[]|]; assumption.
Qed.

Lemma alike_statement_list : forall I (next : I -> run (option token * I)) n s p acc, alike next s p ->
  stream_statement_list next n s acc = parse_statement_list n p acc.
Proof.
  intros I next. induction n as [|n IH]; intros s p acc H; [reflexivity|].
  cbn [stream_statement_list parse_statement_list]. pose proof H as (C & _). rewrite C.
  assert (G : try_ (stream_statement next (S n) s) (fun '(nd, p) => stream_statement_list next n p (acc ++ [nd]))
            = try_ (parse_statement (S n) p) (fun '(nd, p) => parse_statement_list n p (acc ++ [nd]))).
  { pose proof (alike_statement _ _ (S n) _ _ H) as R.
    destruct (stream_statement next (S n) s) as [[[a s1]|e]|c], (parse_statement (S n) p) as [[[b p1]|e']|c'];
      cbn in R; try contradiction; cbn [try_]; try congruence.
    destruct R as [<- R]. apply IH. exact R. }
  destruct (p_current p) as [[]|]; try exact G; try reflexivity; step_consume H; apply IH; assumption.
Qed.

Lemma alike_new : forall I (next : I -> run (option token * I)) i ts, delivers next i ts ->
  exists s, stream_new next i = Done s /\ alike next s (parser_new ts).
Proof.
  intros I next i ts D. unfold stream_new.
  destruct (delivers_next _ _ _ _ D) as (i1 & E1 & D1). rewrite E1. cbn [bind].
  destruct (delivers_next _ _ _ _ D1) as (i2 & E2 & D2). rewrite E2. cbn [bind].
  eexists. split; [reflexivity|]. unfold parser_new.
  destruct ts as [|t [|t' r]]; (split; [reflexivity | split; [reflexivity | exact D2]]).
Qed.

(** The parser does not depend on the fuel. *)
Lemma parse_fuel : forall n ts, (length ts < n)%nat ->
  parse_statement_list n (parser_new ts) [] = parse ts.
Proof.
  intros n ts L. destruct (program_cases _ ts (le_n _)) as [(ns & H) | (b & r & e & -> & H)]; unfold parse.
  - rewrite (parse_program_ok _ _ H n [] L), (parse_program_ok _ _ H _ [] (Nat.lt_succ_diag_r _)). reflexivity.
  - rewrite (parse_program_err _ _ _ H n r [] eq_refl L),
      (parse_program_err _ _ _ H _ r [] eq_refl (Nat.lt_succ_diag_r _)). reflexivity.
Qed.

Theorem stream_parse_list : forall I (next : I -> run (option token * I)) i ts n, delivers next i ts ->
  (length ts < n)%nat -> stream_parse next n i = parse ts.
Proof.
  intros I next i ts n D L. unfold stream_parse. destruct (alike_new _ _ _ _ D) as (s & E & H). rewrite E.
  cbn [bind]. rewrite (alike_statement_list _ _ n _ _ [] H). apply parse_fuel. exact L.
Qed.

Lemma pulls_nexts : forall n sc, pulls next_token n sc = nexts n sc.
Proof.
  induction n as [|n IH]; intros sc; [reflexivity|]. cbn [pulls nexts].
  destruct (next_token sc) as [[t sc']|c]; cbn [bind]; [|reflexivity]. rewrite IH. reflexivity.
Qed.

Theorem scanner_delivers : forall file s ts, scan file s = Done ts ->
  delivers next_token (scanner_new file s) ts.
Proof.
  intros file s ts S n. destruct (next_token_fused file s) as (ts' & S' & H). rewrite S in S'. injection S' as <-.
  destruct (H n) as (sc & E). exists sc. rewrite pulls_nexts. exact E.
Qed.

Lemma scan_fuel_length : forall n sc ts, scan_fuel n sc = Done ts -> (length ts < n)%nat.
Proof.
  induction n as [|n IH]; intros sc ts H; [discriminate|]. cbn [scan_fuel] in H.
  destruct (next_token sc) as [[[t|] sc']|c]; cbn [bind] in H; try discriminate.
  - destruct (scan_fuel n sc') as [ts'|c] eqn:E; [|discriminate]. cbn [bind] in H. injection H as <-.
    apply IH in E. cbn [length]. lia.
  - injection H as <-. cbn [length]. lia.
Qed.

Theorem stream_parse_text : forall file s ts n, scan file s = Done ts -> (length s < n)%nat ->
  stream_parse next_token n (scanner_new file s) = parse ts.
Proof.
  intros file s ts n S L. apply stream_parse_list; [apply scanner_delivers; exact S|].
  apply scan_fuel_length in S. lia.
Qed.

Theorem assemble_stream_text : forall e file s, assemble_stream e file s = assemble_text e file s.
Proof.
  intros e file s. unfold assemble_stream, assemble_text. destruct (scan_total file s) as (ts & S).
  rewrite (stream_parse_text file s ts _ S (Nat.lt_succ_diag_r _)), S. reflexivity.
Qed.
