(** * SrcParserProofs: running the text of parser.rs. *)

From Coq Require Import String List NArith Lia.
From Verif Require Import Base BaseFacts Text U12 Location Token Scanner Parser Instruction SpecLex LexProofs ScanProofs LexTheorems ParseProofs
  SrcParse SrcRun SrcCode SrcEnc SrcFacts SrcRangeProofs SrcScannerProofs.
Import ListNotations.
Open Scope string_scope.
Open Scope list_scope.
Open Scope N_scope.

Ltac quick t ::=
  eval lazy -[N.add N.sub N.mul N.eqb N.leb N.ltb N.land N.lor N.shiftl N.shiftr N.modulo N.div
              N.pow N.max N.min str_eqb to_lowercase byte_len drop_bytes take_bytes slice
              from_str_radix fmt_hex fmt_dec pad_left join starts_with label_get utf8 enc
              s_app v_len v_app v_rev v_concat v_chars v_bytes v_strs v_range map_get has v_get v_slice found
              find_whitespace find_string_literal find_hex_literal find_bin_literal
              find_decimal_literal find_identifier u12_unchecked_into u12_failable_into
              u12_checked_add u12_wrapping_add u8_failable_from_u12 usize_checked_shl
              u12_max len_utf8 both either u e_pairs resolve_label to_8_bit to_4_bit
              e_loc e_option e_token e_scan_error e_parse_error e_literal e_field e_node ] in t.

(** parser.rs:156-163, with the iterator [v] *)
Definition e_with (v : value) (p : parser) : value :=
  VCon "Parser"
    [("scanner", v); ("current_token", e_option e_token (p_current p)); ("next_token", e_option e_token (p_next p))].

Lemma src_syntax_error t l : gives "Parser::syntax_error_for_unexpected_token" [e_option e_token t; e_strs l]
  (Done (e_parse_error (syntax_error t l))).
Proof.
  intro K. destruct t as [[]|]; cbn [e_option e_token]; run; finish.
Qed.
Lemma src_consume_iter l c n : returns "Parser::consume_token" [e_with (VIter (enc e_token l)) (mk_parser l c n)]
  (Done (e_option e_token c, [let p := snd (consume_token (mk_parser l c n)) in e_with (VIter (enc e_token (p_scanner p))) p])).
Proof.
  intro K. unfold e_with. destruct c as [c|]; cbn [e_option p_current p_next p_scanner consume_token snd].
  - run. destruct l as [|t l]; [rewrite enc_nil|rewrite enc_cons]; again (calls_of []).
    + finish.
    + finish.
  - run. destruct l as [|t l]; [rewrite enc_nil|rewrite enc_cons]; again (calls_of []).
    + finish.
    + finish.
Qed.

Lemma src_consume_scanner sc l c n : returns "Parser::consume_token" [e_with (e_scanner sc) (mk_parser l c n)]
  match next_token sc with
  | Done (t, sc') => Done (e_option e_token c, [e_with (e_scanner sc') (mk_parser (tl l) n t)])
  | Crash w => Crash w
  end.
Proof.
  intro K. unfold e_with. destruct c as [c|]; cbn [e_option p_current p_next p_scanner].
  all: run_to (calls_of ["Scanner::next"]); use (src_next sc); destruct (next_token sc) as [[t sc']|]; [|finish]; run; finish.
Qed.

(** ** An iterator that gives the tokens it is related to, and then [None] *)
Definition feeds (P : value -> list token -> Prop) : Prop := forall v l c n, P v l -> exists v', P v' (tl l) /\
  returns "Parser::consume_token" [e_with v (mk_parser l c n)]
    (Done (e_option e_token c, [e_with v' (mk_parser (tl l) n (hd_error l))])).

(** What a method of [Parser] does: the value and the parser, or an error *)
Definition parses {A} (P : value -> list token -> Prop) (f : string) (p : parser) (args : list value) (e : A -> value)
           (r : presult A) : Prop :=
  forall v, P v (p_scanner p) ->
  match r with
  | Done (Ok (a, p')) => exists v', P v' (p_scanner p') /\
      returns f (e_with v p :: args) (Done (ok_ (e a), e_with v' p' :: args))
  | Done (Err err) => exists w, returns f (e_with v p :: args) (Done (err_ (e_parse_error err), w :: args))
  | Crash OutOfFuel => True
  | Crash w => returns f (e_with v p :: args) (Crash w)
  end.

Lemma consume_is l c n : consume_token (mk_parser l c n) = (c, mk_parser (tl l) n (hd_error l)).
Proof. destruct l; reflexivity. Qed.

Ltac to f := run_to (calls_of [f]).
Ltac see := unfold e_with at 1; cbn [p_current p_next e_option e_token].
Ltac shown := cbn [e_option e_token].
(** The next token is consumed: the iterator is [v'] then *)
Ltac next_ F H v' H' C :=
  lazymatch type of H with
  | _ ?v ?l =>
      lazymatch goal with
      | |- context [mk_parser l ?c ?n] =>
          destruct (F v l c n H) as (v' & H' & C);
          rewrite ?(consume_is l c n); cbn [snd];
          generalize dependent (tl l); generalize dependent (hd_error l);
          let t := fresh "nx" in let r := fresh "r" in intros t r H' C
      end
  end.
Ltac fail_ :=
  lazymatch goal with
  | |- context [syntax_error ?t ?l] =>
      to "Parser::syntax_error_for_unexpected_token"; use (src_syntax_error t l)
  end; run; finish.

Section Parser.
Context (P : value -> list token -> Prop) (F : feeds P).

Lemma src_parse_identifier p : parses P "Parser::parse_identifier" p [] (fun x => VTup [VStr (fst x); e_loc (snd x)])
  (parse_identifier p).
Proof.
  intros v H. destruct p as [l c n]. cbn [p_scanner] in H. unfold parse_identifier.
  next_ F H v1 H1 C1. destruct c as [[]|].
  3: { exists v1. split; [exact H1|]. intro K. to "Parser::consume_token". use C1. shown. run. finish. }
  all: eexists; intro K; to "Parser::consume_token"; use C1; shown; fail_.
Qed.

Lemma src_parse_literal p : parses P "Parser::parse_literal" p [] e_literal (parse_literal p).
Proof.
  intros v H. destruct p as [l c n]. cbn [p_scanner] in H. unfold parse_literal. cbn [p_current].
  next_ F H v1 H1 C1. destruct c as [[]|].
  5, 6: exists v1; split; [exact H1|]; intro K; unfold e_with at 1; cbn [p_current p_next]; shown; to "Parser::consume_token"; use C1; shown; run; finish.
  all: eexists; intro K; unfold e_with at 1; cbn [p_current p_next]; shown; fail_.
Qed.

Lemma src_parse_literal_list fuel : forall p acc,
  parses P "Parser::parse_literal_list" p [VVec (enc e_literal acc)] (fun l => VVec (enc e_literal l)) (parse_literal_list fuel p acc).
Proof.
  induction fuel as [|fuel IH]; intros p acc v H; [exact I|]. destruct p as [l c n]. cbn [p_scanner] in H.
  cbn [parse_literal_list p_current].
  pose proof (src_parse_literal (mk_parser l c n) v H) as L.
  unfold parse_literal in *. cbn [p_current] in *. rewrite consume_is in *. cbn [snd] in *.
  destruct c as [[]|]; cbn [rbind bind] in *.
  8: { exists v. split; [exact H|]. intro K. see. run. finish. }
  5, 6: destruct L as (v1 & H1 & L); cbn [p_scanner p_current] in *; generalize dependent (tl l); generalize dependent (hd_error l);
    intros n' l' H1 L;
    lazymatch type of L with returns _ _ (Done (ok_ (e_literal ?x), _)) => set (lit := x) in *; clearbody lit end;
    destruct n as [[]|].
  all: try (destruct L as (w & L); eexists; intro K; see; to "Parser::parse_literal"; use L; run; finish).
  all: try (exists v1; split; [exact H1|]; intro K; see; to "Parser::parse_literal"; use L; see; run; 
    rewrite enc_app, enc_cons, enc_nil; finish).
  all: cbn [try_ bind p_current].
  all: next_ F H1 v2 H2 C2; specialize (IH (mk_parser r n' nx) (acc ++ [lit]) v2 H2);
    destruct (parse_literal_list _ _ _) as [[[lits p']|e]|w];
    [destruct IH as (v3 & H3 & IH); exists v3; split; [exact H3|]; intro K
    |destruct IH as (v3 & IH); eexists; intro K
    |destruct w; try exact I; intro K].
  all: see; to "Parser::parse_literal"; use L; see; to "Parser::consume_token"; use C2; see; to "Parser::parse_literal_list";
    rewrite enc_app, enc_cons, enc_nil in IH; use IH; run; finish.
Qed.

Lemma src_parse_directive fuel p : parses P "Parser::parse_directive" p [] e_node (parse_directive fuel p).
Proof.
  intros v H. destruct p as [l c n]. cbn [p_scanner] in H. unfold parse_directive.
  next_ F H v1 H1 C1. pose proof (src_parse_identifier (mk_parser r n nx) v1 H1) as L.
  destruct c as [[]|].
  2: { generalize dependent (parse_identifier (mk_parser r n nx)). intros r0 L. destruct r0 as [[[[id w] p']|e]|w]; cbn [try_].
    - destruct L as (v2 & H2 & L). pose proof (src_parse_literal_list fuel p' [] v2 H2) as L'.
      generalize dependent (parse_literal_list fuel p' []). intros r1 L'. destruct r1 as [[[lits p'']|e]|w']; cbn [try_].
      + destruct L' as (v3 & H3 & L'). exists v3. split; [exact H3|]. intro K.
        to "Parser::consume_token". use C1. shown. to "Parser::parse_identifier". use L.
        to "Parser::parse_literal_list". use L'. run. finish.
      + destruct L' as (v3 & L'). eexists. intro K. to "Parser::consume_token". use C1. shown. to "Parser::parse_identifier". use L.
        to "Parser::parse_literal_list". use L'. run. finish.
      + destruct w'; try exact I; intro K; to "Parser::consume_token"; use C1; shown; to "Parser::parse_identifier"; use L;
          to "Parser::parse_literal_list"; use L'; finish.
    - destruct L as (w & L). eexists. intro K. to "Parser::consume_token". use C1. shown. to "Parser::parse_identifier". use L.
      run. finish.
    - destruct w; try exact I; intro K; to "Parser::consume_token"; use C1; shown; to "Parser::parse_identifier"; use L; finish. }
  all: eexists; intro K; to "Parser::consume_token"; use C1; shown; fail_.
Qed.

Lemma src_parse_label p : parses P "Parser::parse_label" p [] e_node (parse_label p).
Proof.
  intros v H. pose proof (src_parse_identifier p v H) as L. unfold parse_label.
  generalize dependent (parse_identifier p). intros r0 L. destruct r0 as [[[[id w] p']|e]|w]; cbn [try_].
  - destruct L as (v2 & H2 & L). destruct p' as [l' c' n']. cbn [p_scanner] in *. next_ F H2 v3 H3 C3. destruct c' as [[]|].
    4: { exists v3. split; [exact H3|]. intro K. to "Parser::parse_identifier". use L. to "Parser::consume_token". use C3. shown.
         run. finish. }
    all: eexists; intro K; to "Parser::parse_identifier"; use L; to "Parser::consume_token"; use C3; shown; fail_.
  - destruct L as (w & L). eexists. intro K. to "Parser::parse_identifier". use L. run. finish.
  - destruct w; try exact I; intro K; to "Parser::parse_identifier"; use L; finish.
Qed.

Definition after_field : state -> bool := at_statement c8s "Parser::parse_field_list" 2.
Definition with_field (f : field) (self : value) (acc : list field) (K : list frame) : state :=
  Block (body_of "Parser::parse_field_list") 2
    [("field", e_field f); ("self", self); ("list", VVec (enc e_field acc))] (KPop 2 :: KFun 2 "" :: K).
Definition at_text (s : state) : bool := match s with Arms (VStr _) _ _ _ _ => true | _ => false end.
Definition at_block (b : id) (j : nat) (s : state) : bool :=
  match s with Block b' j' _ _ => Pos.eqb b b' && Nat.eqb j j' | _ => false end.

Lemma count_is id : Nat.eqb (length id) 2 = (v_len (v_chars id) =? 2).
Proof.
  unfold v_len, v_chars. rewrite map_length. destruct (Nat.eqb_spec (length id) 2) as [->|N]; [reflexivity|].
  symmetry. apply N.eqb_neq. lia.
Qed.
(** From the match of parser.rs:374 to its end *)
Ltac field_ id Ef :=
  see; run_to at_text;
  lazymatch goal with
  | |- reaches c8s ?s0 _ =>
      lazymatch s0 with
      | Arms _ _ _ ?e (KBlock ?b ?j :: ?k) =>
          assert (M : reaches c8s s0 match identifier_field id with
                      | Done f => Block b (S j) (("identifier_field", e_field f) :: e) k
                      | Crash w => Panic w end);
          [clear Ef; unfold identifier_field; rewrite count_is; change orb with either; change andb with both;
           change u8_bits with 8; change (len_utf8 (c_ "v")) with (len_utf8 118);
           run_on (at_block b (S j)); try apply reaches_refl;
           let digits := fresh in
           cut_ digits; run_to (at_block b (S j));
           destruct (from_str_radix 8 16 digits) as [?|]; apply reaches_step;
           run_to (at_block b (S j)); apply reaches_refl
          |rewrite Ef in M]
      end
  end.

Lemma src_parse_field p acc v : P v (p_scanner p) ->
  match p_current p with Some (Newline _) | Some (SingleLineComment _ _) => True | _ =>
  match parse_field p with
  | Done (Ok (f, p')) => exists v', P v' (p_scanner p') /\ forall K,
      reaches c8s (Call "Parser::parse_field_list" [e_with v p; VVec (enc e_field acc)] K) (with_field f (e_with v' p') acc K)
  | Done (Err e) => exists w, forall K,
      reaches c8s (Call "Parser::parse_field_list" [e_with v p; VVec (enc e_field acc)] K)
        (Back (err_ (e_parse_error e)) [w; VVec (enc e_field acc)] K)
  | Crash w => forall K,
      reaches c8s (Call "Parser::parse_field_list" [e_with v p; VVec (enc e_field acc)] K) (Panic w)
  end end.
Proof.
  intro H. destruct p as [l c n]. cbn [p_scanner] in H. unfold parse_field. cbn [p_current].
  next_ F H v1 H1 C1. destruct c as [[]|]; try exact I.
  5: { exists v1. split; [exact H1|]. intro K. see. to "Parser::consume_token". use C1. shown. run_to after_field. finish. }
  2: { destruct (identifier_field id) as [f|w] eqn:Ef; cbn [bind].
       - exists v1. split; [exact H1|]. intro K. field_ id Ef. use M. see. to "Parser::consume_token". use C1. run_to after_field. finish.
       - intro K. field_ id Ef. exact M. }
  all: eexists; intro K; see; fail_.
Qed.

Lemma src_parse_field_list fuel : forall p acc,
  parses P "Parser::parse_field_list" p [VVec (enc e_field acc)] (fun l => VVec (enc e_field l)) (parse_field_list fuel p acc).
Proof.
  induction fuel as [|fuel IH]; intros p acc v H; [exact I|].
  pose proof (src_parse_field p acc v H) as L. cbn [parse_field_list].
  assert (D : (match p_current p with Some (Newline _) | Some (SingleLineComment _ _) => True | _ => False end) \/
              (match p_current p with Some (Newline _) | Some (SingleLineComment _ _) => False | _ => True end))
    by (destruct (p_current p) as [[]|]; tauto).
  destruct D as [D|D].
  { destruct p as [l c n]. cbn [p_current p_scanner] in *.
    destruct c as [[]|]; try contradiction; exists v; (split; [exact H|]); intro K; see; run; finish. }
  match goal with
  | |- match ?m with _ => _ end => replace m with (try_ (parse_field p) (fun fp => let '(f, p) := fp in
        match p_current p with
        | Some (Comma _) => parse_field_list fuel (snd (consume_token p)) (acc ++ [f])
        | _ => Done (Ok (acc ++ [f], p))
        end)) by (destruct (p_current p) as [[]|]; try contradiction; reflexivity)
  end.
  match type of L with
  | ?m => match m with context [parse_field p] => 
     let T := constr:(match parse_field p with
  | Done (Ok (f, p')) => exists v', P v' (p_scanner p') /\ forall K,
      reaches c8s (Call "Parser::parse_field_list" [e_with v p; VVec (enc e_field acc)] K) (with_field f (e_with v' p') acc K)
  | Done (Err e) => exists w, forall K,
      reaches c8s (Call "Parser::parse_field_list" [e_with v p; VVec (enc e_field acc)] K)
        (Back (err_ (e_parse_error e)) [w; VVec (enc e_field acc)] K)
  | Crash w => forall K,
      reaches c8s (Call "Parser::parse_field_list" [e_with v p; VVec (enc e_field acc)] K) (Panic w)
  end) in assert (L' : T) by (destruct (p_current p) as [[]|]; try contradiction; exact L) end
  end. clear L D.
  destruct (parse_field p) as [[[f p']|e]|w]; cbn [try_].
  - destruct L' as (v1 & H1 & L). destruct p' as [l' c' n']. cbn [p_scanner p_current] in *. destruct c' as [[]|].
    all: try (exists v1; split; [exact H1|]; intro K; use L; unfold with_field; see; run; rewrite enc_app, enc_cons, enc_nil; finish).
    next_ F H1 v2 H2 C2. specialize (IH (mk_parser r n' nx) (acc ++ [f]) v2 H2).
    destruct (parse_field_list _ _ _) as [[[fs p']|e]|w];
    [destruct IH as (v3 & H3 & IH); exists v3; split; [exact H3|]; intro K
    |destruct IH as (v3 & IH); eexists; intro K
    |destruct w; try exact I; intro K].
    all: use L; unfold with_field; see; to "Parser::consume_token"; use C2; see; to "Parser::parse_field_list";
      rewrite enc_app, enc_cons, enc_nil in IH; use IH; run; finish.
  - destruct L' as (w & L). exists w. exact L.
  - destruct w; try exact I; exact L'.
Qed.

Lemma src_parse_instruction fuel p : parses P "Parser::parse_instruction" p [] e_node (parse_instruction fuel p).
Proof.
  intros v H. unfold parse_instruction. pose proof (src_parse_identifier p v H) as L.
  generalize dependent (parse_identifier p). intros r0 L. destruct r0 as [[[[id w] p']|e]|w]; cbn [try_].
  - destruct L as (v2 & H2 & L). pose proof (src_parse_field_list fuel p' [] v2 H2) as L'.
    generalize dependent (parse_field_list fuel p' []). intros r1 L'. destruct r1 as [[[fs p'']|e]|w']; cbn [try_].
    + destruct L' as (v3 & H3 & L'). exists v3. split; [exact H3|]. intro K. to "Parser::parse_identifier". use L.
      to "Parser::parse_field_list". use L'. run. finish.
    + destruct L' as (v3 & L'). eexists. intro K. to "Parser::parse_identifier". use L.
      to "Parser::parse_field_list". use L'. run. finish.
    + destruct w'; try exact I; intro K; to "Parser::parse_identifier"; use L; to "Parser::parse_field_list"; use L'; finish.
  - destruct L as (w & L). eexists. intro K. to "Parser::parse_identifier". use L. run. finish.
  - destruct w; try exact I; intro K; to "Parser::parse_identifier"; use L; finish.
Qed.

(** The result of the function called last *)
Ltac last_ L v' H' :=
  lazymatch type of L with
  | match ?r with _ => _ end => destruct r as [[[? ?]|?]|[]];
      [destruct L as (v' & H' & L); exists v'; split; [exact H'|]; intro
      |destruct L as (v' & L); eexists; intro
      |intro..|exact I]
  end.
Lemma src_parse_statement fuel p : parses P "Parser::parse_statement" p [] e_node (parse_statement fuel p).
Proof.
  intros v H. pose proof (src_parse_directive fuel p v H) as L1. pose proof (src_parse_label p v H) as L2.
  pose proof (src_parse_instruction fuel p v H) as L3. unfold parse_statement. destruct p as [l c n]. cbn [p_scanner p_current p_next] in *.
  destruct c as [[]|].
  2: { last_ L1 v1 H1; see; to "Parser::parse_directive"; use L1; run; finish. }
  2: { destruct n as [[]|].
       4: { last_ L2 v1 H1; see; to "Parser::parse_label"; use L2; run; finish. }
       all: last_ L3 v1 H1; see; to "Parser::parse_instruction"; use L3; run; finish. }
  all: eexists; intro K; see; fail_.
Qed.

Definition settles (K : list frame) (s : state) (r : Base.run (result parse_error (list Parser.node))) : Prop :=
  match r with
  | Done r => exists w, reaches c8s s (Back (e_result e_parse_error (fun l => VVec (enc e_node l)) r) [w] K)
  | Crash OutOfFuel => True
  | Crash w => reaches c8s s (Panic w)
  end.
Lemma settles_trans K s s' r : reaches c8s s s' -> settles K s' r -> settles K s r.
Proof.
  intros H. destruct r as [?|[]]; cbn [settles]; try exact (fun x => x).
  1: intros (w & H'); exists w; exact (reaches_trans _ _ _ _ H H').
  all: intro H'; exact (reaches_trans _ _ _ _ H H').
Qed.
Lemma settles_end K s w r : reaches c8s s (Back (e_result e_parse_error (fun l => VVec (enc e_node l)) r) [w] K) -> settles K s (Done r).
Proof. intro H. exists w. exact H. Qed.

Lemma src_parse_statement_list fuel p v K : P v (p_scanner p) ->
  settles K (Call "Parser::parse_statement_list" [e_with v p] K) (parse_statement_list fuel p []).
Proof.
  intro H.
  assert (M : exists W k, reaches c8s (Call "Parser::parse_statement_list" [e_with v p] K)
                          (While W [("node_list", VVec []); ("self", e_with v p)] k) /\
    forall fuel p v acc, P v (p_scanner p) ->
      settles K (While W [("node_list", VVec (enc e_node acc)); ("self", e_with v p)] k) (parse_statement_list fuel p acc)).
  { do 2 eexists. split; [run; apply reaches_refl|]. clear fuel p v H.
    induction fuel as [|fuel IH]; intros p v acc H; [exact I|].
    pose proof (src_parse_statement (S fuel) p v H) as L.
    destruct p as [l c n]. cbn [p_scanner] in H.
    destruct c as [[]|]; cbn [parse_statement_list p_current].
    1, 8: next_ F H v1 H1 C1; refine (settles_trans _ _ _ _ _ (IH (mk_parser r n nx) v1 acc H1));
      unfold e_with at 1; cbn [p_current p_next e_option e_token]; apply reaches_step; to "Parser::consume_token"; use C1; run; finish.
    8: eapply settles_end; unfold e_with; cbn [p_current p_next e_option e_token]; again (calls_of []); finish.
    all: lazymatch goal with |- context [parse_statement ?f ?p] => generalize dependent (parse_statement f p) end; intros r L.
    all: destruct r as [[[nd p']|?]|w]; cbn [try_].
    all: try (destruct w; try exact I; cbn [settles]; unfold e_with at 1; cbn [p_current p_next e_option e_token]; apply reaches_step; to "Parser::parse_statement"; use L; finish).
    all: try (destruct L as (w & L); eapply settles_end; unfold e_with at 1; cbn [p_current p_next e_option e_token]; apply reaches_step; to "Parser::parse_statement"; use L; run; finish).
    all: destruct L as (v1 & H1 & L); refine (settles_trans _ _ _ _ _ (IH p' v1 (acc ++ [nd]) H1)); 
       unfold e_with at 1; cbn [p_current p_next e_option e_token]; apply reaches_step; to "Parser::parse_statement"; use L; run; 
       rewrite enc_app, enc_cons, enc_nil; finish. }
  destruct M as (W & k & M & N). exact (settles_trans _ _ _ _ M (N fuel p v [] H)).
Qed.
End Parser.

(** ** The two iterators: a list of tokens, and a scanner *)
Definition of_list (v : value) (l : list token) : Prop := v = VIter (enc e_token l).
Lemma feeds_list : feeds of_list.
Proof.
  intros v l c n ->. exists (VIter (enc e_token (tl l))). split; [reflexivity|].
  generalize (src_consume_iter l c n). rewrite consume_is. exact (fun H => H).
Qed.

Definition yields (sc : scanner) (l : list token) : Prop :=
  (exists file before s, sc = ScanProofs.at_ file before s /\ lexes file before s l) \/ (finished sc /\ l = []).
Lemma yields_next sc l : yields sc l -> exists sc', next_token sc = Done (hd_error l, sc') /\ yields sc' (tl l).
Proof.
  intros [(file & before & s & -> & L)|(H & ->)].
  2: { exists sc. split; [apply next_finished; exact H|]. right. split; [exact H|reflexivity]. }
  pose proof (next_token_spec file before s) as H. destruct H as
    [sc B D | w s' k m rest t -> Hw -> Lx T | w s' k m rest e sc -> Hw Lx B D | w c s' sc -> Hw Hc St D].
  - assert (l = []).
    { eapply lexes_det; [exact L|]. rewrite <- (app_nil_r s). apply lexes_blanks; [exact B|constructor]. }
    subst l. exists sc. split; [reflexivity|]. right. split; [exact D|reflexivity].
  - destruct (scan_fuel_lexes (S (length rest)) file ((before ++ w) ++ m) rest ltac:(lia)) as (ts' & _ & L').
    assert (l = t :: ts').
    { eapply lexes_det; [exact L|]. apply lexes_blanks; [exact Hw|]. eapply lex_token; eauto. }
    subst l. eexists. split; [reflexivity|]. left. do 3 eexists. split; [reflexivity|exact L'].
  - assert (l = [ErrorToken e (located file (before ++ w) m)]).
    { eapply lexes_det; [exact L|]. apply lexes_blanks; [exact Hw|]. eapply lex_bad; eauto. }
    subst l. eexists. split; [reflexivity|]. right. split; [exact D|reflexivity].
  - assert (l = [ErrorToken (no_lexeme_error c) (located file (before ++ w) [c])]).
    { eapply lexes_det; [exact L|]. apply lexes_blanks; [exact Hw|]. apply lex_stuck; assumption. }
    subst l. eexists. split; [reflexivity|]. right. split; [exact D|reflexivity].
Qed.

Definition of_scanner (v : value) (l : list token) : Prop := exists sc, v = e_scanner sc /\ yields sc l.
Lemma feeds_scanner : feeds of_scanner.
Proof.
  intros v l c n (sc & -> & Y). destruct (yields_next sc l Y) as (sc' & E & Y'). exists (e_scanner sc').
  split; [exists sc'; split; [reflexivity|exact Y']|]. generalize (src_consume_scanner sc l c n). rewrite E. exact (fun H => H).
Qed.

(** ** parser.rs:193-212 *)
Definition primes (P : value -> list token -> Prop) : Prop := forall v l, P v l -> exists v', P v' (p_scanner (parser_new l)) /\
  gives "Parser::new" [v] (Done (e_with v' (parser_new l))).
Lemma new_is l : parser_new l = mk_parser (tl (tl l)) (hd_error l) (hd_error (tl l)).
Proof. destruct l as [|? [|]]; reflexivity. Qed.
Lemma primes_list : primes of_list.
Proof.
  intros v l ->. exists (VIter (enc e_token (p_scanner (parser_new l)))). split; [reflexivity|]. intro K. run.
  destruct l as [|a [|b l]]; rewrite ?enc_cons, ?enc_nil; again (calls_of []); rewrite ?enc_cons, ?enc_nil; again (calls_of []); finish.
Qed.
Lemma primes_scanner : primes of_scanner.
Proof.
  intros v l (sc & -> & Y). destruct (yields_next sc l Y) as (sc1 & E1 & Y1). destruct (yields_next sc1 _ Y1) as (sc2 & E2 & Y2).
  exists (e_scanner sc2). rewrite new_is. split; [exists sc2; split; [reflexivity|exact Y2]|]. intro K.
  to "Scanner::next". use (src_next sc). rewrite E1. to "Scanner::next". use (src_next sc1). rewrite E2. run. finish.
Qed.

(** parser.rs:510-512 *)
Definition shaped (P : value -> list token -> Prop) : Prop := forall v l, P v l -> exists x, v = VIter x \/ exists y, v = VCon "Scanner" y.
Lemma shaped_list : shaped of_list.
Proof. intros v l ->. eexists. left. reflexivity. Qed.
Lemma shaped_scanner : shaped of_scanner.
Proof. intros v l (sc & -> & _). exists []. right. eexists. reflexivity. Qed.
Lemma src_parse P : feeds P -> primes P -> shaped P -> forall v l, P v l -> exists r, parse l = Done r /\
  gives "parse" [v] (Done (e_result e_parse_error (fun ns => VVec (enc e_node ns)) r)).
Proof.
  intros F Q R v l H. destruct (Q v l H) as (v' & H' & N). destruct (parse_total l) as (r & E). exists r. split; [exact E|].
  pose proof (fun K => src_parse_statement_list P F (S (length l)) (parser_new l) v' K H') as L.
  unfold parse in E. rewrite E in L. intro K. destruct (R v l H) as (x & [->|[y ->]]).
  all: to "Parser::new"; use N; to "Parser::parse_statement_list";
    match goal with |- reaches _ (Call _ _ ?k) _ => destruct (L k) as (w & L') end; use L'; destruct r; run; finish.
Qed.

(** ** The texts, parser.rs:49-79, 171-184 *)
Lemma src_field_fmt f : returns "InstructionField::fmt" [e_field f; VStr []] (Done (ok_ unit_, [e_field f; VStr (field_fmt f)])).
Proof. intro K. destruct f; cbn [e_field]; run; finish_fmt. Qed.
Lemma strs_enc l : v_strs (enc VStr l) = l.
Proof. unfold v_strs, enc. rewrite map_map. apply map_id. Qed.
Lemma many_0 (x y : str) l : (v_len (enc VStr (x :: y :: l)) =? 0) = false.
Proof. rewrite enc_length. apply N.eqb_neq. cbn [length]. lia. Qed.
Lemma many_1 (x y : str) l : (v_len (enc VStr (x :: y :: l)) =? 1) = false.
Proof. rewrite enc_length. apply N.eqb_neq. cbn [length]. lia. Qed.

(** The place a message is about *)
Definition placed (e : parse_error) : Prop :=
  match e with UnexpectedEndOfFile _ => True | UnexpectedToken _ t => 0 < l_location (token_location t) end.
Lemma src_parse_error_fmt e : placed e -> returns "parser::Error::fmt" [e_parse_error e; VStr []]
  match parse_error_fmt e with
  | Done s => Done (ok_ unit_, [e_parse_error e; VStr s])
  | Crash w => Crash w
  end.
Proof.
  intros H K. destruct e as [l|l t]; cbn [e_parse_error placed] in *; unfold e_strs.
  - destruct l as [|x [|y l]]; cbn [parse_error_fmt].
    + rewrite enc_nil. run_on (calls_of []). finish.
    + rewrite enc_cons, enc_nil. run_on (calls_of []). try_closed. run. finish_fmt.
    + pose proof (many_0 x y l). pose proof (many_1 x y l). run_on (calls_of []). rewrite strs_enc. finish_fmt.
  - pose proof (src_loc_fmt _ H) as L. pose proof (src_token_fmt t) as T.
    destruct t; cbn [token_location e_token parse_error_fmt] in *; generalize dependent (loc_fmt l0); intros s L.
    9: { pose proof (src_scan_error_fmt e) as X. generalize dependent (scan_error_fmt e). intros s' X. clear T.
         destruct l0 as [lf ll lc ln]. unfold e_loc in *. cbn [l_file l_line l_location l_length] in *. clear H.
         to "SourceFileLocation::fmt". use L.
         destruct e; cbn [e_scan_error] in *; to "scanner::Error::fmt"; use X.
         all: destruct l as [|x [|y l]]; [rewrite enc_nil|rewrite enc_cons, enc_nil|pose proof (many_0 x y l); pose proof (many_1 x y l)].
         all: run_on (calls_of ["SourceFileLocation::fmt"]); try (lazymatch goal with |- reaches _ (Panic _) _ => finish end).
         all: lazymatch goal with |- reaches _ (Try _ _ _) _ => try_closed; to "SourceFileLocation::fmt" | _ => idtac end.
         all: use L; lazymatch goal with
                | |- context [("f", VStr ?t)] =>
                    let G := fresh in
                    assert (G : exists a g, t = a :: g) by (destruct s; do 2 eexists; reflexivity);
                    destruct G as (? & ? & G); rewrite G; run; rewrite ?strs_enc; apply reaches_fmt; rewrite <- G; texts
                end. }
    all: destruct l0 as [lf ll lc ln]; unfold e_loc in *; cbn [l_file l_line l_location l_length] in *; clear H.
    all: lazymatch goal with |- context [token_fmt ?t] => pose proof (src_token_location t) as X; generalize dependent (token_fmt t) end; intros s' T.
    all: cbn [e_token token_location] in X; unfold e_loc in X.
    all: to "Token::location"; use X.
    all: destruct l as [|x [|y l]]; [rewrite enc_nil|rewrite enc_cons, enc_nil|pose proof (many_0 x y l); pose proof (many_1 x y l)].
    all: run_on (calls_of ["SourceFileLocation::fmt"]); try (lazymatch goal with |- reaches _ (Panic _) _ => finish end).
    all: lazymatch goal with |- reaches _ (Try _ _ _) _ => try_closed; to "SourceFileLocation::fmt" | _ => idtac end.
    all: use L; to "Token::fmt"; use T; run; rewrite ?strs_enc; finish_fmt.
Qed.
