(** * PropMessage: property C44, with instances. *)

From Verif Require Import Base Text U12 Location Token Scanner Parser Directive Instruction DataRange Assembler IHex Main
  SpecUtf8 SpecLex SpecGrammar SpecOpcode SpecLayout
  BaseFacts LexProofs ScanProofs LexTheorems ParseProofs LayoutProofs EmitProofs PipelineProofs FmtProofs
  PropLayout PropOutput PropText.
Open Scope string_scope.
Open Scope list_scope.
Open Scope N_scope.

(** ** Places *)

(** [t] is the decimal numeral of [n]. *)
Definition numeral (n : N) (t : str) : Prop :=
  t <> [] /\ forallb (among decimal_digits) t = true /\ positional 10 t = n /\
  (forall r, t = c_ "0" :: r -> r = []).

(** The text naming a file, a line, and the first and last column. *)
Inductive place (file : str) (line first last : N) : str -> Prop :=
| place_one : forall a b, first = last -> numeral line a -> numeral first b ->
    place file line first last (file ++ u ":" ++ a ++ u ":" ++ b)
| place_span : forall a b c, first < last -> numeral line a -> numeral first b -> numeral last c ->
    place file line first last (file ++ u ":" ++ a ++ u ":" ++ b ++ u "-" ++ c).

(** The place of the text [m] standing after [before]: the line, the column, and the
    column of the last character of [m] on that line. *)
Definition place_of (file before m t : str) : Prop :=
  let column := 1 + N.of_nat (length (last_line before)) in
  place file (1 + newlines before) column (column + N.of_nat (length (first_line m)) - 1) t.

Lemma fmt_numeral : forall n, numeral n (fmt_dec n).
Proof.
  intros n. destruct (fmt_dec_normal n) as (c & r & E & Z). split; [rewrite E; discriminate|].
  split; [apply fmt_dec_digits|]. split; [apply fmt_dec_value|].
  intros r' E'. rewrite E' in E. injection E as <- <-. rewrite E' in Z. specialize (Z eq_refl). injection Z as Z. exact Z.
Qed.

(** Numerals are unique. *)
Lemma numeral_unique : forall n t, numeral n t -> t = fmt_dec n.
Proof.
  assert (G : forall a b, forallb (among decimal_digits) a = true -> forallb (among decimal_digits) b = true ->
    length a = length b -> positional 10 a = positional 10 b -> a = b).
  { induction a as [|x a IH]; intros [|y b] A B L P; try discriminate; [reflexivity|].
    cbn [forallb length positional] in *. apply andb_true_iff in A, B. destruct A as [A1 A2], B as [B1 B2].
    injection L as L. rewrite <- is_digit_spec in A1, B1.
    assert (Ba : positional 10 a < 10 ^ N.of_nat (length a)).
    { apply positional_lt; [lia|]. intros c I. rewrite forallb_forall in A2. specialize (A2 c I).
      rewrite <- is_digit_spec in A2. apply dec_digit_value in A2. apply A2. }
    assert (Bb : positional 10 b < 10 ^ N.of_nat (length b)).
    { apply positional_lt; [lia|]. intros c I. rewrite forallb_forall in B2. specialize (B2 c I).
      rewrite <- is_digit_spec in B2. apply dec_digit_value in B2. apply B2. }
    rewrite <- L in *. set (k := 10 ^ N.of_nat (length a)) in *.
    assert (D : digit x = digit y) by nia.
    f_equal; [|apply IH; try assumption; nia].
    apply dec_digit_value in A1, B1. unfold is_digit in *.
    destruct A1 as [A1 _], B1 as [B1 _]. unfold to_digit in A1, B1.
    destruct ((c_ "0" <=? x) && (x <=? c_ "9")) eqn:X; [|exfalso; revert A1 ; 
      repeat match goal with |- context [if ?b then _ else _] => destruct b eqn:? end; intros A1; try discriminate;
      injection A1 as A1; change (c_ "a") with 97 in *; change (c_ "A") with 65 in *; change (c_ "f") with 102 in *; change (c_ "F") with 70 in *; lia].
    destruct ((c_ "0" <=? y) && (y <=? c_ "9")) eqn:Y; [|exfalso; revert B1 ; 
      repeat match goal with |- context [if ?b then _ else _] => destruct b eqn:? end; intros B1; try discriminate;
      injection B1 as B1; change (c_ "a") with 97 in *; change (c_ "A") with 65 in *; change (c_ "f") with 102 in *; change (c_ "F") with 70 in *; lia].
    destruct (x - c_ "0" <? 10); [|discriminate]. destruct (y - c_ "0" <? 10); [|discriminate].
    injection A1 as A1. injection B1 as B1. change (c_ "0") with 48 in *. lia. }
  assert (Len : forall n t, numeral n t -> (length t = 1%nat \/ 10 ^ N.of_nat (length t - 1) <= n) /\ n < 10 ^ N.of_nat (length t) /\ (1 <= length t)%nat).
  { intros n t (Ne & D & V & Z). destruct t as [|c t]; [contradiction|]. cbn [length]. split; [|split; [|lia]].
    - destruct t as [|c' t]; [left; reflexivity|right].
      cbn [Nat.sub length]. cbn [positional forallb] in V, D. apply andb_true_iff in D. destruct D as [Dc _].
      assert (digit c <> 0).
      { intros H. assert (c = c_ "0").
        { assert (K : forallb (fun c => (c =? c_ "0") || negb (digit c =? 0)) (u decimal_digits) = true) by (vm_compute; reflexivity).
          rewrite forallb_forall in K. unfold among in Dc. apply existsb_exists in Dc. destruct Dc as (d & I & E).
          apply N.eqb_eq in E. subst d. specialize (K c I). cbv beta in K. lia. }
        subst c. specialize (Z _ eq_refl). discriminate. }
      cbn [length] in V. nia.
    - rewrite <- V. change (S (length t)) with (length (c :: t)). apply positional_lt; [lia|]. intros x I.
      rewrite forallb_forall in D. specialize (D x I). rewrite <- is_digit_spec in D. apply dec_digit_value in D. apply D. }
  intros n t H. pose proof (fmt_numeral n) as F. pose proof (Len _ _ H) as [L1 [L2 L3]]. pose proof (Len _ _ F) as [M1 [M2 M3]].
  apply G; [apply H | apply F | | destruct H as (_ & _ & -> & _); destruct F as (_ & _ & -> & _); reflexivity].
  destruct (Nat.lt_trichotomy (length t) (length (fmt_dec n))) as [X|[X|X]]; [|exact X|]; exfalso.
  - destruct M1 as [M1|M1]; [lia|].
    assert (10 ^ N.of_nat (length t) <= 10 ^ N.of_nat (length (fmt_dec n) - 1)) by (apply N.pow_le_mono_r; lia). lia.
  - destruct L1 as [L1|L1]; [lia|].
    assert (10 ^ N.of_nat (length (fmt_dec n)) <= 10 ^ N.of_nat (length t - 1)) by (apply N.pow_le_mono_r; lia). lia.
Qed.

(** A place has one text. *)
Theorem C44_unique : forall file line first last t t', place file line first last t -> place file line first last t' -> t = t'.
Proof.
  intros file line first last t t' H H'.
  destruct H, H'; try lia; repeat match goal with N : numeral _ _ |- _ => apply numeral_unique in N end; congruence.
Qed.
Print Assumptions C44_unique.

Lemma loc_place : forall file before m, m <> [] -> place_of file before m (loc_fmt (located file before m)).
Proof.
  intros file before m Hm. unfold place_of, loc_fmt, located. cbn [l_file l_line l_location l_length].
  assert (L : (0 < length (first_line m))%nat) by (apply first_line_pos; exact Hm).
  destruct (N.of_nat (length (first_line m)) =? 1) eqn:E.
  - apply place_one; [lia | apply fmt_numeral | apply fmt_numeral].
  - apply place_span; [lia | apply fmt_numeral | apply fmt_numeral | apply fmt_numeral].
Qed.

(** ** Messages *)

(** The message is about the text [m] standing after [before]. *)
Definition about (file before m msg : str) : Prop :=
  exists t rest, place_of file before m t /\ msg = t ++ u ": error: " ++ rest.

Lemma about_loc : forall file before m rest, m <> [] ->
  about file before m (loc_fmt (located file before m) ++ u ": error: " ++ rest).
Proof. intros. do 2 eexists. split; [apply loc_place; assumption | reflexivity]. Qed.

(** Messages about an unexpected token. *)
Theorem C44_token : forall file s ts expected t msg,
  scan file s = Done ts -> parse ts = Done (Err (UnexpectedToken expected t)) ->
  parse_error_fmt (UnexpectedToken expected t) = Done msg ->
  exists before m after, s = before ++ m ++ after /\ m <> [] /\
    token_location t = located file before m /\ about file before m msg.
Proof.
  intros file s ts expected t msg S P F.
  destruct (parse_error_token _ _ _ P) as (b & a & E & _).
  destruct (scan_location file s ts (length b) t S) as (before & m & after & Es & Hm & El & _).
  { rewrite E, nth_error_app2, Nat.sub_diag by reflexivity. reflexivity. }
  exists before, m, after. split; [exact Es|]. split; [exact Hm|]. split; [exact El|].
  assert (X : exists rest, msg = loc_fmt (token_location t) ++ u ": error: " ++ rest).
  { destruct expected as [|x [|y r]]; destruct t; cbn [parse_error_fmt token_location] in F |- *; try discriminate;
      injection F as <-; eexists; rewrite <- ?app_assoc; apply (f_equal (app (loc_fmt _))); reflexivity. }
  destruct X as (rest & ->). rewrite El. apply about_loc. exact Hm.
Qed.
Print Assumptions C44_token.

(** The name of a statement. *)
Definition node_name (n : node) : str :=
  match n with NDirective _ id _ => id | NLabel _ id => id | NInstruction _ m _ => m end.

Lemma literals_suffix : forall ts args rest, literals ts args rest -> exists x, ts = x ++ rest.
Proof.
  induction 1 as [l rest|t a rest H|t a l ts args rest H _ (x & ->)]; [exists []; reflexivity | exists [t]; reflexivity |].
  exists (t :: Comma l :: x). reflexivity.
Qed.
Lemma fields_suffix : forall ts args rest, fields ts args rest -> exists x, ts = x ++ rest.
Proof.
  induction 1 as [l rest|c l rest|t a rest H|t a l ts args rest H _ (x & ->)];
    [exists []; reflexivity | exists []; reflexivity | exists [t]; reflexivity |].
  exists (t :: Comma l :: x). reflexivity.
Qed.

Lemma program_names : forall ts p, program ts p -> forall n, In n p -> In (Identifier (node_name n) (node_location n)) ts.
Proof.
  induction 1 as [|l ts ns H IH|c l ts ns H IH|l0 id l ts args rest ns L H IH|id l l1 ts ns H IH
                  |id l ts args rest ns L H IH]; intros n I.
  - destruct I.
  - right. auto.
  - right. auto.
  - destruct I as [<-|I]; [right; left; reflexivity|]. right. right.
    destruct (literals_suffix _ _ _ L) as (x & ->). apply in_or_app. right. auto.
  - destruct I as [<-|I]; [left; reflexivity|]. right. right. auto.
  - destruct I as [<-|I]; [left; reflexivity|]. right.
    destruct (fields_suffix _ _ _ L) as (x & ->). apply in_or_app. right. auto.
Qed.

Lemma semantic_place : forall e, exists rest, semantic_error_fmt e = loc_fmt (error_location e) ++ u ": error: " ++ rest.
Proof.
  intros []; cbn [semantic_error_fmt error_location]; eexists; apply (f_equal (app (loc_fmt _))); reflexivity.
Qed.

(** Messages about a statement name the place of its name. *)
Theorem C44_statement : forall file s ts p e,
  scan file s = Done ts -> parse ts = Done (Ok p) -> assemble p = Done (Err e) ->
  exists i n before after, nth_error p i = Some n /\
    (first (violates p) i e \/ first (unencodable p) i e) /\
    s = before ++ node_name n ++ after /\ about file before (node_name n) (semantic_error_fmt e).
Proof.
  intros file s ts p e S P A.
  destruct (C30_location p e (parsed_node_ok _ _ _ _ S P) A) as (i & n & Ni & El & V).
  apply parse_program in P. pose proof (program_names _ _ P n (nth_error_In _ _ Ni)) as I.
  apply In_nth_error in I. destruct I as (j & Nj).
  destruct (scan_location file s ts j _ S Nj) as (before & m & after & Es & Hm & Lm & _ & Tx).
  specialize (Tx eq_refl).
  assert (m = node_name n) by (inversion Tx; reflexivity). subst m.
  exists i, n, before, after. split; [exact Ni|]. split; [exact V|]. split; [exact Es|].
  destruct (semantic_place e) as (rest & ->). rewrite El. cbn [token_location] in Lm. rewrite Lm. apply about_loc. exact Hm.
Qed.
Print Assumptions C44_statement.

(** What the tool prints when it refuses a text. *)
Theorem C44_text : forall e file s msg, Forall scalar s -> assemble_text e file s = Done (Err msg) ->
  (exists rest, msg = u "error: Unexpected end-of-file reached, expecting " ++ rest) \/
  (exists before m after, s = before ++ m ++ after /\ m <> [] /\ about file before m msg) \/
  (exists rest, msg = program_error e (u "Input file specifies overlapping data ranges.") ++ rest).
Proof.
  intros e file s msg Sc H. unfold assemble_text in H.
  destruct (scan_total file s) as (ts & S). rewrite S in H. cbn [bind] in H.
  destruct (parse ts) as [[p|err]|] eqn:P; [| |discriminate]; cbn [bind] in H.
  - destruct (assemble p) as [[rs|err]|] eqn:A; [| |discriminate]; cbn [bind] in H.
    + destruct (Nat.ltb 0 (length (find_overlapping_ranges rs))).
      * destruct (overlap_report e (find_overlapping_ranges rs)); [|discriminate]. cbn [bind] in H.
        injection H as <-. right. right. eexists. reflexivity.
      * destruct (ihex_representation rs); discriminate.
    + injection H as <-. right. left.
      destruct (C44_statement file s ts p err S P A) as (i & n & before & after & Ni & _ & Es & (t & rest & Pl & ->)).
      exists before, (node_name n), after. split; [exact Es|]. split.
      * pose proof P as P'. apply parse_program in P'. pose proof (program_names _ _ P' n (nth_error_In _ _ Ni)) as I.
        apply In_nth_error in I. destruct I as (j & Nj).
        destruct (scan_location file s ts j _ S Nj) as (b' & m & a' & _ & Hm & _ & _ & Tx).
        specialize (Tx eq_refl). inversion Tx; subst. assumption.
      * exists t, (rest ++ [10]). split; [exact Pl|]. rewrite <- !app_assoc. reflexivity.
  - destruct err as [expected|expected t].
    + left. cbn [parse_error_fmt] in H. destruct expected as [|x [|y r]]; cbn [bind] in H; try discriminate;
        injection H as <-; eexists; rewrite <- !app_assoc; reflexivity.
    + destruct (parse_error_fmt (UnexpectedToken expected t)) as [m0|] eqn:F; [|discriminate]. cbn [bind] in H.
      injection H as <-. right. left.
      destruct (C44_token file s ts expected t m0 S P F) as (before & m & after & Es & Hm & _ & (pl & rest & Pl & ->)).
      exists before, m, after. split; [exact Es|]. split; [exact Hm|].
      exists pl, (rest ++ [10]). split; [exact Pl|]. rewrite <- !app_assoc. reflexivity.
Qed.
Print Assumptions C44_text.

Example C44_instance :
  assemble_text sample_env (u "in.s") (lines ["cls"; "  jp nowhere"]) =
    Done (Err (u "in.s:2:3-4: error: Unable to resolve label nowhere." ++ [10])) /\
  place_of (u "in.s") (lines ["cls"] ++ u "  ") (u "jp") (u "in.s:2:3-4") /\
  assemble_text sample_env (u "in.s") (lines ["cls"; "ld v0, :"]) =
    Done (Err (u "in.s:2:8: error: Unexpected token found: label marker, expecting instruction field." ++ [10])) /\
  place_of (u "in.s") (lines ["cls"] ++ u "ld v0, ") (u ":") (u "in.s:2:8").
Proof.
  assert (N : forall n, numeral n (fmt_dec n)) by exact fmt_numeral.
  evaluate.
  - exact (place_span (u "in.s") 2 3 4 (u "2") (u "3") (u "4") eq_refl (N 2) (N 3) (N 4)).
  - exact (place_one (u "in.s") 2 8 8 (u "2") (u "8") eq_refl (N 2) (N 8)).
Qed.
