(** * PropPlace: property C66, with instances. *)

From Verif Require Import Base Text U12 Location Token Scanner Parser Directive Instruction DataRange Assembler IHex Main
  SpecUtf8 SpecLex SpecGrammar SpecOpcode SpecLayout SpecPlace
  BaseFacts LexProofs ScanProofs LexTheorems ParseProofs LayoutProofs EmitProofs PipelineProofs FmtProofs PlaceProofs
  PropLayout PropOutput PropText PropMessage.
Open Scope string_scope.
Open Scope list_scope.
Open Scope N_scope.

(** ** Places are only passed on *)

Theorem C66_parser : forall g ts,
  parse (map (token_via g) ts) = outcome_via (syntax_error_via g) (map (node_via g)) (parse ts).
Proof. exact parse_via. Qed.
Print Assumptions C66_parser.

Theorem C66_assembler : forall g p,
  assemble (map (node_via g) p) = outcome_via (semantic_error_via g) (fun rs => rs) (assemble p).
Proof. exact assemble_via. Qed.
Print Assumptions C66_assembler.

(** ** Lines put before a text *)

Theorem C66_tokens : forall file s ts file' k pre, scan file s = Done ts -> idle_lines k pre ->
  exists idle, scan file' (pre ++ s) = Done (idle ++ map (token_via (further file' k)) ts) /\
    Forall (fun t => match t with Newline _ | SingleLineComment _ _ => True | _ => False end) idle.
Proof.
  intros file s ts file' k pre S I. destruct (reading_further file s ts S file' k pre I) as (ts' & S' & idle & F & ->).
  exists idle. split; [exact S'|]. apply Forall_forall. rewrite forallb_forall in F. intros t J. specialize (F t J).
  destruct t; discriminate || exact Logic.I.
Qed.
Print Assumptions C66_tokens.

(** A message with the place put in where there is [None]. *)
Definition fill (t : list (option str)) (here : str) : str :=
  flat_map (fun x => match x with Some text => text | None => here end) t.

Lemma place_loc : forall l, 0 < l_length l ->
  place (l_file l) (l_line l) (l_location l) (l_location l + l_length l - 1) (loc_fmt l).
Proof.
  intros l P. unfold loc_fmt. destruct (l_length l =? 1) eqn:E.
  - apply place_one; [lia | apply fmt_numeral | apply fmt_numeral].
  - apply place_span; [lia | apply fmt_numeral | apply fmt_numeral | apply fmt_numeral].
Qed.

Lemma located_positive : forall file before m, m <> [] -> 0 < l_length (located file before m).
Proof. intros file before m H. cbn [located l_length]. apply first_line_pos in H. lia. Qed.

(** The text of a syntax error about a token. *)
Lemma token_message : forall expected t msg, parse_error_fmt (UnexpectedToken expected t) = Done msg ->
  exists parts, forall g, 
    msg = fill (None :: parts) (loc_fmt (token_location t)) /\
    parse_error_fmt (syntax_error_via g (UnexpectedToken expected t)) =
      Done (fill (None :: parts) (loc_fmt (g (token_location t)))).
Proof.
  intros expected t msg F.
  assert (O : forall a b : str, a ++ b = fill [None; Some b] a).
  { intros a b. cbn [fill flat_map]. rewrite app_nil_r. reflexivity. }
  assert (T : forall (a b c : str), (a ++ b) ++ a ++ c = fill [None; Some b; None; Some c] a).
  { intros a b c. cbn [fill flat_map]. rewrite app_nil_r, <- app_assoc. reflexivity. }
  destruct expected as [|x [|y r]]; [destruct t; discriminate| |];
    destruct t; cbn [parse_error_fmt token_location] in F; injection F as <-;
    match goal with
    | |- context [scan_error_fmt ?e] => eexists [Some _; None; Some _]
    | _ => eexists [Some _]
    end; intros g; (split; [|cbn [syntax_error_via token_via parse_error_fmt token_location]; apply f_equal]);
    first [apply T | apply O].
Qed.

Lemma semantic_message : forall e, exists parts, forall g,
  semantic_error_fmt e = fill (None :: parts) (loc_fmt (error_location e)) /\
  semantic_error_fmt (semantic_error_via g e) = fill (None :: parts) (loc_fmt (g (error_location e))).
Proof.
  assert (O : forall a b : str, a ++ b = fill [None; Some b] a).
  { intros a b. cbn [fill flat_map]. rewrite app_nil_r. reflexivity. }
  intros e. destruct e; eexists [Some _]; intros g; cbn [semantic_error_via semantic_error_fmt error_location];
    (split; [apply O | apply O]).
Qed.

(** What the tool says of the text in another file, below some idle lines. *)
Theorem C66_output : forall e file s text file' k pre, idle_lines k pre ->
  assemble_text e file s = Done (Ok text) -> assemble_text e file' (pre ++ s) = Done (Ok text).
Proof.
  intros e file s text file' k pre I H. unfold assemble_text in *.
  destruct (scan file s) as [ts|] eqn:S; [|discriminate]. destruct (reading_further file s ts S file' k pre I) as (ts' & S' & idle & F & ->).
  rewrite S'. cbn [bind] in *. rewrite (parse_idle _ _ F), parse_via.
  destruct (parse ts) as [[p|err]|]; [| |discriminate]; cbn [bind outcome_via] in *.
  - rewrite assemble_via. destruct (assemble p) as [[rs|err]|]; [| |discriminate]; cbn [bind outcome_via] in *; [exact H | discriminate].
  - destruct (parse_error_fmt err); discriminate.
Qed.
Print Assumptions C66_output.

Theorem C66_message : forall e file s msg file' k pre, idle_lines k pre ->
  assemble_text e file s = Done (Err msg) ->
  (exists line first last here there parts,
     place file line first last here /\ place file' (line + k) first last there /\
     msg = fill (None :: parts) here /\
     assemble_text e file' (pre ++ s) = Done (Err (fill (None :: parts) there))) \/
  (assemble_text e file' (pre ++ s) = Done (Err msg) /\
   exists rest, msg = u "error: Unexpected end-of-file reached" ++ rest \/
     msg = program_error e (u "Input file specifies overlapping data ranges.") ++ rest).
Proof.
  intros e file s msg file' k pre I H. unfold assemble_text in *.
  destruct (scan file s) as [ts|] eqn:S; [|discriminate]. destruct (reading_further file s ts S file' k pre I) as (ts' & S' & idle & F & ->).
  rewrite S'. cbn [bind] in *. rewrite (parse_idle _ _ F), parse_via.
  assert (Pl : forall l, l_file l = file -> 0 < l_length l -> forall parts rest,
    rest = Done (Err (fill (None :: parts) (loc_fmt (further file' k l)) ++ [10])) ->
    exists line first last here there parts',
     place file line first last here /\ place file' (line + k) first last there /\
     fill (None :: parts) (loc_fmt l) ++ [10] = fill (None :: parts') here /\
     rest = Done (Err (fill (None :: parts') there) : result str str)).
  { intros l Lf Ll parts rest ->. exists (l_line l), (l_location l), (l_location l + l_length l - 1), (loc_fmt l), (loc_fmt (further file' k l)),
      (parts ++ [Some [10]]). split; [rewrite <- Lf; apply place_loc; exact Ll|].
    split; [apply (place_loc (further file' k l)); exact Ll|].
    assert (X : forall pl, fill (None :: parts) pl ++ [10] = fill (None :: parts ++ [Some [10]]) pl).
    { intros pl. unfold fill. cbn [flat_map]. rewrite flat_map_app. cbn [flat_map]. rewrite app_nil_r, app_assoc. reflexivity. }
    rewrite !X. split; reflexivity. }
  destruct (parse ts) as [[p|err]|] eqn:P; [| |discriminate]; cbn [bind outcome_via] in *.
  - rewrite assemble_via. destruct (assemble p) as [[rs|err]|] eqn:A; [| |discriminate]; cbn [bind outcome_via] in *.
    + right. split; [exact H|]. destruct (Nat.ltb 0 (length (find_overlapping_ranges rs))).
      * destruct (overlap_report e (find_overlapping_ranges rs)); [|discriminate]. cbn [bind] in H.
        injection H as <-. eexists. right. reflexivity.
      * destruct (ihex_representation rs); discriminate.
    + left. injection H as <-.
      destruct (C30_location p err (parsed_node_ok _ _ _ _ S P) A) as (i & n & Ni & El & _).
      pose proof P as P'. apply parse_program in P'. pose proof (program_names _ _ P' n (nth_error_In _ _ Ni)) as J.
      apply In_nth_error in J. destruct J as (j & Nj).
      destruct (scan_location file s ts j _ S Nj) as (before & m & after & _ & Hm & Lm & _).
      cbn [token_location] in Lm. rewrite Lm in El.
      destruct (semantic_message err) as (parts & M). destruct (M (further file' k)) as [M1 M2]. rewrite M1.
      apply Pl; [rewrite El; reflexivity | rewrite El; apply located_positive; exact Hm | rewrite M2; reflexivity].
  - destruct err as [expected|expected t].
    + right. split; [exact H|]. cbn [parse_error_fmt] in H.
      destruct expected as [|x [|y r]]; cbn [bind] in H; try discriminate;
        injection H as <-; eexists; left; rewrite <- !app_assoc; reflexivity.
    + left. destruct (parse_error_fmt (UnexpectedToken expected t)) as [m0|] eqn:Fm; [|discriminate]. cbn [bind] in H.
      injection H as <-. destruct (token_message _ _ _ Fm) as (parts & M). destruct (M (further file' k)) as [-> M2].
      rewrite M2. cbn [bind].
      destruct (parse_error_token _ _ _ P) as (b & a & E & _).
      destruct (scan_location file s ts (length b) t S) as (before & m & after & Es & Hm & El & _).
      { rewrite E, nth_error_app2, Nat.sub_diag by reflexivity. reflexivity. }
      apply Pl; [rewrite El; reflexivity | rewrite El; apply located_positive; exact Hm | reflexivity].
Qed.
Print Assumptions C66_message.

Definition two_idle : str := lines ["; title"; "  "].

Example C66_instance :
  idle_lines 2 two_idle /\
  assemble_text sample_env (u "in.s") (lines ["cls"; "  jp nowhere"]) =
    Done (Err (u "in.s:2:3-4: error: Unable to resolve label nowhere." ++ [10])) /\
  assemble_text sample_env (u "b.s") (two_idle ++ lines ["cls"; "  jp nowhere"]) =
    Done (Err (u "b.s:4:3-4: error: Unable to resolve label nowhere." ++ [10])) /\
  assemble_text sample_env (u "in.s") (u "ld v0, ?") =
    Done (Err (lines ["in.s:1:8: error: Encountered syntax error: Invalid character '?'.";
                      "in.s:1:8: error: Expecting instruction field."])) /\
  assemble_text sample_env (u "b.s") (two_idle ++ u "ld v0, ?") =
    Done (Err (lines ["b.s:3:8: error: Encountered syntax error: Invalid character '?'.";
                      "b.s:3:8: error: Expecting instruction field."])) /\
  assemble_text sample_env (u "b.s") (two_idle ++ u "cls") = assemble_text sample_env (u "in.s") (u "cls").
Proof.
  split.
  { apply (idle_comment 1 [] (u " title") (lines ["  "])); [reflexivity | reflexivity |].
    apply (idle_blank 0 (u "  ") []); [reflexivity | constructor]. }
  split; [vm_compute; reflexivity|]. split; [vm_compute; reflexivity|]. split; [vm_compute; reflexivity|].
  split; [vm_compute; reflexivity|]. vm_compute; reflexivity.
Qed.
