(** * PropMode: property C97, with instances. *)

From Verif Require Import Base Text U12 Location Token Scanner Parser Directive DataRange Assembler IHex Main
  SpecUtf8 SpecLex SpecGrammar SpecErase SpecCode SpecBlank SpecMode BaseFacts LexTheorems LexCode ParseProofs LexAppend TextProofs TextCode
  PropOutput PropText ModeProofs.
Open Scope string_scope.
Open Scope list_scope.
Open Scope N_scope.

(** ** C97: comments and strings can be found without scanning.

    The machine of SpecMode has four states and reads one character at a time. *)

(** In a text without lexical errors it finds the comments and strings of the scanner, and does not end in a string. *)
Theorem C97_found : forall file s ts, scan file s = Done ts -> existsb is_error_token ts = false ->
  comments ts = comments_in InCode s /\ strings ts = strings_in InCode s /\
  (mode_after InCode s = InCode \/ mode_after InCode s = InComment).
Proof.
  intros file s ts S Ne. apply scan_lexes in S. destruct (lexes_modes _ _ _ _ S Ne) as (M & C & T & _). auto.
Qed.
Print Assumptions C97_found.

(** No token, not even an error, begins inside a comment or a string; only the newline after a comment is read as the
    end of it. *)
Theorem C97_starts : forall file s ts i t, scan file s = Done ts -> nth_error ts i = Some t ->
  exists before m after, s = before ++ m ++ after /\ m <> [] /\ token_location t = located file before m /\
    (mode_after InCode before = InCode \/ (mode_after InCode before = InComment /\ exists r, m = LF :: r)).
Proof.
  intros file s ts i t S Nth. apply scan_lexes in S. exact (lexes_starts _ _ _ _ S i t Nth).
Qed.
Print Assumptions C97_starts.

(** Outside comments and strings there are only letters, digits, nine other characters, newlines and blanks. *)
Theorem C97_characters : forall file s ts, scan file s = Done ts -> existsb is_error_token ts = false ->
  forallb code_char (code_in InCode s) = true.
Proof.
  intros file s ts S Ne. apply scan_lexes in S. apply (lexes_modes _ _ _ _ S Ne).
Qed.
Print Assumptions C97_characters.

(** Each of these does occur there. *)
Definition with_char (c : char) : str :=
  if among letters c || among decimal_digits c || among "_" c then [c_ "a"; c; c_ ":"]
  else if c =? LF then [LF]
  else if blank c then [c]
  else u ".db $1, #2, %1" ++ [LF] ++ u "a: ld [i], v0".

Theorem C97_exact : forall c, code_char c = true <-> exists file s p, parsed file s p /\ In c (code_in InCode s).
Proof.
  intros c. split.
  - intros C.
    assert (G : forall s, match scan (u "f") s with Done ts => match parse ts with Done (Ok _) => true | _ => false end | _ => false end = true ->
      exists p, parsed (u "f") s p).
    { intros s H. destruct (scan (u "f") s) as [ts|] eqn:S; [|discriminate H]. destruct (parse ts) as [[p|]|] eqn:P; try discriminate H.
      exists p, ts. auto. }
    assert (F : forall l, forallb (fun c => match scan (u "f") (with_char c) with Done ts => match parse ts with Done (Ok _) => true | _ => false end | _ => false end
                            && existsb (N.eqb c) (code_in InCode (with_char c))) l = true -> In c l ->
      exists file s p, parsed file s p /\ In c (code_in InCode s)).
    { intros l H I. rewrite forallb_forall in H. specialize (H c I). apply andb_true_iff in H. destruct H as [H1 H2].
      destruct (G _ H1) as (p & P). exists (u "f"), (with_char c), p. split; [exact P|].
      apply existsb_exists in H2. destruct H2 as (d & D & E). apply N.eqb_eq in E. subst d. exact D. }
    unfold code_char in C.
    apply orb_true_iff in C. destruct C as [C|C].
    + apply orb_true_iff in C. destruct C as [C|C]; [|apply N.eqb_eq in C; subst c; apply (F [LF]); [vm_compute; reflexivity | left; reflexivity]].
      assert (I : In c (u letters ++ u decimal_digits ++ u "_.:,$#%[]")).
      { apply orb_true_iff in C. destruct C as [C|C]; [apply orb_true_iff in C; destruct C as [C|C]|];
          unfold among in C; apply existsb_exists in C; destruct C as (d & D & E); apply N.eqb_eq in E; subst d; rewrite !in_app_iff; auto. }
      revert I. apply F. vm_compute. reflexivity.
    + unfold blank in C. apply existsb_exists in C. destruct C as (d & D & E). apply N.eqb_eq in E. subst d. revert D. apply F.
      vm_compute. reflexivity.
  - intros (file & s & p & (ts & S & P) & I). apply scan_lexes in S. apply parse_program in P.
    destruct (lexes_modes _ _ _ _ S (program_errors _ _ P)) as (_ & _ & _ & F). rewrite forallb_forall in F. exact (F c I).
Qed.
Print Assumptions C97_exact.

Lemma same_parsed : forall e file s s' p, parsed file s p -> parsed file s' p -> assemble_text e file s = assemble_text e file s'.
Proof.
  intros e file s s' p (ts & S & P) (ts' & S' & P'). unfold assemble_text. rewrite S, S'. cbn [bind]. rewrite P, P'. reflexivity.
Qed.

(** A text whose comments all end in newlines is the same program without them, at the same places. *)
Theorem C97_without : forall file s p, parsed file s p -> mode_after InCode s = InCode ->
  parsed file (without_comments InCode s) p.
Proof.
  intros file s p (ts & S & P) M. apply scan_lexes in S. pose proof P as P0. apply parse_program in P0.
  pose proof (program_errors _ _ P0) as Ne.
  destruct (lexes_without _ _ _ _ S Ne M []) as (ts' & L' & U); [split; [reflexivity | left; reflexivity]|].
  exists ts'. split; [apply scan_lexes; exact L'|]. apply parse_program. exact (program_without _ _ P0 _ U).
Qed.
Print Assumptions C97_without.

Lemma without_app : forall s m t, without_comments m (s ++ t) = without_comments m s ++ without_comments (mode_after m s) t.
Proof.
  induction s as [|c s IH]; intros m t; [reflexivity|]. cbn [app without_comments mode_after]. cbv zeta. rewrite IH.
  destruct (next_mode m c); reflexivity.
Qed.

Lemma mode_app : forall s m t, mode_after m (s ++ t) = mode_after (mode_after m s) t.
Proof. induction s as [|c s IH]; intros m t; [reflexivity|]. cbn [app mode_after]. apply IH. Qed.

(** In any case it is without them if a newline is added. *)
Theorem C97_without_last : forall file s p, parsed file s p -> parsed file (without_comments InCode s ++ [LF]) p.
Proof.
  intros file s p P.
  assert (M : mode_after InCode s = InCode \/ mode_after InCode s = InComment).
  { destruct P as (ts & S & P). apply scan_lexes in S. apply parse_program in P. exact (proj1 (lexes_modes _ _ _ _ S (program_errors _ _ P))). }
  assert (P1 : parsed file (s ++ [LF]) p) by (apply parsed_stands, newline_added, parsed_stands; exact P).
  apply C97_without in P1; [|rewrite mode_app; destruct M as [-> | ->]; reflexivity].
  rewrite without_app in P1. destruct M as [E | E]; rewrite E in P1; exact P1.
Qed.
Print Assumptions C97_without_last.

(** So the tool writes the same file, or says the same about the program. *)
Theorem C97_output : forall e file s p, parsed file s p -> mode_after InCode s = InCode ->
  assemble_text e file (without_comments InCode s) = assemble_text e file s.
Proof. intros e file s p P M. exact (same_parsed _ _ _ _ _ (C97_without _ _ _ P M) P). Qed.
Print Assumptions C97_output.

(** What comments say is of no consequence: texts which differ in that only have the same outcome, be it a file or a
    message, unless the message is that a comment must not stand where it does; then it is that for both, at the same
    place. *)
Theorem C97_said : forall e file s s', same_but_comments InCode s s' ->
  assemble_text e file s = assemble_text e file s' \/
  exists ts ts' expected c c' l l', scan file s = Done ts /\ scan file s' = Done ts' /\
    parse ts = Done (Err (UnexpectedToken expected (SingleLineComment c l))) /\
    parse ts' = Done (Err (UnexpectedToken expected (SingleLineComment c' l'))) /\
    l_file l = l_file l' /\ l_line l = l_line l' /\ l_location l = l_location l'.
Proof.
  intros e file s s' H. destruct (scan_total file s) as (ts & S). pose proof S as L. apply scan_lexes in L.
  destruct (lexes_recommented _ _ _ _ L false [] s' H eq_refl (or_introl eq_refl)) as (ts' & L' & U).
  pose proof L' as S'. apply scan_lexes in S'.
  destruct (parse_total ts) as ([p|err] & P).
  - left. apply (same_parsed e file s s' p); [exists ts; auto|]. exists ts'. split; [exact S'|]. apply parse_program.
    apply parse_program in P. exact (program_recommented _ _ P _ _ U).
  - destruct (refused_recommented _ _ _ U P) as [P'|(ex & c & c' & l & l' & E1 & E2 & E3 & -> & P')].
    + left. unfold assemble_text. rewrite S, S'. cbn [bind]. rewrite P, P'. reflexivity.
    + right. exists ts, ts', ex, c, c', l, l'. auto 10.
Qed.
Print Assumptions C97_said.

Lemma sc_after : forall a s s' m, same_but_comments (mode_after m a) s s' -> same_but_comments m (a ++ s) (a ++ s').
Proof. induction a as [|c a IH]; intros s s' m H; [exact H|]. cbn [app]. apply sc_char, IH. exact H. Qed.

Lemma sc_inside : forall x x' r, existsb (N.eqb LF) x = false -> existsb (N.eqb LF) x' = false ->
  same_but_comments InComment (x ++ r) (x' ++ r).
Proof.
  intros x x' r N N'. induction x as [|c x IH].
  - induction x' as [|c x' IH]; [apply sc_refl|]. cbn [existsb] in N'. apply orb_false_iff in N'. destruct N' as [C N'].
    apply sc_right; [intros ->; discriminate C | exact (IH N')].
  - cbn [existsb] in N. apply orb_false_iff in N. destruct N as [C N].
    apply sc_left; [intros ->; discriminate C | exact (IH N)].
Qed.

(** In particular one comment may be put for another. *)
Theorem C97_another : forall a x x' b, mode_after InCode a = InCode -> existsb (N.eqb LF) x = false -> existsb (N.eqb LF) x' = false ->
  same_but_comments InCode (a ++ c_ ";" :: x ++ LF :: b) (a ++ c_ ";" :: x' ++ LF :: b).
Proof.
  intros a x x' b M N N'. apply sc_after. rewrite M. apply sc_char. cbn [next_mode]. change (c_ ";" =? QUOTE) with false.
  rewrite N.eqb_refl. apply sc_inside; assumption.
Qed.
Print Assumptions C97_another.

(** Semicolons in strings, quotes in comments, a quote and a backslash in a string. *)
Definition tangled : str := lines
  ["; say ""no"; ".org $200 ; at "; ".db ""; \"" \\"", 3 ; ""; "; "cls;;"].

Example C97_instance :
  comments_in InCode tangled = [u "; say ""no"; u "; at "; u "; ""; "; u ";;"] /\
  strings_in InCode tangled = [u "; \"" \\"] /\ mode_after InCode tangled = InCode /\
  without_comments InCode tangled = lines [""; ".org $200 "; ".db ""; \"" \\"", 3 "; "cls"] /\
  code_in InCode tangled = lines [""; ".org $200 "; ".db , 3 "; "cls"] /\
  (exists p, parsed (u "in.s") tangled p) /\
  assemble_text sample_env (u "in.s") tangled = Done (Ok (lines [":0A0200003B205C22205C5C0300E060"; ":00000001FF"])) /\
  assemble_text sample_env (u "in.s") (without_comments InCode tangled) = assemble_text sample_env (u "in.s") tangled.
Proof.
  split; [vm_compute; reflexivity|]. split; [vm_compute; reflexivity|]. split; [vm_compute; reflexivity|].
  split; [vm_compute; reflexivity|]. split; [vm_compute; reflexivity|].
  split; [unfold parsed; do 2 eexists; split; [vm_compute; reflexivity | vm_compute; reflexivity]|].
  split; [vm_compute; reflexivity | vm_compute; reflexivity].
Qed.

(** The conditions are needed.  Without its comment a list may go on, and a last mnemonic has nothing after it. *)
Example C97_needed :
  (exists message, assemble_text sample_env (u "in.s") (lines [".db 1, ; one"; ".db 2"]) = Done (Err message)) /\
  (exists text, assemble_text sample_env (u "in.s") (without_comments InCode (lines [".db 1, ; one"; ".db 2"])) = Done (Ok text)) /\
  (exists p, parsed (u "in.s") (u "cls ; x") p) /\ mode_after InCode (u "cls ; x") = InComment /\
  (exists message, assemble_text sample_env (u "in.s") (without_comments InCode (u "cls ; x")) = Done (Err message)).
Proof.
  split; [eexists; vm_compute; reflexivity|]. split; [eexists; vm_compute; reflexivity|].
  split; [unfold parsed; do 2 eexists; split; [vm_compute; reflexivity | vm_compute; reflexivity]|]. split; [reflexivity|]. eexists. vm_compute. reflexivity.
Qed.

(** Another comment, and the same message about the line below it. *)
Example C97_message :
  let s := fun x => lines ["cls ; "] ++ u "jp v1 ;" ++ u x ++ LF :: u "ld 5, 5" in
  same_but_comments InCode (s "one") (s " another, ""longer"" one") /\
  assemble_text sample_env (u "in.s") (s "one") =
    Done (Err (u "in.s:2:1-2: error: No matching instruction: jp register:1." ++ [LF])).
Proof.
  cbv zeta. split.
  - exact (C97_another (lines ["cls ; "] ++ u "jp v1 ") (u "one") (u " another, ""longer"" one") (u "ld 5, 5") eq_refl eq_refl eq_refl).
  - vm_compute. reflexivity.
Qed.
