(** * PropStream: properties C57 and C58, with instances. *)

From Verif Require Import Base Text U12 Location Token Scanner Parser Directive DataRange Assembler IHex Main
  SpecLex SpecGrammar SpecErase SpecStream StreamParser BaseFacts LexTheorems ParseProofs StreamProofs FirstProofs
  PropOutput PropText.
Open Scope string_scope.
Open Scope list_scope.
Open Scope N_scope.

(** ** C57: reading token by token. *)

(** Over any iterator the parser of the code is the parser over its tokens. *)
Theorem C57_parser : forall I (next : I -> run (option token * I)) i ts n, delivers next i ts ->
  (length ts < n)%nat -> stream_parse next n i = parse ts.
Proof. exact stream_parse_list. Qed.

(** The scanner is such an iterator. *)
Theorem C57_scanner : forall file s ts, lexes file [] s ts -> delivers next_token (scanner_new file s) ts.
Proof. intros file s ts L. apply scanner_delivers. apply scan_lexes. exact L. Qed.

(** Together they accept the grammar, without ever looping. *)
Theorem C57_grammar : forall file s n p, (length s < n)%nat ->
  stream_parse next_token n (scanner_new file s) = Done (Ok p) <->
  exists ts, lexes file [] s ts /\ program ts p.
Proof.
  intros file s n p L. destruct (scan_total file s) as (ts & S). rewrite (stream_parse_text _ _ _ _ S L).
  split.
  - intros P. exists ts. split; [apply scan_lexes; exact S | apply parse_program; exact P].
  - intros (ts' & L' & P). apply scan_lexes in L'. assert (ts' = ts) by congruence. subst ts'.
    apply parse_program. exact P.
Qed.

Theorem C57_tool : forall e file s, assemble_stream e file s = assemble_text e file s.
Proof. exact assemble_stream_text. Qed.

Print Assumptions C57_parser.
Print Assumptions C57_scanner.
Print Assumptions C57_grammar.
Print Assumptions C57_tool.

(** Another iterator: a list, counting the calls. *)
Definition counting (i : nat * list token) : run (option token * (nat * list token)) :=
  match i with
  | (w, t :: r) => Done (Some t, (S w, r))
  | (w, []) => Done (None, (S w, []))
  end.

Lemma counting_delivers : forall ts w, delivers counting (w, ts) ts.
Proof.
  intros ts w n. revert ts w. induction n as [|n IH]; intros ts w; [eexists; reflexivity|].
  cbn [pulls]. destruct ts as [|t r]; cbn [counting bind].
  - destruct (IH [] (S w)) as (i & E). rewrite E. cbn [bind]. eexists. rewrite firstn_nil.
    cbn [firstn map app length]. rewrite !Nat.sub_0_r. reflexivity.
  - destruct (IH r (S w)) as (i & E). rewrite E. cbn [bind]. eexists. reflexivity.
Qed.

Example C57_instance : exists p,
  stream_parse counting 6 (0%nat, [DirectiveMarker nowhere; Identifier (u "db") nowhere; NumericLiteral 7 nowhere;
                              Newline nowhere; Identifier (u "cls") nowhere])
    = Done (Err (UnexpectedEndOfFile [u "instruction field"])) /\
  stream_parse next_token 100 (scanner_new (u "a.s") (lines [".db 7,"; "x: jp x"])) = Done (Ok p) /\
  length p = 3%nat /\
  assemble_stream sample_env (u "a.s") (lines [".org 1"; ".db 7,"]) =
    Done (Ok (u ":0100010007F7" ++ [10] ++ u ":00000001FF" ++ [10])).
Proof. eexists. split; [|split; [|split]]; vm_compute; reflexivity. Qed.

(** ** C58: the first syntax error is reported whatever follows it. *)

Theorem C58_tokens : forall ts expected t, parse ts = Done (Err (UnexpectedToken expected t)) ->
  exists before after, ts = before ++ t :: after /\
    forall after', parse (before ++ t :: after') = Done (Err (UnexpectedToken expected t)).
Proof. exact parse_first_error. Qed.

(** For texts: the lines after it do not matter -- except that they can close a string. *)
Theorem C58_lines : forall e file a b ts expected t,
  scan file (a ++ [LF]) = Done ts -> parse ts = Done (Err (UnexpectedToken expected t)) ->
  (forall l, t <> ErrorToken InvalidStringLiteral l) ->
  assemble_text e file (a ++ LF :: b) = assemble_text e file (a ++ [LF]).
Proof.
  intros e file a b ts expected t S P Q. destruct (scan_total file (a ++ LF :: b)) as (ts' & S').
  unfold assemble_text. rewrite S, S'. cbn [bind].
  rewrite (parse_first_lines file a b ts ts' expected t S S' P Q). reflexivity.
Qed.

Theorem C58_string : exists file a b ts expected l image,
  scan file (a ++ [LF]) = Done ts /\
  parse ts = Done (Err (UnexpectedToken expected (ErrorToken InvalidStringLiteral l))) /\
  assemble_text sample_env file (a ++ LF :: b) = Done (Ok image).
Proof.
  exists (u "a.s"), (u ".org 1" ++ LF :: u ".db " ++ [QUOTE]), (QUOTE :: [LF]). do 4 eexists.
  split; [vm_compute; reflexivity|]. split; [vm_compute; reflexivity|]. vm_compute. reflexivity.
Qed.

Print Assumptions C58_tokens.
Print Assumptions C58_lines.
Print Assumptions C58_string.

(** An error on the second line; on the third, a string that does not end. *)
Example C58_instance : exists ts expected t,
  scan (u "a.s") ((u "cls" ++ LF :: u "1 ret") ++ [LF]) = Done ts /\
  parse ts = Done (Err (UnexpectedToken expected t)) /\
  (forall l, t <> ErrorToken InvalidStringLiteral l) /\
  assemble_text sample_env (u "a.s") (lines ["cls"; "1 ret"] ++ [QUOTE]) =
  assemble_text sample_env (u "a.s") (lines ["cls"; "1 ret"]).
Proof.
  do 3 eexists. split; [vm_compute; reflexivity|]. split; [vm_compute; reflexivity|].
  split; [intros l; discriminate | vm_compute; reflexivity].
Qed.
