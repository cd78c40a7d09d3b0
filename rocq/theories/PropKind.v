(** * PropKind: property C96, with instances. *)

From Verif Require Import Base Text U12 Location Token Scanner Parser Directive DataRange Assembler IHex Main
  SpecLex SpecGrammar SpecErase SpecCode SpecWrite SpecKind BaseFacts LexProofs ScanProofs LexTheorems ParseProofs TextProofs TextCode LexAppend WriteProofs
  KindProofs PropText.
Open Scope string_scope.
Open Scope list_scope.
Open Scope N_scope.

(** ** C96: syntax is a matter of the kinds of the tokens. *)

(** Tokens of the same kinds as those of a program are a program, of statements of the same shapes. *)
Theorem C96_accepted : forall ts ts' p, Forall2 same_sort ts ts' -> parse ts = Done (Ok p) ->
  exists p', parse ts' = Done (Ok p') /\ Forall2 same_shape p p'.
Proof.
  intros ts ts' p F P. apply parse_program in P. destruct (program_sort _ _ P _ F) as (p' & P' & Q).
  exists p'. split; [apply parse_program; exact P' | exact Q].
Qed.
Print Assumptions C96_accepted.

(** Otherwise the error is at the same token, and lists the same expectations. *)
Theorem C96_refused : forall ts ts' expected t, Forall2 same_sort ts ts' ->
  parse ts = Done (Err (UnexpectedToken expected t)) ->
  exists before after before' t' after', ts = before ++ t :: after /\ ts' = before' ++ t' :: after' /\
    length before = length before' /\ (forall cont p, parse (before ++ t :: cont) <> Done (Ok p)) /\
    (exists cont p, parse (before ++ cont) = Done (Ok p)) /\
    parse ts' = Done (Err (UnexpectedToken expected t')).
Proof.
  intros ts ts' ex t F P. destruct (refused_sort ts _ P ts' F) as (b & r & b' & r' & e & -> & -> & Fb & Fr & E & Pe & P').
  destruct r as [|t0 r]; cbn [hd_error syntax_error] in E; [discriminate E|]. injection E as -> <-.
  inversion Fr as [|x t' y r2 T Fr2]; subst. cbn [hd_error syntax_error] in P'.
  exists b, r, b', t', r2. split; [reflexivity|]. split; [reflexivity|]. split; [clear - Fb; induction Fb; cbn [length]; congruence|].
  split; [|split; [|exact P']].
  - intros cont p Q. unfold parse in Q. rewrite (parse_program_err _ _ _ Pe) in Q; [discriminate Q | reflexivity | lia].
  - destruct (program_err_viable _ _ _ Pe) as (cont & ns & Pc). exists cont, ns. apply parse_program, program_program_c. exact Pc.
Qed.
Print Assumptions C96_refused.

Theorem C96_refused_end : forall ts ts' expected, Forall2 same_sort ts ts' ->
  parse ts = Done (Err (UnexpectedEndOfFile expected)) -> parse ts' = Done (Err (UnexpectedEndOfFile expected)).
Proof.
  intros ts ts' ex F P. destruct (refused_sort ts _ P ts' F) as (b & r & b' & r' & e & -> & -> & Fb & Fr & E & Pe & P').
  destruct r as [|t0 r]; cbn [hd_error syntax_error] in E; [|discriminate E]. injection E as ->.
  inversion Fr; subst. exact P'.
Qed.
Print Assumptions C96_refused_end.

(** Texts whose tokens are of the same kinds are both programs, or neither. *)
Theorem C96_text : forall file file' s s' ts ts', scan file s = Done ts -> scan file' s' = Done ts' ->
  Forall2 same_sort ts ts' -> ((exists p, parsed file s p) <-> exists p, parsed file' s' p).
Proof.
  assert (D : forall file file' s s' ts ts', scan file s = Done ts -> scan file' s' = Done ts' ->
    Forall2 same_sort ts ts' -> (exists p, parsed file s p) -> exists p, parsed file' s' p).
  { intros file file' s s' ts ts' S S' F (p & ts1 & S1 & P). rewrite S in S1. injection S1 as <-.
    destruct (C96_accepted ts ts' p F P) as (p' & P' & _). exists p', ts'. split; assumption. }
  intros file file' s s' ts ts' S S' F. split; [exact (D _ _ _ _ _ _ S S' F)|].
  apply (D _ _ _ _ _ _ S' S). clear - F. induction F; constructor; [apply sort_sym; assumption | assumption].
Qed.
Print Assumptions C96_text.

(** Shapes say no less than that: two lists of statements have the same shapes exactly if they can be written with tokens
    of the same kinds. *)
Theorem C96_shapes : forall file file' p p' ts ts', Forall writable_node p -> Forall writable_node p' ->
  scan file (write p) = Done ts -> scan file' (write p') = Done ts' ->
  (Forall2 same_shape p p' <-> Forall2 same_sort ts ts').
Proof.
  assert (W : forall file p ts, Forall writable_node p -> scan file (write p) = Done ts -> map bare ts = flat_map node_tokens p).
  { intros file p ts F S. destruct (spells_write p F file []) as (ts0 & C & E).
    pose proof (cut_lexes _ _ _ _ _ C [] (lex_end file _)) as L. rewrite !app_nil_r in L. apply scan_lexes in L.
    rewrite S in L. injection L as ->. exact E. }
  intros file file' p p' ts ts' F F' S S'. split; intros H.
  - apply (sorts_trans _ (map bare ts)); [apply bare_sorts|]. rewrite (W _ _ _ F S).
    apply (sorts_trans _ (flat_map node_tokens p')); [apply nodes_tokens_sort; exact H|].
    rewrite <- (W _ _ _ F' S'). apply sorts_sym, bare_sorts.
  - destruct (C14_round_trip file p F) as (q & (ts0 & S0 & P) & E). rewrite S in S0. injection S0 as <-.
    destruct (C14_round_trip file' p' F') as (q' & (ts0 & S0 & P') & E'). rewrite S' in S0. injection S0 as <-.
    destruct (C96_accepted _ _ _ H P) as (q2 & P2 & Q). rewrite P' in P2. injection P2 as <-.
    exact (shape_bare _ _ _ _ Q (eq_sym E) (eq_sym E')).
Qed.
Print Assumptions C96_shapes.

Definition tokens_of (s : str) : list token := match scan (u "f") s with Done ts => ts | Crash _ => [] end.

Definition sort_number (t : token) : N :=
  match t with
  | SingleLineComment _ _ => 0 | DirectiveMarker _ => 1 | Identifier _ _ => 2 | LabelMarker _ => 3 | StringLiteral _ _ => 4
  | NumericLiteral _ _ => 5 | Comma _ => 6 | Newline _ => 7 | ErrorToken _ _ => 8
  end.

Lemma same_numbers : forall ts ts', map sort_number ts = map sort_number ts' -> Forall2 same_sort ts ts'.
Proof.
  induction ts as [|t ts IH]; intros [|t' ts'] E; try discriminate E; [constructor|]. cbn [map] in E. injection E as E1 E2.
  constructor; [|exact (IH _ E2)]. destruct t, t'; try discriminate E1; constructor.
Qed.

(** Other names and numbers; the first pair is accepted, of the second neither. *)
Example C96_instance :
  let a := tokens_of (lines [".org $200"; "go: ld v0, 1 ; one"; "jp go"]) in
  let b := tokens_of (lines [".what 4095"; "x: y z, %1 ; two"; "dt v0"]) in
  let c := tokens_of (u "ld v0, , 1") in
  let d := tokens_of (u "cls [i], , $fff") in
  Forall2 same_sort a b /\ (exists p, parse a = Done (Ok p)) /\ (exists p, parse b = Done (Ok p)) /\
  Forall2 same_sort c d /\
  parse c = Done (Err (UnexpectedToken [dn_instruction_field] (Comma (mk_loc (u "f") 1 8 1)))) /\
  parse d = Done (Err (UnexpectedToken [dn_instruction_field] (Comma (mk_loc (u "f") 1 10 1)))).
Proof.
  cbv zeta. split; [apply same_numbers; vm_compute; reflexivity|].
  split; [eexists; vm_compute; reflexivity|]. split; [eexists; vm_compute; reflexivity|].
  split; [apply same_numbers; vm_compute; reflexivity|]. split; vm_compute; reflexivity.
Qed.
