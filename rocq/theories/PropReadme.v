(** * PropReadme: property C82, with instances. *)

From Verif Require Import Base Text U12 Location Token Scanner Parser Directive DataRange Assembler IHex Main
  SpecLex SpecGrammar SpecCode BaseFacts ParseProofs PropOutput PropText.
Open Scope string_scope.
Open Scope list_scope.
Open Scope N_scope.

(** ** C82: labels as the values of directives. *)

(** False, although the README says that a label in the range of a literal may stand for it
    "in the context of a mnemonic or within directives". *)
Theorem C82_refuted : exists e file s s' text msg,
  s = lines ["x: .equ 5"; "ld v0, x"] /\ s' = lines ["x: .equ 5"; ".db x"] /\
  assemble_text e file s = Done (Ok text) /\ assemble_text e file s' = Done (Err msg).
Proof.
  exists sample_env, (u "in.s"). do 4 eexists. split; [reflexivity|]. split; [reflexivity|].
  split; [vm_compute; reflexivity | vm_compute; reflexivity].
Qed.
Print Assumptions C82_refuted.

(** Literals, each with a comma after it. *)
Inductive with_commas : list token -> Prop :=
| wc_none : with_commas []
| wc_more : forall t a l ts, literal_token t a -> with_commas ts -> with_commas (t :: Comma l :: ts).

Lemma literals_marker : forall ts args rest, literals ts args rest -> forall a l0 q,
  ts = a ++ DirectiveMarker l0 :: q -> exists a', rest = a' ++ DirectiveMarker l0 :: q.
Proof.
  induction 1 as [l rest | t x rest T | t x l ts args rest T _ IH]; intros a l0 q E.
  - exists a. exact E.
  - destruct a as [|y a]; cbn [app] in E; injection E as -> E; [inversion T | exists a; exact E].
  - destruct a as [|y [|z a]]; cbn [app] in E.
    + injection E as E _. subst t. inversion T.
    + discriminate E.
    + injection E as _ _ E. exact (IH a l0 q E).
Qed.

Lemma fields_marker : forall ts args rest, fields ts args rest -> forall a l0 q,
  ts = a ++ DirectiveMarker l0 :: q -> exists a', rest = a' ++ DirectiveMarker l0 :: q.
Proof.
  induction 1 as [l rest | c l rest | t x rest T | t x l ts args rest T _ IH]; intros a l0 q E.
  - exists a. exact E.
  - exists a. exact E.
  - destruct a as [|y a]; cbn [app] in E; injection E as -> E; [inversion T | exists a; exact E].
  - destruct a as [|y [|z a]]; cbn [app] in E.
    + injection E as E _. subst t. inversion T.
    + discriminate E.
    + injection E as _ _ E. exact (IH a l0 q E).
Qed.

Lemma no_name_in_literals : forall args, with_commas args -> forall x lx q xs rest ns,
  literals (args ++ Identifier x lx :: q) xs rest -> program rest ns -> False.
Proof.
  induction 1 as [|t a l args T _ IH]; intros x lx q xs rest ns L P; cbn [app] in L.
  - inversion L as [ | t y r T | t y l' ts ys r T]; subst; inversion T.
  - inversion L as [l' r E | t' y r T' | t' y l' ts ys r T' L']; subst.
    + inversion T.
    + inversion P.
    + exact (IH _ _ _ _ _ _ L' P).
Qed.

(** No accepted text has a name among the values of a directive: neither right after its name,
    nor after a comma. *)
Theorem C82_name_partial : forall a l0 id l args x lx rest, with_commas args ->
  forall ns, parse (a ++ DirectiveMarker l0 :: Identifier id l :: args ++ Identifier x lx :: rest) <> Done (Ok ns).
Proof.
  intros a l0 id l args x lx rest W ns P. apply parse_program in P.
  remember (a ++ DirectiveMarker l0 :: Identifier id l :: args ++ Identifier x lx :: rest) as ts eqn:E. revert a E.
  induction P as [ | l' ts ns P IH | c l' ts ns P IH | l' i li ts xs r ns L P IH | i li l' ts ns P IH | i li ts xs r ns F P IH];
    intros a E.
  - destruct a; discriminate E.
  - destruct a as [|y a]; [discriminate E|]. injection E as _ E. exact (IH a E).
  - destruct a as [|y a]; [discriminate E|]. injection E as _ E. exact (IH a E).
  - destruct a as [|y [|z a]]; cbn [app] in E.
    + injection E as _ _ _ E. subst ts. exact (no_name_in_literals _ W _ _ _ _ _ _ L P).
    + discriminate E.
    + injection E as _ _ E. destruct (literals_marker _ _ _ L _ _ _ E) as (a' & E'). exact (IH a' E').
  - destruct a as [|y [|z a]]; try discriminate E. injection E as _ _ E. exact (IH a E).
  - destruct a as [|y a]; [discriminate E|]. injection E as _ E.
    destruct (fields_marker _ _ _ F _ _ _ E) as (a' & E'). exact (IH a' E').
Qed.
Print Assumptions C82_name_partial.

(** What the arguments of an accepted program are: numbers and strings, in their tokens' order.
    As operands of instructions names are accepted. *)
Theorem C82_text_partial : forall e file s a l0 id l args x lx rest text, with_commas args ->
  scan file s = Done (a ++ DirectiveMarker l0 :: Identifier id l :: args ++ Identifier x lx :: rest) ->
  assemble_text e file s <> Done (Ok text).
Proof.
  intros e file s a l0 id l args x lx rest text W S H. unfold assemble_text in H. rewrite S in H. cbn [bind] in H.
  destruct (parse _) as [[p|err]|] eqn:P; cbn [bind] in H; [|destruct (parse_error_fmt err); discriminate H | discriminate H].
  exact (C82_name_partial _ _ _ _ _ _ _ _ W _ P).
Qed.
Print Assumptions C82_text_partial.

(** A name after a literal and a comma; and numbers of 12 bits, which the README does not
    allow there, are accepted in '.org' and '.equ'. *)
Example C82_instance : exists a l0 id l args x lx rest,
  with_commas args /\ args <> [] /\
  scan (u "in.s") (lines ["x: .equ 5"; ".db 1, x"]) =
    Done (a ++ DirectiveMarker l0 :: Identifier id l :: args ++ Identifier x lx :: rest) /\
  assemble_text sample_env (u "in.s") (lines [".org $200"; "x: .equ $ABC"; ".db 1"]) =
    Done (Ok (lines [":0102000001FC"; ":00000001FF"])).
Proof.
  destruct (scan (u "in.s") (lines ["x: .equ 5"; ".db 1, x"])) as [ts|] eqn:S; [|revert S; vm_compute; discriminate].
  exists (firstn 6 ts). revert S. vm_compute. intros S. injection S as <-. do 7 eexists.
  split; [eapply (wc_more (NumericLiteral 1 _)); [apply lt_number | apply wc_none]|].
  split; [discriminate|]. split; reflexivity.
Qed.
