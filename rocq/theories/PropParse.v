(** * PropParse: properties C11-C13, C18 and C19, with an instance of each. *)

From Verif Require Import Base Text Location Token Scanner Parser SpecLex SpecGrammar SpecOpcode
  BaseFacts LexTheorems ParseProofs OperandProofs.
Open Scope N_scope.

(** The tokens of a text, for the instances. *)
Definition tokens (s : str) : list token :=
  match scan (u "f") s with Done ts => ts | Crash _ => [] end.

(** ** C11: parsing terminates; its errors can be printed. *)
Theorem C11_parse : forall ts,
  (exists ns, parse ts = Done (Ok ns)) \/
  (exists e s, parse ts = Done (Err e) /\ parse_error_fmt e = Done s).
Proof.
  intros ts. destruct (parse_total ts) as ([ns|e] & P); [left; eauto|]. right.
  destruct (parse_error_fmt_total ts e P) as (s & E). eauto.
Qed.
Print Assumptions C11_parse.

Theorem C11_expected : forall ts,
  parse ts <> Done (Err (UnexpectedEndOfFile [])) /\ forall t, parse ts <> Done (Err (UnexpectedToken [] t)).
Proof.
  intros ts. split; [|intros t]; intros H; destruct (parse_error_fmt_total ts _ H) as (s & E).
  - discriminate E.
  - destruct t; discriminate E.
Qed.
Print Assumptions C11_expected.

Example C11_instance :
  (exists ns, parse (tokens (u "x: ld v0, x" ++ [LF])) = Done (Ok ns) /\ length ns = 2%nat) /\
  (exists e, parse (tokens (u "ld v0 v1 ,")) = Done (Err e)).
Proof. split; eexists; [split|]; vm_compute; reflexivity. Qed.

(** ** C12: the parser accepts the grammar, and builds its syntax list. *)
Theorem C12_grammar : forall ts ns, parse ts = Done (Ok ns) <-> program ts ns.
Proof. exact parse_program. Qed.
Print Assumptions C12_grammar.

(** The grammar is unambiguous. *)
Theorem C12_unambiguous : forall ts ns ns', program ts ns -> program ts ns' -> ns = ns'.
Proof.
  intros ts ns ns' H H'. apply C12_grammar in H. apply C12_grammar in H'. rewrite H in H'.
  injection H' as <-. reflexivity.
Qed.
Print Assumptions C12_unambiguous.

Example C12_instance : program (tokens (u "a: .db 1, ""x""," ++ [LF] ++ u "drw v1, vf, 5"))
  [ NLabel (mk_loc (u "f") 1 1 1) (u "a");
    NDirective (mk_loc (u "f") 1 5 2) (u "db") [LNumeric 1; LString (u "x")];
    NInstruction (mk_loc (u "f") 2 1 3) (u "drw") [FRegister 1; FRegister 15; FNumeric 5] ].
Proof. apply C12_grammar. vm_compute. reflexivity. Qed.

(** ** C13: the first offending token. *)
Theorem C13_token : forall ts expected t,
  parse ts = Done (Err (UnexpectedToken expected t)) ->
  exists before after, ts = before ++ t :: after /\
    (exists cont ns, program (before ++ cont) ns) /\
    (forall cont ns, ~ program (before ++ t :: cont) ns).
Proof. exact parse_error_token. Qed.
Print Assumptions C13_token.

Theorem C13_eof : forall ts expected,
  parse ts = Done (Err (UnexpectedEndOfFile expected)) ->
  (exists cont ns, program (ts ++ cont) ns) /\ (forall ns, ~ program ts ns).
Proof. exact parse_error_eof. Qed.
Print Assumptions C13_eof.

Example C13_instance :
  (exists expected l, parse (tokens (u "cls" ++ [LF] ++ u ".db 1, : x:")) = Done (Err (UnexpectedToken expected (LabelMarker l)))) /\
  (exists expected, parse (tokens (u "cls" ++ [LF] ++ u ".db")) = Done (Err (UnexpectedEndOfFile expected))).
Proof. split; [do 2 eexists | eexists]; vm_compute; reflexivity. Qed.

(** ** C18: operand names.

    The claim: the reserved names are recognised in any case; other names are labels,
    distinguished by case. *)
Definition C18_claim : Prop := forall id, identifier_field id = Done (caseless id).

Theorem C18_refuted : exists id, identifier_field id <> Done (caseless id).
Proof. exists (u "Dt"). vm_compute. discriminate. Qed.
Print Assumptions C18_refuted.

(** It holds of all names but 'Dt', 'dT', 'St', 'sT', which are labels. *)
Theorem C18_partial : forall id, ~ In id [u "Dt"; u "dT"; u "St"; u "sT"] ->
  identifier_field id = Done (caseless id).
Proof. intros id N. rewrite identifier_field_operand. f_equal. apply caseless_operand. exact N. Qed.
Print Assumptions C18_partial.

Theorem C18_mixed : forall id, In id [u "Dt"; u "dT"; u "St"; u "sT"] ->
  identifier_field id = Done (FIdentifier id).
Proof. intros id I. rewrite identifier_field_operand. f_equal. apply mixed_operand. exact I. Qed.
Print Assumptions C18_mixed.

Example C18_instance :
  ~ In (u "vE") [u "Dt"; u "dT"; u "St"; u "sT"] /\ identifier_field (u "vE") = Done (FRegister 14) /\
  identifier_field (u "ST") = Done FSoundTimer /\ identifier_field (u "[I]") = Done FIndexIndirect /\
  identifier_field (u "vG") = Done (FIdentifier (u "vG")).
Proof. repeat split; try (vm_compute; reflexivity). intros I. repeat (destruct I as [I|I]; [discriminate|]). exact I. Qed.

(** ** C19: labels as operands.

    The claim: what can be defined as a label can be referred to.  It fails for the
    reserved names, and for them only. *)
Definition C19_claim : Prop := forall id l l1 ns,
  parse [Identifier id l; LabelMarker l1] = Done (Ok ns) -> identifier_field id = Done (FIdentifier id).

Theorem C19_refuted : exists id, forall l l1,
  parse [Identifier id l; LabelMarker l1] = Done (Ok [NLabel l id]) /\
  identifier_field id <> Done (FIdentifier id).
Proof. exists (u "b"). intros. split; [reflexivity | discriminate]. Qed.
Print Assumptions C19_refuted.

Theorem C19_claim_refuted : ~ C19_claim.
Proof.
  intros C. destruct C19_refuted as (id & H). destruct (H (mk_loc [] 0 0 0) (mk_loc [] 0 0 0)) as [P N].
  exact (N (C _ _ _ _ P)).
Qed.
Print Assumptions C19_claim_refuted.

(** Any identifier can be a label; those which refer to it are the ones not reserved. *)
Theorem C19_exact : forall id l l1,
  parse [Identifier id l; LabelMarker l1] = Done (Ok [NLabel l id]) /\
  (identifier_field id = Done (FIdentifier id) <->
   In id [u "Dt"; u "dT"; u "St"; u "sT"] \/ assoc (map upper id) reserved = None).
Proof.
  intros id l l1. split; [apply C12_grammar; repeat constructor|].
  rewrite identifier_field_operand. split.
  - intros H. injection H as H. apply label_operand. exact H.
  - intros H. f_equal. apply label_operand. exact H.
Qed.
Print Assumptions C19_exact.

Example C19_instance :
  assoc (map upper (u "loop")) reserved = None /\ identifier_field (u "loop") = Done (FIdentifier (u "loop")) /\
  assoc (map upper (u "v1")) reserved = Some (FRegister 1).
Proof. repeat split; vm_compute; reflexivity. Qed.
