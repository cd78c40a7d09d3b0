(** * PropDescription: property C78, with an instance. *)

From Verif Require Import Base Text U12 Location Token Scanner Parser Directive Instruction Assembler Description SpecOpcode SpecRefusal
  SpecLayout BaseFacts LayoutProofs EmitProofs PropLayout PropOutput.
Open Scope string_scope.
Open Scope list_scope.
Open Scope N_scope.

(** ** C78: descriptions and causes. *)

(** Errors of one kind: they differ in their details only. *)
Inductive same_kind : any_error -> any_error -> Prop :=
| sk_string : same_kind (EScan InvalidStringLiteral) (EScan InvalidStringLiteral)
| sk_hex : same_kind (EScan InvalidHexadecimalLiteral) (EScan InvalidHexadecimalLiteral)
| sk_dec_range : forall a b, same_kind (EScan (DecimalLiteralOutOfRange a)) (EScan (DecimalLiteralOutOfRange b))
| sk_dec : same_kind (EScan InvalidDecimalLiteral) (EScan InvalidDecimalLiteral)
| sk_bin : same_kind (EScan InvalidBinaryLiteral) (EScan InvalidBinaryLiteral)
| sk_bin_range : forall a b, same_kind (EScan (BinaryLiteralOutOfRange a)) (EScan (BinaryLiteralOutOfRange b))
| sk_identifier : same_kind (EScan InvalidIdentifier) (EScan InvalidIdentifier)
| sk_indirect : same_kind (EScan ExpectedRegisterIndirect) (EScan ExpectedRegisterIndirect)
| sk_character : forall a b, same_kind (EScan (InvalidCharacter a)) (EScan (InvalidCharacter b))
| sk_end : forall a b, same_kind (EParse (UnexpectedEndOfFile a)) (EParse (UnexpectedEndOfFile b))
| sk_token : forall a b t t', same_kind (EParse (UnexpectedToken a t)) (EParse (UnexpectedToken b t'))
| sk_parameters : forall n c f m n' c' f' m', same_kind (EDirective (IncorrectNumberOfParameters n c f m))
                                                       (EDirective (IncorrectNumberOfParameters n' c' f' m'))
| sk_numeric : forall n n', same_kind (EDirective (DirectiveRequiresOneNumericLiteral n)) (EDirective (DirectiveRequiresOneNumericLiteral n'))
| sk_bytes : forall n v n' v', same_kind (EDirective (AllNumericParametersMustBeByteLiterals n v))
                                         (EDirective (AllNumericParametersMustBeByteLiterals n' v'))
| sk_directive : forall a b, same_kind (EDirective (UnrecognizedDirective a)) (EDirective (UnrecognizedDirective b))
| sk_label : forall a b, same_kind (EInstruction (UnableToResolveLabel a)) (EInstruction (UnableToResolveLabel b))
| sk_eight : forall a b, same_kind (EInstruction (ExpectingEightBitValue a)) (EInstruction (ExpectingEightBitValue b))
| sk_four : forall a b, same_kind (EInstruction (ExpectingFourBitValue a)) (EInstruction (ExpectingFourBitValue b))
| sk_format : forall a f b f', same_kind (EInstruction (NoMatchingFormat a f)) (EInstruction (NoMatchingFormat b f'))
| sk_invalid : forall l r l' r', same_kind (ESemantic (DirectiveInvalid l r)) (ESemantic (DirectiveInvalid l' r'))
| sk_large : forall l r l' r', same_kind (ESemantic (DirectiveTooLarge l r)) (ESemantic (DirectiveTooLarge l' r'))
| sk_overflow : forall l r l' r', same_kind (ESemantic (DirectiveWouldOverflow l r)) (ESemantic (DirectiveWouldOverflow l' r'))
| sk_overflow_instruction : forall l l', same_kind (ESemantic (InstructionWouldOverflow l)) (ESemantic (InstructionWouldOverflow l'))
| sk_redefinition : forall l r l' r', same_kind (ESemantic (RedefinitionOfLabel l r)) (ESemantic (RedefinitionOfLabel l' r'))
| sk_failed : forall l r l' r', same_kind (ESemantic (AssemblyFailed l r)) (ESemantic (AssemblyFailed l' r'))
| sk_constant : forall l l', same_kind (ESemantic (ConstantWithoutLabel l)) (ESemantic (ConstantWithoutLabel l')).

(** The description tells the kind, and nothing more. *)
Theorem C78_kind : forall e e', description e = description e' <-> same_kind e e'.
Proof.
  intros e e'. split.
  - destruct e as [e|e|e|e|e], e as []; destruct e' as [e'|e'|e'|e'|e'], e' as []; cbn [description scan_error_description
      parse_error_description directive_error_description instruction_error_description semantic_error_description];
      intros H; try discriminate H; constructor.
  - destruct 1; reflexivity.
Qed.
Print Assumptions C78_kind.

(** An error with a cause is printed as its place and its cause. *)
Theorem C78_cause : forall e c, cause e = Some c ->
  exists l m, display c = Done m /\ display e = Done (loc_fmt l ++ u ": error: " ++ m) /\ cause c = None.
Proof.
  intros [e|e|e|e|e] c H; [discriminate H | discriminate H | discriminate H | discriminate H|].
  destruct e; try discriminate H; injection H as <-; eexists; eexists; (split; [reflexivity|]); (split; reflexivity).
Qed.
Print Assumptions C78_cause.

(** An error that has nothing to tell but its place is printed as its description. *)
Theorem C78_plain : forall e m, display e = Done m ->
  (forall e', same_kind e e' -> e' = e) -> m = description e ++ u ".".
Proof.
  assert (B : forall s : str, s ++ [0] <> s).
  { intros s E. apply (f_equal (@length N)) in E. rewrite app_length in E. cbn [length] in E. lia. }
  intros e m D S. destruct e as [e|e|e|e|e].
  - destruct e; cbn [display scan_error_fmt] in D; injection D as <-; try reflexivity.
    + specialize (S (EScan (DecimalLiteralOutOfRange (literal ++ [0]))) (sk_dec_range _ _)). injection S as E. contradiction (B _ E).
    + specialize (S (EScan (InvalidCharacter (c + 1))) (sk_character _ _)). injection S as E. lia.
  - destruct e.
    + specialize (S (EParse (UnexpectedEndOfFile ([] :: expected))) (sk_end _ _)). injection S as E.
      apply (f_equal (@length _)) in E. cbn [length] in E. lia.
    + specialize (S (EParse (UnexpectedToken ([] :: expected) encountered)) (sk_token _ _ _ _)). injection S as E.
      apply (f_equal (@length _)) in E. cbn [length] in E. lia.
  - destruct e.
    + specialize (S _ (sk_parameters name count from or_more (name ++ [0]) count from or_more)). injection S as E. contradiction (B _ E).
    + specialize (S _ (sk_numeric name (name ++ [0]))). injection S as E. contradiction (B _ E).
    + specialize (S _ (sk_bytes name value (name ++ [0]) value)). injection S as E. contradiction (B _ E).
    + specialize (S _ (sk_directive identifier (identifier ++ [0]))). injection S as E. contradiction (B _ E).
  - destruct e.
    + specialize (S _ (sk_label label (label ++ [0]))). injection S as E. contradiction (B _ E).
    + specialize (S _ (sk_eight value (value + 1))). injection S as E. lia.
    + specialize (S _ (sk_four value (value + 1))). injection S as E. lia.
    + specialize (S _ (sk_format mnemonic fields (mnemonic ++ [0]) fields)). injection S as E. contradiction (B _ E).
  - exfalso. destruct e; destruct l as [f n o len];
      first [ specialize (S _ (sk_invalid (mk_loc f n o len) reason (mk_loc f (n + 1) o len) reason))
            | specialize (S _ (sk_large (mk_loc f n o len) d (mk_loc f (n + 1) o len) d))
            | specialize (S _ (sk_overflow (mk_loc f n o len) d (mk_loc f (n + 1) o len) d))
            | specialize (S _ (sk_overflow_instruction (mk_loc f n o len) (mk_loc f (n + 1) o len)))
            | specialize (S _ (sk_redefinition (mk_loc f n o len) label (mk_loc f (n + 1) o len) label))
            | specialize (S _ (sk_failed (mk_loc f n o len) reason (mk_loc f (n + 1) o len) reason))
            | specialize (S _ (sk_constant (mk_loc f n o len) (mk_loc f (n + 1) o len))) ];
      injection S as E; lia.
Qed.
Print Assumptions C78_plain.

(** ... and so are the two errors of the assembler which have only a place. *)
Theorem C78_place : forall e, (exists l, e = InstructionWouldOverflow l \/ e = ConstantWithoutLabel l) ->
  exists l, semantic_error_fmt e = loc_fmt l ++ u ": error: " ++ semantic_error_description e ++ u ".".
Proof. intros e (l & [-> | ->]); exists l; reflexivity. Qed.
Print Assumptions C78_place.

(** The cause of an error of the assembler is why the statement's directive means nothing, or why
    its instruction has no word, and any other error has no cause. *)
Theorem C78_source : forall p e, Forall node_ok p -> assemble p = Done (Err e) ->
  exists i n, nth_error p i = Some n /\ error_location e = node_location n /\
    (first (violates p) i e /\
     (forall c, cause (ESemantic e) = Some c <->
        exists l id args r, n = NDirective l id args /\ rejects id args r /\ c = EDirective r) \/
     (forall j e', ~ violates p j e') /\
     exists l m fields r, n = NInstruction l m fields /\ refuses (lookup p) m fields r /\
       cause (ESemantic e) = Some (EInstruction r)).
Proof.
  intros p e F H. apply C30_reported in H; [|exact F]. destruct H as [(i & V)|(Nv & i & U)].
  - exists i. pose proof V as [V' _].
    destruct V' as [l id args r H R|l id args d H M S|l id args d H M S A|l id args c H M L|l m fs H A|l id H I];
      eexists; (split; [exact H|]); (split; [reflexivity|]); left; (split; [exact V|]); intros c0; cbn [cause];
      (split; [intros E; try discriminate E | intros (l' & id' & args' & r' & E & R' & ->); try discriminate E]);
      try (injection E as <- <- <-; exfalso; exact (means_not_rejects _ _ _ _ M R')).
    + injection E as <-. exists l, id, args, r. auto.
    + injection E as <- <- <-. rewrite (rejects_det _ _ _ _ R R'). reflexivity.
  - exists i. destruct U as [(l & m & fs & r & H & R & ->) _]. eexists. split; [exact H|]. split; [reflexivity|].
    right. split; [exact Nv|]. exists l, m, fs, r. auto.
Qed.
Print Assumptions C78_source.

Example C78_instance :
  let place := mk_loc (u "f") 3 1 4 in
  let e := ESemantic (AssemblyFailed place (ExpectingEightBitValue 256)) in
  cause e = Some (EInstruction (ExpectingEightBitValue 256)) /\
  description e = u "Unable to assemble instruction" /\
  display e = Done (u "f:3:1-4: error: Found 12-bit numeric value $100, expecting 8-bit value.") /\
  same_kind e (ESemantic (AssemblyFailed place (UnableToResolveLabel (u "x")))) /\
  display (EScan InvalidStringLiteral) = Done (u "Invalid quoted string literal.").
Proof.
  cbv zeta. split; [reflexivity|]. split; [reflexivity|]. split; [vm_compute; reflexivity|].
  split; [constructor | vm_compute; reflexivity].
Qed.
