(** * C113: the text of the trait [Error], executed: descriptions, causes and messages.

    As C107; SrcText.v has the text. *)

From Coq Require Import String List NArith Bool Lia.
From Verif Require Import Base Text Location Token Scanner Parser Directive DataRange Assembler Instruction Description PropDescription
  SrcText SrcLex SrcParse SrcRun SrcCode SrcEnc SrcFacts SrcInstructionProofs SrcDirectiveProofs SrcRangeProofs
  SrcAssemblerProofs SrcParserProofs.
Import ListNotations.
Open Scope string_scope.
Open Scope list_scope.
Open Scope N_scope.

(** The value of an error, and the type whose functions are called *)
Definition e_error (e : any_error) : value :=
  match e with
  | EScan e => e_scan_error e
  | EParse e => e_parse_error e
  | EDirective e => e_directive_error e
  | EInstruction e => e_instruction_error e
  | ESemantic e => e_semantic_error e
  end.
Definition of_type (e : any_error) (f : string) : string :=
  match e with
  | EScan _ => "scanner::Error::"
  | EParse _ => "parser::Error::"
  | EDirective _ => "directive::Error::"
  | EInstruction _ => "instruction::Error::"
  | ESemantic _ => "SemanticError::"
  end%string ++ f.

Lemma src_scan_description e : gives "scanner::Error::description" [e_scan_error e] (Done (VStr (scan_error_description e))).
Proof. intro K. destruct e; cbn [e_scan_error]; run; finish. Qed.
Lemma src_parse_description e : gives "parser::Error::description" [e_parse_error e] (Done (VStr (parse_error_description e))).
Proof. intro K. destruct e; cbn [e_parse_error]; run; finish. Qed.
Lemma src_directive_description e : gives "directive::Error::description" [e_directive_error e] (Done (VStr (directive_error_description e))).
Proof. intro K. destruct e; cbn [e_directive_error]; run; finish. Qed.
Lemma src_instruction_description e :
  gives "instruction::Error::description" [e_instruction_error e] (Done (VStr (instruction_error_description e))).
Proof. intro K. destruct e as [| | |m [f|]]; run; finish. Qed.
Lemma src_semantic_description e : gives "SemanticError::description" [e_semantic_error e] (Done (VStr (semantic_error_description e))).
Proof.
  intro K. destruct e as [l e|l d| l d|l|l s|l e|l]; cbn [e_semantic_error].
  1: generalize (e_directive_error e); intro. 2,3: generalize (e_directive d); intro.
  6: generalize (e_instruction_error e); intro.
  all: run; finish.
Qed.
(** assembler.rs:69-78 *)
Lemma src_cause e : gives "SemanticError::cause" [e_semantic_error e]
  (Done (e_option e_error (cause (ESemantic e)))).
Proof.
  intro K. destruct e as [l e|l d| l d|l|l s|l e|l]; cbn [e_semantic_error cause e_option e_error].
  1: generalize (e_directive_error e); intro. 2,3: generalize (e_directive d); intro.
  6: generalize (e_instruction_error e); intro.
  all: run; finish.
Qed.

(** [description()] of all errors *)
Theorem C113_description : forall e K,
  reaches c8s (Call (of_type e "description") [e_error e] K) (Back (VStr (description e)) [e_error e] K).
Proof.
  intros [e|e|e|e|e].
  - exact (src_scan_description e).
  - exact (src_parse_description e).
  - exact (src_directive_description e).
  - exact (src_instruction_description e).
  - exact (src_semantic_description e).
Qed.
Print Assumptions C113_description.

(** [cause()], which only the errors of the assembler have *)
Theorem C113_cause : forall e K,
  reaches c8s (Call "SemanticError::cause" [e_semantic_error e] K)
    (Back (match cause (ESemantic e) with Some c => VCon "Some" [("0", e_error c)] | None => VCon "None" [] end)
          [e_semantic_error e] K).
Proof. intros e K. generalize (src_cause e K). destruct (cause (ESemantic e)); exact (fun H => H). Qed.
Print Assumptions C113_cause.

(** [fmt] of all errors.  The place of an error of the parser or the assembler has a
    column (C04). *)
Definition has_column (e : any_error) : Prop :=
  match e with
  | EParse (UnexpectedToken _ t) => 0 < l_location (token_location t)
  | ESemantic (DirectiveInvalid l _) | ESemantic (DirectiveTooLarge l _) | ESemantic (DirectiveWouldOverflow l _)
  | ESemantic (InstructionWouldOverflow l) | ESemantic (RedefinitionOfLabel l _) | ESemantic (AssemblyFailed l _)
  | ESemantic (ConstantWithoutLabel l) => 0 < l_location l
  | _ => True
  end.
Theorem C113_display : forall e K, has_column e ->
  reaches c8s (Call (of_type e "fmt") [e_error e; VStr []] K)
    match display e with
    | Done s => Back (VCon "Ok" [("0", VTup [])]) [e_error e; VStr s] K
    | Crash why => Panic why
    end.
Proof.
  intros [e|e|e|e|e] K H.
  - exact (src_scan_error_fmt e K).
  - assert (P : placed e) by (destruct e; exact H). generalize (src_parse_error_fmt e P K). cbn [display of_type String.append e_error].
    destruct (parse_error_fmt e); exact (fun H => H).
  - exact (src_directive_error_fmt e K).
  - exact (src_instruction_error_fmt e K).
  - apply (src_semantic_error_fmt e). destruct e; exact H.
Qed.
Print Assumptions C113_display.

(** So two errors have the same description just if they are of one kind (C78) *)
Theorem C113_kind : forall e e' d d' finals finals',
  reaches c8s (Call (of_type e "description") [e_error e] []) (Back d finals []) ->
  reaches c8s (Call (of_type e' "description") [e_error e'] []) (Back d' finals' []) ->
  (d = d' <-> same_kind e e').
Proof.
  assert (O : forall e d finals, reaches c8s (Call (of_type e "description") [e_error e] []) (Back d finals []) -> d = VStr (description e)).
  { intros e d fin H. pose proof (one_end _ _ (Back d fin []) (Back (VStr (description e)) [e_error e] []) eq_refl eq_refl H (C113_description e [])) as E.
    injection E as -> ->. reflexivity. }
  intros e e' d d' fin fin' H H'. rewrite (O _ _ _ H), (O _ _ _ H'), <- C78_kind.
  split; [intro E; injection E as E; exact E|intros ->; reflexivity].
Qed.
Print Assumptions C113_kind.

(** ** Cases *)
Definition bad_directive : any_error := ESemantic (DirectiveInvalid (mk_loc (u "a.s") 3 2 5) (UnrecognizedDirective (u "DX"))).
Example C113_instance :
  has_column bad_directive /\
  steps c8s 200 (Call "SemanticError::description" [e_error bad_directive] []) = Back (VStr (u "Directive invalid")) [e_error bad_directive] [] /\
  steps c8s 200 (Call "SemanticError::cause" [e_error bad_directive] [])
  = Back (VCon "Some" [("0", VCon "directive::Error::UnrecognizedDirective" [("0", VStr (u "DX"))])]) [e_error bad_directive] [] /\
  steps c8s 900 (Call "SemanticError::fmt" [e_error bad_directive; VStr []] [])
  = Back (VCon "Ok" [("0", VTup [])]) [e_error bad_directive; VStr (u "a.s:3:2-6: error: Unrecognized directive '.DX'.")] [].
Proof. repeat split; vm_compute; reflexivity. Qed.
