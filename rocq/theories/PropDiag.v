(** * PropDiag: C73, the diagnostics are exactly these. *)

From Verif Require Import Base Text U12 Location Token Scanner Parser Directive Instruction DataRange Assembler
  SpecUtf8 SpecLex SpecGrammar SpecOpcode SpecRefusal SpecLayout SpecErase SpecWrite SpecCode SpecDiag
  BaseFacts LexTheorems TextCode DiagProofs.
Open Scope string_scope.
Open Scope list_scope.
Open Scope N_scope.

(** Every error of the scanner in the list is provoked by some text, and no other. *)
Theorem C73_scanner : forall file e,
  (exists s ts l, Forall scalar s /\ scan file s = Done ts /\ In (ErrorToken e l) ts) <-> scan_diagnostic e.
Proof.
  intros file e. split.
  - intros (s & ts & l & F & S & I). apply scan_lexes in S. exact (lexes_errors _ _ _ _ S F _ _ I).
  - intros D. destruct (bad_text_lexes e D file []) as (l & L). exists (bad_text e), [ErrorToken e l], l.
    split; [apply bad_text_scalar; exact D|]. split; [apply scan_lexes; exact L | left; reflexivity].
Qed.
Print Assumptions C73_scanner.

(** Two of the error values of the scanner are never made. *)
Theorem C73_scanner_unused : forall file s ts l, Forall scalar s -> scan file s = Done ts ->
  ~ In (ErrorToken InvalidDecimalLiteral l) ts /\ ~ In (ErrorToken InvalidIdentifier l) ts.
Proof.
  intros file s ts l F S.
  split; intros I; (assert (D : scan_diagnostic _) by (apply (C73_scanner file); exists s, ts, l; split; [exact F|]; split; [exact S | exact I]));
    inversion D.
Qed.
Print Assumptions C73_scanner_unused.

Theorem C73_syntax : forall file e,
  (exists s ts e0, Forall scalar s /\ scan file s = Done ts /\ parse ts = Done (Err e0) /\ bare_syntax e0 = e) <->
  syntax_diagnostic e.
Proof.
  intros file e. split.
  - intros (s & ts & e0 & F & S & P & <-). exact (syntax_sound _ _ _ _ F S P).
  - apply syntax_complete.
Qed.
Print Assumptions C73_syntax.

Theorem C73_semantic : forall file e,
  (exists s p e0, Forall scalar s /\ parsed file s p /\ assemble p = Done (Err e0) /\ bare_error e0 = e) <-> diagnostic e.
Proof.
  intros file e. split.
  - intros (s & p & e0 & F & S & A & <-). apply parsed_stands in S. exact (semantic_sound _ _ _ _ F S A).
  - intros D. destruct (semantic_complete file e D) as (s & p & e0 & F & S & A & E). exists s, p, e0.
    split; [exact F|]. split; [apply parsed_stands; exact S|]. split; [exact A | exact E].
Qed.
Print Assumptions C73_semantic.

(** So an '.org' or an '.equ' is never too large and never overflows. *)
Theorem C73_space : forall file s p l d e, Forall scalar s -> parsed file s p -> assemble p = Done (Err e) ->
  e = DirectiveTooLarge l d \/ e = DirectiveWouldOverflow l d -> exists bytes, d = Db bytes /\ bytes <> [].
Proof.
  intros file s p l d e F S A E.
  assert (D : diagnostic (bare_error e)).
  { apply (C73_semantic file). exists s, p, e. split; [exact F|]. split; [exact S|]. split; [exact A | reflexivity]. }
  destruct E as [-> | ->]; cbn [bare_error] in D; inversion D as [|bytes B L|bytes B L| | | |]; subst; exists bytes;
    (split; [reflexivity|]); intros ->; cbn [length] in L; lia.
Qed.
Print Assumptions C73_space.

(** Some diagnostics, each by kind, and one that cannot be provoked. *)
Example C73_instance :
  scan_diagnostic (InvalidCharacter (c_ "!")) /\ ~ scan_diagnostic (InvalidCharacter (c_ "_")) /\
  scan_diagnostic (DecimalLiteralOutOfRange (u "5000")) /\ ~ scan_diagnostic (DecimalLiteralOutOfRange (u "500")) /\
  syntax_diagnostic (UnexpectedToken [u "identifier"] (NumericLiteral 7 nowhere)) /\
  ~ syntax_diagnostic (UnexpectedEndOfFile [u "directive marker"; u "identifier"]) /\
  ~ syntax_diagnostic (UnexpectedToken [u "instruction field"] (SingleLineComment [] nowhere)) /\
  diagnostic (AssemblyFailed nowhere (ExpectingFourBitValue 16)) /\
  ~ diagnostic (AssemblyFailed nowhere (ExpectingEightBitValue 255)) /\
  ~ diagnostic (DirectiveWouldOverflow nowhere (Org 0)).
Proof.
  split; [apply sd_character; [left; reflexivity | reflexivity | reflexivity]|].
  split; [intros D; inversion D as [| | | | | |c S B W]; discriminate B|].
  split; [apply sd_decimal_range; reflexivity|].
  split; [intros D; inversion D as [| | | |d A V| |]; discriminate V|].
  split; [apply (yd_token _ directive_place); [right; left; reflexivity | split; [lia | reflexivity] | reflexivity]|].
  split.
  { intros D. inversion D as [|expected accepted I]; subst. destruct I as [I|[I|[I|[]]]]; discriminate I. }
  split.
  { intros D. inversion D as [expected accepted t I S A|]; subst.
    destruct I as [I|[I|[I|[I|[]]]]]; try discriminate I. injection I as <-. discriminate A. }
  split; [apply di_instruction, id_nibble; lia|].
  split; [|intros D; inversion D].
  intros D. inversion D as [| | | | | |e D']; subst. inversion D' as [|v V| |]; subst. lia.
Qed.

(** Runs of the code that provoke them. *)
Definition syntax_of (text : str) : option parse_error :=
  match scan (u "f") text with
  | Done ts => match parse ts with Done (Err e) => Some (bare_syntax e) | _ => None end
  | _ => None
  end.

Definition semantic_of (text : str) : option semantic_error :=
  match scan (u "f") text with
  | Done ts =>
      match parse ts with
      | Done (Ok p) => match assemble p with Done (Err e) => Some (bare_error e) | _ => None end
      | _ => None
      end
  | _ => None
  end.

Example C73_runs :
  (exists l l', scan (u "f") (u "a !") = Done [Identifier (u "a") l; ErrorToken (InvalidCharacter (c_ "!")) l']) /\
  syntax_of (u ". 7") = Some (UnexpectedToken [u "identifier"] (NumericLiteral 7 nowhere)) /\
  semantic_of (u "drw v0, v1, 16" ++ [LF]) = Some (AssemblyFailed nowhere (ExpectingFourBitValue 16)).
Proof.
  split; [do 2 eexists; vm_compute; reflexivity|].
  split; [vm_compute; reflexivity | vm_compute; reflexivity].
Qed.
