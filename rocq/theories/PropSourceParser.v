(** * C110: the text of parser.rs, executed.

    As C107; SrcText.v has the text.  The iterator the parser reads from is a list of
    tokens, or the scanner of scanner.rs, whose [next] is executed whenever the parser
    wants a token. *)

From Coq Require Import String List NArith Bool Lia.
From Verif Require Import Base Text Location Token Scanner Parser DataRange Assembler SpecLex SpecGrammar ScanProofs LexTheorems ParseProofs
  SrcText SrcLex SrcParse SrcRun SrcCode SrcEnc SrcFacts SrcAssemblerProofs SrcParserProofs.
Import ListNotations.
Open Scope string_scope.
Open Scope list_scope.
Open Scope N_scope.

Definition e_parsed (r : result parse_error (list Parser.node)) : value :=
  match r with
  | Ok nodes => VCon "Ok" [("0", VVec (map e_node nodes))]
  | Err e => VCon "Err" [("0", e_parse_error e)]
  end.

(** All lists of tokens: [parse] answers, and with a list of nodes just if the grammar
    (SpecGrammar.v) gives it *)
Theorem C110_tokens : forall tokens, exists r,
  (forall K, reaches c8s (Call "parse" [VIter (map e_token tokens)] K) (Back (e_parsed r) [VIter (map e_token tokens)] K)) /\
  parse tokens = Done r /\ (forall nodes, r = Ok nodes <-> SpecGrammar.program tokens nodes).
Proof.
  intro ts. destruct (src_parse of_list feeds_list primes_list shaped_list (VIter (map e_token ts)) ts eq_refl) as (r & E & G).
  exists r. split; [|split; [exact E|]].
  - intro K. generalize (G K). destruct r; exact (fun H => H).
  - intro ns. rewrite <- parse_program, E. split; [intros ->; reflexivity|intro H; injection H as ->; reflexivity].
Qed.
Print Assumptions C110_tokens.

(** All texts: a scanner is made, and the parser reads from it *)
Theorem C110_text : forall file input, exists self ts r,
  (forall K, reaches c8s (Call "Scanner::new" [VStr file; VStr input] K) (Back self [VStr file; VStr input] K)) /\
  (forall K, reaches c8s (Call "parse" [self] K) (Back (e_parsed r) [self] K)) /\
  lexes file [] input ts /\ parse ts = Done r /\ (forall nodes, r = Ok nodes <-> SpecGrammar.program ts nodes).
Proof.
  intros file input. exists (e_scanner (scanner_new file input)). destruct (scan_total file input) as (ts & S). exists ts.
  assert (L : lexes file [] input ts) by (apply scan_lexes; exact S).
  assert (Y : of_scanner (e_scanner (scanner_new file input)) ts).
  { eexists. split; [reflexivity|]. left. exists file, [], input. split; [apply at_new|exact L]. }
  destruct (src_parse of_scanner feeds_scanner primes_scanner shaped_scanner _ ts Y) as (r & E & G).
  exists r. split; [exact (SrcScannerProofs.src_scanner_new file input)|]. split; [|split; [exact L|split; [exact E|]]].
  - intro K. generalize (G K). destruct r; exact (fun H => H).
  - intro ns. rewrite <- parse_program, E. split; [intros ->; reflexivity|intro H; injection H as ->; reflexivity].
Qed.
Print Assumptions C110_text.

(** All the way from a text to its data ranges or its error *)
Theorem C110_assemble : forall file input, exists self ts r,
  (forall K, reaches c8s (Call "Scanner::new" [VStr file; VStr input] K) (Back self [VStr file; VStr input] K)) /\
  (forall K, reaches c8s (Call "parse" [self] K) (Back (e_parsed r) [self] K)) /\
  lexes file [] input ts /\
  match r with
  | Err _ => forall nodes, ~ SpecGrammar.program ts nodes
  | Ok nodes => SpecGrammar.program ts nodes /\ forall K,
      reaches c8s (Call "assemble" [VVec (map e_node nodes)] K)
        match assemble nodes with
        | Done (Ok ranges) => Back (VCon "Ok" [("0", VVec (map e_range ranges))]) [VVec (map e_node nodes)] K
        | Done (Err e) => Back (VCon "Err" [("0", e_semantic_error e)]) [VVec (map e_node nodes)] K
        | Crash why => Panic why
        end
  end.
Proof.
  intros file input. destruct (C110_text file input) as (self & ts & r & N & G & L & E & P). exists self, ts, r.
  split; [exact N|]. split; [exact G|]. split; [exact L|]. destruct r as [nodes|e].
  - split; [apply P; reflexivity|]. intro K. generalize (src_assemble nodes K).
    destruct (assemble nodes) as [[?|?]|]; exact (fun H => H).
  - intros nodes H. apply P in H. discriminate.
Qed.
Print Assumptions C110_assemble.

(** The messages.  A token has a column (C04), and a syntax error says what was
    expected, or [fmt] panics. *)
Theorem C110_message : forall e K,
  match e with UnexpectedEndOfFile _ => True | UnexpectedToken _ t => 0 < l_location (token_location t) end ->
  reaches c8s (Call "parser::Error::fmt" [e_parse_error e; VStr []] K)
              match parse_error_fmt e with
              | Done s => Back (VCon "Ok" [("0", VTup [])]) [e_parse_error e; VStr s] K
              | Crash why => Panic why
              end.
Proof. intros e K H. generalize (src_parse_error_fmt e H K). destruct (parse_error_fmt e); exact (fun H => H). Qed.
Print Assumptions C110_message.

Theorem C110_field_fmt : forall f K,
  reaches c8s (Call "InstructionField::fmt" [e_field f; VStr []] K)
              (Back (VCon "Ok" [("0", VTup [])]) [e_field f; VStr (field_fmt f)] K).
Proof. exact src_field_fmt. Qed.
Print Assumptions C110_field_fmt.

(** ** Cases *)
Definition outcome_of (p : program) (text : str) : value :=
  match steps p 100 (Call "Scanner::new" [VStr (u "a.s"); VStr text] []) with
  | Back self _ _ =>
      match steps p (100 * 300) (Call "parse" [self] []) with
      | Back (VCon "Ok" [(_, nodes)]) _ _ =>
          match steps p 4900 (Call "assemble" [nodes] []) with
          | Back v _ _ => v
          | _ => VTup []
          end
      | Back (VCon "Err" [(_, e)]) _ _ =>
          match steps p 900 (Call "parser::Error::fmt" [e; VStr []] []) with
          | Back _ [_; s] _ => s
          | _ => VTup []
          end
      | _ => VTup []
      end
  | _ => VTup []
  end.
(** From a text to its bytes, by steps *)
Definition text : str := u ".org $200" ++ [10] ++ u "x: ld v1, $12 ; x" ++ [10] ++ u "jp x".
Example C110_instance :
  outcome_of c8s text
  = VCon "Ok" [("0", VVec [VCon "DataRange" [("start_address", VInt IU12 0x200);
                                             ("data", VVec (map (VInt IU8) [0x61; 0x12; 0x12; 0x00]))]])].
Proof. vm_compute. reflexivity. Qed.
(** To its message *)
Example C110_instance_error :
  outcome_of c8s (u "ld v1, ,")
  = VStr (u "a.s:1:8: error: Unexpected token found: comma, expecting instruction field.").
Proof. vm_compute. reflexivity. Qed.
(** The hypothesis of [C110_message] *)
Example C110_instance_place : 0 < l_location (token_location (Comma (mk_loc (u "a.s") 1 8 1))).
Proof. vm_compute. reflexivity. Qed.

(** Another text is another program: without the comment in parser.rs:362 an instruction
    with no operands before a comment is an error. *)
Definition other_text : list string :=
  map (fun l => if String.eqb l "      Some(Token::Newline(_)) | Some(Token::SingleLineComment(_,_)) => return Ok(list),"
                then "      Some(Token::Newline(_)) => return Ok(list)," else l) parser_rs.
Definition other_files : list (string * list string) :=
  [("source_file_location", source_file_location_rs); ("token", token_rs); ("scanner", scanner_rs); ("parser", other_text)].
Definition other : program := Eval vm_compute in match read_files other_files with Some p => p | None => c8s end.
Example C110_instance_other :
  read_files other_files = Some other /\
  outcome_of other (u "ret;") = VStr (u "a.s:1:4: error: Unexpected token found: single-line comment, expecting instruction field.") /\
  outcome_of c8s (u "ret;")
  = VCon "Ok" [("0", VVec [VCon "DataRange" [("start_address", VInt IU12 0); ("data", VVec (map (VInt IU8) [0x00; 0xEE]))]])].
Proof. repeat split; vm_compute; reflexivity. Qed.
