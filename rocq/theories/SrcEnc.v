(** * SrcEnc: the values of the model as values of the machine of SrcRun.v.

    One function for each type of the source; the names are those of the source. *)

From Coq Require Import String List NArith Bool.
From Verif Require Import Base Text U12 Location Token Scanner Parser Opcode Instruction
  Directive DataRange Assembler SrcParse SrcRun.
Import ListNotations.
Open Scope string_scope.
Open Scope list_scope.
Open Scope N_scope.

(** Lists *)
Definition enc {A} (f : A -> value) (l : list A) : list value := map f l.

(** Numbers *)
Definition e_u8 (n : N) : value := VInt IU8 n.
Definition e_u12 (n : N) : value := VInt IU12 n.
Definition e_u16 (n : N) : value := VInt IU16 n.
Definition e_usize (n : N) : value := VInt IUsize n.

(** opcode.rs:16-55 *)
Definition e_opcode (o : opcode) : value :=
  let r c l := VCon ("Opcode::" ++ c)%string l in
  let x v := ("register_x", e_u8 v) in
  let y v := ("register_y", e_u8 v) in
  match o with
  | NOP => r "NOP" []
  | CLS => r "CLS" []
  | RET => r "RET" []
  | DEREF_I => r "DEREF_I" []
  | TRAP => r "TRAP" []
  | TRAPRET => r "TRAPRET" []
  | JP t => r "JP" [("target", e_u12 t)]
  | CALL t => r "CALL" [("target", e_u12 t)]
  | SE_IMMEDIATE a b => r "SE_IMMEDIATE" [x a; ("value", e_u8 b)]
  | SNE_IMMEDIATE a b => r "SNE_IMMEDIATE" [x a; ("value", e_u8 b)]
  | SE_REGISTER a b => r "SE_REGISTER" [x a; y b]
  | SNE_REGISTER a b => r "SNE_REGISTER" [x a; y b]
  | LD_IMMEDIATE a b => r "LD_IMMEDIATE" [x a; ("value", e_u8 b)]
  | ADD_IMMEDIATE a b => r "ADD_IMMEDIATE" [x a; ("value", e_u8 b)]
  | LD_REGISTER a b => r "LD_REGISTER" [x a; y b]
  | OR a b => r "OR" [x a; y b]
  | AND a b => r "AND" [x a; y b]
  | XOR a b => r "XOR" [x a; y b]
  | ADD_REGISTER a b => r "ADD_REGISTER" [x a; y b]
  | SUB a b => r "SUB" [x a; y b]
  | SHR a b => r "SHR" [x a; y b]
  | SUBN a b => r "SUBN" [x a; y b]
  | SHL a b => r "SHL" [x a; y b]
  | LD_I v => r "LD_I" [("value", e_u12 v)]
  | JP_V0 v => r "JP_V0" [("value", e_u12 v)]
  | RND a b => r "RND" [x a; ("mask", e_u8 b)]
  | DRW a b c => r "DRW" [x a; y b; ("bytes", e_u8 c)]
  | SE_K a => r "SE_K" [x a]
  | SNE_K a => r "SNE_K" [x a]
  | LD_X_DT a => r "LD_X_DT" [x a]
  | LD_X_K a => r "LD_X_K" [x a]
  | LD_DT_X a => r "LD_DT_X" [x a]
  | LD_ST_X a => r "LD_ST_X" [x a]
  | ADD_I_X a => r "ADD_I_X" [x a]
  | SPRITE_I a => r "SPRITE_I" [x a]
  | BCD_I a => r "BCD_I" [x a]
  | SAVE_I a => r "SAVE_I" [x a]
  | RESTORE_I a => r "RESTORE_I" [x a]
  end.

(** instruction.rs:20-25, 60 *)
Definition e_instruction_error (e : instruction_error) : value :=
  match e with
  | UnableToResolveLabel l => VCon "instruction::Error::UnableToResolveLabel" [("0", VStr l)]
  | ExpectingEightBitValue n => VCon "instruction::Error::ExpectingEightBitValue" [("0", e_usize n)]
  | ExpectingFourBitValue n => VCon "instruction::Error::ExpectingFourBitValue" [("0", e_usize n)]
  | NoMatchingFormat m None =>
      VCon "instruction::Error::NoMatchingFormat" [("0", VStr m); ("1", none_)]
  | NoMatchingFormat m (Some f) =>
      VCon "instruction::Error::NoMatchingFormat" [("0", VStr m); ("1", some_ (VStr f))]
  end.
Definition e_instruction (o : opcode) : value := VCon "Instruction" [("0", e_opcode o)].

(** [Option] and [Result] *)
Definition e_option {A} (f : A -> value) (o : option A) : value :=
  match o with Some a => some_ (f a) | None => none_ end.
Definition e_result {E A} (f : E -> value) (g : A -> value) (r : result E A) : value :=
  match r with Ok a => ok_ (g a) | Err e => err_ (f e) end.

(** source_file_location.rs:14-21 *)
Definition e_loc (l : loc) : value :=
  VCon "SourceFileLocation"
    [("file_name", VStr (l_file l)); ("line", e_usize (l_line l));
     ("location", e_usize (l_location l)); ("length", e_usize (l_length l))].

(** parser.rs:95-100 *)
Definition e_literal (l : literal) : value :=
  match l with
  | LString s => VCon "Literal::String" [("0", VStr s)]
  | LNumeric n => VCon "Literal::Numeric" [("0", e_usize n)]
  end.

(** parser.rs:121-142 *)
Definition e_field (f : field) : value :=
  match f with
  | FNumeric n => VCon "InstructionField::NumericLiteral" [("0", e_u12 n)]
  | FRegister r => VCon "InstructionField::GeneralPurposeRegister" [("0", e_u8 r)]
  | FDelayTimer => VCon "InstructionField::DelayTimer" []
  | FSoundTimer => VCon "InstructionField::SoundTimer" []
  | FKeypad => VCon "InstructionField::KeypadRegister" []
  | FIndex => VCon "InstructionField::IndexRegister" []
  | FIndexIndirect => VCon "InstructionField::IndexRegisterIndirect" []
  | FIdentifier s => VCon "InstructionField::Identifier" [("0", VStr s)]
  | FBcd => VCon "InstructionField::Bcd" []
  | FSprite => VCon "InstructionField::Sprite" []
  end.

(** parser.rs:85-92, 103-118, 145-152 *)
Definition e_node (n : Parser.node) : value :=
  match n with
  | NDirective l i a =>
      VCon "Node::Directive" [("0", VCon "DirectiveData"
        [("location", e_loc l); ("identifier", VStr i); ("arguments", VVec (enc e_literal a))])]
  | NLabel l i =>
      VCon "Node::Label" [("0", VCon "LabelData" [("location", e_loc l); ("identifier", VStr i)])]
  | NInstruction l m f =>
      VCon "Node::Instruction" [("0", VCon "InstructionData"
        [("location", e_loc l); ("mnemonic", VStr m); ("fields", VVec (enc e_field f))])]
  end.

(** The map of assembler.rs:116 *)
Definition e_pairs (m : label_map) : list (str * value) :=
  map (fun kv => (fst kv, e_u12 (snd kv))) m.
Definition e_labels (m : label_map) : value := VMap (e_pairs m).

(** scanner.rs:19-38 *)
Definition e_scan_error (e : scan_error) : value :=
  let r c l := VCon ("scanner::Error::" ++ c)%string l in
  match e with
  | InvalidStringLiteral => r "InvalidStringLiteral" []
  | InvalidHexadecimalLiteral => r "InvalidHexadecimalLiteral" []
  | DecimalLiteralOutOfRange s => r "DecimalLiteralOutOfRange" [("0", VStr s)]
  | InvalidDecimalLiteral => r "InvalidDecimalLiteral" []
  | InvalidBinaryLiteral => r "InvalidBinaryLiteral" []
  | BinaryLiteralOutOfRange s => r "BinaryLiteralOutOfRange" [("0", VStr s)]
  | InvalidIdentifier => r "InvalidIdentifier" []
  | ExpectedRegisterIndirect => r "ExpectedRegisterIndirect" []
  | InvalidCharacter c => r "InvalidCharacter" [("0", VChar c)]
  end.

(** token.rs:16-35 *)
Definition e_token (t : token) : value :=
  match t with
  | SingleLineComment s l => VCon "Token::SingleLineComment" [("0", VStr s); ("1", e_loc l)]
  | DirectiveMarker l => VCon "Token::DirectiveMarker" [("0", e_loc l)]
  | Identifier s l => VCon "Token::Identifier" [("0", VStr s); ("1", e_loc l)]
  | LabelMarker l => VCon "Token::LabelMarker" [("0", e_loc l)]
  | StringLiteral s l => VCon "Token::StringLiteral" [("0", VStr s); ("1", e_loc l)]
  | NumericLiteral n l => VCon "Token::NumericLiteral" [("0", e_usize n); ("1", e_loc l)]
  | Comma l => VCon "Token::Comma" [("0", e_loc l)]
  | Newline l => VCon "Token::Newline" [("0", e_loc l)]
  | ErrorToken e l => VCon "Token::Error" [("0", e_scan_error e); ("1", e_loc l)]
  end.

(** scanner.rs:74-85 *)
Definition e_scanner (s : scanner) : value :=
  VCon "Scanner"
    [("file_name", VStr (sc_file s)); ("input", VStr (sc_input s));
     ("position", e_usize (sc_position s)); ("current_line", e_usize (sc_line s));
     ("current_line_offset", e_usize (sc_offset s))].

(** parser.rs:23-28 *)
Definition e_strs (l : list str) : value := VVec (enc VStr l).
Definition e_parse_error (e : parse_error) : value :=
  match e with
  | UnexpectedEndOfFile l => VCon "parser::Error::UnexpectedEndOfFile" [("0", e_strs l)]
  | UnexpectedToken l t =>
      VCon "parser::Error::UnexpectedToken" [("expected", e_strs l); ("encountered", e_token t)]
  end.

(** parser.rs:156-163; the iterator is the tokens it has still to deliver. *)
Definition e_parser (p : parser) : value :=
  VCon "Parser"
    [("scanner", VIter (enc e_token (p_scanner p)));
     ("current_token", e_option e_token (p_current p));
     ("next_token", e_option e_token (p_next p))].

(** directive.rs:18-27, 63-70 *)
Definition e_directive_error (e : directive_error) : value :=
  match e with
  | IncorrectNumberOfParameters s n m b =>
      VCon "directive::Error::IncorrectNumberOfParameters"
        [("0", VStr s); ("1", e_usize n); ("2", e_usize m); ("3", VBool b)]
  | DirectiveRequiresOneNumericLiteral s =>
      VCon "directive::Error::DirectiveRequiresOneNumericLiteral" [("0", VStr s)]
  | AllNumericParametersMustBeByteLiterals s n =>
      VCon "directive::Error::AllNumericParametersMustBeByteLiterals"
        [("0", VStr s); ("1", e_usize n)]
  | UnrecognizedDirective s => VCon "directive::Error::UnrecognizedDirective" [("0", VStr s)]
  end.
Definition e_bytes (l : list byte) : value := VVec (enc e_u8 l).
Definition e_directive (d : directive) : value :=
  match d with
  | Org a => VCon "Directive::Org" [("0", e_u12 a)]
  | Db l => VCon "Directive::Db" [("0", e_bytes l)]
  | Equ a => VCon "Directive::Equ" [("0", e_u12 a)]
  end.

(** data_range.rs:18-23 *)
Definition e_range (r : data_range) : value :=
  VCon "DataRange" [("start_address", e_u12 (dr_start r)); ("data", e_bytes (dr_data r))].

(** assembler.rs:34-49 *)
Definition e_semantic_error (e : semantic_error) : value :=
  let r c l := VCon ("SemanticError::" ++ c)%string l in
  match e with
  | DirectiveInvalid l e => r "DirectiveInvalid" [("0", e_loc l); ("1", e_directive_error e)]
  | DirectiveTooLarge l d => r "DirectiveTooLarge" [("0", e_loc l); ("1", e_directive d)]
  | DirectiveWouldOverflow l d => r "DirectiveWouldOverflow" [("0", e_loc l); ("1", e_directive d)]
  | InstructionWouldOverflow l => r "InstructionWouldOverlow" [("0", e_loc l)]
  | RedefinitionOfLabel l s => r "RedefinitionOfLabel" [("0", e_loc l); ("1", VStr s)]
  | AssemblyFailed l e => r "AssemblyFailed" [("0", e_loc l); ("1", e_instruction_error e)]
  | ConstantWithoutLabel l => r "ConstantWithoutLabel" [("0", e_loc l)]
  end.
