(** * AssemblerB: src/assembler/directive.rs and assembler.rs, on a syntax tree whose
    strings are bytes, which is what a [&str] is. *)

From Verif Require Import Base Text U12 Location Token ScannerB Parser Directive Opcode Instruction DataRange Assembler.
Open Scope N_scope.

(** directive.rs:135-148: [extend_from_slice(s.as_bytes())] copies the bytes *)
Fixpoint db_bytes_b (bytes : list byte) (arguments : list literal)
  : result directive_error (list byte) :=
  match arguments with
  | [] => Ok bytes
  | LNumeric value :: r =>
      if 0xFF <? value
      then Err (AllNumericParametersMustBeByteLiterals name_db value)
      else db_bytes_b (bytes ++ [N.land value 0x00FF]) r
  | LString s :: r => db_bytes_b (bytes ++ s) r
  end.

(** directive.rs:99-173 *)
Definition directive_from_b (input_identifier : str) (arguments : list literal)
  : result directive_error directive :=
  let identifier := to_lowercase input_identifier in
  if str_eqb identifier name_org then one_numeric name_org Org arguments
  else if str_eqb identifier name_db then
    match arguments with
    | [] => Err (IncorrectNumberOfParameters name_db 0 1 true)
    | _ => match db_bytes_b [] arguments with
           | Ok bytes => Ok (Db bytes)
           | Err e => Err e
           end
    end
  else if str_eqb identifier name_equ then one_numeric name_equ Equ arguments
  else Err (UnrecognizedDirective input_identifier).

(** assembler.rs:165-171: the constant defined by the node after a label *)
Definition peek_constant_b (rest : list node) : option U12 :=
  match rest with
  | NDirective _ id args :: _ =>
      match directive_from_b id args with
      | Ok (Equ constant) => Some constant
      | _ => None
      end
  | _ => None
  end.

(** assembler.rs:115-194.  [list_walker] is the list of the remaining nodes. *)
Fixpoint define_labels_loop_b (labels : label_map) (current_address : U12) (l : list node)
  : result semantic_error label_map :=
  match l with
  | [] => Ok labels
  | NDirective location id args :: rest =>
      tri d := map_err (DirectiveInvalid location) (directive_from_b id args) in
      tri size := ok_or (u12_failable_into (directive_size d)) (DirectiveTooLarge location d) in
      tri address := ok_or (u12_checked_add current_address size)
                           (DirectiveWouldOverflow location d) in
      match d with
      | Org origin => define_labels_loop_b labels origin rest
      | Db _ => define_labels_loop_b labels address rest
      | Equ _ => Err (ConstantWithoutLabel location)
      end
  | NLabel location id :: rest =>
      match rest, peek_constant_b rest with
      | _ :: rest', Some constant =>
          if contains_key labels id
          then Err (RedefinitionOfLabel location id)
          else define_labels_loop_b ((id, constant) :: labels) current_address rest'
      | _, _ =>
          if contains_key labels id
          then Err (RedefinitionOfLabel location id)
          else define_labels_loop_b ((id, current_address) :: labels) current_address rest
      end
  | NInstruction location _ _ :: rest =>
      tri address := ok_or (u12_checked_add current_address bytes_per_instruction)
                           (InstructionWouldOverflow location) in
      define_labels_loop_b labels address rest
  end.

(** assembler.rs:115-119 *)
Definition define_labels_b (syntax_list : list node) : result semantic_error label_map :=
  define_labels_loop_b [] 0 syntax_list.

(** assembler.rs:198-252 *)
Fixpoint emit_loop_b (labels : label_map) (ranges : list data_range) (current : data_range)
         (l : list node) : run (result semantic_error (list data_range)) :=
  match l with
  | [] => Done (Ok (push_range ranges current))
  | NDirective _ id args :: rest =>
      match directive_from_b id args with
      | Err _ => Crash UnwrapFailed
      | Ok (Org address) =>
          emit_loop_b labels (push_range ranges current) (range_new address) rest
      | Ok d =>
          let* current := append_asserted current (directive_into_vec d) in
          emit_loop_b labels ranges current rest
      end
  | NInstruction location mnemonic fields :: rest =>
      match instruction_from mnemonic fields labels with
      | Err reason => Done (Err (AssemblyFailed location reason))
      | Ok o =>
          let* bytes := instruction_into_vec o in
          let* current := append_asserted current bytes in
          emit_loop_b labels ranges current rest
      end
  | NLabel _ _ :: rest => emit_loop_b labels ranges current rest
  end.

(** assembler.rs:198-200 *)
Definition emit_data_ranges_b (syntax_list : list node) (labels : label_map)
  : run (result semantic_error (list data_range)) :=
  emit_loop_b labels [] (range_new 0) syntax_list.

(** assembler.rs:259-262 *)
Definition assemble_b (syntax_list : list node) : run (result semantic_error (list data_range)) :=
  match define_labels_b syntax_list with
  | Err e => Done (Err e)
  | Ok labels => emit_data_ranges_b syntax_list labels
  end.

(** main.rs:34-66: the tokens, the syntax list and the data ranges of a file of [bytes], read as [&str] (the parser, parser.rs, looks
    into no string but identifiers) *)
Definition assemble_bytes (file : str) (bytes : list byte)
  : run (result parse_error (result semantic_error (list data_range))) :=
  let* tokens := scan_b file bytes in
  let* parsed := parse tokens in
  match parsed with
  | Err message => Done (Err message)
  | Ok syntax_list => let* assembled := assemble_b syntax_list in Done (Ok assembled)
  end.
