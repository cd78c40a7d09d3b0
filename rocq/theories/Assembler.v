(** * Assembler: src/assembler/assembler.rs *)

From Verif Require Import Base Text U12 Location Parser Directive Opcode Instruction DataRange.
Open Scope N_scope.

(** assembler.rs:34-49 *)
Inductive semantic_error : Type :=
| DirectiveInvalid (l : loc) (reason : directive_error)
| DirectiveTooLarge (l : loc) (d : directive)
| DirectiveWouldOverflow (l : loc) (d : directive)
| InstructionWouldOverflow (l : loc)
| RedefinitionOfLabel (l : loc) (label : str)
| AssemblyFailed (l : loc) (reason : instruction_error)
| ConstantWithoutLabel (l : loc).

(** assembler.rs:56-66 *)
Definition semantic_error_description (e : semantic_error) : str :=
  match e with
  | DirectiveInvalid _ _ => u "Directive invalid"
  | DirectiveTooLarge _ _ => u "Directive size exceeds 4096 bytes"
  | DirectiveWouldOverflow _ _ =>
      u "Directive would cause the 12-bit address counter to overflow"
  | InstructionWouldOverflow _ =>
      u "Instruction would cause address counter to overflow $FFF"
  | RedefinitionOfLabel _ _ => u "Attempted re-definition of label"
  | AssemblyFailed _ _ => u "Unable to assemble instruction"
  | ConstantWithoutLabel _ =>
      u "A constant must be defined immediately following a label name"
  end.

(** assembler.rs:85-102 *)
Definition semantic_error_fmt (e : semantic_error) : str :=
  match e with
  | DirectiveInvalid l reason => loc_fmt l ++ u ": error: " ++ directive_error_fmt reason
  | DirectiveTooLarge l d =>
      loc_fmt l ++ u ": error: Directive (" ++ directive_fmt d ++ u ") size "
        ++ fmt_dec (directive_size d) ++ u " exceeds 4096 bytes."
  | DirectiveWouldOverflow l d =>
      loc_fmt l ++ u ": error: Directive (" ++ directive_fmt d
        ++ u ") would cause the 12-bit address counter to overflow."
  | RedefinitionOfLabel l label =>
      loc_fmt l ++ u ": error: Attempted re-definition of label '" ++ label ++ u "'."
  | InstructionWouldOverflow l =>
      loc_fmt l ++ u ": error: " ++ semantic_error_description e ++ u "."
  | AssemblyFailed l reason => loc_fmt l ++ u ": error: " ++ instruction_error_fmt reason
  | ConstantWithoutLabel l =>
      loc_fmt l ++ u ": error: " ++ semantic_error_description e ++ u "."
  end.

(** assembler.rs:26-28 *)
Definition bytes_per_instruction : U12 := 2.

(** [HashMap::contains_key] *)
Definition contains_key (m : label_map) (k : str) : bool :=
  match label_get m k with Some _ => true | None => false end.

(** assembler.rs:165-171: the constant defined by the node after a label *)
Definition peek_constant (rest : list node) : option U12 :=
  match rest with
  | NDirective _ id args :: _ =>
      match directive_from id args with
      | Ok (Equ constant) => Some constant
      | _ => None
      end
  | _ => None
  end.

(** assembler.rs:115-194.  [list_walker] is the list of the remaining nodes. *)
Fixpoint define_labels_loop (labels : label_map) (current_address : U12) (l : list node)
  : result semantic_error label_map :=
  match l with
  | [] => Ok labels
  | NDirective location id args :: rest =>
      tri d := map_err (DirectiveInvalid location) (directive_from id args) in
      tri size := ok_or (u12_failable_into (directive_size d)) (DirectiveTooLarge location d) in
      tri address := ok_or (u12_checked_add current_address size)
                           (DirectiveWouldOverflow location d) in
      match d with
      | Org origin => define_labels_loop labels origin rest
      | Db _ => define_labels_loop labels address rest
      | Equ _ => Err (ConstantWithoutLabel location)
      end
  | NLabel location id :: rest =>
      match rest, peek_constant rest with
      | _ :: rest', Some constant =>
          if contains_key labels id
          then Err (RedefinitionOfLabel location id)
          else define_labels_loop ((id, constant) :: labels) current_address rest'
      | _, _ =>
          if contains_key labels id
          then Err (RedefinitionOfLabel location id)
          else define_labels_loop ((id, current_address) :: labels) current_address rest
      end
  | NInstruction location _ _ :: rest =>
      tri address := ok_or (u12_checked_add current_address bytes_per_instruction)
                           (InstructionWouldOverflow location) in
      define_labels_loop labels address rest
  end.

(** assembler.rs:115-119 *)
Definition define_labels (syntax_list : list node) : result semantic_error label_map :=
  define_labels_loop [] 0 syntax_list.

(** assembler.rs:210-212, 246-248 *)
Definition push_range (ranges : list data_range) (r : data_range) : list data_range :=
  if 0 <? range_len r then ranges ++ [r] else ranges.

(** [assert!(current_range.append(&bytes))], assembler.rs:220 and 236 *)
Definition append_asserted (r : data_range) (bytes : list byte) : run data_range :=
  let* (ok, r') := range_append r bytes in
  let* _ := assert_ ok in
  Done r'.

(** assembler.rs:198-252 *)
Fixpoint emit_loop (labels : label_map) (ranges : list data_range) (current : data_range)
         (l : list node) : run (result semantic_error (list data_range)) :=
  match l with
  | [] => Done (Ok (push_range ranges current))
  | NDirective _ id args :: rest =>
      match directive_from id args with
      | Err _ => Crash UnwrapFailed
      | Ok (Org address) =>
          emit_loop labels (push_range ranges current) (range_new address) rest
      | Ok d =>
          let* current := append_asserted current (directive_into_vec d) in
          emit_loop labels ranges current rest
      end
  | NInstruction location mnemonic fields :: rest =>
      match instruction_from mnemonic fields labels with
      | Err reason => Done (Err (AssemblyFailed location reason))
      | Ok o =>
          let* bytes := instruction_into_vec o in
          let* current := append_asserted current bytes in
          emit_loop labels ranges current rest
      end
  | NLabel _ _ :: rest => emit_loop labels ranges current rest
  end.

(** assembler.rs:198-200 *)
Definition emit_data_ranges (syntax_list : list node) (labels : label_map)
  : run (result semantic_error (list data_range)) :=
  emit_loop labels [] (range_new 0) syntax_list.

(** assembler.rs:259-262 *)
Definition assemble (syntax_list : list node) : run (result semantic_error (list data_range)) :=
  match define_labels syntax_list with
  | Err e => Done (Err e)
  | Ok labels => emit_data_ranges syntax_list labels
  end.
