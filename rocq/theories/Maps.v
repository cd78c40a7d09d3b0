(** * Maps: the assembler with any kind of map from names to addresses.

    assembler.rs:116 uses the [HashMap] of the standard library, which keeps its keys in an order that differs from
    run to run.  Here the second half of the assembler is given whatever map there is; [Assembler.v] is what becomes
    of it with a list of pairs. *)

From Verif Require Import Base Text Location Token Scanner Parser U12 Directive Opcode Instruction DataRange Assembler IHex Main.
Open Scope N_scope.

(** A kind of map, with the functions that are called: [new] assembler.rs:116, [get] instruction.rs:71, [contains_key]
    assembler.rs:175, [insert] assembler.rs:178 *)
Record maps : Type := mk_maps {
  map_of : Type;
  map_new : map_of;
  map_get : map_of -> str -> option U12;
  map_contains : map_of -> str -> bool;
  map_insert : map_of -> str -> U12 -> map_of
}.

(** instruction.rs:69-74 *)
Definition resolve_label_with (mp : maps) (label : str) (m : map_of mp) : result instruction_error U12 :=
  ok_or (map_get mp m label) (UnableToResolveLabel label).

(** instruction.rs:132-173 *)
Definition opcode_1_with (mp : maps) (m : str) (f : field) (labels : map_of mp)
  : result instruction_error (option opcode) :=
  if str_eqb m (u "jp") then
    match f with
    | FNumeric target => Ok (Some (JP target))
    | FIdentifier label => tri address := resolve_label_with mp label labels in Ok (Some (JP address))
    | _ => Ok None
    end
  else if str_eqb m (u "call") then
    match f with
    | FNumeric target => Ok (Some (CALL target))
    | FIdentifier label => tri address := resolve_label_with mp label labels in Ok (Some (CALL address))
    | _ => Ok None
    end
  else if str_eqb m (u "shr") then
    match f with FRegister x => Ok (Some (SHR x 0)) | _ => Ok None end
  else if str_eqb m (u "shl") then
    match f with FRegister x => Ok (Some (SHL x 0)) | _ => Ok None end
  else if str_eqb m (u "skp") then
    match f with FRegister x => Ok (Some (SE_K x)) | _ => Ok None end
  else if str_eqb m (u "sknp") then
    match f with FRegister x => Ok (Some (SNE_K x)) | _ => Ok None end
  else Ok None.

(** instruction.rs:176-326 *)
Definition opcode_2_with (mp : maps) (m : str) (f g : field) (labels : map_of mp)
  : result instruction_error (option opcode) :=
  if str_eqb m (u "ld") then
    match f, g with
    | FIndex, FIndexIndirect => Ok (Some DEREF_I)
    | FRegister x, FNumeric value =>
        tri v := to_8_bit value in Ok (Some (LD_IMMEDIATE x v))
    | FRegister x, FIdentifier label =>
        tri label_value := resolve_label_with mp label labels in
        tri v := to_8_bit label_value in Ok (Some (LD_IMMEDIATE x v))
    | FRegister x, FRegister y => Ok (Some (LD_REGISTER x y))
    | FIndex, FNumeric value => Ok (Some (LD_I value))
    | FIndex, FIdentifier label =>
        tri address := resolve_label_with mp label labels in Ok (Some (LD_I address))
    | FRegister x, FDelayTimer => Ok (Some (LD_X_DT x))
    | FRegister x, FKeypad => Ok (Some (LD_X_K x))
    | FDelayTimer, FRegister x => Ok (Some (LD_DT_X x))
    | FSoundTimer, FRegister x => Ok (Some (LD_ST_X x))
    | FSprite, FRegister x => Ok (Some (SPRITE_I x))
    | FBcd, FRegister x => Ok (Some (BCD_I x))
    | FIndexIndirect, FRegister x => Ok (Some (SAVE_I x))
    | FRegister x, FIndexIndirect => Ok (Some (RESTORE_I x))
    | _, _ => Ok None
    end
  else if str_eqb m (u "se") then
    match f, g with
    | FRegister x, FNumeric value =>
        tri v := to_8_bit value in Ok (Some (SE_IMMEDIATE x v))
    | FRegister x, FIdentifier label =>
        tri label_value := resolve_label_with mp label labels in
        tri v := to_8_bit label_value in Ok (Some (SE_IMMEDIATE x v))
    | FRegister x, FRegister y => Ok (Some (SE_REGISTER x y))
    | _, _ => Ok None
    end
  else if str_eqb m (u "sne") then
    match f, g with
    | FRegister x, FNumeric value =>
        tri v := to_8_bit value in Ok (Some (SNE_IMMEDIATE x v))
    | FRegister x, FIdentifier label =>
        tri label_value := resolve_label_with mp label labels in
        tri v := to_8_bit label_value in Ok (Some (SNE_IMMEDIATE x v))
    | FRegister x, FRegister y => Ok (Some (SNE_REGISTER x y))
    | _, _ => Ok None
    end
  else if str_eqb m (u "add") then
    match f, g with
    | FRegister x, FNumeric value =>
        tri v := to_8_bit value in Ok (Some (ADD_IMMEDIATE x v))
    | FRegister x, FIdentifier label =>
        tri label_value := resolve_label_with mp label labels in
        tri v := to_8_bit label_value in Ok (Some (ADD_IMMEDIATE x v))
    | FRegister x, FRegister y => Ok (Some (ADD_REGISTER x y))
    | FIndex, FRegister x => Ok (Some (ADD_I_X x))
    | _, _ => Ok None
    end
  else if str_eqb m (u "or") then
    match f, g with FRegister x, FRegister y => Ok (Some (OR x y)) | _, _ => Ok None end
  else if str_eqb m (u "and") then
    match f, g with FRegister x, FRegister y => Ok (Some (AND x y)) | _, _ => Ok None end
  else if str_eqb m (u "xor") then
    match f, g with FRegister x, FRegister y => Ok (Some (XOR x y)) | _, _ => Ok None end
  else if str_eqb m (u "sub") then
    match f, g with FRegister x, FRegister y => Ok (Some (SUB x y)) | _, _ => Ok None end
  else if str_eqb m (u "subn") then
    match f, g with FRegister x, FRegister y => Ok (Some (SUBN x y)) | _, _ => Ok None end
  else if str_eqb m (u "jp") then
    match f, g with
    | FRegister 0, FNumeric value => Ok (Some (JP_V0 value))
    | FRegister 0, FIdentifier label =>
        tri address := resolve_label_with mp label labels in Ok (Some (JP_V0 address))
    | _, _ => Ok None
    end
  else if str_eqb m (u "rnd") then
    match f, g with
    | FRegister x, FNumeric value =>
        tri v := to_8_bit value in Ok (Some (RND x v))
    | FRegister x, FIdentifier label =>
        tri label_value := resolve_label_with mp label labels in
        tri v := to_8_bit label_value in Ok (Some (RND x v))
    | _, _ => Ok None
    end
  else Ok None.

(** instruction.rs:329-348 *)
Definition opcode_3_with (mp : maps) (m : str) (f g h : field) (labels : map_of mp)
  : result instruction_error (option opcode) :=
  if str_eqb m (u "drw") then
    match f, g, h with
    | FRegister x, FRegister y, FNumeric value =>
        tri v := to_4_bit value in Ok (Some (DRW x y v))
    | FRegister x, FRegister y, FIdentifier label =>
        tri label_value := resolve_label_with mp label labels in
        tri v := to_4_bit label_value in Ok (Some (DRW x y v))
    | _, _, _ => Ok None
    end
  else Ok None.

(** instruction.rs:112-366 *)
Definition instruction_from_with (mp : maps) (input_mnemonic : str) (fields : list field) (labels : map_of mp)
  : result instruction_error opcode :=
  let mnemonic := to_lowercase input_mnemonic in
  tri o := match fields with
           | [] => Ok (opcode_0 mnemonic)
           | [f] => opcode_1_with mp mnemonic f labels
           | [f; g] => opcode_2_with mp mnemonic f g labels
           | [f; g; h] => opcode_3_with mp mnemonic f g h labels
           | _ => Ok None
           end in
  ok_or o (NoMatchingFormat input_mnemonic
             match fields with
             | [] => None
             | _ => Some (join (u ", ") (map field_fmt fields))
             end).

(** assembler.rs:115-194.  [list_walker] is the list of the remaining nodes. *)
Fixpoint define_labels_loop_with (mp : maps) (labels : map_of mp) (current_address : U12) (l : list node)
  : result semantic_error (map_of mp) :=
  match l with
  | [] => Ok labels
  | NDirective location id args :: rest =>
      tri d := map_err (DirectiveInvalid location) (directive_from id args) in
      tri size := ok_or (u12_failable_into (directive_size d)) (DirectiveTooLarge location d) in
      tri address := ok_or (u12_checked_add current_address size)
                           (DirectiveWouldOverflow location d) in
      match d with
      | Org origin => define_labels_loop_with mp labels origin rest
      | Db _ => define_labels_loop_with mp labels address rest
      | Equ _ => Err (ConstantWithoutLabel location)
      end
  | NLabel location id :: rest =>
      match rest, peek_constant rest with
      | _ :: rest', Some constant =>
          if map_contains mp labels id
          then Err (RedefinitionOfLabel location id)
          else define_labels_loop_with mp (map_insert mp labels id constant) current_address rest'
      | _, _ =>
          if map_contains mp labels id
          then Err (RedefinitionOfLabel location id)
          else define_labels_loop_with mp (map_insert mp labels id current_address) current_address rest
      end
  | NInstruction location _ _ :: rest =>
      tri address := ok_or (u12_checked_add current_address bytes_per_instruction)
                           (InstructionWouldOverflow location) in
      define_labels_loop_with mp labels address rest
  end.

(** assembler.rs:198-252 *)
Fixpoint emit_loop_with (mp : maps) (labels : map_of mp) (ranges : list data_range) (current : data_range)
         (l : list node) : run (result semantic_error (list data_range)) :=
  match l with
  | [] => Done (Ok (push_range ranges current))
  | NDirective _ id args :: rest =>
      match directive_from id args with
      | Err _ => Crash UnwrapFailed
      | Ok (Org address) =>
          emit_loop_with mp labels (push_range ranges current) (range_new address) rest
      | Ok d =>
          let* current := append_asserted current (directive_into_vec d) in
          emit_loop_with mp labels ranges current rest
      end
  | NInstruction location mnemonic fields :: rest =>
      match instruction_from_with mp mnemonic fields labels with
      | Err reason => Done (Err (AssemblyFailed location reason))
      | Ok o =>
          let* bytes := instruction_into_vec o in
          let* current := append_asserted current bytes in
          emit_loop_with mp labels ranges current rest
      end
  | NLabel _ _ :: rest => emit_loop_with mp labels ranges current rest
  end.

(** assembler.rs:259-262, with 115-119 and 198-200 *)
Definition assemble_with (mp : maps) (syntax_list : list node) : run (result semantic_error (list data_range)) :=
  match define_labels_loop_with mp (map_new mp) 0 syntax_list with
  | Err e => Done (Err e)
  | Ok labels => emit_loop_with mp labels [] (range_new 0) syntax_list
  end.

(** main.rs:34-105 without the file operations at either end: the text to write,
    or the text printed before [process::exit(1)]. *)
Definition assemble_text_with (mp : maps) (e : env) (path buffer : str) : run (result str str) :=
  let* tokens := scan path buffer in
  let* parsed := parse tokens in
  match parsed with
  | Err message => let* s := parse_error_fmt message in Done (Err (s ++ [10]))
  | Ok syntax_list =>
      let* assembled := assemble_with mp syntax_list in
      match assembled with
      | Err message => Done (Err (semantic_error_fmt message ++ [10]))
      | Ok data_ranges =>
          let overlapping := find_overlapping_ranges data_ranges in
          if Nat.ltb 0 (length overlapping) then
            let* s := overlap_report e overlapping in
            Done (Err (program_error e (u "Input file specifies overlapping data ranges.")
                         ++ program_error e
                              (u "Data from one section has overflowed into the adjacent.")
                         ++ s))
          else
            let* result := ihex_representation data_ranges in
            Done (Ok result)
      end
  end.
