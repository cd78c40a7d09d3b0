(** * Instruction: src/assembler/instruction.rs *)

From Verif Require Import Base Text U12 Parser Opcode.
Open Scope N_scope.

(** instruction.rs:20-25 *)
Inductive instruction_error : Type :=
| UnableToResolveLabel (label : str)
| ExpectingEightBitValue (value : N)
| ExpectingFourBitValue (value : N)
| NoMatchingFormat (mnemonic : str) (fields : option str).

(** instruction.rs:44-57 *)
Definition instruction_error_fmt (e : instruction_error) : str :=
  match e with
  | UnableToResolveLabel name => u "Unable to resolve label " ++ name ++ u "."
  | ExpectingEightBitValue actual =>
      u "Found 12-bit numeric value $" ++ fmt_hex true actual ++ u ", expecting 8-bit value."
  | ExpectingFourBitValue actual =>
      u "Found 8/12-bit numeric value $" ++ fmt_hex true actual ++ u ", expecting 4-bit value."
  | NoMatchingFormat mnemonic (Some fields) =>
      u "No matching instruction: " ++ mnemonic ++ u " " ++ fields ++ u "."
  | NoMatchingFormat mnemonic None =>
      u "No matching instruction: " ++ mnemonic ++ u "."
  end.

(** The [HashMap<&str, U12>] of assembler.rs:116.  Only [get], [contains_key] and
    [insert] of an absent key are used, so iteration order is not modelled. *)
Definition label_map := list (str * U12).

(** [HashMap::get] *)
Fixpoint label_get (m : label_map) (label : str) : option U12 :=
  match m with
  | [] => None
  | (k, v) :: r => if str_eqb k label then Some v else label_get r label
  end.

(** instruction.rs:69-74 *)
Definition resolve_label (label : str) (m : label_map) : result instruction_error U12 :=
  ok_or (label_get m label) (UnableToResolveLabel label).

(** instruction.rs:81-85 *)
Definition to_8_bit (literal : U12) : result instruction_error byte :=
  ok_or (u8_failable_from_u12 literal) (ExpectingEightBitValue literal).

(** instruction.rs:92-100 *)
Definition to_4_bit (literal : U12) : result instruction_error byte :=
  match u8_failable_from_u12 literal with
  | Some eight_bit => if eight_bit <? 16 then Ok eight_bit else Err (ExpectingFourBitValue literal)
  | None => Err (ExpectingFourBitValue literal)
  end.

(** [try!] in a function without panics *)
Definition rbind {E A B : Type} (m : result E A) (k : A -> result E B) : result E B :=
  match m with
  | Ok a => k a
  | Err e => Err e
  end.
Notation "'tri' x ':=' m 'in' k" := (rbind m (fun x => k))
  (at level 200, x name, m at level 100, k at level 200, right associativity).

(** instruction.rs:120-129 *)
Definition opcode_0 (m : str) : option opcode :=
  if str_eqb m (u "nop") then Some NOP
  else if str_eqb m (u "cls") then Some CLS
  else if str_eqb m (u "ret") then Some RET
  else if str_eqb m (u "trap") then Some TRAP
  else if str_eqb m (u "trapret") then Some TRAPRET
  else None.

(** The arms of the Rust matches below are grouped by mnemonic.  Arms with
    different mnemonics are disjoint, so this does not change which one is taken. *)

(** instruction.rs:132-173 *)
Definition opcode_1 (m : str) (f : field) (labels : label_map)
  : result instruction_error (option opcode) :=
  if str_eqb m (u "jp") then
    match f with
    | FNumeric target => Ok (Some (JP target))
    | FIdentifier label => tri address := resolve_label label labels in Ok (Some (JP address))
    | _ => Ok None
    end
  else if str_eqb m (u "call") then
    match f with
    | FNumeric target => Ok (Some (CALL target))
    | FIdentifier label => tri address := resolve_label label labels in Ok (Some (CALL address))
    | _ => Ok None
    end
  else if str_eqb m (u "shr") then
    match f with FRegister x => Ok (Some (SHR x 0)) | _ => Ok None end
  else if str_eqb m (u "shl") then
    match f with FRegister x => Ok (Some (SHL x 0)) | _ => Ok None end
  else if str_eqb m (u "skp") then
    match f with FRegister x => Ok (Some (SE_K x)) | _ => Ok None end
  else if str_eqb m (u "sknp") then
    match f with FRegister x => Ok (Some (SNE_K x)) | _ => Ok None end
  else Ok None.

(** instruction.rs:176-326 *)
Definition opcode_2 (m : str) (f g : field) (labels : label_map)
  : result instruction_error (option opcode) :=
  if str_eqb m (u "ld") then
    match f, g with
    | FIndex, FIndexIndirect => Ok (Some DEREF_I)
    | FRegister x, FNumeric value =>
        tri v := to_8_bit value in Ok (Some (LD_IMMEDIATE x v))
    | FRegister x, FIdentifier label =>
        tri label_value := resolve_label label labels in
        tri v := to_8_bit label_value in Ok (Some (LD_IMMEDIATE x v))
    | FRegister x, FRegister y => Ok (Some (LD_REGISTER x y))
    | FIndex, FNumeric value => Ok (Some (LD_I value))
    | FIndex, FIdentifier label =>
        tri address := resolve_label label labels in Ok (Some (LD_I address))
    | FRegister x, FDelayTimer => Ok (Some (LD_X_DT x))
    | FRegister x, FKeypad => Ok (Some (LD_X_K x))
    | FDelayTimer, FRegister x => Ok (Some (LD_DT_X x))
    | FSoundTimer, FRegister x => Ok (Some (LD_ST_X x))
    | FSprite, FRegister x => Ok (Some (SPRITE_I x))
    | FBcd, FRegister x => Ok (Some (BCD_I x))
    | FIndexIndirect, FRegister x => Ok (Some (SAVE_I x))
    | FRegister x, FIndexIndirect => Ok (Some (RESTORE_I x))
    | _, _ => Ok None
    end
  else if str_eqb m (u "se") then
    match f, g with
    | FRegister x, FNumeric value =>
        tri v := to_8_bit value in Ok (Some (SE_IMMEDIATE x v))
    | FRegister x, FIdentifier label =>
        tri label_value := resolve_label label labels in
        tri v := to_8_bit label_value in Ok (Some (SE_IMMEDIATE x v))
    | FRegister x, FRegister y => Ok (Some (SE_REGISTER x y))
    | _, _ => Ok None
    end
  else if str_eqb m (u "sne") then
    match f, g with
    | FRegister x, FNumeric value =>
        tri v := to_8_bit value in Ok (Some (SNE_IMMEDIATE x v))
    | FRegister x, FIdentifier label =>
        tri label_value := resolve_label label labels in
        tri v := to_8_bit label_value in Ok (Some (SNE_IMMEDIATE x v))
    | FRegister x, FRegister y => Ok (Some (SNE_REGISTER x y))
    | _, _ => Ok None
    end
  else if str_eqb m (u "add") then
    match f, g with
    | FRegister x, FNumeric value =>
        tri v := to_8_bit value in Ok (Some (ADD_IMMEDIATE x v))
    | FRegister x, FIdentifier label =>
        tri label_value := resolve_label label labels in
        tri v := to_8_bit label_value in Ok (Some (ADD_IMMEDIATE x v))
    | FRegister x, FRegister y => Ok (Some (ADD_REGISTER x y))
    | FIndex, FRegister x => Ok (Some (ADD_I_X x))
    | _, _ => Ok None
    end
  else if str_eqb m (u "or") then
    match f, g with FRegister x, FRegister y => Ok (Some (OR x y)) | _, _ => Ok None end
  else if str_eqb m (u "and") then
    match f, g with FRegister x, FRegister y => Ok (Some (AND x y)) | _, _ => Ok None end
  else if str_eqb m (u "xor") then
    match f, g with FRegister x, FRegister y => Ok (Some (XOR x y)) | _, _ => Ok None end
  else if str_eqb m (u "sub") then
    match f, g with FRegister x, FRegister y => Ok (Some (SUB x y)) | _, _ => Ok None end
  else if str_eqb m (u "subn") then
    match f, g with FRegister x, FRegister y => Ok (Some (SUBN x y)) | _, _ => Ok None end
  else if str_eqb m (u "jp") then
    match f, g with
    | FRegister 0, FNumeric value => Ok (Some (JP_V0 value))
    | FRegister 0, FIdentifier label =>
        tri address := resolve_label label labels in Ok (Some (JP_V0 address))
    | _, _ => Ok None
    end
  else if str_eqb m (u "rnd") then
    match f, g with
    | FRegister x, FNumeric value =>
        tri v := to_8_bit value in Ok (Some (RND x v))
    | FRegister x, FIdentifier label =>
        tri label_value := resolve_label label labels in
        tri v := to_8_bit label_value in Ok (Some (RND x v))
    | _, _ => Ok None
    end
  else Ok None.

(** instruction.rs:329-348 *)
Definition opcode_3 (m : str) (f g h : field) (labels : label_map)
  : result instruction_error (option opcode) :=
  if str_eqb m (u "drw") then
    match f, g, h with
    | FRegister x, FRegister y, FNumeric value =>
        tri v := to_4_bit value in Ok (Some (DRW x y v))
    | FRegister x, FRegister y, FIdentifier label =>
        tri label_value := resolve_label label labels in
        tri v := to_4_bit label_value in Ok (Some (DRW x y v))
    | _, _, _ => Ok None
    end
  else Ok None.

(** instruction.rs:112-366 *)
Definition instruction_from (input_mnemonic : str) (fields : list field) (labels : label_map)
  : result instruction_error opcode :=
  let mnemonic := to_lowercase input_mnemonic in
  tri o := match fields with
           | [] => Ok (opcode_0 mnemonic)
           | [f] => opcode_1 mnemonic f labels
           | [f; g] => opcode_2 mnemonic f g labels
           | [f; g; h] => opcode_3 mnemonic f g h labels
           | _ => Ok None
           end in
  ok_or o (NoMatchingFormat input_mnemonic
             match fields with
             | [] => None
             | _ => Some (join (u ", ") (map field_fmt fields))
             end).

(** instruction.rs:377-383 *)
Definition instruction_into_vec (o : opcode) : run (list byte) :=
  let* instruction := as_instruction o in
  Done [N.shiftr (N.land instruction 0xFF00) 8; N.land instruction 0x00FF].
