(** * Arms: the arms of the matches of instruction.rs, one after the other.

    [Instruction.v] groups the arms by mnemonic.  Here they stand in the order of the source. *)

From Verif Require Import Base Text Location Token Parser U12 Opcode Instruction.
Open Scope N_scope.

(** What an arm says: nothing if it does not match. *)
Definition outcome : Type := option (result instruction_error opcode).

(** [match] takes the first arm that matches; the last, [_ => None], is what is left. *)
Fixpoint first_arm (arms : list outcome) : result instruction_error (option opcode) :=
  match arms with
  | [] => Ok None
  | None :: r => first_arm r
  | Some (Ok o) :: _ => Ok (Some o)
  | Some (Err e) :: _ => Err e
  end.

(** An arm for the mnemonic [name]. *)
Definition named (m : str) (name : string) (r : outcome) : outcome := if str_eqb m (u name) then r else None.

(** instruction.rs:121-129 *)
Definition arms_0 (m : str) : list outcome := [
  named m "nop" (Some (Ok NOP));
  named m "cls" (Some (Ok CLS));
  named m "ret" (Some (Ok RET));
  named m "trap" (Some (Ok TRAP));
  named m "trapret" (Some (Ok TRAPRET))
].

(** instruction.rs:132-173 *)
Definition arms_1 (m : str) (f : field) (labels : label_map) : list outcome := [
  (* 135-137 *) named m "jp" match f with FNumeric target => Some (Ok (JP target)) | _ => None end;
  (* 140-143 *) named m "jp" match f with FIdentifier label => Some (tri address := resolve_label label labels in Ok (JP address)) | _ => None end;
  (* 145-147 *) named m "call" match f with FNumeric target => Some (Ok (CALL target)) | _ => None end;
  (* 150-153 *) named m "call" match f with FIdentifier label => Some (tri address := resolve_label label labels in Ok (CALL address)) | _ => None end;
  (* 155-157 *) named m "shr" match f with FRegister x => Some (Ok (SHR x 0)) | _ => None end;
  (* 159-161 *) named m "shl" match f with FRegister x => Some (Ok (SHL x 0)) | _ => None end;
  (* 163-165 *) named m "skp" match f with FRegister x => Some (Ok (SE_K x)) | _ => None end;
  (* 167-169 *) named m "sknp" match f with FRegister x => Some (Ok (SNE_K x)) | _ => None end
].

(** instruction.rs:176-326 *)
Definition arms_2 (m : str) (f g : field) (labels : label_map) : list outcome := [
  (* 178-180 *) named m "ld" match f, g with FIndex, FIndexIndirect => Some (Ok (DEREF_I)) | _, _ => None end;
  (* 182-184 *) named m "se" match f, g with FRegister x, FNumeric value => Some (tri v := to_8_bit value in Ok (SE_IMMEDIATE x v)) | _, _ => None end;
  (* 187-190 *) named m "se" match f, g with FRegister x, FIdentifier label => Some (tri label_value := resolve_label label labels in tri v := to_8_bit label_value in Ok (SE_IMMEDIATE x v)) | _, _ => None end;
  (* 192-194 *) named m "sne" match f, g with FRegister x, FNumeric value => Some (tri v := to_8_bit value in Ok (SNE_IMMEDIATE x v)) | _, _ => None end;
  (* 197-200 *) named m "sne" match f, g with FRegister x, FIdentifier label => Some (tri label_value := resolve_label label labels in tri v := to_8_bit label_value in Ok (SNE_IMMEDIATE x v)) | _, _ => None end;
  (* 202-204 *) named m "se" match f, g with FRegister x, FRegister y => Some (Ok (SE_REGISTER x y)) | _, _ => None end;
  (* 206-208 *) named m "sne" match f, g with FRegister x, FRegister y => Some (Ok (SNE_REGISTER x y)) | _, _ => None end;
  (* 210-212 *) named m "ld" match f, g with FRegister x, FNumeric value => Some (tri v := to_8_bit value in Ok (LD_IMMEDIATE x v)) | _, _ => None end;
  (* 215-218 *) named m "ld" match f, g with FRegister x, FIdentifier label => Some (tri label_value := resolve_label label labels in tri v := to_8_bit label_value in Ok (LD_IMMEDIATE x v)) | _, _ => None end;
  (* 220-222 *) named m "add" match f, g with FRegister x, FNumeric value => Some (tri v := to_8_bit value in Ok (ADD_IMMEDIATE x v)) | _, _ => None end;
  (* 225-228 *) named m "add" match f, g with FRegister x, FIdentifier label => Some (tri label_value := resolve_label label labels in tri v := to_8_bit label_value in Ok (ADD_IMMEDIATE x v)) | _, _ => None end;
  (* 230-232 *) named m "ld" match f, g with FRegister x, FRegister y => Some (Ok (LD_REGISTER x y)) | _, _ => None end;
  (* 234-236 *) named m "or" match f, g with FRegister x, FRegister y => Some (Ok (OR x y)) | _, _ => None end;
  (* 238-240 *) named m "and" match f, g with FRegister x, FRegister y => Some (Ok (AND x y)) | _, _ => None end;
  (* 242-244 *) named m "xor" match f, g with FRegister x, FRegister y => Some (Ok (XOR x y)) | _, _ => None end;
  (* 246-248 *) named m "add" match f, g with FRegister x, FRegister y => Some (Ok (ADD_REGISTER x y)) | _, _ => None end;
  (* 250-252 *) named m "sub" match f, g with FRegister x, FRegister y => Some (Ok (SUB x y)) | _, _ => None end;
  (* 254-256 *) named m "subn" match f, g with FRegister x, FRegister y => Some (Ok (SUBN x y)) | _, _ => None end;
  (* 258-260 *) named m "ld" match f, g with FIndex, FNumeric value => Some (Ok (LD_I value)) | _, _ => None end;
  (* 263-266 *) named m "ld" match f, g with FIndex, FIdentifier label => Some (tri address := resolve_label label labels in Ok (LD_I address)) | _, _ => None end;
  (* 268-270 *) named m "jp" match f, g with FRegister 0, FNumeric value => Some (Ok (JP_V0 value)) | _, _ => None end;
  (* 273-276 *) named m "jp" match f, g with FRegister 0, FIdentifier label => Some (tri address := resolve_label label labels in Ok (JP_V0 address)) | _, _ => None end;
  (* 278-280 *) named m "rnd" match f, g with FRegister x, FNumeric value => Some (tri v := to_8_bit value in Ok (RND x v)) | _, _ => None end;
  (* 283-286 *) named m "rnd" match f, g with FRegister x, FIdentifier label => Some (tri label_value := resolve_label label labels in tri v := to_8_bit label_value in Ok (RND x v)) | _, _ => None end;
  (* 288-290 *) named m "ld" match f, g with FRegister x, FDelayTimer => Some (Ok (LD_X_DT x)) | _, _ => None end;
  (* 292-294 *) named m "ld" match f, g with FRegister x, FKeypad => Some (Ok (LD_X_K x)) | _, _ => None end;
  (* 296-298 *) named m "ld" match f, g with FDelayTimer, FRegister x => Some (Ok (LD_DT_X x)) | _, _ => None end;
  (* 300-302 *) named m "ld" match f, g with FSoundTimer, FRegister x => Some (Ok (LD_ST_X x)) | _, _ => None end;
  (* 304-306 *) named m "add" match f, g with FIndex, FRegister x => Some (Ok (ADD_I_X x)) | _, _ => None end;
  (* 308-310 *) named m "ld" match f, g with FSprite, FRegister x => Some (Ok (SPRITE_I x)) | _, _ => None end;
  (* 312-314 *) named m "ld" match f, g with FBcd, FRegister x => Some (Ok (BCD_I x)) | _, _ => None end;
  (* 316-318 *) named m "ld" match f, g with FIndexIndirect, FRegister x => Some (Ok (SAVE_I x)) | _, _ => None end;
  (* 320-322 *) named m "ld" match f, g with FRegister x, FIndexIndirect => Some (Ok (RESTORE_I x)) | _, _ => None end
].

(** instruction.rs:329-348.  The two [if let] come one after the other; [opcode] is overwritten. *)
Definition arm_3_numeric (m : str) (f g h : field) : outcome :=
  (* 331-337 *) named m "drw" match f, g, h with FRegister x, FRegister y, FNumeric value => Some (tri v := to_4_bit value in Ok (DRW x y v)) | _, _, _ => None end.

Definition arm_3_label (m : str) (f g h : field) (labels : label_map) : outcome :=
  (* 340-347 *) named m "drw" match f, g, h with FRegister x, FRegister y, FIdentifier label => Some (tri label_value := resolve_label label labels in tri v := to_4_bit label_value in Ok (DRW x y v)) | _, _, _ => None end.

Definition assigned (before : option opcode) (r : outcome) : result instruction_error (option opcode) :=
  match r with
  | None => Ok before
  | Some (Ok o) => Ok (Some o)
  | Some (Err e) => Err e
  end.

(** instruction.rs:112-366, with the variable [opcode] passing through the four [if]s *)
Definition instruction_from_arms (input_mnemonic : str) (fields : list field) (labels : label_map)
  : result instruction_error opcode :=
  let mnemonic := to_lowercase input_mnemonic in
  tri o := match fields with [] => first_arm (arms_0 mnemonic) | _ => Ok None end in
  tri o := match fields with [f] => first_arm (arms_1 mnemonic f labels) | _ => Ok o end in
  tri o := match fields with [f; g] => first_arm (arms_2 mnemonic f g labels) | _ => Ok o end in
  tri o := match fields with
           | [f; g; h] => tri o := assigned o (arm_3_numeric mnemonic f g h) in assigned o (arm_3_label mnemonic f g h labels)
           | _ => Ok o
           end in
  ok_or o (NoMatchingFormat input_mnemonic
             match fields with
             | [] => None
             | _ => Some (join (u ", ") (map field_fmt fields))
             end).

(** ** opcode.rs *)

(** A pattern [(_, 0x5, ...)] against the four digits of a word *)
Fixpoint fits (pattern : list (option N)) (digits : list N) : bool :=
  match pattern, digits with
  | [], [] => true
  | None :: p, _ :: d => fits p d
  | Some n :: p, m :: d => (n =? m) && fits p d
  | _, _ => false
  end.

(** opcode.rs:74-111, in the order of the source; the last arm is [NOP] *)
Definition decode_arms (register_x register_y : byte) (imm12 : U12) (imm8 imm4 : byte) : list (list (option N) * opcode) := [
  (* 74 *) ([Some 0x0; Some 0x0; Some 0xE; Some 0x0], CLS);
  (* 75 *) ([Some 0x0; Some 0x0; Some 0xE; Some 0xE], RET);
  (* 76 *) ([Some 0x0; Some 0x0; Some 0xF; Some 0x8], DEREF_I);
  (* 77 *) ([Some 0x0; Some 0x0; Some 0xF; Some 0x9], TRAPRET);
  (* 78 *) ([Some 0x0; Some 0x0; Some 0xF; Some 0xA], TRAP);
  (* 79 *) ([Some 0x1; None; None; None], JP imm12);
  (* 80 *) ([Some 0x2; None; None; None], CALL imm12);
  (* 81 *) ([Some 0x3; None; None; None], SE_IMMEDIATE register_x imm8);
  (* 82 *) ([Some 0x4; None; None; None], SNE_IMMEDIATE register_x imm8);
  (* 83 *) ([Some 0x5; None; None; Some 0x0], SE_REGISTER register_x register_y);
  (* 84 *) ([Some 0x6; None; None; None], LD_IMMEDIATE register_x imm8);
  (* 85 *) ([Some 0x7; None; None; None], ADD_IMMEDIATE register_x imm8);
  (* 86 *) ([Some 0x8; None; None; Some 0x0], LD_REGISTER register_x register_y);
  (* 87 *) ([Some 0x8; None; None; Some 0x1], OR register_x register_y);
  (* 88 *) ([Some 0x8; None; None; Some 0x2], AND register_x register_y);
  (* 89 *) ([Some 0x8; None; None; Some 0x3], XOR register_x register_y);
  (* 90 *) ([Some 0x8; None; None; Some 0x4], ADD_REGISTER register_x register_y);
  (* 91 *) ([Some 0x8; None; None; Some 0x5], SUB register_x register_y);
  (* 92 *) ([Some 0x8; None; None; Some 0x6], SHR register_x register_y);
  (* 93 *) ([Some 0x8; None; None; Some 0x7], SUBN register_x register_y);
  (* 94 *) ([Some 0x8; None; None; Some 0xE], SHL register_x register_y);
  (* 95 *) ([Some 0x9; None; None; Some 0x0], SNE_REGISTER register_x register_y);
  (* 96 *) ([Some 0xA; None; None; None], LD_I imm12);
  (* 97 *) ([Some 0xB; None; None; None], JP_V0 imm12);
  (* 98 *) ([Some 0xC; None; None; None], RND register_x imm8);
  (* 99 *) ([Some 0xD; None; None; None], DRW register_x register_y imm4);
  (* 100 *) ([Some 0xE; None; Some 0x9; Some 0xE], SE_K register_x);
  (* 101 *) ([Some 0xE; None; Some 0xA; Some 0x1], SNE_K register_x);
  (* 102 *) ([Some 0xF; None; Some 0x0; Some 0x7], LD_X_DT register_x);
  (* 103 *) ([Some 0xF; None; Some 0x0; Some 0xA], LD_X_K register_x);
  (* 104 *) ([Some 0xF; None; Some 0x1; Some 0x5], LD_DT_X register_x);
  (* 105 *) ([Some 0xF; None; Some 0x1; Some 0x8], LD_ST_X register_x);
  (* 106 *) ([Some 0xF; None; Some 0x1; Some 0xE], ADD_I_X register_x);
  (* 107 *) ([Some 0xF; None; Some 0x2; Some 0x9], SPRITE_I register_x);
  (* 108 *) ([Some 0xF; None; Some 0x3; Some 0x3], BCD_I register_x);
  (* 109 *) ([Some 0xF; None; Some 0x5; Some 0x5], SAVE_I register_x);
  (* 110 *) ([Some 0xF; None; Some 0x6; Some 0x5], RESTORE_I register_x);
  (* 111 *) ([None; None; None; None], NOP)
].

(** opcode.rs:59-113 *)
Definition from_instruction_arms (instruction : N) : opcode :=
  let digits := [N.shiftr (N.land instruction 0xF000) 12; N.shiftr (N.land instruction 0x0F00) 8;
                 N.shiftr (N.land instruction 0x00F0) 4; N.land instruction 0x000F] in
  let register_x := N.shiftr (N.land instruction 0x0F00) 8 in
  let register_y := N.shiftr (N.land instruction 0x00F0) 4 in
  let imm12 := u12_unchecked_into (N.land instruction 0x0FFF) in
  let imm8 := N.land instruction 0x00FF in
  let imm4 := N.land instruction 0x000F in
  match List.find (fun a => fits (fst a) digits) (decode_arms register_x register_y imm12 imm8 imm4) with
  | Some a => snd a
  | None => NOP
  end.
