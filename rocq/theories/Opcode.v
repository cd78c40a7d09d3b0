(** * Opcode: src/assembler/opcode.rs *)

From Verif Require Import Base Text U12.
Open Scope N_scope.

(** opcode.rs:16-55 *)
Inductive opcode : Type :=
| NOP
| CLS
| RET
| DEREF_I
| TRAP
| TRAPRET
| JP (target : U12)
| CALL (target : U12)
| SE_IMMEDIATE (x value : byte)
| SNE_IMMEDIATE (x value : byte)
| SE_REGISTER (x y : byte)
| SNE_REGISTER (x y : byte)
| LD_IMMEDIATE (x value : byte)
| ADD_IMMEDIATE (x value : byte)
| LD_REGISTER (x y : byte)
| OR (x y : byte)
| AND (x y : byte)
| XOR (x y : byte)
| ADD_REGISTER (x y : byte)
| SUB (x y : byte)
| SHR (x y : byte)
| SUBN (x y : byte)
| SHL (x y : byte)
| LD_I (value : U12)
| JP_V0 (value : U12)
| RND (x mask : byte)
| DRW (x y bytes : byte)
| SE_K (x : byte)
| SNE_K (x : byte)
| LD_X_DT (x : byte)
| LD_X_K (x : byte)
| LD_DT_X (x : byte)
| LD_ST_X (x : byte)
| ADD_I_X (x : byte)
| SPRITE_I (x : byte)
| BCD_I (x : byte)
| SAVE_I (x : byte)
| RESTORE_I (x : byte).

(** opcode.rs:59-113.  The tuple match is written as nested matches on the
    nibbles, in the order of the Rust arms. *)
Definition from_instruction (instruction : N) : opcode :=
  let n3 := N.shiftr (N.land instruction 0xF000) 12 in
  let n2 := N.shiftr (N.land instruction 0x0F00) 8 in
  let n1 := N.shiftr (N.land instruction 0x00F0) 4 in
  let n0 := N.land instruction 0x000F in
  let imm12 := u12_unchecked_into (N.land instruction 0x0FFF) in
  let imm8 := N.land instruction 0x00FF in
  let imm4 := N.land instruction 0x000F in
  let x := n2 in
  let y := n1 in
  match n3, n2, n1, n0 with
  | 0x0, 0x0, 0xE, 0x0 => CLS
  | 0x0, 0x0, 0xE, 0xE => RET
  | 0x0, 0x0, 0xF, 0x8 => DEREF_I
  | 0x0, 0x0, 0xF, 0x9 => TRAPRET
  | 0x0, 0x0, 0xF, 0xA => TRAP
  | 0x1, _, _, _ => JP imm12
  | 0x2, _, _, _ => CALL imm12
  | 0x3, _, _, _ => SE_IMMEDIATE x imm8
  | 0x4, _, _, _ => SNE_IMMEDIATE x imm8
  | 0x5, _, _, 0x0 => SE_REGISTER x y
  | 0x6, _, _, _ => LD_IMMEDIATE x imm8
  | 0x7, _, _, _ => ADD_IMMEDIATE x imm8
  | 0x8, _, _, 0x0 => LD_REGISTER x y
  | 0x8, _, _, 0x1 => OR x y
  | 0x8, _, _, 0x2 => AND x y
  | 0x8, _, _, 0x3 => XOR x y
  | 0x8, _, _, 0x4 => ADD_REGISTER x y
  | 0x8, _, _, 0x5 => SUB x y
  | 0x8, _, _, 0x6 => SHR x y
  | 0x8, _, _, 0x7 => SUBN x y
  | 0x8, _, _, 0xE => SHL x y
  | 0x9, _, _, 0x0 => SNE_REGISTER x y
  | 0xA, _, _, _ => LD_I imm12
  | 0xB, _, _, _ => JP_V0 imm12
  | 0xC, _, _, _ => RND x imm8
  | 0xD, _, _, _ => DRW x y imm4
  | 0xE, _, 0x9, 0xE => SE_K x
  | 0xE, _, 0xA, 0x1 => SNE_K x
  | 0xF, _, 0x0, 0x7 => LD_X_DT x
  | 0xF, _, 0x0, 0xA => LD_X_K x
  | 0xF, _, 0x1, 0x5 => LD_DT_X x
  | 0xF, _, 0x1, 0x8 => LD_ST_X x
  | 0xF, _, 0x1, 0xE => ADD_I_X x
  | 0xF, _, 0x2, 0x9 => SPRITE_I x
  | 0xF, _, 0x3, 0x3 => BCD_I x
  | 0xF, _, 0x5, 0x5 => SAVE_I x
  | 0xF, _, 0x6, 0x5 => RESTORE_I x
  | _, _, _, _ => NOP
  end.

(** [{:1x}], [{:2x}], [{:3x}]: lower-case, padded with SPACES *)
Definition x1 (n : N) : str := pad_left 32 1 (fmt_hex false n).
(** [{:2x}], opcode.rs:115-156 *)
Definition x2 (n : N) : str := pad_left 32 2 (fmt_hex false n).
(** [{:3x}], opcode.rs:115-156 *)
Definition x3 (n : N) : str := pad_left 32 3 (fmt_hex false n).

(** Two registers, opcode.rs:115-156 *)
Definition v_v (name : string) (x y : byte) : str :=
  u name ++ u " v" ++ x1 x ++ u ", v" ++ x1 y.
(** A register and a byte, opcode.rs:115-156 *)
Definition v_imm8 (name : string) (x value : byte) : str :=
  u name ++ u " v" ++ x1 x ++ u ", $" ++ x2 value.

(** opcode.rs:115-156 *)
Definition to_assembly_string (o : opcode) : str :=
  match o with
  | NOP => u "nop"
  | CLS => u "cls"
  | RET => u "ret"
  | DEREF_I => u "ld i, [i]"
  | TRAP => u "trap"
  | TRAPRET => u "trapret"
  | JP target => u "jp $" ++ x3 target
  | CALL target => u "call $" ++ x3 target
  | SE_IMMEDIATE x value => v_imm8 "se" x value
  | SNE_IMMEDIATE x value => v_imm8 "sne" x value
  | SE_REGISTER x y => v_v "se" x y
  | SNE_REGISTER x y => v_v "sne" x y
  | LD_IMMEDIATE x value => v_imm8 "ld" x value
  | ADD_IMMEDIATE x value => v_imm8 "add" x value
  | LD_REGISTER x y => v_v "ld" x y
  | OR x y => v_v "or" x y
  | AND x y => v_v "and" x y
  | XOR x y => v_v "xor" x y
  | ADD_REGISTER x y => v_v "add" x y
  | SUB x y => v_v "sub" x y
  | SHR x _ => u "shr v" ++ x1 x
  | SUBN x y => v_v "subn" x y
  | SHL x _ => u "shl v" ++ x1 x
  | LD_I value => u "ld i, $" ++ x3 value
  | JP_V0 value => u "jp v0, $" ++ x3 value
  | RND x mask => v_imm8 "rnd" x mask
  | DRW x y bytes => u "drw v" ++ x1 x ++ u ", v" ++ x1 y ++ u ", $" ++ x1 bytes
  | SE_K x => u "skp v" ++ x1 x
  | SNE_K x => u "sknp v" ++ x1 x
  | LD_X_DT x => u "ld v" ++ x1 x ++ u ", dt"
  | LD_X_K x => u "ld v" ++ x1 x ++ u ", k"
  | LD_DT_X x => u "ld dt, v" ++ x1 x
  | LD_ST_X x => u "ld st, v" ++ x1 x
  | ADD_I_X x => u "add i, v" ++ x1 x
  | SPRITE_I x => u "ld f, v" ++ x1 x
  | BCD_I x => u "ld b, v" ++ x1 x
  | SAVE_I x => u "ld [i], v" ++ x1 x
  | RESTORE_I x => u "ld v" ++ x1 x ++ u ", [i]"
  end.

(** opcode.rs:201-203 *)
Definition to_formatted_assembly_string (o : opcode) (leading_spaces : nat) : str :=
  repeat 32 leading_spaces ++ to_assembly_string o.

(** opcode.rs:213-223 *)
Definition format_instruction_imm12 (hi4 : byte) (imm12 : U12) : run N :=
  let* _ := assert_ (hi4 <=? 0xF) in
  Done (N.lor (N.shiftl hi4 12) imm12).

(** opcode.rs:225-236 *)
Definition format_instruction_x_imm8 (hi4 x imm8 : byte) : run N :=
  let* _ := assert_ (hi4 <=? 0xF) in
  let* _ := assert_ (x <=? 0xF) in
  Done (N.lor (N.lor (N.shiftl hi4 12) (N.shiftl x 8)) imm8).

(** opcode.rs:238-251 *)
Definition format_instruction_x_y (hi4 x y lo4 : byte) : run N :=
  let* _ := assert_ (hi4 <=? 0xF) in
  let* _ := assert_ (x <=? 0xF) in
  let* _ := assert_ (y <=? 0xF) in
  let* _ := assert_ (lo4 <=? 0xF) in
  Done (N.lor (N.lor (N.lor (N.shiftl hi4 12) (N.shiftl x 8)) (N.shiftl y 4)) lo4).

(** opcode.rs:158-199 *)
Definition as_instruction (o : opcode) : run N :=
  match o with
  | NOP => Done 0x0000
  | CLS => Done 0x00E0
  | RET => Done 0x00EE
  | DEREF_I => Done 0x00F8
  | TRAPRET => Done 0x00F9
  | TRAP => Done 0x00FA
  | JP target => format_instruction_imm12 0x1 target
  | CALL target => format_instruction_imm12 0x2 target
  | SE_IMMEDIATE x value => format_instruction_x_imm8 0x3 x value
  | SNE_IMMEDIATE x value => format_instruction_x_imm8 0x4 x value
  | SE_REGISTER x y => format_instruction_x_y 0x5 x y 0x0
  | SNE_REGISTER x y => format_instruction_x_y 0x9 x y 0x0
  | LD_IMMEDIATE x value => format_instruction_x_imm8 0x6 x value
  | ADD_IMMEDIATE x value => format_instruction_x_imm8 0x7 x value
  | LD_REGISTER x y => format_instruction_x_y 0x8 x y 0x0
  | OR x y => format_instruction_x_y 0x8 x y 0x1
  | AND x y => format_instruction_x_y 0x8 x y 0x2
  | XOR x y => format_instruction_x_y 0x8 x y 0x3
  | ADD_REGISTER x y => format_instruction_x_y 0x8 x y 0x4
  | SUB x y => format_instruction_x_y 0x8 x y 0x5
  | SHR x y => format_instruction_x_y 0x8 x y 0x6
  | SUBN x y => format_instruction_x_y 0x8 x y 0x7
  | SHL x y => format_instruction_x_y 0x8 x y 0xE
  | LD_I value => format_instruction_imm12 0xA value
  | JP_V0 value => format_instruction_imm12 0xB value
  | RND x mask => format_instruction_x_imm8 0xC x mask
  | DRW x y bytes => format_instruction_x_y 0xD x y bytes
  | SE_K x => format_instruction_x_imm8 0xE x 0x9E
  | SNE_K x => format_instruction_x_imm8 0xE x 0xA1
  | LD_X_DT x => format_instruction_x_imm8 0xF x 0x07
  | LD_X_K x => format_instruction_x_imm8 0xF x 0x0A
  | LD_DT_X x => format_instruction_x_imm8 0xF x 0x15
  | LD_ST_X x => format_instruction_x_imm8 0xF x 0x18
  | ADD_I_X x => format_instruction_x_imm8 0xF x 0x1E
  | SPRITE_I x => format_instruction_x_imm8 0xF x 0x29
  | BCD_I x => format_instruction_x_imm8 0xF x 0x33
  | SAVE_I x => format_instruction_x_imm8 0xF x 0x55
  | RESTORE_I x => format_instruction_x_imm8 0xF x 0x65
  end.
