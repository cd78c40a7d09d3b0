(** * SrcText: the files of /repo/src, line by line and unchanged, each up
    to its tests.  Nothing here is written by hand: the lines are those of the files,
    a quotation mark being doubled as Coq's strings ask. *)

From Coq Require Import String List.
Import ListNotations.
Open Scope string_scope.

(** opcode.rs:1-252 *)
Definition opcode_rs : list string :=
[
"//";
"// Copyright 2016 The c8s Developers. See the COPYRIGHT";
"// file at the top-level directory of this distribution.";
"//";
"// Licensed under the MIT license <LICENSE-MIT or http://opensource.org/licenses/MIT>.";
"// All files in the project carrying such notice may not be copied, modified, or ";
"// distributed except according to those terms.";
"//";
"";
"use std::fmt;";
"";
"use twelve_bit::u12::*;";
"";
"#[allow(non_camel_case_types)]";
"#[derive(Eq, PartialEq, Copy, Clone, Debug)]";
"pub enum Opcode {";
"  NOP             ,";
"  CLS             ,";
"  RET             ,";
"  DEREF_I         ,";
"  TRAP            ,";
"  TRAPRET         ,";
"  JP              { target: U12 },";
"  CALL            { target: U12 },";
"  SE_IMMEDIATE    { register_x: u8, value: u8 },";
"  SNE_IMMEDIATE   { register_x: u8, value: u8 },";
"  SE_REGISTER     { register_x: u8, register_y: u8 },";
"  SNE_REGISTER    { register_x: u8, register_y: u8 },";
"  LD_IMMEDIATE    { register_x: u8, value: u8 },";
"  ADD_IMMEDIATE   { register_x: u8, value: u8 },";
"  LD_REGISTER     { register_x: u8, register_y: u8 },";
"  OR              { register_x: u8, register_y: u8 },";
"  AND             { register_x: u8, register_y: u8 },";
"  XOR             { register_x: u8, register_y: u8 },";
"  ADD_REGISTER    { register_x: u8, register_y: u8 },";
"  SUB             { register_x: u8, register_y: u8 },";
"  SHR             { register_x: u8, register_y: u8 },";
"  SUBN            { register_x: u8, register_y: u8 },";
"  SHL             { register_x: u8, register_y: u8 }, ";
"  LD_I            { value: U12 },";
"  JP_V0           { value: U12 },";
"  RND             { register_x: u8, mask: u8 },";
"  DRW             { register_x: u8, register_y: u8, bytes: u8 },";
"  SE_K            { register_x: u8 },";
"  SNE_K           { register_x: u8 },";
"  LD_X_DT         { register_x: u8 },";
"  LD_X_K          { register_x: u8 },";
"  LD_DT_X         { register_x: u8 },";
"  LD_ST_X         { register_x: u8 },";
"  ADD_I_X         { register_x: u8 },";
"  SPRITE_I        { register_x: u8 },";
"  BCD_I           { register_x: u8 },";
"  SAVE_I          { register_x: u8 },";
"  RESTORE_I       { register_x: u8 }";
"}";
"";
"impl Opcode {";
"";
"  pub fn from_instruction(instruction: u16) -> Opcode {";
"    let nibbles = (";
"      ((instruction & 0xF000) >> 12) as u8,";
"      ((instruction & 0x0F00) >>  8) as u8,";
"      ((instruction & 0x00F0) >>  4) as u8,";
"      ((instruction & 0x000F) >>  0) as u8";
"    );";
"";
"    let imm12: U12 = (instruction & 0x0FFF).unchecked_into();";
"    let imm8: u8 = (instruction & 0x00FF) as u8;";
"    let imm4: u8 = (instruction & 0x000F) as u8;";
"    let register_x = nibbles.1;";
"    let register_y = nibbles.2;";
"";
"    match nibbles {";
"      (0x0, 0x0, 0xE, 0x0) => { Opcode::CLS           }";
"      (0x0, 0x0, 0xE, 0xE) => { Opcode::RET           }";
"      (0x0, 0x0, 0xF, 0x8) => { Opcode::DEREF_I       }";
"      (0x0, 0x0, 0xF, 0x9) => { Opcode::TRAPRET       }";
"      (0x0, 0x0, 0xF, 0xA) => { Opcode::TRAP          }";
"      (0x1, _,   _,   _  ) => { Opcode::JP            { target: imm12 } }";
"      (0x2, _,   _,   _  ) => { Opcode::CALL          { target: imm12 } }";
"      (0x3, _,   _,   _  ) => { Opcode::SE_IMMEDIATE  { register_x: register_x, value: imm8 } }";
"      (0x4, _,   _,   _  ) => { Opcode::SNE_IMMEDIATE { register_x: register_x, value: imm8 } }";
"      (0x5, _,   _,   0x0) => { Opcode::SE_REGISTER   { register_x: register_x, register_y: register_y } }";
"      (0x6, _,   _,   _  ) => { Opcode::LD_IMMEDIATE  { register_x: register_x, value: imm8 } }";
"      (0x7, _,   _,   _  ) => { Opcode::ADD_IMMEDIATE { register_x: register_x, value: imm8 } }";
"      (0x8, _,   _,   0x0) => { Opcode::LD_REGISTER   { register_x: register_x, register_y: register_y } }";
"      (0x8, _,   _,   0x1) => { Opcode::OR            { register_x: register_x, register_y: register_y } }";
"      (0x8, _,   _,   0x2) => { Opcode::AND           { register_x: register_x, register_y: register_y } }";
"      (0x8, _,   _,   0x3) => { Opcode::XOR           { register_x: register_x, register_y: register_y } }";
"      (0x8, _,   _,   0x4) => { Opcode::ADD_REGISTER  { register_x: register_x, register_y: register_y } }";
"      (0x8, _,   _,   0x5) => { Opcode::SUB           { register_x: register_x, register_y: register_y } }";
"      (0x8, _,   _,   0x6) => { Opcode::SHR           { register_x: register_x, register_y: register_y } }";
"      (0x8, _,   _,   0x7) => { Opcode::SUBN          { register_x: register_x, register_y: register_y } }";
"      (0x8, _,   _,   0xE) => { Opcode::SHL           { register_x: register_x, register_y: register_y } }";
"      (0x9, _,   _,   0x0) => { Opcode::SNE_REGISTER  { register_x: register_x, register_y: register_y } }";
"      (0xA, _,   _,   _  ) => { Opcode::LD_I          { value: imm12 } }";
"      (0xB, _,   _,   _  ) => { Opcode::JP_V0         { value: imm12 } }";
"      (0xC, _,   _,   _  ) => { Opcode::RND           { register_x: register_x, mask: imm8 } }";
"      (0xD, _,   _,   _  ) => { Opcode::DRW           { register_x: register_x, register_y: register_y, bytes: imm4 } }";
"      (0xE, _,   0x9, 0xE) => { Opcode::SE_K          { register_x: register_x } }";
"      (0xE, _,   0xA, 0x1) => { Opcode::SNE_K         { register_x: register_x } }";
"      (0xF, _,   0x0, 0x7) => { Opcode::LD_X_DT       { register_x: register_x } }";
"      (0xF, _,   0x0, 0xA) => { Opcode::LD_X_K        { register_x: register_x } }";
"      (0xF, _,   0x1, 0x5) => { Opcode::LD_DT_X       { register_x: register_x } }";
"      (0xF, _,   0x1, 0x8) => { Opcode::LD_ST_X       { register_x: register_x } }";
"      (0xF, _,   0x1, 0xE) => { Opcode::ADD_I_X       { register_x: register_x } }";
"      (0xF, _,   0x2, 0x9) => { Opcode::SPRITE_I      { register_x: register_x } }";
"      (0xF, _,   0x3, 0x3) => { Opcode::BCD_I         { register_x: register_x } }";
"      (0xF, _,   0x5, 0x5) => { Opcode::SAVE_I        { register_x: register_x } }";
"      (0xF, _,   0x6, 0x5) => { Opcode::RESTORE_I     { register_x: register_x } }";
"      (_,   _,   _,   _  ) => { Opcode::NOP           }";
"    }";
"  }";
"";
"  pub fn to_assembly_string(&self) -> String {";
"    match *self {";
"      Opcode::NOP                                                     => { format!(""nop"") }";
"      Opcode::CLS                                                     => { format!(""cls"") }";
"      Opcode::RET                                                     => { format!(""ret"") }";
"      Opcode::DEREF_I                                                 => { format!(""ld i, [i]"") }";
"      Opcode::TRAP                                                    => { format!(""trap"") }";
"      Opcode::TRAPRET                                                 => { format!(""trapret"") }";
"      Opcode::JP              { target }                              => { format!(""jp ${:3x}"", u16::from(target)) }";
"      Opcode::CALL            { target }                              => { format!(""call ${:3x}"", u16::from(target)) }";
"      Opcode::SE_IMMEDIATE    { register_x: x, value }                => { format!(""se v{:1x}, ${:2x}"", x, value) }";
"      Opcode::SNE_IMMEDIATE   { register_x: x, value }                => { format!(""sne v{:1x}, ${:2x}"", x, value) }";
"      Opcode::SE_REGISTER     { register_x: x, register_y: y }        => { format!(""se v{:1x}, v{:1x}"", x, y) }";
"      Opcode::SNE_REGISTER    { register_x: x, register_y: y }        => { format!(""sne v{:1x}, v{:1x}"", x, y) }";
"      Opcode::LD_IMMEDIATE    { register_x: x, value }                => { format!(""ld v{:1x}, ${:2x}"", x, value) }";
"      Opcode::ADD_IMMEDIATE   { register_x: x, value }                => { format!(""add v{:1x}, ${:2x}"", x, value) }";
"      Opcode::LD_REGISTER     { register_x: x, register_y: y }        => { format!(""ld v{:1x}, v{:1x}"", x, y) }";
"      Opcode::OR              { register_x: x, register_y: y }        => { format!(""or v{:1x}, v{:1x}"", x, y) }";
"      Opcode::AND             { register_x: x, register_y: y }        => { format!(""and v{:1x}, v{:1x}"", x, y) }";
"      Opcode::XOR             { register_x: x, register_y: y }        => { format!(""xor v{:1x}, v{:1x}"", x, y) }";
"      Opcode::ADD_REGISTER    { register_x: x, register_y: y }        => { format!(""add v{:1x}, v{:1x}"", x, y) }";
"      Opcode::SUB             { register_x: x, register_y: y }        => { format!(""sub v{:1x}, v{:1x}"", x, y) }";
"      Opcode::SHR             { register_x: x, register_y: _ }        => { format!(""shr v{:1x}"", x) }";
"      Opcode::SUBN            { register_x: x, register_y: y }        => { format!(""subn v{:1x}, v{:1x}"", x, y) }";
"      Opcode::SHL             { register_x: x, register_y: _ }        => { format!(""shl v{:1x}"", x) }";
"      Opcode::LD_I            { value }                               => { format!(""ld i, ${:3x}"", u16::from(value)) }";
"      Opcode::JP_V0           { value }                               => { format!(""jp v0, ${:3x}"", u16::from(value)) }";
"      Opcode::RND             { register_x: x, mask }                 => { format!(""rnd v{:1x}, ${:2x}"", x, mask) }";
"      Opcode::DRW             { register_x: x, register_y: y, bytes}  => { format!(""drw v{:1x}, v{:1x}, ${:1x}"", x, y, bytes) }";
"      Opcode::SE_K            { register_x: x }                       => { format!(""skp v{:1x}"", x) }";
"      Opcode::SNE_K           { register_x: x }                       => { format!(""sknp v{:1x}"", x) }";
"      Opcode::LD_X_DT         { register_x: x }                       => { format!(""ld v{:1x}, dt"", x) }";
"      Opcode::LD_X_K          { register_x: x }                       => { format!(""ld v{:1x}, k"", x) }";
"      Opcode::LD_DT_X         { register_x: x }                       => { format!(""ld dt, v{:1x}"", x) }";
"      Opcode::LD_ST_X         { register_x: x }                       => { format!(""ld st, v{:1x}"", x) }";
"      Opcode::ADD_I_X         { register_x: x }                       => { format!(""add i, v{:1x}"", x) }";
"      Opcode::SPRITE_I        { register_x: x }                       => { format!(""ld f, v{:1x}"", x) }";
"      Opcode::BCD_I           { register_x: x }                       => { format!(""ld b, v{:1x}"", x) }";
"      Opcode::SAVE_I          { register_x: x }                       => { format!(""ld [i], v{:1x}"", x) }";
"      Opcode::RESTORE_I       { register_x: x }                       => { format!(""ld v{:1x}, [i]"", x) }";
"    }";
"  }";
"";
"  pub fn as_instruction(&self) -> u16 {";
"    match *self {";
"      Opcode::NOP                                                     => { 0x0000 }";
"      Opcode::CLS                                                     => { 0x00E0 }";
"      Opcode::RET                                                     => { 0x00EE }";
"      Opcode::DEREF_I                                                 => { 0x00F8 }";
"      Opcode::TRAPRET                                                 => { 0x00F9 }";
"      Opcode::TRAP                                                    => { 0x00FA }";
"      Opcode::JP              { target }                              => { format_instruction_imm12(0x1, target) }";
"      Opcode::CALL            { target }                              => { format_instruction_imm12(0x2, target) }";
"      Opcode::SE_IMMEDIATE    { register_x: x, value }                => { format_instruction_x_imm8(0x3, x, value) }";
"      Opcode::SNE_IMMEDIATE   { register_x: x, value }                => { format_instruction_x_imm8(0x4, x, value) }";
"      Opcode::SE_REGISTER     { register_x: x, register_y: y }        => { format_instruction_x_y(0x5, x, y, 0x0) }";
"      Opcode::SNE_REGISTER    { register_x: x, register_y: y }        => { format_instruction_x_y(0x9, x, y, 0x0) }";
"      Opcode::LD_IMMEDIATE    { register_x: x, value }                => { format_instruction_x_imm8(0x6, x, value) }";
"      Opcode::ADD_IMMEDIATE   { register_x: x, value }                => { format_instruction_x_imm8(0x7, x, value) }";
"      Opcode::LD_REGISTER     { register_x: x, register_y: y }        => { format_instruction_x_y(0x8, x, y, 0x0) }";
"      Opcode::OR              { register_x: x, register_y: y }        => { format_instruction_x_y(0x8, x, y, 0x1) }";
"      Opcode::AND             { register_x: x, register_y: y }        => { format_instruction_x_y(0x8, x, y, 0x2) }";
"      Opcode::XOR             { register_x: x, register_y: y }        => { format_instruction_x_y(0x8, x, y, 0x3) }";
"      Opcode::ADD_REGISTER    { register_x: x, register_y: y }        => { format_instruction_x_y(0x8, x, y, 0x4) }";
"      Opcode::SUB             { register_x: x, register_y: y }        => { format_instruction_x_y(0x8, x, y, 0x5) }";
"      Opcode::SHR             { register_x: x, register_y: y }        => { format_instruction_x_y(0x8, x, y, 0x6) }";
"      Opcode::SUBN            { register_x: x, register_y: y }        => { format_instruction_x_y(0x8, x, y, 0x7) }";
"      Opcode::SHL             { register_x: x, register_y: y }        => { format_instruction_x_y(0x8, x, y, 0xE) }";
"      Opcode::LD_I            { value }                               => { format_instruction_imm12(0xA, value) }";
"      Opcode::JP_V0           { value }                               => { format_instruction_imm12(0xB, value) }";
"      Opcode::RND             { register_x: x, mask }                 => { format_instruction_x_imm8(0xC, x, mask) }";
"      Opcode::DRW             { register_x: x, register_y: y, bytes}  => { format_instruction_x_y(0xD, x, y, bytes) }";
"      Opcode::SE_K            { register_x: x }                       => { format_instruction_x_imm8(0xE, x, 0x9E) }";
"      Opcode::SNE_K           { register_x: x }                       => { format_instruction_x_imm8(0xE, x, 0xA1) }";
"      Opcode::LD_X_DT         { register_x: x }                       => { format_instruction_x_imm8(0xF, x, 0x07) }";
"      Opcode::LD_X_K          { register_x: x }                       => { format_instruction_x_imm8(0xF, x, 0x0A) }";
"      Opcode::LD_DT_X         { register_x: x }                       => { format_instruction_x_imm8(0xF, x, 0x15) }";
"      Opcode::LD_ST_X         { register_x: x }                       => { format_instruction_x_imm8(0xF, x, 0x18) }";
"      Opcode::ADD_I_X         { register_x: x }                       => { format_instruction_x_imm8(0xF, x, 0x1E) }";
"      Opcode::SPRITE_I        { register_x: x }                       => { format_instruction_x_imm8(0xF, x, 0x29) }";
"      Opcode::BCD_I           { register_x: x }                       => { format_instruction_x_imm8(0xF, x, 0x33) }";
"      Opcode::SAVE_I          { register_x: x }                       => { format_instruction_x_imm8(0xF, x, 0x55) }";
"      Opcode::RESTORE_I       { register_x: x }                       => { format_instruction_x_imm8(0xF, x, 0x65) }";
"    }";
"  }";
"";
"  pub fn to_formatted_assembly_string(&self, leading_spaces: usize) -> String {";
"    (0..leading_spaces).map(|_| "" "").collect::<String>() + &self.to_string()";
"  }";
"";
"}";
"";
"impl fmt::Display for Opcode {";
"  fn fmt(&self, f: &mut fmt::Formatter) -> fmt::Result {";
"    write!(f, ""{}"", self.to_assembly_string())";
"  }";
"}";
"";
"fn format_instruction_imm12(hi4: u8, imm12: U12) -> u16 {";
"  /*";
"   * Instruction format A consists of a 4-bit prefix and a 12-bit immediate.";
"   * +------+----------------+";
"   * | hi-4 | nnnn nnnn nnnn |";
"   * +------+----------------+";
"   */";
"  assert!(  hi4 <= 0xF);";
"";
"  ((hi4 as u16) << 12) | u16::from(imm12)";
"}";
"";
"fn format_instruction_x_imm8(hi4: u8, x: u8, imm8: u8) -> u16 {";
"  /*";
"   * Instruction format B consists of a 4-bit prefix, 4-bit register (x) and 8-bit immediate.";
"   * +------+------+-----------+";
"   * | hi-4 | -rx- | nnnn nnnn |";
"   * +------+------+-----------+";
"   */";
"  assert!(hi4 <= 0xF);";
"  assert!(  x <= 0xF);";
"";
"  ((hi4 as u16) << 12) | ((x as u16) << 8) | (imm8 as u16)";
"}";
"";
"fn format_instruction_x_y(hi4: u8, x: u8, y: u8, lo4: u8) -> u16 {";
"  /*";
"   * Instruction format C consists of a 4-bit prefix, 4-bit x and y and a 4-bit suffix.";
"   * +------+------+------+------+";
"   * | hi-4 | -rx- | -ry- | nnnn |";
"   * +------+------+------+------+";
"   */";
"  assert!(hi4 <= 0xF);";
"  assert!(  x <= 0xF);";
"  assert!(  y <= 0xF);";
"  assert!(lo4 <= 0xF);";
"";
"  ((hi4 as u16) << 12) | ((x as u16) << 8) | ((y as u16) << 4) | (lo4 as u16)";
"}";
""
].

(** instruction.rs:1-388 *)
Definition instruction_rs : list string :=
[
"//";
"// Copyright 2016 The c8s Developers. See the COPYRIGHT";
"// file at the top-level directory of this distribution.";
"//";
"// Licensed under the MIT license <LICENSE-MIT or http://opensource.org/licenses/MIT>.";
"// All files in the project carrying such notice may not be copied, modified, or ";
"// distributed except according to those terms.";
"//";
"";
"use std::collections::HashMap;";
"use std::error;";
"use std::fmt;";
"";
"use twelve_bit::u12::*;";
"";
"use assembler::opcode::Opcode;";
"use assembler::parser::InstructionField;";
"";
"#[derive(PartialEq, Eq, Clone, Debug)]";
"pub enum Error {";
"  UnableToResolveLabel(String),";
"  ExpectingEightBitValue(usize),";
"  ExpectingFourBitValue(usize),";
"  NoMatchingFormat(String, Option<String>)";
"}";
"";
"impl error::Error for Error {";
"  /// Returns a string slice with a general description of a directive error.";
"  /// No specific information is contained. To obtain a printable representation,";
"  /// use the `fmt::Display` attribute.";
"  fn description(&self) -> &str {";
"    match self {";
"      &Error::UnableToResolveLabel(_)           => ""Unable to resolve label"",";
"      &Error::ExpectingEightBitValue(_)         => ""Found 12-bit numeric value, expecting 8-bit value"",";
"      &Error::ExpectingFourBitValue(_)          => ""Found 8/12-bit numeric value, expecting 4-bit value"",";
"      &Error::NoMatchingFormat(_,_)             => ""No matching instruction"",";
"    }";
"  }";
"}";
"";
"impl fmt::Display for Error {";
"  /// Formats the receiver for display purposes. Incorporates specific information";
"  /// relating to this particular error instance where applicable.";
"  fn fmt(&self, f: &mut fmt::Formatter) -> fmt::Result {";
"    match self {";
"      &Error::UnableToResolveLabel(ref name) => ";
"        write!(f, ""Unable to resolve label {}."", name),";
"      &Error::ExpectingEightBitValue(actual) =>";
"        write!(f, ""Found 12-bit numeric value ${:X}, expecting 8-bit value."", actual),";
"      &Error::ExpectingFourBitValue(actual) =>";
"        write!(f, ""Found 8/12-bit numeric value ${:X}, expecting 4-bit value."", actual),";
"      &Error::NoMatchingFormat(ref mnemonic, Some(ref fields)) =>";
"        write!(f, ""No matching instruction: {} {}."", mnemonic, fields),";
"      &Error::NoMatchingFormat(ref mnemonic, None) =>";
"        write!(f, ""No matching instruction: {}."", mnemonic),";
"    }";
"  }";
"}";
"";
"#[derive(PartialEq, Eq, Copy, Clone, Debug)]";
"pub struct Instruction(Opcode);";
"";
"/**";
" Resolves the label from the label map.";
" @param label The name of the label (case-sensitive).";
" @param label_map The mapping of labels to their resolved addresses.";
" @return The address from the label map if defined, or an error describing the failure.";
" */";
"fn resolve_label_with_map<'a>(label: &'a str, label_map: &HashMap<&'a str, U12>) -> Result<U12, Error> {";
"  label_map";
"    .get(label)";
"    .map(|value| *value)";
"    .ok_or(Error::UnableToResolveLabel(String::from(label)))";
"}";
"";
"/**";
" Converts a 12-bit (unsigned) literal value to 8-bits if possible to do so without data loss.";
" @param literal 12-bit literal.";
" @return A result consisting of the low 8 bits of the 12-bit literal or an explanation as to why conversion failed.";
" */";
"fn numeric_literal_to_8_bit_field(literal: U12) -> Result<u8, Error> {";
"  literal";
"    .failable_into()";
"    .ok_or(Error::ExpectingEightBitValue(usize::from(literal)))";
"}";
"";
"/**";
" Converts a 12-bit (unsigned) literal value to 4-bits if possible to do so without data loss.";
" @param literal 12-bit literal.";
" @return A result consisting of the low 4 bits of the 12-bit literal or an explanation as to why conversion failed.";
" */";
"fn numeric_literal_to_4_bit_field(literal: U12) -> Result<u8, Error> {";
"  if let Some(eight_bit) = literal.failable_into() {";
"    if eight_bit < 16 {";
"      return Ok(eight_bit);";
"    }";
"  }";
"";
"  Err(Error::ExpectingFourBitValue(usize::from(literal)))";
"}";
"";
"impl<'a> Instruction {";
"";
"  /**";
"   Converts a mnemonic string and a list of associated fields into an opcode (with the help of a";
"   label resolution map). Produces an error message in the event of failure.";
"   @param mnemonic The (all lowercase) instruction mnemonic.";
"   @param fields A vector of instruction fields.";
"   @param label_map A reference to a map of labels to their defined address values.";
"   @return The assembled instruction if successful or a string describing the failure otherwise.";
"   */";
"  pub fn from_mnemonic_and_parameters(input_mnemonic: &'a str, fields: &Vec<InstructionField<'a>>, label_map: &HashMap<&'a str, U12>) -> Result<Self, Error> {";
"    let mut opcode: Option<Opcode> = None;";
"";
"    // Mnemonics match case-insensitive.";
"    let lowercase_mnemonic_string = String::from(input_mnemonic).to_lowercase();";
"    let mnemonic = lowercase_mnemonic_string.as_str();";
"";
"    // Mnemonics with zero parameters.";
"    if fields.len() == 0 {";
"      opcode = match mnemonic {";
"        ""nop""     => Some(Opcode::NOP),";
"        ""cls""     => Some(Opcode::CLS),";
"        ""ret""     => Some(Opcode::RET),";
"        ""trap""    => Some(Opcode::TRAP),";
"        ""trapret"" => Some(Opcode::TRAPRET),";
"        _         => None";
"      };";
"    }";
"";
"    // Mnemonics with one parameter.";
"    if fields.len() == 1 {";
"      opcode = match (mnemonic, fields.get(0).unwrap()) {";
"";
"        (""jp"", &InstructionField::NumericLiteral(target)) => {";
"          Some(Opcode::JP { target: target })";
"        }";
"";
"        // The 'jp' mnemonic may reference a label.";
"        (""jp"", &InstructionField::Identifier(label)) => {";
"          let address = try!(resolve_label_with_map(label, label_map));";
"          Some(Opcode::JP { target: address })";
"        }";
"";
"        (""call"", &InstructionField::NumericLiteral(target)) => {";
"          Some(Opcode::CALL { target: target })";
"        }";
"";
"        // The 'call' mnemonic may reference a label.";
"        (""call"", &InstructionField::Identifier(label)) => {";
"          let address = try!(resolve_label_with_map(label, label_map));";
"          Some(Opcode::CALL { target: address })";
"        }";
"";
"        (""shr"", &InstructionField::GeneralPurposeRegister(x)) => {";
"          Some(Opcode::SHR { register_x: x, register_y: 0 })";
"        }";
"";
"        (""shl"", &InstructionField::GeneralPurposeRegister(x)) => {";
"          Some(Opcode::SHL { register_x: x, register_y: 0 })";
"        }";
"";
"        (""skp"", &InstructionField::GeneralPurposeRegister(x)) => {";
"          Some(Opcode::SE_K { register_x: x })";
"        }";
"";
"        (""sknp"", &InstructionField::GeneralPurposeRegister(x)) => {";
"          Some(Opcode::SNE_K { register_x: x })";
"        }";
"";
"        _ => None";
"      }";
"    }";
"";
"    // Mnemonics with two parameters.";
"    if fields.len() == 2 {";
"      opcode = match (mnemonic, fields.get(0).unwrap(), fields.get(1).unwrap()) {";
"        (""ld"", &InstructionField::IndexRegister, &InstructionField::IndexRegisterIndirect) => {";
"          Some(Opcode::DEREF_I)";
"        }";
"";
"        (""se"", &InstructionField::GeneralPurposeRegister(x), &InstructionField::NumericLiteral(value)) => {";
"          Some(Opcode::SE_IMMEDIATE { register_x: x, value: try!(numeric_literal_to_8_bit_field(value)) })";
"        }";
"";
"        // The 'se Vx,NN' mnemonic may reference a label.";
"        (""se"", &InstructionField::GeneralPurposeRegister(x), &InstructionField::Identifier(label)) => {";
"          let label_value = try!(resolve_label_with_map(label, label_map));";
"          Some(Opcode::SE_IMMEDIATE { register_x: x, value: try!(numeric_literal_to_8_bit_field(label_value)) })";
"        }";
"";
"        (""sne"", &InstructionField::GeneralPurposeRegister(x), &InstructionField::NumericLiteral(value)) => {";
"          Some(Opcode::SNE_IMMEDIATE { register_x: x, value: try!(numeric_literal_to_8_bit_field(value)) })";
"        }";
"";
"        // The 'sne Vx,NN' mnemonic may reference a label.";
"        (""sne"", &InstructionField::GeneralPurposeRegister(x), &InstructionField::Identifier(label)) => {";
"          let label_value = try!(resolve_label_with_map(label, label_map));";
"          Some(Opcode::SNE_IMMEDIATE { register_x: x, value: try!(numeric_literal_to_8_bit_field(label_value)) })";
"        }";
"";
"        (""se"", &InstructionField::GeneralPurposeRegister(x), &InstructionField::GeneralPurposeRegister(y)) => {";
"          Some(Opcode::SE_REGISTER { register_x: x, register_y: y })";
"        }";
"";
"        (""sne"", &InstructionField::GeneralPurposeRegister(x), &InstructionField::GeneralPurposeRegister(y)) => {";
"          Some(Opcode::SNE_REGISTER { register_x: x, register_y: y })";
"        }";
"";
"        (""ld"", &InstructionField::GeneralPurposeRegister(x), &InstructionField::NumericLiteral(value)) => {";
"          Some(Opcode::LD_IMMEDIATE { register_x: x, value: try!(numeric_literal_to_8_bit_field(value)) })";
"        }";
"";
"        // The 'ld Vx,NN' mnemonic may reference a label.";
"        (""ld"", &InstructionField::GeneralPurposeRegister(x), &InstructionField::Identifier(label)) => {";
"          let label_value = try!(resolve_label_with_map(label, label_map));";
"          Some(Opcode::LD_IMMEDIATE { register_x: x, value: try!(numeric_literal_to_8_bit_field(label_value)) })";
"        }";
"";
"        (""add"", &InstructionField::GeneralPurposeRegister(x), &InstructionField::NumericLiteral(value)) => {";
"          Some(Opcode::ADD_IMMEDIATE { register_x: x, value: try!(numeric_literal_to_8_bit_field(value)) })";
"        }";
"";
"        // The 'add Vx,NN' mnemonic may reference a label.";
"        (""add"", &InstructionField::GeneralPurposeRegister(x), &InstructionField::Identifier(label)) => {";
"          let label_value = try!(resolve_label_with_map(label, label_map));";
"          Some(Opcode::ADD_IMMEDIATE { register_x: x, value: try!(numeric_literal_to_8_bit_field(label_value)) })";
"        }";
"";
"        (""ld"", &InstructionField::GeneralPurposeRegister(x), &InstructionField::GeneralPurposeRegister(y)) => {";
"          Some(Opcode::LD_REGISTER { register_x: x, register_y: y })";
"        }";
"";
"        (""or"", &InstructionField::GeneralPurposeRegister(x), &InstructionField::GeneralPurposeRegister(y)) => {";
"          Some(Opcode::OR { register_x: x, register_y: y })";
"        }";
"";
"        (""and"", &InstructionField::GeneralPurposeRegister(x), &InstructionField::GeneralPurposeRegister(y)) => {";
"          Some(Opcode::AND { register_x: x, register_y: y })";
"        }";
"";
"        (""xor"", &InstructionField::GeneralPurposeRegister(x), &InstructionField::GeneralPurposeRegister(y)) => {";
"          Some(Opcode::XOR { register_x: x, register_y: y })";
"        }";
"";
"        (""add"", &InstructionField::GeneralPurposeRegister(x), &InstructionField::GeneralPurposeRegister(y)) => {";
"          Some(Opcode::ADD_REGISTER { register_x: x, register_y: y })";
"        }";
"";
"        (""sub"", &InstructionField::GeneralPurposeRegister(x), &InstructionField::GeneralPurposeRegister(y)) => {";
"          Some(Opcode::SUB { register_x: x, register_y: y })";
"        }";
"";
"        (""subn"", &InstructionField::GeneralPurposeRegister(x), &InstructionField::GeneralPurposeRegister(y)) => {";
"          Some(Opcode::SUBN { register_x: x, register_y: y })";
"        }";
"";
"        (""ld"", &InstructionField::IndexRegister, &InstructionField::NumericLiteral(value)) => {";
"          Some(Opcode::LD_I { value: value })";
"        }";
"";
"        // The 'ld I,NNN' mnemonic may reference a label.";
"        (""ld"", &InstructionField::IndexRegister, &InstructionField::Identifier(label)) => {";
"          let address = try!(resolve_label_with_map(label, label_map));";
"          Some(Opcode::LD_I { value: address })";
"        }";
"";
"        (""jp"", &InstructionField::GeneralPurposeRegister(0), &InstructionField::NumericLiteral(value)) => {";
"          Some(Opcode::JP_V0 { value: value })";
"        }";
"";
"        // The 'jp V0,NNN' mnemonic may reference a label.";
"        (""jp"", &InstructionField::GeneralPurposeRegister(0), &InstructionField::Identifier(label)) => {";
"          let address = try!(resolve_label_with_map(label, label_map));";
"          Some(Opcode::JP_V0 { value: address })";
"        }";
"";
"        (""rnd"", &InstructionField::GeneralPurposeRegister(x), &InstructionField::NumericLiteral(value)) => {";
"          Some(Opcode::RND { register_x: x, mask: try!(numeric_literal_to_8_bit_field(value)) })";
"        }";
"";
"        // The 'rnd Vx,NN' mnemonic may reference a label.";
"        (""rnd"", &InstructionField::GeneralPurposeRegister(x), &InstructionField::Identifier(label)) => {";
"          let label_value = try!(resolve_label_with_map(label, label_map));";
"          Some(Opcode::RND { register_x: x, mask: try!(numeric_literal_to_8_bit_field(label_value)) })";
"        }";
"";
"        (""ld"", &InstructionField::GeneralPurposeRegister(x), &InstructionField::DelayTimer) => {";
"          Some(Opcode::LD_X_DT { register_x: x })";
"        }";
"";
"        (""ld"", &InstructionField::GeneralPurposeRegister(x), &InstructionField::KeypadRegister) => {";
"          Some(Opcode::LD_X_K { register_x: x })";
"        }";
"";
"        (""ld"", &InstructionField::DelayTimer, &InstructionField::GeneralPurposeRegister(x)) => {";
"          Some(Opcode::LD_DT_X { register_x: x })";
"        }";
"";
"        (""ld"", &InstructionField::SoundTimer, &InstructionField::GeneralPurposeRegister(x)) => {";
"          Some(Opcode::LD_ST_X { register_x: x })";
"        }";
"";
"        (""add"", &InstructionField::IndexRegister, &InstructionField::GeneralPurposeRegister(x)) => {";
"          Some(Opcode::ADD_I_X { register_x: x })";
"        }";
"";
"        (""ld"", &InstructionField::Sprite, &InstructionField::GeneralPurposeRegister(x)) => {";
"          Some(Opcode::SPRITE_I { register_x: x })";
"        }";
"";
"        (""ld"", &InstructionField::Bcd, &InstructionField::GeneralPurposeRegister(x)) => {";
"          Some(Opcode::BCD_I { register_x: x })";
"        }";
"";
"        (""ld"", &InstructionField::IndexRegisterIndirect, &InstructionField::GeneralPurposeRegister(x)) => {";
"          Some(Opcode::SAVE_I { register_x: x })";
"        }";
"";
"        (""ld"", &InstructionField::GeneralPurposeRegister(x), &InstructionField::IndexRegisterIndirect) => {";
"          Some(Opcode::RESTORE_I { register_x: x })";
"        }";
"";
"        _ => None";
"      };";
"    }";
"";
"    // Mnemonics with three parameter.";
"    if fields.len() == 3 {";
"      let tuple = (mnemonic, fields.get(0).unwrap(), fields.get(1).unwrap(), fields.get(2).unwrap());";
"      if let (";
"        ""drw"", ";
"        &InstructionField::GeneralPurposeRegister(x), ";
"        &InstructionField::GeneralPurposeRegister(y),";
"        &InstructionField::NumericLiteral(value)) = tuple {";
"        opcode = Some(Opcode::DRW {register_x: x, register_y: y, bytes: try!(numeric_literal_to_4_bit_field(value)) } );";
"      }";
"";
"      // The 'drw Vx,Vy,N' mnemonic may reference a label.";
"      if let (";
"        ""drw"",";
"        &InstructionField::GeneralPurposeRegister(x),";
"        &InstructionField::GeneralPurposeRegister(y),";
"        &InstructionField::Identifier(label)) = tuple {";
"        let label_value = try!(resolve_label_with_map(label, label_map));";
"        opcode = Some(Opcode::DRW {register_x: x, register_y: y, bytes: try!(numeric_literal_to_4_bit_field(label_value)) } );";
"      }";
"    }";
"";
"    opcode";
"      // Create an Instruction out of the Opcode in the event of success.";
"      .map(|assembled_opcode| {";
"        Instruction(assembled_opcode)";
"      })";
"      // Generate a NoMatchingFormat error in the event of failure.";
"      .ok_or_else(|| {";
"        Error::NoMatchingFormat(String::from(input_mnemonic), match fields.len() {";
"          0 => None,";
"          _ => {";
"            let field_strings = fields.iter().map(|field| format!(""{}"", field));";
"            let field_description = field_strings.collect::<Vec<_>>().join("", "");";
"            Some(field_description)";
"          }";
"        })";
"      })";
"  }";
"";
"  /**";
"   @return The size of the instruction in the output stream in bytes (always 2).";
"   */";
"  pub fn size(&self) -> usize { 2 }";
"";
"  /**";
"   Consuming conversion from a directive element into the byte representation in the output stream.";
"   @return A Vec of bytes to be written into the output stream for the directive.";
"   */";
"  pub fn into_vec(self) -> Vec<u8> {";
"    let instruction: u16 = self.0.as_instruction();";
"    vec![";
"      ((instruction & 0xFF00) >> 8) as u8,";
"      ((instruction & 0x00FF) >> 0) as u8";
"    ]";
"  }";
"";
"}";
"";
"// MARK: - Tests";
""
].

(** directive.rs:1-201 *)
Definition directive_rs : list string :=
[
"//";
"// Copyright 2016 The c8s Developers. See the COPYRIGHT";
"// file at the top-level directory of this distribution.";
"//";
"// Licensed under the MIT license <LICENSE-MIT or http://opensource.org/licenses/MIT>.";
"// All files in the project carrying such notice may not be copied, modified, or ";
"// distributed except according to those terms.";
"//";
"";
"use std::error;";
"use std::fmt;";
"";
"use twelve_bit::u12::*;";
"";
"use assembler::parser::Literal;";
"";
"#[derive(PartialEq, Eq, Clone, Debug)]";
"pub enum Error {";
"  /// An invalid number of parameters (`$1`) was specified for `directive` needing `$2` (or more (`$3`)).";
"  IncorrectNumberOfParameters(&'static str, usize, usize, bool),";
"  /// Directive requires one numeric literal parameter.";
"  DirectiveRequiresOneNumericLiteral(&'static str),";
"  /// All numeric parameters must be one-byte literals.";
"  AllNumericParametersMustBeByteLiterals(&'static str, usize),";
"  /// The provided directive was unrecognized.";
"  UnrecognizedDirective(String)";
"}";
"";
"impl error::Error for Error {";
"  /// Returns a string slice with a general description of a directive error.";
"  /// No specific information is contained. To obtain a printable representation,";
"  /// use the `fmt::Display` attribute.";
"  fn description(&self) -> &str {";
"    match self {";
"      &Error::IncorrectNumberOfParameters(_,_,_,_)        => ""Incorrect number of parameters for directive"",";
"      &Error::DirectiveRequiresOneNumericLiteral(_)       => ""Directive requires one numeric literal"",";
"      &Error::AllNumericParametersMustBeByteLiterals(_,_) => ""All numeric parameters must by one-byte literals"",";
"      &Error::UnrecognizedDirective(_)                    => ""Unrecognized directive"",";
"    }";
"  }";
"}";
"";
"impl fmt::Display for Error {";
"  /// Formats the receiver for display purposes. Incorporates specific information";
"  /// relating to this particular error instance where applicable.";
"  fn fmt(&self, f: &mut fmt::Formatter) -> fmt::Result {";
"    match self {";
"      &Error::IncorrectNumberOfParameters(directive, count, from, false) =>";
"        write!(f, ""Incorrect number of parameters ({}) for directive .{}, expecting {}."", count, directive, from),";
"      &Error::IncorrectNumberOfParameters(directive, count, from, true) =>";
"        write!(f, ""Incorrect number of parameters ({}) for directive .{}, expecting {} or more."", count, directive, from),";
"      &Error::DirectiveRequiresOneNumericLiteral(directive) =>";
"        write!(f, ""Directive .{} requires 1 numeric literal in the range $000-$FFF."", directive),";
"      &Error::AllNumericParametersMustBeByteLiterals(directive, value_over) =>";
"        write!(f, ""All numeric parameters to .{} must be 1-byte literals (${:X} > $FF)."", directive, value_over),";
"      &Error::UnrecognizedDirective(ref identifier) =>";
"        write!(f, ""Unrecognized directive '.{}'."", identifier),";
"    }";
"  }";
"}";
"";
"#[derive(PartialEq, Eq, Debug, Clone)]";
"pub enum Directive {";
"  /// Directive to set the emit origin to the new address.";
"  Org(U12),";
"  /// Directive to emit the specified bytes.";
"  Db(Vec<u8>),";
"  /// Directive to define a label as a constant instead of an address.";
"  Equ(U12),";
"}";
"";
"impl fmt::Display for Directive {";
"  fn fmt(&self, f: &mut fmt::Formatter) -> fmt::Result {";
"    match self {";
"      &Directive::Org(location) => write!(f, "".{} ${:3X}"",     names::ORG, usize::from(location)),";
"      &Directive::Db(ref bytes) => write!(f, "".{} [{} bytes]"", names::DB,  bytes.len()),";
"      &Directive::Equ(value)    => write!(f, "".{} ${:3X}"",     names::EQU, usize::from(value)),";
"    }";
"  }";
"}";
"";
"mod names {";
"  /// The name of the 'origin' directive (.org)";
"  pub const ORG: &'static str = ""org"";";
"  /// The name of the 'define-bytes' directive (.db)";
"  pub const DB: &'static str = ""db"";";
"  /// The name of the 'assign-constant' directive (.equ)";
"  pub const EQU: &'static str = ""equ"";";
"}";
"";
"impl<'a> Directive {";
"";
"  /** ";
"   Validate the semantics of a directive and yield the Emittable representation.";
"   @param identifier The identifier for a directive.";
"   @param arguments The literal arguments specified for the directive.";
"   @return Directive in the event the arguments are valid for the directive, or a failure reason.";
"   */";
"  pub fn from_identifier_and_parameters(input_identifier: &'a str, arguments: &Vec<Literal>) -> Result<Self,Error> {";
"    let identifer_string_lowercase = String::from(input_identifier).to_lowercase();";
"    let identifier = identifer_string_lowercase.as_str();";
"";
"    /*";
"     The 'org' directive is used to set the current output origin address. The directive requires";
"     a single numeric literal in the range $000-$FFF.";
"     */";
"    if identifier == names::ORG {";
"      if arguments.len() != 1 {";
"        return Err(Error::IncorrectNumberOfParameters(names::ORG, arguments.len(), 1, false));";
"      }";
"";
"      return match arguments[0] {";
"        Literal::Numeric(a) if a <= 0xFFF => {";
"          Ok(Directive::Org(a.unchecked_into()))";
"        }";
"        _ => {";
"          Err(Error::DirectiveRequiresOneNumericLiteral(names::ORG))";
"        }";
"      }";
"    }";
"";
"    /*";
"     The 'db' directive is used to emit a series of bytes at the current location. ";
"     A list of 1 or more literals is required, either numeric or string. ";
"     A string literal is emitted without a null-terminator.";
"     */";
"    if identifier == names::DB {";
"      if arguments.len() == 0 {";
"        return Err(Error::IncorrectNumberOfParameters(names::DB, 0, 1, true));";
"      }";
"";
"      let mut bytes = Vec::new();";
"";
"      // Convert all valid parameters into their byte literal values.";
"      for argument in arguments {";
"        match argument {";
"          &Literal::Numeric(value) => {";
"            if value > 0xFF {";
"              return Err(Error::AllNumericParametersMustBeByteLiterals(names::DB, value));";
"            } else {";
"              bytes.push((value & 0x00FF) as u8);";
"            }";
"          }";
"          &Literal::String(string) => {";
"            bytes.extend_from_slice(string.as_bytes());";
"          }";
"        }";
"      }";
"";
"      return Ok(Directive::Db(bytes));";
"    }";
"";
"    /*";
"     The 'equ' directive is used to set the current label to a value other than the current address.";
"     The directive requires a single numeric literal in the range $000-$FFF.";
"     */";
"    if identifier == names::EQU {";
"      if arguments.len() != 1 {";
"        return Err(Error::IncorrectNumberOfParameters(names::EQU, arguments.len(), 1, false));";
"      }";
"";
"      return match arguments[0] {";
"        Literal::Numeric(a) if a <= 0xFFF => {";
"          Ok(Directive::Equ(a.unchecked_into()))";
"        }";
"        _ => {";
"          Err(Error::DirectiveRequiresOneNumericLiteral(names::EQU))";
"        }";
"      }";
"    }";
"";
"    Err(Error::UnrecognizedDirective(String::from(input_identifier)))";
"  }";
"";
"  /**";
"   @return The size of the directive in the output stream in bytes.";
"   */";
"  pub fn size(&self) -> usize {";
"    match *self {";
"      Directive::Org(_)       => 0,";
"      Directive::Db(ref data) => data.len(),";
"      Directive::Equ(_)       => 0,";
"    }";
"  }";
"";
"  /**";
"   Consuming conversion from a directive element into the byte representation in the output stream.";
"   @return A Vec of bytes to be written into the output stream for the directive.";
"   */";
"  pub fn into_vec(self) -> Vec<u8> {";
"    match self {";
"      Directive::Org(_)       => Vec::new(),";
"      Directive::Db(data)     => data,";
"      Directive::Equ(_)       => Vec::new(),";
"    }";
"  }";
"";
"}";
"";
"// MARK: - Tests";
""
].

(** data_range.rs:1-118 *)
Definition data_range_rs : list string :=
[
"//";
"// Copyright 2016 The c8s Developers. See the COPYRIGHT";
"// file at the top-level directory of this distribution.";
"//";
"// Licensed under the MIT license <LICENSE-MIT or http://opensource.org/licenses/MIT>.";
"// All files in the project carrying such notice may not be copied, modified, or ";
"// distributed except according to those terms.";
"//";
"";
"use std::cmp;";
"use std::fmt;";
"use std::ops::Range;";
"";
"use twelve_bit::u12;";
"use twelve_bit::u12::*;";
"";
"#[derive(PartialEq, Eq, Debug, Clone)]";
"pub struct DataRange {";
"  /// The first address populated by the bytes in the range.";
"  start_address: U12,";
"  /// The bytes occupying the range.";
"  data: Vec<u8>";
"}";
"";
"impl fmt::Display for DataRange {";
"  fn fmt(&self, f: &mut fmt::Formatter) -> fmt::Result {";
"    let range = self.address_range();";
"    let first = usize::from(range.start);";
"    let last = usize::from(range.end) - 1;";
"    write!(f, ""${:03X}...${:03X} ({} bytes)"", first, last, self.len())";
"  }";
"}";
"";
"impl DataRange {";
"  ";
"  /// Designated initializer for a `DataRange` starting at `start_address`. ";
"  /// The new data range is initially empty.";
"  pub fn new(start_address: U12) -> Self {";
"    DataRange {";
"      start_address: start_address,";
"      data: Vec::new()";
"    }";
"  }";
"";
"  /// The number of bytes of data in the receiver.";
"  pub fn len(&self) -> usize {";
"    self.data.len()";
"  }";
"";
"  /// An immutable reference to the data in the receiver.";
"  pub fn data(&self) -> &Vec<u8> {";
"    &self.data";
"  }";
"";
"  /// A half-open range `{ address | start <= address < end }` representing addresses covered by the receiver.";
"  pub fn address_range(&self) -> Range<U12> {    ";
"    Range {";
"      start: self.start_address,";
"        end: self.start_address.wrapping_add(self.len().unchecked_into())";
"    }";
"  }";
"";
"  /// Returns the number of bytes remaining to store data in the receiver.";
"  pub fn bytes_remaining(&self) -> usize {";
"    let total_space_in_range = usize::from((u12::MAX - self.start_address)) + 1;";
"    total_space_in_range - self.len()";
"  }";
"";
"  /// Appends the bytes in `data` to the end of the range. Checks to ensure the";
"  /// capacity of the receiver is sufficient without causing the U12 space to wrap around.";
"  /// Returns `true` on success.";
"  pub fn append(&mut self, data: &[u8]) -> bool {";
"    if self.bytes_remaining() >= data.len() {";
"      self.data.extend_from_slice(data);";
"      true";
"    } else {";
"      false";
"    }";
"  }";
"";
"  /// Returns `true` if the receiver intersects with `range`.";
"  pub fn intersects(&self, range: &DataRange) -> bool {";
"    let lhs_range =  self.address_range();";
"    let rhs_range = range.address_range();";
"";
"    // Ranges intersect if the greater of the two starts is less than the smaller of the two ends (half-open).";
"    cmp::max(lhs_range.start, rhs_range.start) < cmp::min(lhs_range.end, rhs_range.end)";
"  }";
"";
"}";
"";
"// MARK: - Public Functions";
"";
"/// Returns a list of pairs of overlapping ranges in `ranges`.";
"pub fn find_overlapping_ranges<'a>(ranges: &'a [DataRange]) -> Vec<(&'a DataRange, &'a DataRange)> {";
"  let mut overlapping_ranges = Vec::new();";
"";
"  /*";
"   Compare each data range to each other data range. This is done by evaluating the mathematical";
"   combination pairs of the data range (order does not matter, pairs must be unique). This has";
"   complexity O(ranges.len() nCr 2).";
"   */";
"  for i in 0..ranges.len() {";
"    for j in i+1..ranges.len() {";
"      let lhs = &ranges[i];";
"      let rhs = &ranges[j];";
"";
"      if lhs.intersects(rhs) {";
"        overlapping_ranges.push((lhs, rhs));";
"      }";
"    }";
"  }";
"";
"  overlapping_ranges";
"}";
"";
"// MARK: - Tests";
""
].

(** source_file_location.rs:1-51 *)
Definition source_file_location_rs : list string :=
[
"//";
"// Copyright 2016 The c8s Developers. See the COPYRIGHT";
"// file at the top-level directory of this distribution.";
"//";
"// Licensed under the MIT license <LICENSE-MIT or http://opensource.org/licenses/MIT>.";
"// All files in the project carrying such notice may not be copied, modified, or ";
"// distributed except according to those terms.";
"//";
"";
"use std::fmt;";
"";
"#[derive(PartialEq, Eq, Debug, Clone)]";
"pub struct SourceFileLocation<'a> {";
"  /// The display name of the source file (usually last path component).";
"  file_name: &'a str,";
"  /// The line number corresponding to the range.";
"  line: usize,";
"  /// The offset from the start of input, in bytes, starting at 1.";
"  location: usize,";
"  /// The length of the region, in bytes.";
"  length: usize";
"}";
"";
"impl<'a> fmt::Display for SourceFileLocation<'a> {";
"  fn fmt(&self, f: &mut fmt::Formatter) -> fmt::Result {";
"    match self.length {";
"      1 => write!(f, ""{}:{}:{}"",    self.file_name, self.line, self.location),";
"      _ => write!(f, ""{}:{}:{}-{}"", self.file_name, self.line, self.location, self.location + self.length - 1)";
"    }";
"  }";
"}";
"";
"impl<'a> SourceFileLocation<'a> {";
"  /**";
"   Creates a new source file location.";
"   @param file_name The display name of the source file (usually last path component).";
"   @param line The line number within the source file, starting at 1. Asserts if 0.";
"   @param location The offset from the start of the input, in code points, starting at 1. Asserts if 0.";
"   @param length The number of code points corresponding to the location. Asserts if 0.";
"   */";
"  pub fn new(file_name: &'a str, line: usize, location: usize, length: usize) -> Self {";
"    assert!(line > 0 && location > 0 && length > 0);";
"    SourceFileLocation {";
"      file_name: file_name,";
"      line: line,";
"      location: location,";
"      length: length";
"    }";
"  }";
"}";
""
].

(** token.rs:1-92 *)
Definition token_rs : list string :=
[
"//";
"// Copyright 2016 The c8s Developers. See the COPYRIGHT";
"// file at the top-level directory of this distribution.";
"//";
"// Licensed under the MIT license <LICENSE-MIT or http://opensource.org/licenses/MIT>.";
"// All files in the project carrying such notice may not be copied, modified, or ";
"// distributed except according to those terms.";
"//";
"";
"use std::fmt;";
"";
"use assembler::source_file_location::SourceFileLocation;";
"use assembler::scanner;";
"";
"#[derive(PartialEq, Eq, Debug, Clone)]";
"pub enum Token<'a> {";
"  /// A single-line comment. Value includes ';' but not the newline.";
"  SingleLineComment(&'a str, SourceFileLocation<'a>),";
"  /// A period.";
"  DirectiveMarker(SourceFileLocation<'a>),";
"  /// An identifier (starts with an _ or a letter, is an underscore or alphanumeric).";
"  Identifier(&'a str, SourceFileLocation<'a>),";
"  /// A colon.";
"  LabelMarker(SourceFileLocation<'a>),";
"  /// A string literal, contained in double-quotes. Quotes are not included in the value and it is unescaped.";
"  StringLiteral(&'a str, SourceFileLocation<'a>),";
"  /// A numeric literal value.";
"  NumericLiteral(usize, SourceFileLocation<'a>),";
"  /// List separator token ','.";
"  Comma(SourceFileLocation<'a>),";
"  /// Newline, a \n character.";
"  Newline(SourceFileLocation<'a>),";
"  /// An including the reason that the tokenization failed.";
"  Error(scanner::Error<'a>, SourceFileLocation<'a>)";
"}";
"";
"impl<'a> Token<'a> {";
"  /**";
"   @return A reference to the source file location corresponding to any variant of Token.";
"   */";
"  pub fn location(&self) -> &SourceFileLocation<'a> {";
"    match self {";
"      &Token::SingleLineComment(_, ref loc)   => loc,";
"      &Token::DirectiveMarker(ref loc)        => loc,";
"      &Token::Identifier(_, ref loc)          => loc,";
"      &Token::LabelMarker(ref loc)            => loc,";
"      &Token::StringLiteral(_, ref loc)       => loc,";
"      &Token::NumericLiteral(_, ref loc)      => loc,";
"      &Token::Comma(ref loc)                  => loc,";
"      &Token::Newline(ref loc)                => loc,";
"      &Token::Error(_, ref loc)               => loc";
"    }";
"  }";
"}";
"";
"impl<'a> fmt::Display for Token<'a> {";
"  /**";
"   Formats the receiver for display purposes. This includes the associated value if any";
"   while omitting the source file location component. Names are lower-case.";
"   @param f Formatter to write into.";
"   @return A result representing the formatted receiver or a failure to write into the Formatter.";
"   */";
"  fn fmt(&self, f: &mut fmt::Formatter) -> fmt::Result {";
"    match self {";
"      &Token::SingleLineComment(_, _)         => write!(f, ""{}"", display_names::SINGLE_LINE_COMMENT),";
"      &Token::DirectiveMarker(_)              => write!(f, ""{}"", display_names::DIRECTIVE_MARKER),";
"      &Token::LabelMarker(_)                  => write!(f, ""{}"", display_names::LABEL_MARKER),";
"      &Token::Comma(_)                        => write!(f, ""{}"", display_names::COMMA),";
"      &Token::Newline(_)                      => write!(f, ""{}"", display_names::NEWLINE),";
"      &Token::Identifier(ref value, _)        => write!(f, ""{} ({})"", display_names::IDENTIFIER, value),";
"      &Token::StringLiteral(ref value, _)     => write!(f, ""{} (\""{}\"")"", display_names::STRING_LITERAL, value),";
"      &Token::NumericLiteral(ref value, _)    => write!(f, ""{} ({} / ${:X})"", display_names::NUMERIC_LITERAL, value, value),";
"      &Token::Error(ref reason, _)            => write!(f, ""{}"", reason)";
"    }";
"  }";
"}";
"";
"/**";
" Un-parameterized display names for tokens.";
" */";
"pub mod display_names {";
"  pub const SINGLE_LINE_COMMENT: &str = ""single-line comment"";";
"  pub const DIRECTIVE_MARKER: &str    = ""directive marker"";";
"  pub const IDENTIFIER: &str          = ""identifier"";";
"  pub const LABEL_MARKER: &str        = ""label marker"";";
"  pub const STRING_LITERAL: &str      = ""string literal"";";
"  pub const NUMERIC_LITERAL: &str     = ""numeric literal"";";
"  pub const COMMA: &str               = ""comma"";";
"  pub const NEWLINE: &str             = ""newline"";";
"  pub const INSTRUCTION_FIELD: &str   = ""instruction field"";";
"}";
""
].

(** scanner.rs:1-494 *)
Definition scanner_rs : list string :=
[
"//";
"// Copyright 2016 The c8s Developers. See the COPYRIGHT";
"// file at the top-level directory of this distribution.";
"//";
"// Licensed under the MIT license <LICENSE-MIT or http://opensource.org/licenses/MIT>.";
"// All files in the project carrying such notice may not be copied, modified, or ";
"// distributed except according to those terms.";
"//";
"";
"use std::error;";
"use std::fmt;";
"";
"use regex::Regex;";
"";
"use assembler::source_file_location::SourceFileLocation;";
"use assembler::token::Token;";
"";
"#[derive(PartialEq, Eq, Clone, Debug)]";
"pub enum Error<'a> {";
"  /// An invalid quoted string literal was encountered at `location`.";
"  InvalidStringLiteral,";
"  /// An invalid hexadecimal literal starting with `$` was encountered at `location`.";
"  InvalidHexadecimalLiteral,";
"  /// An valid decimal literal was encountered at `location` with `value` not in `0...4095`.";
"  DecimalLiteralOutOfRange(&'a str),";
"  /// An invalid decimal literal was encountered at `location`.";
"  InvalidDecimalLiteral,";
"  /// An invalid binary literal starting with `%` was encountered at `location`.";
"  InvalidBinaryLiteral,";
"  /// An valid binary literal was encountered at `location` with `value` not in `0...4095`.";
"  BinaryLiteralOutOfRange(&'a str),";
"  /// An invalid identifier was encountered at `location`.";
"  InvalidIdentifier,";
"  /// An expected Register Indirect `[i]` was not matched.";
"  ExpectedRegisterIndirect,";
"  /// An invalid character was encountered at `location`.";
"  InvalidCharacter(char),";
"}";
"";
"impl<'a> error::Error for Error<'a> {";
"  /// Returns a string slice with a general description of a scanner error.";
"  /// No specific information is contained. To obtain a printable representation,";
"  /// use the `fmt::Display` attribute.";
"  fn description(&self) -> &str {";
"    match self {";
"      &Error::InvalidStringLiteral        => ""Invalid quoted string literal"",";
"      &Error::InvalidHexadecimalLiteral   => ""Invalid hexadecimal literal starting with ($)"",";
"      &Error::DecimalLiteralOutOfRange(_) => ""Decimal literal not in range 0...4095"",";
"      &Error::InvalidDecimalLiteral       => ""Invalid decimal literal encountered"",";
"      &Error::InvalidBinaryLiteral        => ""Invalid binary literal encountered"",";
"      &Error::BinaryLiteralOutOfRange(_)  => ""Binary literal not in range 0...4095"",";
"      &Error::InvalidIdentifier           => ""Invalid identifier encountered"",";
"      &Error::ExpectedRegisterIndirect    => ""Expected Index Register Indirect ([i]) not found"",";
"      &Error::InvalidCharacter(_)         => ""Invalid character encountered"",";
"    }";
"  }";
"}";
"";
"impl<'a> fmt::Display for Error<'a> {";
"  /// Formats the receiver for display purposes. Incorporates specific information";
"  /// relating to this particular error instance where applicable.";
"  fn fmt(&self, f: &mut fmt::Formatter) -> fmt::Result {";
"    match self {";
"      &Error::DecimalLiteralOutOfRange(literal) =>";
"        write!(f, ""Decimal literal {} not in range (0...4095)."", literal),";
"      &Error::InvalidCharacter(character) =>";
"        write!(f, ""Invalid character '{}'."", character),";
"      _ =>";
"        write!(f, ""{}."", (self as &error::Error).description())";
"    }";
"  }";
"}";
"";
"pub struct Scanner<'a> {";
"  /// The display name of the source file (usually last path component).";
"  file_name: &'a str,";
"  /// Input string to process.";
"  input: &'a str,";
"  /// Offset from the start of input, in bytes, not in code points.";
"  position: usize,";
"  /// Tracks the current line number, starting at 1.";
"  current_line: usize,";
"  /// Tracks the offset within the current line, in code points, starting at 1.";
"  current_line_offset: usize";
"}";
"";
"/// Parses an input binary string consisting of '.' or '0' for 0, and '1' for 1.";
"/// Returns either `Ok(usize)` if in the range `0...4095` or an `Error` code.";
"fn parse_12_bit_bin_str<'a>(bin_str: &'a str) -> Result<usize, Error<'a>> {";
"  let mut value_result_iterator = bin_str";
"    .chars()";
"    .map(|c| match c {";
"      '.' => Ok(0),";
"      '0' => Ok(0),";
"      '1' => Ok(1),";
"        _ => Err(Error::InvalidBinaryLiteral),";
"    });";
"";
"  let mut accumulator = 0usize;";
"";
"  // Each new bit encountered shifts the accumulator left by 1 and is the new lsb.";
"  while let Some(result) = value_result_iterator.next() {";
"    if result.is_err() {";
"      return result;";
"    } else {";
"      accumulator = match accumulator.checked_shl(1) {";
"        Some(shifted) =>";
"          shifted | result.unwrap(),";
"        None =>";
"          return Err(Error::BinaryLiteralOutOfRange(bin_str)),";
"      };";
"    }";
"  }";
"";
"  // Make sure the binary value fits cleanly in 12 bits.";
"  if accumulator <= 0xFFF {";
"    Ok(accumulator)";
"  } else {";
"    Err(Error::BinaryLiteralOutOfRange(bin_str))";
"  }";
"}";
"";
"impl<'a> Scanner<'a> {";
"  ";
"  /**";
"   Scans forward from the current position and matches all whitespace (if any).";
"   */";
"  fn consume_whitespace(&mut self) {";
"    lazy_static! {";
"       static ref WHITESPACE: Regex = Regex::new(r""^[^\S\n]+"").unwrap();";
"    }";
"    match WHITESPACE.find(&self.input[self.position .. ]) {";
"      Some((0, byte_index_end)) => { let _ = self.advance_by(byte_index_end); }";
"      _ => {}";
"    };";
"  }";
"";
"  /**";
"   Matches a single newline character.";
"   */";
"  fn consume_newline(&mut self) -> Token<'a> {";
"    let (value, location) = self.consume_char();";
"    assert!(value == '\n');";
"    Token::Newline(location)";
"  }";
"  ";
"  /**";
"   Matches a quoted string literal, including embedded backslash-escaped quote characters.";
"   @return A token containing the body of the string literal (still escaped), or Error.";
"   */";
"  fn consume_string_literal(&mut self) -> Token<'a> {";
"    lazy_static! {";
"       static ref STRING_LITERAL: Regex = Regex::new(r#""^""(?:[^""\\]|\\.)*""""#).unwrap();";
"    }";
"    match STRING_LITERAL.find(&self.input[self.position .. ]) {";
"      Some((0, byte_index_end)) => {";
"        // Remove the leading and trailing quotation marks from the string literal.";
"        let slice_start = self.position + '""'.len_utf8();";
"        let slice_end = self.position + byte_index_end - '""'.len_utf8();";
"        let slice = &self.input[slice_start .. slice_end];";
"        let location = self.advance_by(byte_index_end);";
"        Token::StringLiteral(slice, location)";
"      }";
"      _ => {";
"        // Advance to the end of the input to terminate the parse and indicate failure.";
"        let location = SourceFileLocation::new(self.file_name, self.current_line, self.current_line_offset, 1);";
"        self.position = self.input.len();";
"        Token::Error(Error::InvalidStringLiteral, location)";
"      }";
"    }";
"  }";
"  ";
"  /**";
"   Matches a 4, 8 or 12-bit hexadecimal literal beginning with $.";
"   @return A token containing the literal value as a usize, or Error in case of invalid formatting.";
"   */";
"  fn consume_hex_literal(&mut self) -> Token<'a> {";
"    lazy_static! {";
"       static ref HEX_LITERAL: Regex = Regex::new(r#""^[\$\#][0-9a-fA-F]{1,3}""#).unwrap();";
"    }";
"    match HEX_LITERAL.find(&self.input[self.position .. ]) {";
"      Some((0, byte_index_end)) => {";
"        // Strip off the leading '$' and parse the hexadecimal value.";
"        let slice_start = self.position + '$'.len_utf8();";
"        let slice_end = self.position + byte_index_end;";
"        let slice = &self.input[slice_start .. slice_end];";
"        let location = self.advance_by(byte_index_end);";
"        Token::NumericLiteral(usize::from_str_radix(slice, 16).ok().unwrap(), location)";
"      }";
"      _ => {";
"        // Advance to the end of the input to terminate the parse and indicate failure.";
"        let location = SourceFileLocation::new(self.file_name, self.current_line, self.current_line_offset, 1);";
"        self.position = self.input.len();";
"        Token::Error(Error::InvalidHexadecimalLiteral, location)";
"      }";
"    }";
"  }";
"";
"  /**";
"   Matches a 1 to 12-bit binary literal beginning with %.";
"   Zeroes are represented with '.' or '0' and Ones are represented with '1'.";
"   @return A token containing the literal value as a usize, or Error in case of invalid formatting.";
"   */";
"  fn consume_bin_literal(&mut self) -> Token<'a> {";
"    lazy_static! {";
"       static ref HEX_LITERAL: Regex = Regex::new(r#""^%[01\.]+""#).unwrap();";
"    }";
"    match HEX_LITERAL.find(&self.input[self.position .. ]) {";
"      Some((0, byte_index_end)) => {";
"        // Strip off the leading '%' and parse the hexadecimal value.";
"        let slice_start = self.position + '$'.len_utf8();";
"        let slice_end = self.position + byte_index_end;";
"        let slice = &self.input[slice_start .. slice_end];";
"        let location = self.advance_by(byte_index_end);";
"        ";
"        // Match on a decimal literal in the range 0...4095.";
"        match parse_12_bit_bin_str(slice) {";
"          Ok(value) =>";
"            Token::NumericLiteral(value, location),";
"          Err(e) => {";
"            // Push to the end of the input to indicate parse failure.";
"            self.position = self.input.len();";
"            Token::Error(e, location)";
"          }";
"        }";
"      }";
"      _ => {";
"        // Advance to the end of the input to terminate the parse and indicate failure.";
"        let location = SourceFileLocation::new(self.file_name, self.current_line, self.current_line_offset, 1);";
"        self.position = self.input.len();";
"        Token::Error(Error::InvalidBinaryLiteral, location)";
"      }";
"    }";
"  }";
"  ";
"  /**";
"   Matches a decimal literal from 0-4095.";
"   @return A token containing the literal value as a usize, or Error in case of invalid formatting.";
"   */";
"  fn consume_decimal_literal(&mut self) -> Token<'a> {";
"    lazy_static! {";
"       static ref DECIMAL_LITERAL: Regex = Regex::new(r#""^[0-9]{1,}""#).unwrap();";
"    }";
"    match DECIMAL_LITERAL.find(&self.input[self.position .. ]) {";
"      Some((0, byte_index_end)) => {";
"        // Strip off the leading '$' and parse the hexadecimal value.";
"        let slice_start = self.position;";
"        let slice_end = self.position + byte_index_end;";
"        let slice = &self.input[slice_start .. slice_end];";
"        ";
"        // Match on a decimal literal in the range 0...4095.";
"        match usize::from_str_radix(slice, 10).ok() {";
"          Some(value) if value <= 4095 => {";
"            let location = self.advance_by(byte_index_end);";
"            Token::NumericLiteral(value, location)";
"          }";
"          _ => {";
"            // Push to the end of the input to indicate parse failure.";
"            let location = self.advance_by(byte_index_end);";
"            self.position = self.input.len();";
"            Token::Error(Error::DecimalLiteralOutOfRange(slice), location)";
"          }";
"        }";
"      }";
"      _ => {";
"        // Advance to the end of the input to terminate the parse and indicate failure.";
"        let location = SourceFileLocation::new(self.file_name, self.current_line, self.current_line_offset, 1);";
"        self.position = self.input.len();";
"        Token::Error(Error::InvalidDecimalLiteral, location)";
"      }";
"    }";
"  }";
"  ";
"  /**";
"   Matches an identifier beginning with _ or a letter, then a run of _, numbers or letters.";
"   @return A token containing the name of the identifier, or Error in case of invalid formatting.";
"   */";
"  fn consume_identifier(&mut self) -> Token<'a> {";
"    lazy_static! {";
"       static ref IDENTIFIER: Regex = Regex::new(r#""^[_a-zA-Z][_a-zA-Z0-9]{0,}""#).unwrap();";
"    }";
"    match IDENTIFIER.find(&self.input[self.position .. ]) {";
"      Some((0, byte_index_end)) => {";
"        // Strip off the leading '$' and parse the hexadecimal value.";
"        let slice = &self.input[self.position .. self.position + byte_index_end];";
"        let location = self.advance_by(byte_index_end);";
"        Token::Identifier(slice, location)";
"      }";
"      _ => {";
"        // Advance to the end of the input to terminate the parse and indicate failure.";
"        let location = SourceFileLocation::new(self.file_name, self.current_line, self.current_line_offset, 1);";
"        self.position = self.input.len();";
"        Token::Error(Error::InvalidIdentifier, location)";
"      }";
"    }";
"  }";
"";
"  /**";
"   Consumes an Index Register Indirect identifier, [i].";
"   @return A token containing the identifier, or Error in case of invalid formatting.";
"   */";
"  fn consume_index_register_indirect(&mut self) -> Token<'a> {";
"    let index_register_indirect = ""[i]"";";
"    let index_register_indirect_upper = ""[I]"";";
"";
"    // Offset the input to the current position.";
"    let slice = &self.input[self.position .. ];";
"";
"    // The Index Register Indirect identifier, [i] is consumed as an identifier.";
"    if slice.starts_with(index_register_indirect) || slice.starts_with(index_register_indirect_upper) {";
"      let length = index_register_indirect.len();";
"      let slice = &self.input[self.position .. self.position + length];";
"      let location = self.advance_by(length);";
"      return Token::Identifier(slice, location);";
"    }";
"    ";
"    let location = SourceFileLocation::new(self.file_name, self.current_line, self.current_line_offset, 1);";
"    self.position = self.input.len();";
"    Token::Error(Error::ExpectedRegisterIndirect, location)";
"  }";
"  ";
"  /**";
"   Consumes a single-line comment, beginning with a ';' and ending with '\n'.";
"   This method will panic if the first character to be processed is not a ';'.";
"   @return A token containing the entirety of the comment, including the ';' but not the newline.";
"   */";
"  fn consume_single_line_comment(&mut self) -> Token<'a> {";
"    assert!(self.char_at(0) == ';');";
"    ";
"    // Determine how many bytes to consume, including the ';' but not the \n.";
"    let mut bytes = 0;";
"    for c in self.input[self.position .. ].chars() {";
"      if c == '\n' {";
"        break;";
"      } else { ";
"        bytes = bytes + c.len_utf8();";
"      }";
"    }";
"    ";
"    let slice = &self.input[self.position .. self.position + bytes];";
"    let location = self.advance_by(bytes);";
"    Token::SingleLineComment(slice, location)";
"  }";
"  ";
"  /**";
"   @return A token representing a directive marker.";
"   */";
"  fn consume_directive_marker(&mut self) -> Token<'a> {";
"    let (value, location) = self.consume_char();";
"    assert!(value == '.');";
"    Token::DirectiveMarker(location)";
"  }";
"  ";
"  /**";
"   @return A token representing a label marker.";
"   */";
"  fn consume_label_marker(&mut self) -> Token<'a> {";
"    let (value, location) = self.consume_char();";
"    assert!(value == ':');";
"    Token::LabelMarker(location)";
"  }";
"  ";
"  /**";
"   @return A token representing a comma.";
"   */";
"  fn consume_comma(&mut self) -> Token<'a> {";
"    let (value, location) = self.consume_char();";
"    assert!(value == ',');";
"    Token::Comma(location)";
"  }";
"  ";
"  /**";
"   Consumes the next unicode code point.";
"   @return The consumed character and its location in the source file.";
"   */";
"  fn consume_char(&mut self) -> (char, SourceFileLocation<'a>) {";
"    let value = self.char_at(0);";
"    (value, self.advance_by(value.len_utf8()))";
"  }";
"  ";
"  /**";
"   @return The unicode character at the specified byte offset.";
"   */";
"  fn char_at(&self, offset: usize) -> char {";
"    self.input[self.position + offset .. ].chars().next().unwrap()";
"  }";
"  ";
"  /**";
"   Advances the position counter, line and line offset based on the next n bytes.";
"   @return The source file location corresponding to the region advanced over.";
"   */";
"  fn advance_by(&mut self, bytes: usize) -> SourceFileLocation<'a> {";
"    let range = &self.input[self.position .. (self.position + bytes)];";
"";
"    // Count the number of code points in the byte range and sanity-check.";
"    let total_byte_count = range.chars().fold(0, |acc, x| acc + x.len_utf8());";
"    assert!(total_byte_count == bytes, ""Byte length of range doesn't line up with code points."");";
"";
"    // Track the number of newlines, characters on the first line and build the new last-line offset.";
"    let mut number_of_newlines = 0;";
"    let mut characters_on_first_line = 0;";
"    let mut last_line_offset = self.current_line_offset;";
"";
"    for character in range.chars() {";
"      last_line_offset += 1;";
"";
"      // Count characters on first line up to and including the terminator.";
"      if number_of_newlines == 0 { characters_on_first_line += 1; }";
"";
"      // On newline, bump the newline counter and reset the last-line offset.";
"      if character == '\n' {";
"        number_of_newlines += 1;";
"        last_line_offset = 1;";
"      }";
"    }";
"";
"    // The resultant location spans all characters up to and including any null-terminator on the first line in the range.";
"    let location = SourceFileLocation::new(self.file_name, self.current_line, self.current_line_offset, characters_on_first_line);";
"    self.position += bytes;";
"    self.current_line += number_of_newlines;";
"    self.current_line_offset = last_line_offset;";
"    location";
"  }";
"";
"  /**";
"   @return true if the scanner has reached the end of the input.";
"   */";
"  pub fn is_at_end(&self) -> bool {";
"    self.position >= self.input.len()";
"  }";
"  ";
"  /**";
"   @return The next token, or None if the scanner has reached the end of the input.";
"   */";
"  pub fn next_token(&mut self) -> Option<Token<'a>> {";
"    self.consume_whitespace();";
"    if self.is_at_end() {";
"      return None;";
"    }";
"    ";
"    match self.char_at(0) {";
"      ';' => { Some(self.consume_single_line_comment()) }";
"      '.' => { Some(self.consume_directive_marker()) }";
"      ':' => { Some(self.consume_label_marker()) }";
"      ',' => { Some(self.consume_comma()) }";
"      '""' => { Some(self.consume_string_literal()) }";
"      '$' => { Some(self.consume_hex_literal()) }";
"      '#' => { Some(self.consume_hex_literal()) }";
"      '%' => { Some(self.consume_bin_literal()) }";
"      '[' => { Some(self.consume_index_register_indirect()) }";
"      ";
"      '0' ... '9' => {";
"        Some(self.consume_decimal_literal()) ";
"      }";
"      ";
"      '_' | 'a' ... 'z' | 'A' ... 'Z' => {";
"        Some(self.consume_identifier()) ";
"      }";
"";
"      '\n' => {";
"        Some(self.consume_newline())";
"      }";
"       ";
"      c @ _  => { ";
"        // Advance to end of input on invalid token.";
"        let location = SourceFileLocation::new(self.file_name, self.current_line, self.current_line_offset, 1);";
"        self.position = self.input.len();";
"        Some(Token::Error(Error::InvalidCharacter(c), location))";
"      }";
"    }";
"  }";
"  ";
"  /**";
"   @return A new scanner over the provided input.";
"   */";
"  pub fn new(file_name: &'a str, input: &'a str) -> Self {";
"    Scanner {";
"      file_name: file_name,";
"      input: input,";
"      position: 0,";
"      current_line: 1,";
"      current_line_offset: 1";
"    }";
"  }";
"  ";
"}";
"";
"impl<'a> Iterator for Scanner<'a> {";
"  type Item = Token<'a>;";
"  fn next(&mut self) -> Option<Self::Item> {";
"    self.next_token()";
"  }";
"}";
""
].

(** parser.rs:1-515 *)
Definition parser_rs : list string :=
[
"//";
"// Copyright 2016 The c8s Developers. See the COPYRIGHT";
"// file at the top-level directory of this distribution.";
"//";
"// Licensed under the MIT license <LICENSE-MIT or http://opensource.org/licenses/MIT>.";
"// All files in the project carrying such notice may not be copied, modified, or ";
"// distributed except according to those terms.";
"//";
"";
"use std::error;";
"use std::fmt;";
"use std::mem;";
"";
"use twelve_bit::u12::*;";
"";
"use assembler::source_file_location::SourceFileLocation;";
"use assembler::token::Token;";
"use assembler::token::display_names;";
"";
"// MARK: - Parser Error";
"";
"#[derive(Debug, PartialEq, Eq)]";
"pub enum Error<'a> {";
"  /// An unexpected end-of-file was encountered. Field is the list of expected token names.";
"  UnexpectedEndOfFile(Vec<&'static str>),";
"  /// An token was `encountered` which is not in the list of `expected` token names.";
"  UnexpectedToken { expected: Vec<&'static str>, encountered: Token<'a> },";
"}";
"";
"impl<'a> error::Error for Error<'a> {";
"  /// Returns a string slice with a general description of a parser error.";
"  /// No specific information is contained. To obtain a printable representation,";
"  /// use the `fmt::Display` attribute.";
"  fn description(&self) -> &str {";
"    match self {";
"      &Error::UnexpectedEndOfFile(_)                    => ""Unexpected end-of-file reached"",";
"      &Error::UnexpectedToken{expected:_,encountered:_} => ""Unexpected token found"",";
"    }";
"  }";
"}";
"";
"impl<'a> fmt::Display for Error<'a> {";
"  /// Formats the receiver for display purposes. Incorporates specific information";
"  /// relating to this particular error instance where applicable, including source range";
"  /// information and severity level annotations.";
"  ///";
"  /// # Panics";
"  /// Will panic if the number of expected tokens names for an error is ever zero.";
"  fn fmt(&self, f: &mut fmt::Formatter) -> fmt::Result {";
"    match self {";
"      &Error::UnexpectedEndOfFile(ref expected) => {";
"        match expected.len() {";
"          0 => panic!(""Unexpected end-of-file with no expectations.""),";
"          1 => write!(f, ""error: Unexpected end-of-file reached, expecting {}."", expected[0]),";
"          _ => write!(f, ""error: Unexpected end-of-file reached, expecting one of: {}."", expected.join("", "")),";
"        }";
"      }";
"";
"      &Error::UnexpectedToken { ref expected, encountered: Token::Error(ref reason, ref location) } => {";
"        write!(f, ""{}: error: Encountered syntax error: {}\n"", location, reason)";
"          .and_then(|()| {";
"            match expected.len() {";
"              0 => panic!(""Unexpected token (found error) with no expectations.""),";
"              1 => write!(f, ""{}: error: Expecting {}."", location, expected[0]),";
"              _ => write!(f, ""{}: error: Expecting one of: {}."", location, expected.join("", ""))";
"            }";
"          })";
"      }";
"";
"      &Error::UnexpectedToken { ref expected, encountered: ref found } => {";
"        let loc = found.location();";
"        match expected.len() {";
"          0 => panic!(""Unexpected token with no expectations.""),";
"          1 => write!(f, ""{}: error: Unexpected token found: {}, expecting {}."", loc, found, expected[0]),";
"          _ => write!(f, ""{}: error: Unexpected token found: {}, expecting one of: {}."", loc, found, expected.join("", "")),";
"        }";
"      }";
"    }";
"  }";
"}";
"";
"// MARK: - Abstract Syntax List";
"";
"#[derive(Debug, PartialEq)]";
"pub enum Node<'a> {";
"  /// A directive and corresponding parameters.";
"  Directive(DirectiveData<'a>),";
"  /// A label and corresponding parameters.";
"  Label(LabelData<'a>),";
"  /// An instruction and corresponding parameters.";
"  Instruction(InstructionData<'a>)";
"}";
"";
"#[derive(Debug, Clone, Copy, PartialEq, Eq)]";
"pub enum Literal<'a> {";
"  /// A literal string value.";
"  String(&'a str),";
"  /// A literal numeric value.";
"  Numeric(usize)";
"}";
"";
"#[derive(Debug, PartialEq, Eq)]";
"pub struct DirectiveData<'a> {";
"  /// The location at which the directive is defined for error reporting purposes.";
"  pub location: SourceFileLocation<'a>,";
"  /// The name of the directive (db, org).";
"  pub identifier: &'a str,";
"  /// Arguments to the directive.";
"  pub arguments: Vec<Literal<'a>> ";
"}";
"";
"#[derive(Debug, PartialEq, Eq)]";
"pub struct LabelData<'a> {";
"  /// The location at which the label is defined for error reporting purposes.";
"  pub location: SourceFileLocation<'a>,";
"  /// The name of the label.";
"  pub identifier: &'a str";
"}";
"";
"#[derive(Debug, PartialEq, Eq, Clone, Copy)]";
"pub enum InstructionField<'a> {";
"  /// A numeric literal value.";
"  NumericLiteral(U12),";
"  /// A general-purpose register beginning with ""v"".";
"  GeneralPurposeRegister(u8),";
"  /// The delay timer register (""dt"").";
"  DelayTimer,";
"  /// The sound timer register (""st"").";
"  SoundTimer,";
"  /// The keypad register (""k"").";
"  KeypadRegister,";
"  /// The index register (""i"").";
"  IndexRegister,";
"  /// Register-indirect access of memory (""[i]"").";
"  IndexRegisterIndirect,";
"  /// Any other literal identifier, usually a label.";
"  Identifier(&'a str),";
"  /// BCD (""b"").";
"  Bcd,";
"  /// Sprite (""f"").";
"  Sprite";
"}";
"";
"#[derive(Debug, PartialEq, Eq)]";
"pub struct InstructionData<'a> {";
"  /// The location at which the directive is defined for error reporting purposes.";
"  pub location: SourceFileLocation<'a>,";
"  /// The mnemonic corresponding to the operation.";
"  pub mnemonic: &'a str,";
"  /// Instruction fields for the mnemonic.";
"  pub fields: Vec<InstructionField<'a>>";
"}";
"";
"// MARK: - Local Parser Context";
"";
"struct Parser<'a,I> where I: Iterator<Item=Token<'a>> {";
"  /// Iterator over input token stream.";
"  scanner: I,";
"  /// Current token.";
"  current_token: Option<Token<'a>>,";
"  /// Lookahead token.";
"  next_token: Option<Token<'a>>";
"}";
"";
"// MARK: - Instruction Field";
"";
"impl<'a> fmt::Display for InstructionField<'a> {";
"  /**";
"   Formats the instruction field for display purposes.";
"   */";
"  fn fmt(&self, f: &mut fmt::Formatter) -> fmt::Result {";
"    match self {";
"      &InstructionField::NumericLiteral(value)      => write!(f, ""literal:${:x}"", usize::from(value)),";
"      &InstructionField::GeneralPurposeRegister(r)  => write!(f, ""register:{:x}"", r),";
"      &InstructionField::DelayTimer                 => write!(f, ""register:delay-timer""),";
"      &InstructionField::SoundTimer                 => write!(f, ""register:sound-timer""),";
"      &InstructionField::KeypadRegister             => write!(f, ""register:keypad""),";
"      &InstructionField::IndexRegister              => write!(f, ""register:index""),";
"      &InstructionField::IndexRegisterIndirect      => write!(f, ""register-indirect:[index]""),";
"      &InstructionField::Identifier(id)             => write!(f, ""identifier:{}"", id),";
"      &InstructionField::Bcd                        => write!(f, ""bcd""),";
"      &InstructionField::Sprite                     => write!(f, ""sprite""),";
"    }";
"  }";
"}";
"";
"// MARK: - Parser Implementation";
"";
"impl<'a,I> Parser<'a,I> where I: Iterator<Item=Token<'a>> {";
"";
"  // MARK: - Initializers";
"";
"  fn new(scanner: I) -> Self {";
"    let mut parser = Parser {";
"      scanner: scanner,";
"      current_token: None,";
"      next_token: None";
"    };";
"    parser.prime();";
"    parser";
"  }";
"";
"  // MARK: - Private Methods";
"";
"  /**";
"   Stores the next two tokens from the scanner as the current and next tokens";
"   respectively. Used to initialize the parser.";
"   */";
"  fn prime(&mut self) {";
"    self.current_token = self.scanner.next();";
"    self.next_token = self.scanner.next();";
"  }";
"";
"  /**";
"   Consumes the current token, puts the next token in its place and advances";
"   the scanner. Returns the current token.";
"   @return The consumed token.";
"   */";
"  fn consume_token(&mut self) -> Option<Token<'a>> {";
"    let consumed_token = self.current_token.take();";
"    self.current_token = mem::replace(&mut self.next_token, self.scanner.next());";
"    consumed_token";
"  }";
"";
"  /**";
"   @return A string describing the situation where the parse rule was expecting";
"     a certain token, and either a different one was found or the end of the";
"     token stream was reached prematurely.";
"   */";
"  fn syntax_error_for_unexpected_token(found: &Option<Token<'a>>, expected: &[&'static str]) -> Error<'a> {";
"    if let &Some(ref token) = found {";
"      Error::UnexpectedToken { expected: Vec::from(expected), encountered: token.clone() }";
"    } else {";
"      Error::UnexpectedEndOfFile(Vec::from(expected))";
"    }";
"  }";
"";
"  // MARK: - Parser Rules";
"";
"  /**";
"   Parses and consumes an IDENTIFIER token.";
"   identifier ::= IDENTIFIER.";
"   @return The string value of the identifier if successful, or an error.";
"   */";
"  fn parse_identifier(&mut self) -> Result<(&'a str, SourceFileLocation<'a>), Error<'a>> {";
"    match self.consume_token() {";
"      Some(Token::Identifier(id,loc)) => Ok((id, loc)),";
"      unexpected @ _ => {";
"        let expecting = &[display_names::IDENTIFIER];";
"        Err(Self::syntax_error_for_unexpected_token(&unexpected, expecting))";
"      }";
"    }";
"  }";
"";
"  /**";
"   Parses and consumes a string or numeric literal.";
"   literal ::= STRING | NUMERIC.";
"   @return The literal if successful, or an error.";
"   */";
"  fn parse_literal(&mut self) -> Result<Literal<'a>, Error<'a>> {";
"    match self.current_token {";
"";
"      // Match and consume a string literal token.";
"      Some(Token::StringLiteral(string, _)) => {";
"        let _ = self.consume_token();";
"        Ok(Literal::String(string))";
"      }";
"";
"      // Match and consume a numeric literal token.";
"      Some(Token::NumericLiteral(number, _)) => {";
"        let _ = self.consume_token();";
"        Ok(Literal::Numeric(number))";
"      }";
"";
"      _ => {";
"        let expected = &[display_names::NUMERIC_LITERAL, display_names::STRING_LITERAL];";
"        Err(Self::syntax_error_for_unexpected_token(&self.current_token, expected))";
"      }";
"    }";
"  }";
"";
"  /**";
"   Parses and consumes a comma-separated list of zero-or-more string or numeric literals.";
"   literal_list ::= literal | literal "","" literal_list | .";
"   @param list Provide an empty Vec<Literal>.";
"   @return A list of literals if successful, or an error.";
"   */";
"  fn parse_literal_list(&mut self, list: Vec<Literal<'a>>) -> Result<Vec<Literal<'a>>, Error<'a>> {";
"    ";
"    // The literal list is complete.";
"    if let Some(Token::Newline(_)) = self.current_token {";
"      return Ok(list);";
"    }";
"";
"    // Parse the literal and append it to the list.";
"    let literal = try!(self.parse_literal());";
"    let mut result_list = list;";
"    result_list.push(literal);";
"";
"    // A comma following the literal causes the rule to recurse.";
"    if let Some(Token::Comma(_)) = self.current_token {";
"      let _ = self.consume_token();";
"      return self.parse_literal_list(result_list);";
"    }";
"";
"    return Ok(result_list);";
"  }";
"";
"  /**";
"   Parses and consumes an assembler directive and the associated literal parameters.";
"   directive ::= ""."" IDENTIFIER literal_list";
"   @return A directive node if successful, or an error.";
"   */";
"  fn parse_directive(&mut self) -> Result<Node<'a>, Error<'a>> {";
"    match self.consume_token() {";
"      Some(Token::DirectiveMarker(_)) => {},";
"      unexpected @ _ => {";
"        let expecting = &[display_names::DIRECTIVE_MARKER];";
"        return Err(Self::syntax_error_for_unexpected_token(&unexpected, expecting));";
"      }";
"    }";
"";
"    let ( id,loc ) = try!(self.parse_identifier());";
"    let parameters = try!(self.parse_literal_list(Vec::new()));";
"";
"    let node_data = DirectiveData { location: loc, identifier: id, arguments: parameters };";
"    Ok(Node::Directive(node_data))";
"  }";
"";
"  /**";
"   Parses and consumes a label.";
"   label ::= IDENTIFIER "":""";
"   @return A Label node if successful, or an error.";
"   */";
"  fn parse_label(&mut self) -> Result<Node<'a>, Error<'a>> {";
"    let (id, loc) = try!(self.parse_identifier());";
"";
"    match self.consume_token() {";
"      Some(Token::LabelMarker(_)) => {},";
"      unexpected @ _ => {";
"        let expecting = &[display_names::LABEL_MARKER];";
"        return Err(Self::syntax_error_for_unexpected_token(&unexpected, expecting));";
"      }";
"    }";
"";
"    let label_data = LabelData { location: loc, identifier: id };";
"    Ok(Node::Label(label_data))";
"  }";
"";
"  /**";
"   Parses and consumes a list of zero-or-more instruction fields. These fields can be numeric literals,";
"   delay timer, sound timer, index register (direct or indirect), keypad register or a label.";
"   field_list ::= field | field "","" field_list | .";
"   field ::= NUMERIC | IDENTIFIER";
"   @param list Provide an empty Vec<InstructionField<'a>>.";
"   @return A list of fields if successful, or an error.";
"   */";
"  fn parse_field_list(&mut self, list: Vec<InstructionField<'a>>) -> Result<Vec<InstructionField<'a>>, Error<'a>> {";
"";
"    // The field list is complete on Newline or Single-Line Comment.";
"    match self.current_token {";
"      Some(Token::Newline(_)) | Some(Token::SingleLineComment(_,_)) => return Ok(list),";
"      _ => {}";
"    }";
"";
"    let field = match self.current_token {";
"";
"      // A numeric literal parameter was matched.";
"      Some(Token::NumericLiteral(number, _)) => {";
"        let literal = InstructionField::NumericLiteral(number.unchecked_into());";
"        let _ = self.consume_token();";
"        literal";
"      }";
"";
"      // An identiier was matched, which is either a Register or a Label.";
"      Some(Token::Identifier(id,_)) => {";
"        let identifier_field = match id {";
"";
"          // Match special-purpose registers.";
"           ""dt"" | ""DT""  => InstructionField::DelayTimer,";
"           ""st"" | ""ST""  => InstructionField::SoundTimer,";
"            ""i"" | ""I""   => InstructionField::IndexRegister,";
"          ""[i]"" | ""[I]"" => InstructionField::IndexRegisterIndirect,";
"            ""k"" | ""K""   => InstructionField::KeypadRegister,";
"            ""b"" | ""B""   => InstructionField::Bcd,";
"            ""f"" | ""F""   => InstructionField::Sprite,";
"";
"          // Now it's a GPR or an Identifier.";
"          identifier_string @ _ => {";
"            let mut field  = InstructionField::Identifier(identifier_string);";
"";
"            // If the identifier matches (""v""[0-9a-fA-F]), it's a GPR.";
"            let id_length = identifier_string.chars().count();";
"            if (id_length == 2) && (identifier_string.starts_with(""v"") || identifier_string.starts_with(""V"")) {";
"              let numeric_portion = &identifier_string['v'.len_utf8() .. ];";
"              if let Some(value) = u8::from_str_radix(numeric_portion, 16).ok() {";
"                field = InstructionField::GeneralPurposeRegister(value);";
"              }";
"            }";
"";
"            field";
"          }";
"        };";
"";
"        // Consume the matched identifier token.";
"        let _ = self.consume_token();";
"        identifier_field";
"      }";
"";
"      // No field discovered.";
"      _ => {";
"        let expecting = &[display_names::INSTRUCTION_FIELD];";
"        return Err(Self::syntax_error_for_unexpected_token(&self.current_token, expecting));";
"      }";
"";
"    };";
"";
"    // Append the parsed field to the list.";
"    let mut result_list = list;";
"    result_list.push(field);";
"";
"    // A comma following the field causes the rule to recurse.";
"    if let Some(Token::Comma(_)) = self.current_token {";
"      let _ = self.consume_token();";
"      result_list = try!(self.parse_field_list(result_list));";
"    }";
"    ";
"    // Return the complete list.";
"    Ok(result_list)";
"  }";
"";
"  /**";
"   Parses and consumes an instruction and it's associated fields.";
"   instruction ::= IDENTIFIER field_list";
"   @return An Instruction node if successful, or an error.";
"   */";
"  fn parse_instruction(&mut self) -> Result<Node<'a>, Error<'a>> {";
"    let (mnemonic,loc) = try!(self.parse_identifier());";
"    let list_of_fields = try!(self.parse_field_list(Vec::new()));";
"";
"    let data = InstructionData { location: loc, mnemonic: mnemonic, fields: list_of_fields };";
"    Ok(Node::Instruction(data))";
"  }";
"";
"  /**";
"   Parses and consumes one of the three types of statements (a directive, label or instruction).";
"   statement ::= directive | label | instruction";
"   @return An appropriate Node if successful, or an error.";
"   */";
"  fn parse_statement(&mut self) -> Result<Node<'a>, Error<'a>> {";
"";
"    // A directive is identified by a directive marker.";
"    if let Some(Token::DirectiveMarker(_)) = self.current_token {";
"      return self.parse_directive();";
"    }";
"";
"    // A label is identified by an id followed by a label marker.";
"    if let (&Some(Token::Identifier(_,_)), &Some(Token::LabelMarker(_))) = (&self.current_token, &self.next_token) {";
"      return self.parse_label();";
"    }";
"";
"    // Any remaining identifiers should be treated as instructions.";
"    if let Some(Token::Identifier(_,_)) = self.current_token {";
"      return self.parse_instruction();";
"    }";
"";
"    // Generate syntax error based on token display names.";
"    let expecting = &[display_names::DIRECTIVE_MARKER, display_names::IDENTIFIER];";
"    Err(Self::syntax_error_for_unexpected_token(&self.current_token, expecting))";
"  }";
"";
"  /**";
"   Parses and consumes a statement list, and consumes comments and newlines as they arrive.";
"   statement_list ::= (statement | COMMENT | NEWLINE) statement_list | .";
"   @return A list of consumed nodes if successful, or an error.";
"   */";
"  fn parse_statement_list(&mut self) -> Result<Vec<Node<'a>>, Error<'a>> {";
"    let mut node_list = Vec::new();";
"";
"    while let Some(_) = self.current_token {";
"      match self.current_token {";
"";
"        // A single-line comment or newline is consumed in place.";
"        Some(Token::SingleLineComment(_, _)) | Some(Token::Newline(_)) => {";
"          let _ = self.consume_token();";
"        }";
"";
"        // Append the new node to the ASL.";
"        _ => {";
"          let node = try!(self.parse_statement());";
"          node_list.push(node);";
"        }";
"";
"      }";
"    }";
"";
"    Ok(node_list)";
"  }";
"";
"}";
"";
"// MARK: - Parse Function";
"";
"/**";
" Converts the input token stream into an abstract syntax list representing the totality";
" of the assembly file. This result is then fed into semantic analysis and code generation.";
" @param scanner The input token stream.";
" @return A list of Nodes for further processing, or an error.";
" */";
"pub fn parse<'a, I>(scanner: I) -> Result<Vec<Node<'a>>, Error<'a>> where I: Iterator<Item=Token<'a>> {";
"  Parser::new(scanner).parse_statement_list()";
"}";
"";
"// MARK: - Tests";
""
].

(** assembler.rs:1-265 *)
Definition assembler_rs : list string :=
[
"//";
"// Copyright 2016 The c8s Developers. See the COPYRIGHT";
"// file at the top-level directory of this distribution.";
"//";
"// Licensed under the MIT license <LICENSE-MIT or http://opensource.org/licenses/MIT>.";
"// All files in the project carrying such notice may not be copied, modified, or ";
"// distributed except according to those terms.";
"//";
"";
"use std::collections::HashMap;";
"use std::error;";
"use std::fmt;";
"use std::mem;";
"";
"use twelve_bit::u12::*;";
"";
"use assembler::data_range::DataRange;";
"use assembler::directive;";
"use assembler::directive::Directive;";
"use assembler::instruction;";
"use assembler::instruction::Instruction;";
"use assembler::parser::Node;";
"use assembler::source_file_location::SourceFileLocation;";
"";
"// MARK: - Constants";
"";
"lazy_static! {";
"  static ref BYTES_PER_INSTRUCTION: U12 = u12![2];";
"}";
"";
"// MARK: - Semantic Error";
"";
"#[derive(PartialEq, Eq, Clone, Debug)]";
"pub enum SemanticError<'a> {";
"  /// Unable to process an invalid directive.";
"  DirectiveInvalid(SourceFileLocation<'a>, directive::Error),";
"  /// The directive processed exceeds the size limit of 4096 bytes.";
"  DirectiveTooLarge(SourceFileLocation<'a>, Directive),";
"  /// The directive at the specified location would cause the address counter to wrap.";
"  DirectiveWouldOverflow(SourceFileLocation<'a>, Directive),";
"  /// The instruction at the specified location would cause the addresss counter to wrap.";
"  InstructionWouldOverlow(SourceFileLocation<'a>),";
"  /// The label specified has already been defined.";
"  RedefinitionOfLabel(SourceFileLocation<'a>, String),";
"  /// Unable to assemble the specified instruction.";
"  AssemblyFailed(SourceFileLocation<'a>, instruction::Error),";
"  /// A constant definition must immediately follow a label definition.";
"  ConstantWithoutLabel(SourceFileLocation<'a>),";
"}";
"";
"impl<'a> error::Error for SemanticError<'a> {";
"";
"  /// Returns a string slice with a general description of a semantic error.";
"  /// No specific information is contained. To obtain a printable representation,";
"  /// use the `fmt::Display` attribute.";
"  fn description(&self) -> &str {";
"    match self {";
"      &SemanticError::DirectiveInvalid(_,_)       => ""Directive invalid"",";
"      &SemanticError::DirectiveTooLarge(_,_)      => ""Directive size exceeds 4096 bytes"",";
"      &SemanticError::DirectiveWouldOverflow(_,_) => ""Directive would cause the 12-bit address counter to overflow"",";
"      &SemanticError::InstructionWouldOverlow(_)  => ""Instruction would cause address counter to overflow $FFF"",";
"      &SemanticError::RedefinitionOfLabel(_,_)    => ""Attempted re-definition of label"",";
"      &SemanticError::AssemblyFailed(_,_)         => ""Unable to assemble instruction"",";
"      &SemanticError::ConstantWithoutLabel(_)     => ""A constant must be defined immediately following a label name"",";
"    }";
"  }";
"";
"  /// Returns the underlying error which caused the receiver.";
"  fn cause(&self) -> Option<&error::Error> {";
"    match self {";
"      &SemanticError::DirectiveInvalid(_, ref error) => ";
"        Some(error),";
"      &SemanticError::AssemblyFailed(_, ref error) => ";
"        Some(error),";
"      _ =>";
"        None,";
"    }";
"  }";
"";
"}";
"";
"impl<'a> fmt::Display for SemanticError<'a> {";
"  /// Formats the receiver for display purposes. Incorporates specific information";
"  /// relating to this particular error instance where applicable.";
"  fn fmt(&self, f: &mut fmt::Formatter) -> fmt::Result {";
"    match self {";
"      &SemanticError::DirectiveInvalid(ref loc, ref reason) =>";
"        write!(f, ""{}: error: {}"", loc, reason),";
"      &SemanticError::DirectiveTooLarge(ref loc, ref directive) =>";
"        write!(f, ""{}: error: Directive ({}) size {} exceeds 4096 bytes."", loc, directive, directive.size()),";
"      &SemanticError::DirectiveWouldOverflow(ref loc, ref directive) =>";
"        write!(f, ""{}: error: Directive ({}) would cause the 12-bit address counter to overflow."", loc, directive),";
"      &SemanticError::RedefinitionOfLabel(ref loc, ref label) =>";
"        write!(f, ""{}: error: Attempted re-definition of label '{}'."", loc, label),";
"      &SemanticError::InstructionWouldOverlow(ref loc) =>";
"        write!(f, ""{}: error: {}."", loc, (self as &error::Error).description()),";
"      &SemanticError::AssemblyFailed(ref loc, ref reason) =>";
"        write!(f, ""{}: error: {}"", loc, reason),";
"      &SemanticError::ConstantWithoutLabel(ref loc) =>";
"        write!(f, ""{}: error: {}."", loc, (self as &error::Error).description()),";
"    }";
"  }";
"}";
"";
"// MARK: - Pass 1: Define Labels";
"";
"/**";
" In a 2-pass assembler, the first pass is used to resolve the address of all labels";
" declared in the assembly. This involves walking the ASL, computing the size of instructions";
" and directives in the output stream and using that information to establish the label-address map.";
" @param syntax_list The un-filtered syntax list.";
" @return The map of labels to their corresponding addresses on success or a string describing";
"     the reason the first pass failed.";
" */";
"fn define_labels<'a>(syntax_list: &Vec<Node<'a>>) -> Result<HashMap<&'a str, U12>, SemanticError<'a>> {";
"  let mut label_address_map = HashMap::new();";
"  let mut current_address = u12![0];";
"";
"  // Label definition seeks forward to see if it is a constant definition.";
"  let mut list_walker = syntax_list.iter().peekable();";
"";
"  while let Some(node) = list_walker.next() {";
"    match *node {";
"      Node::Directive(ref data) => {";
"        // Validate the directive and that the arguments match the identifier.";
"        let directive = try!(";
"          Directive::from_identifier_and_parameters(data.identifier, &data.arguments)";
"            .map_err(|reason| {";
"              SemanticError::DirectiveInvalid(data.location.clone(), reason)";
"            })";
"        );";
"";
"        // Ensure the directive is not too large to emit.";
"        let directive_size: U12 = try!(";
"          directive";
"            .size()";
"            .failable_into()";
"            .ok_or(SemanticError::DirectiveTooLarge(data.location.clone(), directive.clone()))";
"        );";
"";
"        // Offset the current address by the size of the directive being processed.";
"        current_address = try!(";
"          current_address";
"            .checked_add(directive_size)";
"            .ok_or(SemanticError::DirectiveWouldOverflow(data.location.clone(), directive.clone()))";
"        );";
"";
"        match directive {";
"          Directive::Org(address) =>";
"            // The origin directive changes the current address.";
"            current_address = address,";
"          Directive::Db(_) =>";
"            // Defining bytes is already taken into account in the current address update.";
"            (),";
"          Directive::Equ(_) =>";
"            // Constant definition must take place in the context of label definition.";
"            return Err(SemanticError::ConstantWithoutLabel(data.location.clone())),";
"        }";
"      }";
"";
"      Node::Label(ref data) => {";
"        let mut label_value = current_address;";
"";
"        // If the semantic node immediately following is a valid constant definition, eat it and take the value.";
"        if let Some(&&Node::Directive(ref data)) = list_walker.peek() {";
"          let directive = Directive::from_identifier_and_parameters(data.identifier, &data.arguments).ok();";
"          if let Some(Directive::Equ(constant)) = directive {";
"            label_value = constant;";
"            list_walker.next();";
"          }";
"        }";
"";
"        // Assign the value into the label map.";
"        if label_address_map.contains_key(&data.identifier) {";
"          return Err(SemanticError::RedefinitionOfLabel(data.location.clone(), String::from(data.identifier)));";
"        } else {";
"          label_address_map.insert(data.identifier, label_value);";
"        }";
"      }";
"";
"      Node::Instruction(ref data) => {";
"        // All Chip8 instructions are the same length.";
"        current_address = try!(";
"          current_address";
"            .checked_add(*BYTES_PER_INSTRUCTION)";
"            .ok_or(SemanticError::InstructionWouldOverlow(data.location.clone()))";
"        );";
"      }";
"    }";
"  }";
"";
"  // Semantic analysis for directives and labels is complete.";
"  Ok(label_address_map)";
"}";
"";
"// MARK: - Pass 2: Emit Bytes";
"";
"fn emit_data_ranges<'a>(syntax_list: Vec<Node<'a>>, label_address_map: &HashMap<&'a str, U12>) -> Result<Vec<DataRange>, SemanticError<'a>> {";
"  let mut data_ranges = Vec::new();";
"  let mut current_range = DataRange::new(u12![0]);";
"";
"  for node in syntax_list {";
"    match node {";
"";
"      Node::Directive(data) => {";
"        match Directive::from_identifier_and_parameters(data.identifier, &data.arguments).unwrap() {";
"";
"          // Process the origin directive to build a new data range.";
"          Directive::Org(address) => {";
"            let new_range = DataRange::new(address);";
"            let previous_range = mem::replace(&mut current_range, new_range);";
"            if previous_range.len() > 0 {";
"              data_ranges.push(previous_range);";
"            }";
"          }";
"";
"          // Emit the directive into the range.";
"          directive @ _ => {";
"            let bytes = directive.into_vec();";
"            assert!(current_range.append(&bytes));";
"          }";
"";
"        }";
"      }";
"";
"      Node::Instruction(data) => {";
"        // Verify the semantics and append the instruction to the output buffer.";
"        let instruction = try!(";
"          Instruction::from_mnemonic_and_parameters(data.mnemonic, &data.fields, label_address_map)";
"            .map_err(|reason| {";
"              SemanticError::AssemblyFailed(data.location.clone(), reason)";
"            })";
"        );";
"";
"        let bytes = instruction.into_vec();";
"        assert!(current_range.append(&bytes));";
"      }";
"";
"      Node::Label(_) => { ";
"        // Processed in Pass 1. ";
"      }";
"";
"    }";
"  }";
"";
"  // Push the last range into the list.";
"  if current_range.len() > 0 {";
"    data_ranges.push(current_range);";
"  }";
"";
"  Ok(data_ranges)";
"}";
"";
"// MARK: - Public API";
"";
"/**";
" Analyze the ASL for the assembly and convert it into an output byte stream.";
" */";
"pub fn assemble<'a>(syntax_list: Vec<Node<'a>>) -> Result<Vec<DataRange>, SemanticError<'a>> {";
"  let label_address_map = try!(define_labels(&syntax_list));";
"  emit_data_ranges(syntax_list, &label_address_map)";
"}";
"";
"// MARK: - Tests";
""
].

(** ihex_writer.rs:1-71 *)
Definition ihex_writer_rs : list string :=
[
"//";
"// Copyright 2016 The c8s Developers. See the COPYRIGHT";
"// file at the top-level directory of this distribution.";
"//";
"// Licensed under the MIT license <LICENSE-MIT or http://opensource.org/licenses/MIT>.";
"// All files in the project carrying such notice may not be copied, modified, or ";
"// distributed except according to those terms.";
"//";
"";
"use std::cell::RefCell;";
"";
"use ihex::record::Record;";
"use ihex::writer;";
"";
"use assembler::data_range;";
"use assembler::data_range::DataRange;";
"";
"// MARK: - Public API";
"";
"/**";
" Converts the provided data ranges into a single Intel HEX record. These data ranges";
" cannot overlap and still yield a valid ihex record. It is the responsibility of";
" the caller to ensure this does not happen.";
" @param ranges The data ranges to convert to ihex format.";
" @return The complete ihex record (including EOF) of the given data ranges.";
" */";
"pub fn ihex_representation_of_data_ranges<'a>(ranges: &'a [DataRange]) -> String {";
"  assert!(data_range::find_overlapping_ranges(ranges).len() == 0);";
"";
"  // All records are collected into a list.";
"  let mut records = Vec::<Record>::new();";
"";
"  for range in ranges.iter() {";
"";
"    // The range will be sub-divded into chunks of up to 16 bytes, so sub-address must be tracked.";
"    let record_address = RefCell::new(u16::from(range.address_range().start));";
"";
"    // Sub-divide the range into 16-byte Record::Data objects.";
"    records.append(";
"      &mut range";
"        // Inspect the data in the range.";
"        .data()";
"        // As a u8 slice.";
"        .as_slice()";
"        // In groups of 16 bytes.";
"        .chunks(16)";
"        // Create a tuple of (Length, Record).";
"        .map(|chunk| {";
"          (chunk.len() as u16, Record::Data { offset: *record_address.borrow(), value: Vec::from(chunk) })";
"        })";
"        // Increment the address counter by the number of bytes incorporated into the record.";
"        .inspect(|&(length, _)| {";
"          *record_address.borrow_mut() += length;";
"        })";
"        // Discard the length from the tuple.";
"        .map(|(_, record)| record)";
"        // Collect the records into a Vec<Record>.";
"        .collect::<Vec<_>>()";
"    );";
"";
"  }";
"";
"  // All ihex files end in an EOF marker.";
"  records.push(Record::EndOfFile);";
"";
"  // Obtain the formatted representation of each record and join with newlines for display.";
"  writer::create_object_file_representation(records.as_slice()).unwrap() + &""\n""";
"}";
"";
"// MARK: - Tests";
""
].

(** main.rs:1-169 *)
Definition main_rs : list string :=
[
"//";
"// Copyright 2016 The c8s Developers. See the COPYRIGHT";
"// file at the top-level directory of this distribution.";
"//";
"// Licensed under the MIT license <LICENSE-MIT or http://opensource.org/licenses/MIT>.";
"// All files in the project carrying such notice may not be copied, modified, or ";
"// distributed except according to those terms.";
"//";
"";
"#[macro_use] extern crate lazy_static;";
"#[macro_use] extern crate twelve_bit;";
"";
"extern crate getopts;";
"extern crate ihex;";
"extern crate regex;";
"";
"use std::env;";
"use std::fs::File;";
"use std::io;";
"use std::io::prelude::*;";
"use std::process;";
"";
"use getopts::Options;";
"";
"pub mod assembler;";
"use assembler::assembler::*;";
"use assembler::data_range;";
"use assembler::ihex_writer;";
"use assembler::parser::*;";
"use assembler::scanner::Scanner;";
"";
"// MARK: - Assembler";
"";
"fn assemble_file<F>(input_path: &str, output_path: &str, log_program_error: F) where F : Fn(&str) -> () {";
"";
"  // Open the input file (read-only).";
"  let mut input_file = File::open(input_path).unwrap_or_else(|reason| {";
"    log_program_error(&format!(""Unable to open input file '{}'"", input_path));";
"    log_program_error(&reason.to_string());";
"    process::exit(1);";
"  });";
"";
"  let mut buffer = String::new();";
"";
"  // Read the contents of the input file into the buffer.";
"  input_file.read_to_string(&mut buffer).unwrap_or_else(|reason| {";
"    log_program_error(&format!(""Unable to read contents of input file '{}'"", input_path));";
"    log_program_error(&reason.to_string());";
"    process::exit(1);";
"  });";
"";
"  // Create a scanner over the input.";
"  let scanner = Scanner::new(input_path, &buffer);";
"";
"  // Parse the input into an abstract syntax list form. Errors are pre-formatted.";
"  let syntax_list = parse(scanner).unwrap_or_else(|message| {";
"    println!(""{}"", message);";
"    process::exit(1);";
"  });";
"";
"  // Assemble the syntax list into data ranges. Errors are pre-formatted.";
"  let data_ranges = assemble(syntax_list).unwrap_or_else(|message| {";
"    println!(""{}"", message);";
"    process::exit(1);";
"  });";
"";
"  // Verify no overlapping data ranges exist in the result.";
"  let overlapping_ranges = data_range::find_overlapping_ranges(&data_ranges);";
"  if overlapping_ranges.len() > 0 {";
"    log_program_error(""Input file specifies overlapping data ranges."");";
"    log_program_error(""Data from one section has overflowed into the adjacent."");";
"";
"    // Emit overlapping data range information.";
"    for (a, b) in overlapping_ranges {";
"      log_program_error(&format!(""  range {} overlaps with:"", a));";
"      log_program_error(&format!(""  range {}"", b));";
"    }";
"";
"    process::exit(1);";
"  }";
"";
"  // Convert the data ranges to Intel I8HEX format.";
"  let result = ihex_writer::ihex_representation_of_data_ranges(&data_ranges);";
"";
"  // Open the output file for writing (truncate) or use stdout if the specified path is `-`.";
"  let mut output_file: Box<io::Write> = match output_path {";
"    ""-"" => Box::new(io::stdout()),";
"    path @ _ => {";
"      Box::new(";
"        File::create(output_path).unwrap_or_else(|reason| {";
"          log_program_error(&format!(""Unable to create output file '{}'"", path));";
"          log_program_error(&reason.to_string());";
"          process::exit(1);";
"        })";
"      )";
"    }";
"  };";
"";
"  // Write the result to the output file.";
"  output_file.write_all(result.as_bytes()).unwrap_or_else(|reason| {";
"    log_program_error(&format!(""Unable to write result to output file '{}'"", output_path));";
"    log_program_error(&reason.to_string());";
"    process::exit(1);";
"  });";
"}";
"";
"// MARK: - Option Processing";
"";
"/**";
" Displays usage information for the tool.";
" @param program The path to the executable as invoked (argv[0]).";
" @param options A fully-constructed options bundle for the tool.";
" */";
"fn print_usage(program: &str, options: Options) {";
"  let brief = format!(""USAGE: {} [options] <input>"", program);";
"  print!(""{}"", options.usage(&brief));";
"}";
"";
"/**";
" Displays the program name and version information.";
" */";
"fn print_version() {";
"  println!(""c8s version {}"", env!(""CARGO_PKG_VERSION""));";
"}";
"";
"fn main() {";
"  let arguments: Vec<String> = env::args().collect();";
"  let program = arguments[0].clone();";
"";
"  let mut options = Options::new();";
"  options.optopt (""o"", ""output"",  ""Write output to <file>"", ""<file>"");";
"  options.optflag(""h"", ""help"",    ""Display available options"");";
"  options.optflag(""v"", ""version"", ""Display version information"");";
"";
"  // Parse the command-line arguments and exit in the event an invalid argument is encountered.";
"  let matches = options.parse(&arguments[1..]).unwrap_or_else(|reason| {";
"    println!(""{}: error: {}"", program, reason.to_string());";
"    process::exit(1);";
"  });";
"";
"  // Help requested.";
"  if matches.opt_present(""h"") {";
"    print_usage(&program, options);";
"    return;";
"  }";
"";
"  // Version information requested.";
"  if matches.opt_present(""v"") {";
"    print_version();";
"    return;";
"  }";
"";
"  // Extract the output file name, and default to 'a.hex' if not specified.";
"  let output_path = &matches.opt_str(""o"").unwrap_or(String::from(""a.hex""));";
"";
"  // Allow one single input file name parameter.";
"  let input_path = match matches.free.len() {";
"    1 => &matches.free[0],";
"    _ => {";
"      print_usage(&program, options);";
"      process::exit(1);";
"    }";
"  };";
"";
"  // Execute the assembler, in the event of failure, log an error and exit.";
"  assemble_file(input_path, output_path, |reason| {";
"    println!(""{}: error: {}"", program, reason);";
"  });";
"}"
].
