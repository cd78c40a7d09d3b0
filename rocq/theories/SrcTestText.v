(** * SrcTestText: the unit tests of /repo/src, line by line and unchanged: each file
    from the line after which SrcText.v left it.  Nothing here is written by hand: the
    lines are those of the files, a quotation mark being doubled as Coq's strings ask. *)

From Coq Require Import String List.
Import ListNotations.
Open Scope string_scope.

(** opcode.rs:253-330 *)
Definition opcode_tests : list string :=
[
"#[cfg(test)]";
"mod tests {";
"";
"  use super::*;";
"";
"  #[test]";
"  fn test_from_instruction_round_trips() {";
"    // Round trip all possible instructions.";
"    for i in 0..0xFFFFu16 {";
"      let opcode = Opcode::from_instruction(i);";
"      let instruction_from_opcode = opcode.as_instruction();";
"      let round_trip_opcode = Opcode::from_instruction(instruction_from_opcode);";
"";
"      assert!(opcode == round_trip_opcode, ""Unable to round-trip instruction 0x{:04x}"", i);";
"";
"      match opcode {";
"        Opcode::NOP => {";
"          /* Many different instructions map to NOP. */";
"        }";
"        _ => {";
"          assert!(i == round_trip_opcode.as_instruction(),";
"            ""Unable to round trip {:04X}; result was {:04X} ({})"", ";
"            i, round_trip_opcode.as_instruction(), round_trip_opcode);";
"        }";
"      }";
"    }";
"  }";
"";
"  #[test]";
"  fn test_to_assembly_string() {";
"    let test_cases = [ ";
"      /* NOP          */ (0x0000, ""nop""),";
"      /* CLS          */ (0x00E0, ""cls""),";
"      /* RET          */ (0x00EE, ""ret""),";
"      /* DEREF_I      */ (0x00F8, ""ld i, [i]""),";
"      /* TRAPRET      */ (0x00F9, ""trapret""),";
"      /* TRAP         */ (0x00FA, ""trap""),";
"      /* JP $456      */ (0x1456, ""jp $456""),";
"      /* CALL $789    */ (0x2789, ""call $789""), ";
"      /* SE V1, $DE   */ (0x31DE, ""se v1, $de""),";
"      /* SNE V2, $EF  */ (0x42EF, ""sne v2, $ef""),";
"      /* SE V5, V6    */ (0x5560, ""se v5, v6""),";
"      /* LD V1, $55   */ (0x6155, ""ld v1, $55""),";
"      /* ADD V2, $66  */ (0x7266, ""add v2, $66""),";
"      /* LD V3, V4    */ (0x8340, ""ld v3, v4""),";
"      /* OR V5, V6    */ (0x8561, ""or v5, v6""),";
"      /* AND V5, V6   */ (0x8562, ""and v5, v6""),";
"      /* XOR V5, V6   */ (0x8563, ""xor v5, v6""),";
"      /* ADD V5, V6   */ (0x8564, ""add v5, v6""),";
"      /* SUB V5, V6   */ (0x8565, ""sub v5, v6""),";
"      /* SHR V5       */ (0x8566, ""shr v5""),";
"      /* SUBN V5, V6  */ (0x8567, ""subn v5, v6""),";
"      /* SHL V5       */ (0x856E, ""shl v5""),";
"      /* SNE VE, VF   */ (0x9EF0, ""sne ve, vf""),";
"      /* LD I, $DEF   */ (0xADEF, ""ld i, $def""),";
"      /* JP V0, $234  */ (0xB234, ""jp v0, $234""),";
"      /* RND V1, $8F  */ (0xC18F, ""rnd v1, $8f""),";
"      /* DRW V2,V3,$4 */ (0xD234, ""drw v2, v3, $4""),";
"      /* SKP V1       */ (0xE19E, ""skp v1""),";
"      /* SKNP V1      */ (0xE1A1, ""sknp v1""),";
"      /* LD V2, DT    */ (0xF207, ""ld v2, dt""),";
"      /* LD V3, K     */ (0xF30A, ""ld v3, k""),";
"      /* LD DT, V3    */ (0xF315, ""ld dt, v3""),";
"      /* LD ST, V3    */ (0xF318, ""ld st, v3""),";
"      /* ADD I, V5    */ (0xF51E, ""add i, v5""),";
"      /* LD F, V6     */ (0xF629, ""ld f, v6""),";
"      /* LD B, V7     */ (0xF733, ""ld b, v7""),";
"      /* LD [I], VE   */ (0xFE55, ""ld [i], ve""),";
"      /* LD VF, [I]   */ (0xFF65, ""ld vf, [i]"")";
"    ];";
"";
"    for &(instruction, assembly_string) in test_cases.iter() {";
"      let opcode = Opcode::from_instruction(instruction);";
"      assert_eq!(opcode.to_assembly_string(), assembly_string);";
"    }";
"  }";
"";
"}"
].

(** instruction.rs:389-1105 *)
Definition instruction_tests : list string :=
[
"#[cfg(test)]";
"mod tests {";
"";
"  use std::collections::HashMap;";
"";
"  use twelve_bit::u12;";
"  use twelve_bit::u12::*;";
"";
"  use assembler::opcode::Opcode;";
"  use assembler::parser::InstructionField;";
"";
"  use super::*;";
"";
"  #[test]";
"  fn test_error_display() {";
"    assert_eq!(format!(""{}"", Error::UnableToResolveLabel(String::from(""TEST_LABEL""))),";
"      ""Unable to resolve label TEST_LABEL."");";
"    assert_eq!(format!(""{}"", Error::ExpectingEightBitValue(0x100)),";
"      ""Found 12-bit numeric value $100, expecting 8-bit value."");";
"    assert_eq!(format!(""{}"", Error::ExpectingFourBitValue(0x10)),";
"      ""Found 8/12-bit numeric value $10, expecting 4-bit value."");";
"    assert_eq!(format!(""{}"", Error::NoMatchingFormat(String::from(""jp""), Some(String::from(""register:0"")))),";
"      ""No matching instruction: jp register:0."");";
"    assert_eq!(format!(""{}"", Error::NoMatchingFormat(String::from(""jp""), None)),";
"      ""No matching instruction: jp."");";
"  }";
"";
"  #[test]";
"  fn test_nop() {";
"    let empty_map = HashMap::new();";
"    let nop = Instruction::from_mnemonic_and_parameters(""nop"", &vec![], &empty_map).unwrap();";
"    assert_eq!(nop.size(), 2);";
"    assert_eq!(nop.0, Opcode::NOP);";
"  }";
"";
"  #[test]";
"  fn test_cls() {";
"    let empty_map = HashMap::new();";
"    let cls = Instruction::from_mnemonic_and_parameters(""cls"", &vec![], &empty_map).unwrap();";
"    assert_eq!(cls.size(), 2);";
"    assert_eq!(cls.0, Opcode::CLS);";
"  }";
"";
"  #[test]";
"  fn test_deref_i() {";
"    let empty_map = HashMap::new();";
"    let ret = Instruction::from_mnemonic_and_parameters(""ld"", &vec![";
"      InstructionField::IndexRegister,";
"      InstructionField::IndexRegisterIndirect], ";
"      &empty_map";
"    ).unwrap();";
"    assert_eq!(ret.size(), 2);";
"    assert_eq!(ret.0, Opcode::DEREF_I);";
"  }";
"";
"  #[test]";
"  fn test_ret() {";
"    let empty_map = HashMap::new();";
"    let ret = Instruction::from_mnemonic_and_parameters(""ret"", &vec![], &empty_map).unwrap();";
"    assert_eq!(ret.size(), 2);";
"    assert_eq!(ret.0, Opcode::RET);";
"  }";
"";
"  #[test]";
"  fn test_trapret() {";
"    let empty_map = HashMap::new();";
"    let trapret = Instruction::from_mnemonic_and_parameters(""trapret"", &vec![], &empty_map).unwrap();";
"    assert_eq!(trapret.size(), 2);";
"    assert_eq!(trapret.0, Opcode::TRAPRET);";
"  }";
"";
"  #[test]";
"  fn test_trap() {";
"    let empty_map = HashMap::new();";
"    let trap = Instruction::from_mnemonic_and_parameters(""trap"", &vec![], &empty_map).unwrap();";
"    assert_eq!(trap.size(), 2);";
"    assert_eq!(trap.0, Opcode::TRAP);";
"  }";
"";
"  #[test]";
"  fn test_jp() {";
"    let empty_map = HashMap::new();";
"    let mut defined_map = HashMap::new();";
"    defined_map.insert(""TEST_LABEL"", u12::MAX);";
"";
"    // Failure Mode 1: No Parameters.";
"    let invalid_jp = Instruction::from_mnemonic_and_parameters(""jp"", &vec![], &empty_map);";
"    assert_eq!(invalid_jp.is_err(), true);";
"    assert_eq!(invalid_jp.unwrap_err(), Error::NoMatchingFormat(String::from(""jp""), None));";
"";
"    // Failure Mode 2: Undefined Label.";
"    let label_field = InstructionField::Identifier(""TEST_LABEL"");";
"    let invalid_jp_nl = Instruction::from_mnemonic_and_parameters(""jp"", &vec![label_field.clone()], &empty_map);";
"    assert_eq!(invalid_jp_nl.is_err(), true);";
"    assert_eq!(invalid_jp_nl.unwrap_err(), Error::UnableToResolveLabel(String::from(""TEST_LABEL"")));";
"";
"    // Success 1: Literal 12-bit Numeric.";
"    let literal_field = InstructionField::NumericLiteral(u12::MAX);";
"    let jp_literal = Instruction::from_mnemonic_and_parameters(""jp"", &vec![literal_field], &empty_map).unwrap();";
"    assert_eq!(jp_literal.size(), 2);";
"    assert_eq!(jp_literal.0, Opcode::JP { target: u12::MAX });";
"";
"    // Success 2: Defined 12-bit Label.";
"    let jp_label = Instruction::from_mnemonic_and_parameters(""jp"", &vec![label_field], &defined_map).unwrap();";
"    assert_eq!(jp_label.size(), 2);";
"    assert_eq!(jp_label.0, Opcode::JP { target: u12::MAX });";
"  }";
"";
"  #[test]";
"  fn test_jp_v0() {";
"    let empty_map = HashMap::new();";
"    let mut defined_map = HashMap::new();";
"    defined_map.insert(""TEST_LABEL"", u12::MAX);";
"";
"    let v0_field = InstructionField::GeneralPurposeRegister(0);";
"";
"    // Failure Mode 1: Just v0.";
"    let invalid_jp_v0 = Instruction::from_mnemonic_and_parameters(""jp"", &vec![v0_field.clone()], &empty_map);";
"    assert_eq!(invalid_jp_v0.is_err(), true);";
"    assert_eq!(invalid_jp_v0.unwrap_err(), Error::NoMatchingFormat(String::from(""jp""), Some(String::from(""register:0""))));";
"";
"    // Failure Mode 2: Undefined Label.";
"    let label_field = InstructionField::Identifier(""TEST_LABEL"");";
"    let invalid_jp_v0_nl = Instruction::from_mnemonic_and_parameters(""jp"", &vec![v0_field.clone(), label_field.clone()], &empty_map);";
"    assert_eq!(invalid_jp_v0_nl.is_err(), true);";
"    assert_eq!(invalid_jp_v0_nl.unwrap_err(), Error::UnableToResolveLabel(String::from(""TEST_LABEL"")));";
"";
"    // Success 1: Literal 12-bit Numeric.";
"    let literal_field = InstructionField::NumericLiteral(u12::MAX);";
"    let jp_v0_literal = Instruction::from_mnemonic_and_parameters(""jp"", &vec![v0_field.clone(), literal_field], &empty_map).unwrap();";
"    assert_eq!(jp_v0_literal.size(), 2);";
"    assert_eq!(jp_v0_literal.0, Opcode::JP_V0 { value: u12::MAX });";
"";
"    // Success 2: Defined 12-bit Label.";
"    let jp_v0_label = Instruction::from_mnemonic_and_parameters(""jp"", &vec![v0_field, label_field], &defined_map).unwrap();";
"    assert_eq!(jp_v0_label.size(), 2);";
"    assert_eq!(jp_v0_label.0, Opcode::JP_V0 { value: u12::MAX });";
"  }";
"";
"  #[test]";
"  fn test_call() {";
"    let empty_map = HashMap::new();";
"    let mut defined_map = HashMap::new();";
"    defined_map.insert(""TEST_LABEL"", u12::MAX);";
"";
"    // Failure Mode 1: No Parameters.";
"    let invalid_call = Instruction::from_mnemonic_and_parameters(""call"", &vec![], &empty_map);";
"    assert_eq!(invalid_call.is_err(), true);";
"    assert_eq!(invalid_call.unwrap_err(), Error::NoMatchingFormat(String::from(""call""), None));";
"";
"    // Failure Mode 2: Undefined Label.";
"    let label_field = InstructionField::Identifier(""TEST_LABEL"");";
"    let invalid_call_nl = Instruction::from_mnemonic_and_parameters(""call"", &vec![label_field.clone()], &empty_map);";
"    assert_eq!(invalid_call_nl.is_err(), true);";
"    assert_eq!(invalid_call_nl.unwrap_err(), Error::UnableToResolveLabel(String::from(""TEST_LABEL"")));";
"";
"    // Success 1: Literal 12-bit Numeric.";
"    let literal_field = InstructionField::NumericLiteral(u12::MAX);";
"    let call_literal = Instruction::from_mnemonic_and_parameters(""call"", &vec![literal_field], &empty_map).unwrap();";
"    assert_eq!(call_literal.size(), 2);";
"    assert_eq!(call_literal.0, Opcode::CALL { target: u12::MAX });";
"";
"    // Success 2: Defined 12-bit Label.";
"    let call_label = Instruction::from_mnemonic_and_parameters(""call"", &vec![label_field], &defined_map).unwrap();";
"    assert_eq!(call_label.size(), 2);";
"    assert_eq!(call_label.0, Opcode::CALL { target: u12::MAX });";
"  }";
"";
"  #[test]";
"  fn test_se_immediate_and_register_and_keypad() {";
"    let empty_map = HashMap::new();";
"    let register_field_1 = InstructionField::GeneralPurposeRegister(1);";
"    let register_field_2 = InstructionField::GeneralPurposeRegister(2);";
"";
"    // Skip Next If vX == vY.";
"    let se_rr = Instruction::from_mnemonic_and_parameters(""se"", &vec![register_field_1, register_field_2], &empty_map).unwrap();";
"    assert_eq!(se_rr.size(), 2);";
"    assert_eq!(se_rr.0, Opcode::SE_REGISTER { register_x: 1, register_y: 2 });";
"";
"    // Skip next if vX == nn.";
"    let immediate_field = InstructionField::NumericLiteral(U12::from(0xFF));";
"    let se_imm = Instruction::from_mnemonic_and_parameters(""se"", &vec![register_field_1, immediate_field], &empty_map).unwrap();";
"    assert_eq!(se_imm.size(), 2);";
"    assert_eq!(se_imm.0, Opcode::SE_IMMEDIATE { register_x: 1, value: 0xFF });";
"";
"    // Immediate fields for se vX, $nn is limited to 8 bits.";
"    let immediate_field_invalid = InstructionField::NumericLiteral(u12![0x100]);";
"    let invalid_se_imm = Instruction::from_mnemonic_and_parameters(""se"", &vec![register_field_1, immediate_field_invalid], &empty_map);";
"    assert_eq!(invalid_se_imm.is_err(), true);";
"    assert_eq!(invalid_se_imm.unwrap_err(), Error::ExpectingEightBitValue(0x100));";
"";
"    // Skip next if key represented by vX is pressed.";
"    let se_k = Instruction::from_mnemonic_and_parameters(""skp"", &vec![register_field_1], &empty_map).unwrap();";
"    assert_eq!(se_k.size(), 2);";
"    assert_eq!(se_k.0, Opcode::SE_K { register_x: 1 });";
"  }";
"";
"  #[test]";
"  fn test_se_immediate_label() {";
"    let mut label_map = HashMap::new();";
"    label_map.insert(""TWELVE_BITS"", u12::MAX);";
"    label_map.insert(""EIGHT_BITS"", u12![255]);";
"    label_map.insert(""FOUR_BITS"", u12![15]);";
"";
"    // Skip next if Vx == LABEL:nn with valid 8-bit parameter.";
"    let se_label8 = Instruction::from_mnemonic_and_parameters(""se"", &vec![";
"      InstructionField::GeneralPurposeRegister(1),";
"      InstructionField::Identifier(""EIGHT_BITS"")],";
"      &label_map";
"    ).unwrap();";
"    assert_eq!(se_label8.size(), 2);";
"    assert_eq!(se_label8.0, Opcode::SE_IMMEDIATE { register_x: 1, value: 0xFF });";
"";
"    // Skip next if Vx == LABEL:nn with valid 4-bit parameter.";
"    let se_label4 = Instruction::from_mnemonic_and_parameters(""se"", &vec![";
"      InstructionField::GeneralPurposeRegister(2),";
"      InstructionField::Identifier(""FOUR_BITS"")],";
"      &label_map";
"    ).unwrap();";
"    assert_eq!(se_label4.size(), 2);";
"    assert_eq!(se_label4.0, Opcode::SE_IMMEDIATE { register_x: 2, value: 0x0F });";
"";
"    // Skip next if Vx == LABEL:nn with invalid 12-bit parameter.";
"    let se_invalid_label_value_error = Instruction::from_mnemonic_and_parameters(""se"", &vec![";
"      InstructionField::GeneralPurposeRegister(2),";
"      InstructionField::Identifier(""TWELVE_BITS"")],";
"      &label_map";
"    ).unwrap_err();";
"    assert_eq!(se_invalid_label_value_error, Error::ExpectingEightBitValue(0xFFF));";
"";
"    // Skip next if Vx == LABEL:nn with invalid label name.";
"    let se_invalid_label_name_error = Instruction::from_mnemonic_and_parameters(""se"", &vec![";
"      InstructionField::GeneralPurposeRegister(2),";
"      InstructionField::Identifier(""INVALID"")],";
"      &label_map";
"    ).unwrap_err();";
"    assert_eq!(se_invalid_label_name_error, Error::UnableToResolveLabel(String::from(""INVALID"")));";
"  }";
"";
"  #[test]";
"  fn test_sne_immediate_and_register_and_keypad() {";
"    let empty_map = HashMap::new();";
"    let register_field_1 = InstructionField::GeneralPurposeRegister(1);";
"    let register_field_2 = InstructionField::GeneralPurposeRegister(2);";
"";
"    // Skip Next If vX != vY.";
"    let sne_rr = Instruction::from_mnemonic_and_parameters(""sne"", &vec![register_field_1, register_field_2], &empty_map).unwrap();";
"    assert_eq!(sne_rr.size(), 2);";
"    assert_eq!(sne_rr.0, Opcode::SNE_REGISTER { register_x: 1, register_y: 2 });";
"";
"    // Skip next if vX != nn.";
"    let immediate_field = InstructionField::NumericLiteral(U12::from(0xFF));";
"    let sne_imm = Instruction::from_mnemonic_and_parameters(""sne"", &vec![register_field_1, immediate_field], &empty_map).unwrap();";
"    assert_eq!(sne_imm.size(), 2);";
"    assert_eq!(sne_imm.0, Opcode::SNE_IMMEDIATE { register_x: 1, value: 0xFF });";
"";
"    // Immediate fields for sne vX, $nn is limited to 8 bits.";
"    let immediate_field_invalid = InstructionField::NumericLiteral(u12![0x100]);";
"    let invalid_sne_imm = Instruction::from_mnemonic_and_parameters(""sne"", &vec![register_field_1, immediate_field_invalid], &empty_map);";
"    assert_eq!(invalid_sne_imm.is_err(), true);";
"    assert_eq!(invalid_sne_imm.unwrap_err(), Error::ExpectingEightBitValue(0x100));";
"";
"    // Skip next if key represented by vX is NOT pressed.";
"    let sne_k = Instruction::from_mnemonic_and_parameters(""sknp"", &vec![register_field_1], &empty_map).unwrap();";
"    assert_eq!(sne_k.size(), 2);";
"    assert_eq!(sne_k.0, Opcode::SNE_K { register_x: 1 });";
"  }";
"";
"  #[test]";
"  fn test_sne_immediate_label() {";
"    let mut label_map = HashMap::new();";
"    label_map.insert(""TWELVE_BITS"", u12::MAX);";
"    label_map.insert(""EIGHT_BITS"", u12![255]);";
"    label_map.insert(""FOUR_BITS"", u12![15]);";
"";
"    // Skip next if Vx != LABEL:nn with valid 8-bit parameter.";
"    let sne_label8 = Instruction::from_mnemonic_and_parameters(""sne"", &vec![";
"      InstructionField::GeneralPurposeRegister(1),";
"      InstructionField::Identifier(""EIGHT_BITS"")],";
"      &label_map";
"    ).unwrap();";
"    assert_eq!(sne_label8.size(), 2);";
"    assert_eq!(sne_label8.0, Opcode::SNE_IMMEDIATE { register_x: 1, value: 0xFF });";
"";
"    // Skip next if Vx != LABEL:nn with valid 4-bit parameter.";
"    let sne_label4 = Instruction::from_mnemonic_and_parameters(""sne"", &vec![";
"      InstructionField::GeneralPurposeRegister(2),";
"      InstructionField::Identifier(""FOUR_BITS"")],";
"      &label_map";
"    ).unwrap();";
"    assert_eq!(sne_label4.size(), 2);";
"    assert_eq!(sne_label4.0, Opcode::SNE_IMMEDIATE { register_x: 2, value: 0x0F });";
"";
"    // Skip next if Vx != LABEL:nn with invalid 12-bit parameter.";
"    let sne_invalid_label_value_error = Instruction::from_mnemonic_and_parameters(""sne"", &vec![";
"      InstructionField::GeneralPurposeRegister(2),";
"      InstructionField::Identifier(""TWELVE_BITS"")],";
"      &label_map";
"    ).unwrap_err();";
"    assert_eq!(sne_invalid_label_value_error, Error::ExpectingEightBitValue(0xFFF));";
"";
"    // Skip next if Vx != LABEL:nn with invalid label name.";
"    let sne_invalid_label_name_error = Instruction::from_mnemonic_and_parameters(""sne"", &vec![";
"      InstructionField::GeneralPurposeRegister(2),";
"      InstructionField::Identifier(""INVALID"")],";
"      &label_map";
"    ).unwrap_err();";
"    assert_eq!(sne_invalid_label_name_error, Error::UnableToResolveLabel(String::from(""INVALID"")));";
"  }";
"";
"  #[test]";
"  fn test_ld_immediate_and_register_and_index() {";
"    let empty_map = HashMap::new();";
"    let register_field_1 = InstructionField::GeneralPurposeRegister(1);";
"    let register_field_2 = InstructionField::GeneralPurposeRegister(2);";
"";
"    // Load vX := vY.";
"    let ld_rr = Instruction::from_mnemonic_and_parameters(""ld"", &vec![register_field_1, register_field_2], &empty_map).unwrap();";
"    assert_eq!(ld_rr.size(), 2);";
"    assert_eq!(ld_rr.0, Opcode::LD_REGISTER { register_x: 1, register_y: 2 });";
"";
"    // Load vX := imm8.";
"    let immediate_field = InstructionField::NumericLiteral(U12::from(0xFF));";
"    let ld_imm = Instruction::from_mnemonic_and_parameters(""ld"", &vec![register_field_1, immediate_field], &empty_map).unwrap();";
"    assert_eq!(ld_imm.size(), 2);";
"    assert_eq!(ld_imm.0, Opcode::LD_IMMEDIATE { register_x: 1, value: 0xFF });";
"";
"    // Immediate fields for ld vX, $nn is limited to 8 bits.";
"    let immediate_field_invalid = InstructionField::NumericLiteral(u12![0x100]);";
"    let invalid_ld_imm = Instruction::from_mnemonic_and_parameters(""ld"", &vec![register_field_1, immediate_field_invalid], &empty_map);";
"    assert_eq!(invalid_ld_imm.is_err(), true);";
"    assert_eq!(invalid_ld_imm.unwrap_err(), Error::ExpectingEightBitValue(0x100));";
"  }";
"";
"  #[test]";
"  fn test_ld_immediate_label() {";
"    let mut label_map = HashMap::new();";
"    label_map.insert(""TWELVE_BITS"", u12::MAX);";
"    label_map.insert(""EIGHT_BITS"", u12![255]);";
"    label_map.insert(""FOUR_BITS"", u12![15]);";
"";
"    // Load the constant value LABEL:nn into Vx with valid 8-bit parameter.";
"    let ld_label8 = Instruction::from_mnemonic_and_parameters(""ld"", &vec![";
"      InstructionField::GeneralPurposeRegister(1),";
"      InstructionField::Identifier(""EIGHT_BITS"")],";
"      &label_map";
"    ).unwrap();";
"    assert_eq!(ld_label8.size(), 2);";
"    assert_eq!(ld_label8.0, Opcode::LD_IMMEDIATE { register_x: 1, value: 0xFF });";
"";
"    // Load the constant value LABEL:nn into Vx with valid 4-bit parameter.";
"    let ld_label4 = Instruction::from_mnemonic_and_parameters(""ld"", &vec![";
"      InstructionField::GeneralPurposeRegister(2),";
"      InstructionField::Identifier(""FOUR_BITS"")],";
"      &label_map";
"    ).unwrap();";
"    assert_eq!(ld_label4.size(), 2);";
"    assert_eq!(ld_label4.0, Opcode::LD_IMMEDIATE { register_x: 2, value: 0x0F });";
"";
"    // Load the constant value LABEL:nn into Vx with invalid 12-bit parameter.";
"    let ld_invalid_label_value_error = Instruction::from_mnemonic_and_parameters(""ld"", &vec![";
"      InstructionField::GeneralPurposeRegister(2),";
"      InstructionField::Identifier(""TWELVE_BITS"")],";
"      &label_map";
"    ).unwrap_err();";
"    assert_eq!(ld_invalid_label_value_error, Error::ExpectingEightBitValue(0xFFF));";
"";
"    // Load the constant value LABEL:nn into Vx with invalid label name.";
"    let ld_invalid_label_name_error = Instruction::from_mnemonic_and_parameters(""ld"", &vec![";
"      InstructionField::GeneralPurposeRegister(2),";
"      InstructionField::Identifier(""INVALID"")],";
"      &label_map";
"    ).unwrap_err();";
"    assert_eq!(ld_invalid_label_name_error, Error::UnableToResolveLabel(String::from(""INVALID"")));";
"  }";
"";
"  #[test]";
"  fn test_ld_index() {";
"    let empty_map = HashMap::new();";
"    let mut defined_map = HashMap::new();";
"    defined_map.insert(""TEST_LABEL"", u12::MAX);";
"";
"    // Failure Mode: Undefined Label.";
"    let index_register_field = InstructionField::IndexRegister;";
"    let label_field = InstructionField::Identifier(""TEST_LABEL"");";
"    let invalid_ld_i = Instruction::from_mnemonic_and_parameters(""ld"", &vec![index_register_field.clone(), label_field.clone()], &empty_map);";
"    assert_eq!(invalid_ld_i.is_err(), true);";
"    assert_eq!(invalid_ld_i.unwrap_err(), Error::UnableToResolveLabel(String::from(""TEST_LABEL"")));";
"";
"    // Success 1: Literal 12-bit Numeric.";
"    let literal_field = InstructionField::NumericLiteral(u12::MAX);";
"    let ld_i_literal = Instruction::from_mnemonic_and_parameters(""ld"", &vec![index_register_field.clone(), literal_field], &empty_map).unwrap();";
"    assert_eq!(ld_i_literal.size(), 2);";
"    assert_eq!(ld_i_literal.0, Opcode::LD_I { value: u12::MAX });";
"";
"    // Success 2: Defined 12-bit Label.";
"    let ld_i_label = Instruction::from_mnemonic_and_parameters(""ld"", &vec![index_register_field, label_field], &defined_map).unwrap();";
"    assert_eq!(ld_i_label.size(), 2);";
"    assert_eq!(ld_i_label.0, Opcode::LD_I { value: u12::MAX });";
"  }";
"";
"  #[test]";
"  fn test_add_immediate_and_register_and_index() {";
"    let empty_map = HashMap::new();";
"    let register_field_1 = InstructionField::GeneralPurposeRegister(1);";
"    let register_field_2 = InstructionField::GeneralPurposeRegister(2);";
"    let index_register_field = InstructionField::IndexRegister;";
"";
"    // Add vX += vY.";
"    let add_rr = Instruction::from_mnemonic_and_parameters(""add"", &vec![register_field_1, register_field_2], &empty_map).unwrap();";
"    assert_eq!(add_rr.size(), 2);";
"    assert_eq!(add_rr.0, Opcode::ADD_REGISTER { register_x: 1, register_y: 2 });";
"";
"    // Add vX += imm8.";
"    let immediate_field = InstructionField::NumericLiteral(U12::from(0xFF));";
"    let add_imm = Instruction::from_mnemonic_and_parameters(""add"", &vec![register_field_1, immediate_field], &empty_map).unwrap();";
"    assert_eq!(add_imm.size(), 2);";
"    assert_eq!(add_imm.0, Opcode::ADD_IMMEDIATE { register_x: 1, value: 0xFF });";
"";
"    // Immediate fields for add vX, $nn is limited to 8 bits.";
"    let immediate_field_invalid = InstructionField::NumericLiteral(u12![0x100]);";
"    let invalid_add_imm = Instruction::from_mnemonic_and_parameters(""add"", &vec![register_field_1, immediate_field_invalid], &empty_map);";
"    assert_eq!(invalid_add_imm.is_err(), true);";
"    assert_eq!(invalid_add_imm.unwrap_err(), Error::ExpectingEightBitValue(0x100));";
"";
"    // Add I += vX.";
"    let add_i = Instruction::from_mnemonic_and_parameters(""add"", &vec![index_register_field, register_field_2], &empty_map).unwrap();";
"    assert_eq!(add_i.size(), 2);";
"    assert_eq!(add_i.0, Opcode::ADD_I_X { register_x: 2 });";
"  }";
"";
"  #[test]";
"  fn test_add_immediate_label() {";
"    let mut label_map = HashMap::new();";
"    label_map.insert(""TWELVE_BITS"", u12::MAX);";
"    label_map.insert(""EIGHT_BITS"", u12![255]);";
"    label_map.insert(""FOUR_BITS"", u12![15]);";
"";
"    // Add the 8-bit constant to a register.";
"    let add_label8 = Instruction::from_mnemonic_and_parameters(""add"", &vec![";
"      InstructionField::GeneralPurposeRegister(1),";
"      InstructionField::Identifier(""EIGHT_BITS"")],";
"      &label_map";
"    ).unwrap();";
"    assert_eq!(add_label8.size(), 2);";
"    assert_eq!(add_label8.0, Opcode::ADD_IMMEDIATE { register_x: 1, value: 0xFF });";
"";
"    // Add the 4-bit constant to a register.";
"    let add_label4 = Instruction::from_mnemonic_and_parameters(""add"", &vec![";
"      InstructionField::GeneralPurposeRegister(2),";
"      InstructionField::Identifier(""FOUR_BITS"")],";
"      &label_map";
"    ).unwrap();";
"    assert_eq!(add_label4.size(), 2);";
"    assert_eq!(add_label4.0, Opcode::ADD_IMMEDIATE { register_x: 2, value: 0x0F });";
"";
"    // Add the (invalid) 12-bit constant to a register.";
"    let add_invalid_label_value_error = Instruction::from_mnemonic_and_parameters(""add"", &vec![";
"      InstructionField::GeneralPurposeRegister(2),";
"      InstructionField::Identifier(""TWELVE_BITS"")],";
"      &label_map";
"    ).unwrap_err();";
"    assert_eq!(add_invalid_label_value_error, Error::ExpectingEightBitValue(0xFFF));";
"";
"    // Attempt to reference an invalid label name.";
"    let add_invalid_label_name_error = Instruction::from_mnemonic_and_parameters(""add"", &vec![";
"      InstructionField::GeneralPurposeRegister(2),";
"      InstructionField::Identifier(""INVALID"")],";
"      &label_map";
"    ).unwrap_err();";
"    assert_eq!(add_invalid_label_name_error, Error::UnableToResolveLabel(String::from(""INVALID"")));";
"  }";
"";
"  #[test]";
"  fn test_and_or_xor_sub_subn_shr_shl() {";
"    let empty_map = HashMap::new();";
"    let register_field_1 = InstructionField::GeneralPurposeRegister(1);";
"    let register_field_2 = InstructionField::GeneralPurposeRegister(2);";
"";
"    // And vX & vY.";
"    let and = Instruction::from_mnemonic_and_parameters(""and"", &vec![register_field_1, register_field_2], &empty_map).unwrap();";
"    assert_eq!(and.size(), 2);";
"    assert_eq!(and.0, Opcode::AND { register_x: 1, register_y: 2 });";
"";
"    // Or vX | vY.";
"    let or = Instruction::from_mnemonic_and_parameters(""or"", &vec![register_field_1, register_field_2], &empty_map).unwrap();";
"    assert_eq!(or.size(), 2);";
"    assert_eq!(or.0, Opcode::OR { register_x: 1, register_y: 2 });";
"";
"    // Xor vX ^ vY.";
"    let xor = Instruction::from_mnemonic_and_parameters(""xor"", &vec![register_field_1, register_field_2], &empty_map).unwrap();";
"    assert_eq!(xor.size(), 2);";
"    assert_eq!(xor.0, Opcode::XOR { register_x: 1, register_y: 2 });";
"";
"    // Sub vX - vY.";
"    let sub = Instruction::from_mnemonic_and_parameters(""sub"", &vec![register_field_1, register_field_2], &empty_map).unwrap();";
"    assert_eq!(sub.size(), 2);";
"    assert_eq!(sub.0, Opcode::SUB { register_x: 1, register_y: 2 });";
"";
"    // Subn vY - vX.";
"    let subn = Instruction::from_mnemonic_and_parameters(""subn"", &vec![register_field_1, register_field_2], &empty_map).unwrap();";
"    assert_eq!(subn.size(), 2);";
"    assert_eq!(subn.0, Opcode::SUBN { register_x: 1, register_y: 2 });";
"";
"    // Shr vX.";
"    let shr = Instruction::from_mnemonic_and_parameters(""shr"", &vec![register_field_1], &empty_map).unwrap();";
"    assert_eq!(shr.size(), 2);";
"    assert_eq!(shr.0, Opcode::SHR { register_x: 1, register_y: 0 });";
"";
"    // Shl vX.";
"    let shl = Instruction::from_mnemonic_and_parameters(""shl"", &vec![register_field_1], &empty_map).unwrap();";
"    assert_eq!(shl.size(), 2);";
"    assert_eq!(shl.0, Opcode::SHL { register_x: 1, register_y: 0 });";
"  }";
"";
"  #[test]";
"  fn test_rnd() {";
"    let empty_map = HashMap::new();";
"    let register_field_1 = InstructionField::GeneralPurposeRegister(1);";
"";
"    // Rnd vX, imm8.";
"    let immediate_field = InstructionField::NumericLiteral(U12::from(0xFF));";
"    let rnd_imm = Instruction::from_mnemonic_and_parameters(""rnd"", &vec![register_field_1, immediate_field], &empty_map).unwrap();";
"    assert_eq!(rnd_imm.size(), 2);";
"    assert_eq!(rnd_imm.0, Opcode::RND { register_x: 1, mask: 0xFF });";
"";
"    // Immediate fields for rnd vX, $nn is limited to 8 bits.";
"    let immediate_field_invalid = InstructionField::NumericLiteral(u12![0x100]);";
"    let invalid_rnd_imm = Instruction::from_mnemonic_and_parameters(""rnd"", &vec![register_field_1, immediate_field_invalid], &empty_map);";
"    assert_eq!(invalid_rnd_imm.is_err(), true);";
"    assert_eq!(invalid_rnd_imm.unwrap_err(), Error::ExpectingEightBitValue(0x100));";
"  }";
"";
"  #[test]";
"  fn test_rnd_immediate_label() {";
"    let mut label_map = HashMap::new();";
"    label_map.insert(""TWELVE_BITS"", u12::MAX);";
"    label_map.insert(""EIGHT_BITS"", u12![255]);";
"    label_map.insert(""FOUR_BITS"", u12![15]);";
"";
"    // Random with 8-bit immediate label.";
"    let rnd_label8 = Instruction::from_mnemonic_and_parameters(""rnd"", &vec![";
"      InstructionField::GeneralPurposeRegister(1),";
"      InstructionField::Identifier(""EIGHT_BITS"")],";
"      &label_map";
"    ).unwrap();";
"    assert_eq!(rnd_label8.size(), 2);";
"    assert_eq!(rnd_label8.0, Opcode::RND { register_x: 1, mask: 0xFF });";
"";
"    // Random with 4-bit immediate label.";
"    let rnd_label4 = Instruction::from_mnemonic_and_parameters(""rnd"", &vec![";
"      InstructionField::GeneralPurposeRegister(2),";
"      InstructionField::Identifier(""FOUR_BITS"")],";
"      &label_map";
"    ).unwrap();";
"    assert_eq!(rnd_label4.size(), 2);";
"    assert_eq!(rnd_label4.0, Opcode::RND { register_x: 2, mask: 0x0F });";
"";
"    // Load the constant value LABEL:nn into Vx with invalid 12-bit parameter.";
"    let rnd_invalid_label_value_error = Instruction::from_mnemonic_and_parameters(""rnd"", &vec![";
"      InstructionField::GeneralPurposeRegister(2),";
"      InstructionField::Identifier(""TWELVE_BITS"")],";
"      &label_map";
"    ).unwrap_err();";
"    assert_eq!(rnd_invalid_label_value_error, Error::ExpectingEightBitValue(0xFFF));";
"";
"    // Load the constant value LABEL:nn into Vx with invalid label name.";
"    let rnd_invalid_label_name_error = Instruction::from_mnemonic_and_parameters(""rnd"", &vec![";
"      InstructionField::GeneralPurposeRegister(2),";
"      InstructionField::Identifier(""INVALID"")],";
"      &label_map";
"    ).unwrap_err();";
"    assert_eq!(rnd_invalid_label_name_error, Error::UnableToResolveLabel(String::from(""INVALID"")));";
"  }";
"";
"  #[test]";
"  fn test_drw() {";
"    let empty_map = HashMap::new();";
"    let register_field_1 = InstructionField::GeneralPurposeRegister(1);";
"    let register_field_2 = InstructionField::GeneralPurposeRegister(2);";
"";
"    // Drw vX, vY, imm4.";
"    let immediate_field = InstructionField::NumericLiteral(U12::from(0xF));";
"    let drw = Instruction::from_mnemonic_and_parameters(""drw"", &vec![register_field_1, register_field_2, immediate_field], &empty_map).unwrap();";
"    assert_eq!(drw.size(), 2);";
"    assert_eq!(drw.0, Opcode::DRW { register_x: 1, register_y: 2, bytes: 15 });";
"";
"    // Immediate fields for drw vX, vY, $n is limited to 4 bits.";
"    let immediate_field_invalid = InstructionField::NumericLiteral(U12::from(0x10));";
"    let invalid_drw = Instruction::from_mnemonic_and_parameters(""drw"", &vec![register_field_1, register_field_2, immediate_field_invalid], &empty_map);";
"    assert_eq!(invalid_drw.is_err(), true);";
"    assert_eq!(invalid_drw.unwrap_err(), Error::ExpectingFourBitValue(0x10));";
"  }";
"";
"  #[test]";
"  fn test_drw_immediate_label() {";
"    let mut label_map = HashMap::new();";
"    label_map.insert(""TWELVE_BITS"", u12::MAX);";
"    label_map.insert(""EIGHT_BITS"", u12![255]);";
"    label_map.insert(""FOUR_BITS"", u12![15]);";
"";
"    // Draw sprite with valid 4-bit parameter number of bytes.";
"    let drw_label4 = Instruction::from_mnemonic_and_parameters(""drw"", &vec![";
"      InstructionField::GeneralPurposeRegister(1),";
"      InstructionField::GeneralPurposeRegister(2),";
"      InstructionField::Identifier(""FOUR_BITS"")],";
"      &label_map";
"    ).unwrap();";
"    assert_eq!(drw_label4.size(), 2);";
"    assert_eq!(drw_label4.0, Opcode::DRW { register_x: 1, register_y: 2, bytes: 15 });";
"";
"    // Draw sprite with invalid 8-bit parameter number of bytes.";
"    let drw_invalid_label_value_12_error = Instruction::from_mnemonic_and_parameters(""drw"", &vec![";
"      InstructionField::GeneralPurposeRegister(1),";
"      InstructionField::GeneralPurposeRegister(2),";
"      InstructionField::Identifier(""TWELVE_BITS"")],";
"      &label_map";
"    ).unwrap_err();";
"    assert_eq!(drw_invalid_label_value_12_error, Error::ExpectingFourBitValue(0xFFF));";
"";
"    // Draw sprite with invalid 8-bit parameter number of bytes.";
"    let drw_invalid_label_value_8_error = Instruction::from_mnemonic_and_parameters(""drw"", &vec![";
"      InstructionField::GeneralPurposeRegister(1),";
"      InstructionField::GeneralPurposeRegister(2),";
"      InstructionField::Identifier(""EIGHT_BITS"")],";
"      &label_map";
"    ).unwrap_err();";
"    assert_eq!(drw_invalid_label_value_8_error, Error::ExpectingFourBitValue(0xFF));";
"";
"    // Draw sprite with invalid label name.";
"    let drw_invalid_label_name_error = Instruction::from_mnemonic_and_parameters(""drw"", &vec![";
"      InstructionField::GeneralPurposeRegister(1),";
"      InstructionField::GeneralPurposeRegister(2),";
"      InstructionField::Identifier(""INVALID"")],";
"      &label_map";
"    ).unwrap_err();";
"    assert_eq!(drw_invalid_label_name_error, Error::UnableToResolveLabel(String::from(""INVALID"")));";
"  }";
"";
"  #[test]";
"  fn test_ld_delay_and_sound_timer_and_keypad() {";
"    let empty_map = HashMap::new();";
"    let register_field = InstructionField::GeneralPurposeRegister(15);";
"    let sound_timer_field = InstructionField::SoundTimer;";
"    let delay_timer_field = InstructionField::DelayTimer;";
"    let keypad_field = InstructionField::KeypadRegister;";
"";
"    // Ld vX := DT.";
"    let ld_vx_dt = Instruction::from_mnemonic_and_parameters(""ld"", &vec![register_field, delay_timer_field], &empty_map).unwrap();";
"    assert_eq!(ld_vx_dt.size(), 2);";
"    assert_eq!(ld_vx_dt.0, Opcode::LD_X_DT { register_x: 15 });";
"";
"    // Ld vX := K.";
"    let ld_vx_k = Instruction::from_mnemonic_and_parameters(""ld"", &vec![register_field, keypad_field], &empty_map).unwrap();";
"    assert_eq!(ld_vx_k.size(), 2);";
"    assert_eq!(ld_vx_k.0, Opcode::LD_X_K { register_x: 15 });";
"";
"    // Ld DT := vX.";
"    let ld_dt_vx = Instruction::from_mnemonic_and_parameters(""ld"", &vec![delay_timer_field, register_field], &empty_map).unwrap();";
"    assert_eq!(ld_dt_vx.size(), 2);";
"    assert_eq!(ld_dt_vx.0, Opcode::LD_DT_X { register_x: 15 });";
"";
"    // Ld ST := vX.";
"    let ld_st_vx = Instruction::from_mnemonic_and_parameters(""ld"", &vec![sound_timer_field, register_field], &empty_map).unwrap();";
"    assert_eq!(ld_st_vx.size(), 2);";
"    assert_eq!(ld_st_vx.0, Opcode::LD_ST_X { register_x: 15 });";
"  }";
"";
"  #[test]";
"  fn test_sprite() {";
"    let empty_map = HashMap::new();";
"    let register_field = InstructionField::GeneralPurposeRegister(7);";
"    let sprite_field = InstructionField::Sprite;";
"";
"    // ld f, vX.";
"    let sprite_i = Instruction::from_mnemonic_and_parameters(""ld"", &vec![sprite_field, register_field], &empty_map).unwrap();";
"    assert_eq!(sprite_i.size(), 2);";
"    assert_eq!(sprite_i.0, Opcode::SPRITE_I { register_x: 7 });";
"  }";
"";
"  #[test]";
"  fn test_bcd() {";
"    let empty_map = HashMap::new();";
"    let register_field = InstructionField::GeneralPurposeRegister(7);";
"    let bcd_field = InstructionField::Bcd;";
"";
"    // ld b, vX.";
"    let bcd_i = Instruction::from_mnemonic_and_parameters(""ld"", &vec![bcd_field, register_field], &empty_map).unwrap();";
"    assert_eq!(bcd_i.size(), 2);";
"    assert_eq!(bcd_i.0, Opcode::BCD_I { register_x: 7 });";
"  }";
"";
"  #[test]";
"  fn test_save() {";
"    let empty_map = HashMap::new();";
"    let register_field = InstructionField::GeneralPurposeRegister(7);";
"    let index_register_indirect_field = InstructionField::IndexRegisterIndirect;";
"";
"    // ld [i], vX.";
"    let save_i = Instruction::from_mnemonic_and_parameters(""ld"", &vec![index_register_indirect_field, register_field], &empty_map).unwrap();";
"    assert_eq!(save_i.size(), 2);";
"    assert_eq!(save_i.0, Opcode::SAVE_I { register_x: 7 });";
"  }";
"";
"  #[test]";
"  fn test_restore() {";
"    let empty_map = HashMap::new();";
"    let register_field = InstructionField::GeneralPurposeRegister(7);";
"    let index_register_indirect_field = InstructionField::IndexRegisterIndirect;";
"";
"    // ld vX, [i].";
"    let restore_i = Instruction::from_mnemonic_and_parameters(""ld"", &vec![register_field, index_register_indirect_field], &empty_map).unwrap();";
"    assert_eq!(restore_i.size(), 2);";
"    assert_eq!(restore_i.0, Opcode::RESTORE_I { register_x: 7 });";
"  }";
"";
"}"
].

(** directive.rs:202-312 *)
Definition directive_tests : list string :=
[
"#[cfg(test)]";
"mod tests {";
"";
"  use twelve_bit::u12;";
"";
"  use assembler::parser::Literal;";
"";
"  use super::names;";
"  use super::*;";
"";
"  #[test]";
"  fn test_error_display() {";
"    assert_eq!(format!(""{}"", Error::IncorrectNumberOfParameters(names::ORG, 0, 1, false)),";
"      ""Incorrect number of parameters (0) for directive .org, expecting 1."");";
"    assert_eq!(format!(""{}"", Error::IncorrectNumberOfParameters(names::ORG, 2, 1, false)),";
"      ""Incorrect number of parameters (2) for directive .org, expecting 1."");";
"    assert_eq!(format!(""{}"", Error::IncorrectNumberOfParameters(names::ORG, 0, 1, true)),";
"      ""Incorrect number of parameters (0) for directive .org, expecting 1 or more."");";
"    assert_eq!(format!(""{}"", Error::DirectiveRequiresOneNumericLiteral(names::DB)), ";
"      ""Directive .db requires 1 numeric literal in the range $000-$FFF."");";
"    assert_eq!(format!(""{}"", Error::DirectiveRequiresOneNumericLiteral(names::EQU)), ";
"      ""Directive .equ requires 1 numeric literal in the range $000-$FFF."");";
"    assert_eq!(format!(""{}"", Error::AllNumericParametersMustBeByteLiterals(names::ORG, 0x100)),";
"      ""All numeric parameters to .org must be 1-byte literals ($100 > $FF)."");";
"    assert_eq!(format!(""{}"", Error::UnrecognizedDirective(String::from(""dw""))), ";
"      ""Unrecognized directive '.dw'."");";
"  }";
"";
"  #[test]";
"  fn test_validate_directive_semantics_for_org() {";
"    let mut params = vec![];";
"    assert_eq!(Directive::from_identifier_and_parameters(""org"", &params), Err(Error::IncorrectNumberOfParameters(names::ORG, 0, 1, false)));";
"    params = vec![Literal::Numeric(1), Literal::Numeric(3)];";
"    assert_eq!(Directive::from_identifier_and_parameters(""org"", &params), Err(Error::IncorrectNumberOfParameters(names::ORG, 2, 1, false)));";
"    params = vec![Literal::Numeric(0x1000)];";
"    assert_eq!(Directive::from_identifier_and_parameters(""org"", &params), Err(Error::DirectiveRequiresOneNumericLiteral(names::ORG)));";
"    params = vec![Literal::String(""TEST_STRING"")];";
"    assert_eq!(Directive::from_identifier_and_parameters(""org"", &params), Err(Error::DirectiveRequiresOneNumericLiteral(names::ORG)));";
"    params = vec![Literal::Numeric(0xFFF)];";
"    assert_eq!(Directive::from_identifier_and_parameters(""org"", &params), Ok(Directive::Org(u12::MAX)));";
"    params = vec![Literal::Numeric(0x000)];";
"    assert_eq!(Directive::from_identifier_and_parameters(""org"", &params), Ok(Directive::Org(u12::MIN)));";
"  }";
"";
"  #[test]";
"  fn test_validate_directive_semantics_for_db() {";
"    let mut params = vec![];";
"    assert_eq!(Directive::from_identifier_and_parameters(""db"", &params), Err(Error::IncorrectNumberOfParameters(names::DB, 0, 1, true)));";
"    params = vec![Literal::Numeric(0x100)];";
"    assert_eq!(Directive::from_identifier_and_parameters(""db"", &params), Err(Error::AllNumericParametersMustBeByteLiterals(names::DB, 0x100)));";
"    params = vec![Literal::String(""TEST_STRING"")];";
"    assert_eq!(Directive::from_identifier_and_parameters(""db"", &params), Ok(Directive::Db(""TEST_STRING"".as_bytes().to_vec())));";
"    params = vec![Literal::Numeric(0xFF)];";
"    assert_eq!(Directive::from_identifier_and_parameters(""db"", &params), Ok(Directive::Db(vec![0xFF])));";
"    params = vec![Literal::Numeric(0x00)];";
"    assert_eq!(Directive::from_identifier_and_parameters(""db"", &params), Ok(Directive::Db(vec![0x00])));";
"    params = vec![Literal::String(""TEST_STRING""), Literal::Numeric(0x00)];";
"    assert_eq!(Directive::from_identifier_and_parameters(""db"", &params), Ok(Directive::Db(""TEST_STRING\0"".as_bytes().to_vec())));";
"  }";
"";
"  #[test]";
"  fn test_validate_directive_semantics_for_equ() {";
"    let mut params = vec![];";
"    assert_eq!(Directive::from_identifier_and_parameters(""equ"", &params), Err(Error::IncorrectNumberOfParameters(names::EQU, 0, 1, false)));";
"    params = vec![Literal::Numeric(1), Literal::Numeric(3)];";
"    assert_eq!(Directive::from_identifier_and_parameters(""equ"", &params), Err(Error::IncorrectNumberOfParameters(names::EQU, 2, 1, false)));";
"    params = vec![Literal::Numeric(0x1000)];";
"    assert_eq!(Directive::from_identifier_and_parameters(""equ"", &params), Err(Error::DirectiveRequiresOneNumericLiteral(names::EQU)));";
"    params = vec![Literal::String(""TEST_STRING"")];";
"    assert_eq!(Directive::from_identifier_and_parameters(""equ"", &params), Err(Error::DirectiveRequiresOneNumericLiteral(names::EQU)));";
"    params = vec![Literal::Numeric(0xFFF)];";
"    assert_eq!(Directive::from_identifier_and_parameters(""equ"", &params), Ok(Directive::Equ(u12::MAX)));";
"    params = vec![Literal::Numeric(0x000)];";
"    assert_eq!(Directive::from_identifier_and_parameters(""equ"", &params), Ok(Directive::Equ(u12::MIN)));";
"  }";
"";
"  #[test]";
"  fn test_validate_directive_semantics_for_invalid_directive() {";
"    let mut params = vec![];";
"    assert_eq!(Directive::from_identifier_and_parameters(""dw"", &params), Err(Error::UnrecognizedDirective(String::from(""dw""))));";
"    params = vec![Literal::Numeric(0x100)];";
"    assert_eq!(Directive::from_identifier_and_parameters(""dw"", &params), Err(Error::UnrecognizedDirective(String::from(""dw""))));";
"  }";
"";
"  #[test]";
"  fn test_size_of_directive_for_org() {";
"    let org_directive = Directive::from_identifier_and_parameters(""org"", &vec![Literal::Numeric(0xFFF)]).ok().unwrap();";
"    assert_eq!(org_directive.size(), 0);";
"  }";
"";
"  #[test]";
"  fn test_size_of_directive_for_db() {";
"    let test_cases = [";
"      ( 1, Directive::from_identifier_and_parameters(""db"", &vec![Literal::Numeric(0xFF)]).ok().unwrap().size()),";
"      (11, Directive::from_identifier_and_parameters(""db"", &vec![Literal::String(""TEST_STRING"")]).ok().unwrap().size()),";
"      (12, Directive::from_identifier_and_parameters(""db"", &vec![Literal::String(""TEST_STRING""), Literal::Numeric(0x00)]).ok().unwrap().size())";
"    ];";
"";
"    // Validate the expected size is obtained for each directive.";
"    for &(expected_size, size) in test_cases.iter() {";
"      assert_eq!(size, expected_size);";
"    }";
"  }";
"";
"  #[test]";
"  fn test_size_of_directive_for_equ() {";
"    let equ_directive = Directive::from_identifier_and_parameters(""equ"", &vec![Literal::Numeric(0xFFF)]).ok().unwrap();";
"    assert_eq!(equ_directive.size(), 0);";
"  }";
"";
"}"
].

(** data_range.rs:119-303 *)
Definition data_range_tests : list string :=
[
"#[cfg(test)]";
"mod tests {";
"";
"  use std::iter::repeat;";
"";
"  use super::*;";
"";
"  use twelve_bit::u12;";
"";
"  #[test]";
"  fn test_empty_ranges() {";
"    let zero_range = DataRange::new(u12![0]);";
"    assert_eq!(zero_range.len(), 0);";
"    assert_eq!(zero_range.bytes_remaining(), 4096);";
"    assert_eq!(zero_range.address_range(), u12![0] .. u12![0]);";
"";
"    let half_address = u12![0x800];";
"    let half_range = DataRange::new(half_address);";
"    assert_eq!(half_range.len(), 0);";
"    assert_eq!(half_range.bytes_remaining(), 2048);";
"    assert_eq!(half_range.address_range(), half_address .. half_address);";
"";
"    let max_range = DataRange::new(u12::MAX);";
"    assert_eq!(max_range.len(), 0);";
"    assert_eq!(max_range.bytes_remaining(), 1);";
"    assert_eq!(max_range.address_range(), u12::MAX .. u12::MAX);";
"  }";
"";
"  #[test]";
"  fn test_append_within_range() {";
"    let program_space_start = u12![0x200];";
"    let mut program_space = DataRange::new(program_space_start);";
"    assert_eq!(program_space.len(), 0);";
"    assert_eq!(program_space.bytes_remaining(), 3584);";
"    assert_eq!(program_space.address_range(), program_space_start .. program_space_start);";
"";
"    // Append a single byte to the data range.";
"    let one_byte_slice: &[u8] = &[1];";
"    assert_eq!(program_space.append(one_byte_slice), true);";
"    assert_eq!(program_space.len(), 1);";
"    assert_eq!(program_space.bytes_remaining(), 3583);";
"    assert_eq!(program_space.address_range(), program_space_start .. program_space_start.wrapping_add(u12![1]));";
"";
"    // Append a single byte to the data range.";
"    let two_byte_slice: &[u8] = &[2, 3];";
"    assert_eq!(program_space.append(two_byte_slice), true);";
"    assert_eq!(program_space.len(), 3);";
"    assert_eq!(program_space.bytes_remaining(), 3581);";
"    assert_eq!(program_space.address_range(), program_space_start .. program_space_start.wrapping_add(u12![3]));";
"";
"    // Validate the data was appended.";
"    assert_eq!(program_space.data(), &vec![1,2,3]);";
"  }";
"";
"  #[test]";
"  fn test_append_out_of_range() {";
"    let mut max_range = DataRange::new(u12::MAX);";
"    let one_byte_slice: &[u8] = &[1];";
"";
"    // Append data into the only slot in the data range.";
"    assert_eq!(max_range.append(one_byte_slice), true);";
"    assert_eq!(max_range.len(), 1);";
"    assert_eq!(max_range.bytes_remaining(), 0);";
"    assert_eq!(max_range.address_range(), u12::MAX .. u12::MIN);";
"";
"    // Validate the data was appended.";
"    assert_eq!(max_range.data(), &vec![1]);";
"";
"    // Attempt to apppend past the end of the data range.";
"    assert_eq!(max_range.append(one_byte_slice), false);";
"    assert_eq!(max_range.len(), 1);";
"    assert_eq!(max_range.bytes_remaining(), 0);";
"    assert_eq!(max_range.address_range(), u12::MAX .. u12::MIN);";
"";
"    // Validate the data was not appended.";
"    assert_eq!(max_range.data(), &vec![1]);";
"  }";
"";
"  #[test]";
"  fn test_intersects() {";
"    // Case 1: Obviously disjoint (+++++===++), distance: 3.";
"    let disjoint_1a = range_with_start_and_length(0, 5);";
"    let disjoint_1b = range_with_start_and_length(8, 2);";
"    assert_eq!(disjoint_1a.intersects(&disjoint_1b), false);";
"    assert_eq!(disjoint_1b.intersects(&disjoint_1a), false);";
"";
"    // Case 2: Tightly disjoint (+++++===++), distance: 1.";
"    let disjoint_2a = range_with_start_and_length(0, 5);";
"    let disjoint_2b = range_with_start_and_length(6, 4);";
"    assert_eq!(disjoint_2a.intersects(&disjoint_2b), false);";
"    assert_eq!(disjoint_2b.intersects(&disjoint_2a), false);";
"";
"    // Case 3: Adjacent (++++++++++), distance: 0.";
"    let adjacent_a = range_with_start_and_length(0, 5);";
"    let adjacent_b = range_with_start_and_length(5, 5);";
"    assert_eq!(adjacent_a.intersects(&adjacent_b), false);";
"    assert_eq!(adjacent_b.intersects(&adjacent_a), false);";
"";
"    // Case 4: Tail Overlap (++++++v+++) distance: -1.";
"    let tail_overlap_a = range_with_start_and_length(0, 7);";
"    let tail_overlap_b = range_with_start_and_length(6, 4);";
"    assert_eq!(tail_overlap_a.intersects(&tail_overlap_b), true);";
"    assert_eq!(tail_overlap_b.intersects(&tail_overlap_a), true);";
"";
"    // Case 5: Wholly Contained Head (v+++++++++) distance: -1.";
"    let wholly_contained_head_a = range_with_start_and_length(0, 10);";
"    let wholly_contained_head_b = range_with_start_and_length(0, 1);";
"    assert_eq!(wholly_contained_head_a.intersects(&wholly_contained_head_b), true);";
"    assert_eq!(wholly_contained_head_b.intersects(&wholly_contained_head_a), true);";
"";
"    // Case 6: Wholly Contained Tail (+++++++++v) distance: -1.";
"    let wholly_contained_tail_a = range_with_start_and_length(0, 10);";
"    let wholly_contained_tail_b = range_with_start_and_length(9, 1);";
"    assert_eq!(wholly_contained_tail_a.intersects(&wholly_contained_tail_b), true);";
"    assert_eq!(wholly_contained_tail_b.intersects(&wholly_contained_tail_a), true);";
"";
"    // Case 7: Middle of Range (++++vv++++) distance: -2.";
"    let middle_a = range_with_start_and_length(0, 10);";
"    let middle_b = range_with_start_and_length(4, 2);";
"    assert_eq!(middle_a.intersects(&middle_b), true);";
"    assert_eq!(middle_b.intersects(&middle_a), true);";
"";
"    // Case 8: Zero Length Range (++++++++++) distance: 0.";
"    let zero_a = range_with_start_and_length(0, 10);";
"    let zero_b = range_with_start_and_length(4, 0);";
"    assert_eq!(zero_a.intersects(&zero_b), false);";
"    assert_eq!(zero_b.intersects(&zero_a), false);";
"  }";
"";
"  #[test]";
"  fn test_find_overlapping_ranges() {";
"    /*               */";
"    /*    0123456789 */";
"    /* A: ++++++++++ */ let range_a = || { range_with_start_and_length(0, 10) };";
"    /* B: +++======= */ let range_b = || { range_with_start_and_length(0,  3) };";
"    /* C: =======+++ */ let range_c = || { range_with_start_and_length(7,  3) };";
"    /* D: ==++++++== */ let range_d = || { range_with_start_and_length(2,  6) };";
"    /* E: ========== */ let range_e = || { range_with_start_and_length(0,  0) };";
"    /*               */";
"";
"    // Zero ranges cannot overlap.";
"    assert_eq!(find_overlapping_ranges(&[]), vec![]);";
"";
"    // No one range can overlap.";
"    assert_eq!(find_overlapping_ranges(&[range_a()]), vec![]);";
"    assert_eq!(find_overlapping_ranges(&[range_b()]), vec![]);";
"    assert_eq!(find_overlapping_ranges(&[range_c()]), vec![]);";
"    assert_eq!(find_overlapping_ranges(&[range_d()]), vec![]);";
"    assert_eq!(find_overlapping_ranges(&[range_e()]), vec![]);";
"";
"    // Non-overlapping data ranges.";
"    assert_eq!(find_overlapping_ranges(&[range_b(), range_c()]), vec![]);";
"    assert_eq!(find_overlapping_ranges(&[range_b(), range_e()]), vec![]);";
"";
"    // One overlapping range (including when the same range is represented twice).";
"    assert_eq!(find_overlapping_ranges(&[range_a(), range_a()]), vec![(&range_a(), &range_a())]);";
"    assert_eq!(find_overlapping_ranges(&[range_a(), range_b()]), vec![(&range_a(), &range_b())]);";
"    assert_eq!(find_overlapping_ranges(&[range_a(), range_c()]), vec![(&range_a(), &range_c())]);";
"";
"    // // One overlapping range when the zero-range is also included.";
"    assert_eq!(find_overlapping_ranges(&[range_a(), range_b(), range_e()]), vec![(&range_a(), &range_b())]);";
"";
"    // Test all ranges to find the overlapping pairs.";
"    assert_eq!(find_overlapping_ranges(&[range_a(), range_b(), range_c(), range_d(), range_e()]),";
"      vec![";
"        (&range_a(), &range_b()),";
"        (&range_a(), &range_c()),";
"        (&range_a(), &range_d()),";
"        (&range_b(), &range_d()),";
"        (&range_c(), &range_d())";
"      ]";
"    );";
"  }";
"";
"  // MARK: - Helper Methods";
"";
"  /// Constructs a new zero-filled range at the start address provided with the length provided.";
"  fn range_with_start_and_length(start: usize, length: usize) -> DataRange {";
"    let mut range = DataRange::new(start.unchecked_into());";
"    let data: Vec<u8> = repeat(0u8).take(length).collect();";
"    range.append(data.as_slice());";
"    range";
"  }";
"";
"}"
].

(** source_file_location.rs:52-97 *)
Definition source_file_location_tests : list string :=
[
"#[cfg(test)]";
"mod tests {";
"  ";
"  use super::*;";
"";
"  #[test]";
"  fn test_display_fmt_one_character() {";
"    let one_length_location = SourceFileLocation::new(""test_file.s"", 1, 1, 1);";
"    assert_eq!(format!(""{}"", one_length_location), ""test_file.s:1:1"");";
"  }";
"";
"  #[test]";
"  fn test_display_fmt_many_characters() {";
"    let two_length_location = SourceFileLocation::new(""test_file.s"", 2, 3, 2);";
"    assert_eq!(format!(""{}"", two_length_location), ""test_file.s:2:3-4"");";
"    let five_length_location = SourceFileLocation::new(""test_file.s"", 2, 3, 5);";
"    assert_eq!(format!(""{}"", five_length_location), ""test_file.s:2:3-7"");";
"  }";
"";
"  #[test]";
"  fn test_display_fmt_empty_file_name() {";
"    let location_one_length = SourceFileLocation::new("""", 1, 1, 1);";
"    assert_eq!(format!(""{}"", location_one_length), "":1:1"");";
"    let location_two_length = SourceFileLocation::new("""", 1, 2, 3);";
"    assert_eq!(format!(""{}"", location_two_length), "":1:2-4"");";
"  }";
"";
"  #[test]";
"  #[should_panic]";
"  fn test_new_asserts_on_zero_line() {";
"    let _ = SourceFileLocation::new(""test.s"", 0, 2, 3);";
"  }";
"";
"  #[test]";
"  #[should_panic]";
"  fn test_new_asserts_on_zero_length() {";
"    let _ = SourceFileLocation::new(""test.s"", 1, 0, 3);";
"  }";
"";
"  #[test]";
"  #[should_panic]";
"  fn test_new_asserts_on_zero_location() {";
"    let _ = SourceFileLocation::new(""test.s"", 1, 2, 0);";
"  }";
"";
"}"
].

(** token.rs:93-120 *)
Definition token_tests : list string :=
[
"#[cfg(test)]";
"mod tests {";
"  ";
"  use std::error;";
"  ";
"  use super::*;";
"";
"  use assembler::scanner;";
"  use assembler::source_file_location::SourceFileLocation;";
"";
"  #[test]";
"  fn test_display_fmt() {";
"    let location = SourceFileLocation::new(""test_file.s"", 1, 1, 1);";
"    assert_eq!(format!(""{}"", Token::SingleLineComment(""; Hello"", location.clone())), ""single-line comment"");";
"    assert_eq!(format!(""{}"", Token::DirectiveMarker(location.clone())), ""directive marker"");";
"    assert_eq!(format!(""{}"", Token::Identifier(""test_id"", location.clone())), ""identifier (test_id)"");";
"    assert_eq!(format!(""{}"", Token::LabelMarker(location.clone())), ""label marker"");";
"    assert_eq!(format!(""{}"", Token::StringLiteral(""Hello"", location.clone())), ""string literal (\""Hello\"")"");";
"    assert_eq!(format!(""{}"", Token::NumericLiteral(12, location.clone())), ""numeric literal (12 / $C)"");";
"    assert_eq!(format!(""{}"", Token::Comma(location.clone())), ""comma"");";
"    assert_eq!(format!(""{}"", Token::Newline(location.clone())), ""newline"");";
"";
"    let error = scanner::Error::InvalidStringLiteral;";
"    let expected_error_display = format!(""{}."", (&error as &error::Error).description());";
"    assert_eq!(format!(""{}"", Token::Error(error.clone(), location.clone())), expected_error_display);";
"  }";
"";
"}"
].

(** scanner.rs:495-721 *)
Definition scanner_tests : list string :=
[
"#[cfg(test)]";
"mod tests {";
"  ";
"  use assembler::token::Token;";
"  use assembler::source_file_location::SourceFileLocation;";
"";
"  use super::*;";
"";
"  #[test]";
"  fn test_parse_12_bit_bin_str() {";
"    assert_eq!(parse_12_bit_bin_str(""""), Ok(0));";
"    assert_eq!(parse_12_bit_bin_str(""...000.""), Ok(0));";
"    assert_eq!(parse_12_bit_bin_str(""...0001""), Ok(1));";
"    assert_eq!(parse_12_bit_bin_str("".....111111111111""), Ok(4095));";
"    assert_eq!(parse_12_bit_bin_str(""....1000000000000""), Err(Error::BinaryLiteralOutOfRange(""....1000000000000"")));";
"    assert_eq!(parse_12_bit_bin_str(""...11111111111111""), Err(Error::BinaryLiteralOutOfRange(""...11111111111111"")));";
"    assert_eq!(parse_12_bit_bin_str(""...1111111111111+""), Err(Error::InvalidBinaryLiteral));";
"  }";
"";
"  #[test]";
"  fn test_is_at_end_empty_string() {";
"    let mut scanner = Scanner::new(""-"", """");";
"    assert_eq!(scanner.is_at_end(), true);";
"    assert_eq!(scanner.next(), None);";
"  }";
"  ";
"  #[test]";
"  fn test_is_at_end_non_empty_string() {";
"    let scanner = Scanner::new(""-"", ""NON_EMPTY_STRING"");";
"    assert_eq!(scanner.is_at_end(), false);";
"  }";
"  ";
"  #[test]";
"  fn test_next_whitespace_only() {";
"    let mut scanner = Scanner::new(""-"", ""    \t"");";
"    assert_eq!(scanner.is_at_end(), false);";
"    assert_eq!(scanner.next(), None);";
"    assert_eq!(scanner.is_at_end(), true);";
"  }";
"  ";
"  // MARK: - Single-Character Tokens";
"  ";
"  #[test]";
"  fn test_directive_marker() {";
"    let mut scanner = Scanner::new(""-"", ""."");";
"    assert_eq!(scanner.is_at_end(), false);";
"    assert_eq!(scanner.next(), Some(Token::DirectiveMarker(SourceFileLocation::new(""-"", 1, 1, 1))));";
"    assert_eq!(scanner.is_at_end(), true);";
"  }";
"  ";
"  #[test]";
"  fn test_label_marker() {";
"    let mut scanner = Scanner::new(""-"", "":"");";
"    assert_eq!(scanner.is_at_end(), false);";
"    assert_eq!(scanner.next(), Some(Token::LabelMarker(SourceFileLocation::new(""-"", 1, 1, 1))));";
"    assert_eq!(scanner.is_at_end(), true);";
"  }";
"  ";
"  #[test]";
"  fn test_comma() {";
"    let mut scanner = Scanner::new(""-"", "","");";
"    assert_eq!(scanner.is_at_end(), false);";
"    assert_eq!(scanner.next(), Some(Token::Comma(SourceFileLocation::new(""-"", 1, 1, 1))));";
"    assert_eq!(scanner.is_at_end(), true);";
"  }";
"  ";
"  // MARK: - Non-Coding";
"";
"  #[test]";
"  fn test_newline() {";
"    let mut scanner = Scanner::new(""-"", ""\n\n \n"");";
"    assert_eq!(scanner.is_at_end(), false);";
"    assert_eq!(scanner.next(), Some(Token::Newline(SourceFileLocation::new(""-"", 1, 1, 1))));";
"    assert_eq!(scanner.is_at_end(), false);";
"    assert_eq!(scanner.next(), Some(Token::Newline(SourceFileLocation::new(""-"", 2, 1, 1))));";
"    assert_eq!(scanner.is_at_end(), false);";
"    assert_eq!(scanner.next(), Some(Token::Newline(SourceFileLocation::new(""-"", 3, 2, 1))));";
"    assert_eq!(scanner.is_at_end(), true);";
"  }";
"";
"  #[test]";
"  fn test_comment() {";
"    let mut scanner = Scanner::new(""-"", "";"");";
"    assert_eq!(scanner.is_at_end(), false);";
"    assert_eq!(scanner.next(), Some(Token::SingleLineComment("";"", SourceFileLocation::new(""-"", 1, 1, 1))));";
"    assert_eq!(scanner.is_at_end(), true);";
"    ";
"    scanner = Scanner::new(""-"", "";\n"");";
"    assert_eq!(scanner.is_at_end(), false);";
"    assert_eq!(scanner.next(), Some(Token::SingleLineComment("";"", SourceFileLocation::new(""-"", 1, 1, 1))));";
"    assert_eq!(scanner.is_at_end(), false);";
"    assert_eq!(scanner.next(), Some(Token::Newline(SourceFileLocation::new(""-"", 1, 2, 1))));";
"    assert_eq!(scanner.is_at_end(), true);";
"    ";
"    scanner = Scanner::new(""-"", ""; Single-Line Comment\n"");";
"    assert_eq!(scanner.is_at_end(), false);";
"    assert_eq!(scanner.next(), Some(Token::SingleLineComment(""; Single-Line Comment"", SourceFileLocation::new(""-"", 1, 1, 21))));";
"    assert_eq!(scanner.is_at_end(), false);";
"    assert_eq!(scanner.next(), Some(Token::Newline(SourceFileLocation::new(""-"", 1, 22, 1))));";
"    assert_eq!(scanner.is_at_end(), true);";
"  }";
"  ";
"  // MARK: - Value Types";
"  ";
"  #[test]";
"  fn test_identifier() {";
"    let mut scanner = Scanner::new(""-"", ""_ _a a _A A _0 _aA _zZ9"");";
"    assert_eq!(scanner.next(), Some(Token::Identifier(""_"", SourceFileLocation::new(""-"", 1, 1, 1))));";
"    assert_eq!(scanner.next(), Some(Token::Identifier(""_a"", SourceFileLocation::new(""-"", 1, 3, 2))));";
"    assert_eq!(scanner.next(), Some(Token::Identifier(""a"", SourceFileLocation::new(""-"", 1, 6, 1))));";
"    assert_eq!(scanner.next(), Some(Token::Identifier(""_A"", SourceFileLocation::new(""-"", 1, 8, 2))));";
"    assert_eq!(scanner.next(), Some(Token::Identifier(""A"", SourceFileLocation::new(""-"", 1, 11, 1))));";
"    assert_eq!(scanner.next(), Some(Token::Identifier(""_0"", SourceFileLocation::new(""-"", 1, 13, 2))));";
"    assert_eq!(scanner.next(), Some(Token::Identifier(""_aA"", SourceFileLocation::new(""-"", 1, 16, 3))));";
"    assert_eq!(scanner.next(), Some(Token::Identifier(""_zZ9"", SourceFileLocation::new(""-"", 1, 20, 4))));";
"    assert_eq!(scanner.next(), None);";
"    assert_eq!(scanner.is_at_end(), true);";
"    ";
"    scanner = Scanner::new(""-"", ""_&"");";
"    assert_eq!(scanner.next(), Some(Token::Identifier(""_"", SourceFileLocation::new(""-"", 1, 1, 1))));";
"    assert_eq!(scanner.next(), Some(Token::Error(Error::InvalidCharacter('&'), SourceFileLocation::new(""-"", 1, 2, 1))));";
"    assert_eq!(scanner.next(), None);";
"    assert_eq!(scanner.is_at_end(), true);";
"    ";
"    scanner = Scanner::new(""-"", ""_$0"");";
"    assert_eq!(scanner.next(), Some(Token::Identifier(""_"", SourceFileLocation::new(""-"", 1, 1, 1))));";
"    assert_eq!(scanner.next(), Some(Token::NumericLiteral(0, SourceFileLocation::new(""-"", 1, 2, 2))));";
"    assert_eq!(scanner.next(), None);";
"    assert_eq!(scanner.is_at_end(), true);";
"  }";
"";
"  #[test]";
"  fn test_index_register_indirect() {";
"    let mut scanner = Scanner::new(""-"", ""[i] [a]"");";
"    assert_eq!(scanner.next(), Some(Token::Identifier(""[i]"", SourceFileLocation::new(""-"", 1, 1, 3))));";
"    assert_eq!(scanner.next(), Some(Token::Error(Error::ExpectedRegisterIndirect, SourceFileLocation::new(""-"", 1, 5, 1))));";
"  }";
"  ";
"  #[test]";
"  fn test_numeric_literal_hex() {";
"    let mut scanner = Scanner::new(""-"", ""$0 $00 $000 $1 $F $FF $1FF $1_0 $"");";
"    assert_eq!(scanner.next(), Some(Token::NumericLiteral(0x0, SourceFileLocation::new(""-"", 1, 1, 2))));";
"    assert_eq!(scanner.next(), Some(Token::NumericLiteral(0x00, SourceFileLocation::new(""-"", 1, 4, 3))));";
"    assert_eq!(scanner.next(), Some(Token::NumericLiteral(0x000, SourceFileLocation::new(""-"", 1, 8, 4))));";
"    assert_eq!(scanner.next(), Some(Token::NumericLiteral(0x1, SourceFileLocation::new(""-"", 1, 13, 2))));";
"    assert_eq!(scanner.next(), Some(Token::NumericLiteral(0xF, SourceFileLocation::new(""-"", 1, 16, 2))));";
"    assert_eq!(scanner.next(), Some(Token::NumericLiteral(0xFF, SourceFileLocation::new(""-"", 1, 19, 3))));";
"    assert_eq!(scanner.next(), Some(Token::NumericLiteral(0x1FF, SourceFileLocation::new(""-"", 1, 23, 4))));";
"    assert_eq!(scanner.next(), Some(Token::NumericLiteral(0x1, SourceFileLocation::new(""-"", 1, 28, 2))));";
"    assert_eq!(scanner.next(), Some(Token::Identifier(""_0"", SourceFileLocation::new(""-"", 1, 30, 2))));";
"    assert_eq!(scanner.next(), Some(Token::Error(Error::InvalidHexadecimalLiteral, SourceFileLocation::new(""-"", 1, 33, 1))));";
"    assert_eq!(scanner.next(), None);";
"    assert_eq!(scanner.is_at_end(), true);";
"  }";
"";
"  #[test]";
"  fn test_numeric_literal_alternate_leading_indicator() {";
"    let mut scanner = Scanner::new(""-"", ""#0 #00 #000 #1 #F #FF #1FF #1_0 #"");";
"    assert_eq!(scanner.next(), Some(Token::NumericLiteral(0x0, SourceFileLocation::new(""-"", 1, 1, 2))));";
"    assert_eq!(scanner.next(), Some(Token::NumericLiteral(0x00, SourceFileLocation::new(""-"", 1, 4, 3))));";
"    assert_eq!(scanner.next(), Some(Token::NumericLiteral(0x000, SourceFileLocation::new(""-"", 1, 8, 4))));";
"    assert_eq!(scanner.next(), Some(Token::NumericLiteral(0x1, SourceFileLocation::new(""-"", 1, 13, 2))));";
"    assert_eq!(scanner.next(), Some(Token::NumericLiteral(0xF, SourceFileLocation::new(""-"", 1, 16, 2))));";
"    assert_eq!(scanner.next(), Some(Token::NumericLiteral(0xFF, SourceFileLocation::new(""-"", 1, 19, 3))));";
"    assert_eq!(scanner.next(), Some(Token::NumericLiteral(0x1FF, SourceFileLocation::new(""-"", 1, 23, 4))));";
"    assert_eq!(scanner.next(), Some(Token::NumericLiteral(0x1, SourceFileLocation::new(""-"", 1, 28, 2))));";
"    assert_eq!(scanner.next(), Some(Token::Identifier(""_0"", SourceFileLocation::new(""-"", 1, 30, 2))));";
"    assert_eq!(scanner.next(), Some(Token::Error(Error::InvalidHexadecimalLiteral, SourceFileLocation::new(""-"", 1, 33, 1))));";
"    assert_eq!(scanner.next(), None);";
"    assert_eq!(scanner.is_at_end(), true);";
"  }";
"  ";
"  #[test]";
"  fn test_numeric_literal_dec() {";
"    let mut scanner = Scanner::new(""-"", ""0 00 000 1 15 255 4095 1_0 4096"");";
"    assert_eq!(scanner.next(), Some(Token::NumericLiteral(0, SourceFileLocation::new(""-"", 1, 1, 1))));";
"    assert_eq!(scanner.next(), Some(Token::NumericLiteral(0, SourceFileLocation::new(""-"", 1, 3, 2))));";
"    assert_eq!(scanner.next(), Some(Token::NumericLiteral(0, SourceFileLocation::new(""-"", 1, 6, 3))));";
"    assert_eq!(scanner.next(), Some(Token::NumericLiteral(1, SourceFileLocation::new(""-"", 1, 10, 1))));";
"    assert_eq!(scanner.next(), Some(Token::NumericLiteral(15, SourceFileLocation::new(""-"", 1, 12, 2))));";
"    assert_eq!(scanner.next(), Some(Token::NumericLiteral(255, SourceFileLocation::new(""-"", 1, 15, 3))));";
"    assert_eq!(scanner.next(), Some(Token::NumericLiteral(4095, SourceFileLocation::new(""-"", 1, 19, 4))));";
"    assert_eq!(scanner.next(), Some(Token::NumericLiteral(1, SourceFileLocation::new(""-"", 1, 24, 1))));";
"    assert_eq!(scanner.next(), Some(Token::Identifier(""_0"", SourceFileLocation::new(""-"", 1, 25, 2))));";
"    assert_eq!(scanner.next(), Some(Token::Error(Error::DecimalLiteralOutOfRange(""4096""), SourceFileLocation::new(""-"", 1, 28, 4))));";
"    assert_eq!(scanner.next(), None);";
"    assert_eq!(scanner.is_at_end(), true);";
"  }";
"";
"  #[test]";
"  fn test_numeric_literal_bin() {";
"    let mut scanner = Scanner::new(""-"", ""%0 %.. %0.. %1 %1111 %11111111 %111111111 %1_0 %"");";
"    assert_eq!(scanner.next(), Some(Token::NumericLiteral(0x0, SourceFileLocation::new(""-"", 1, 1, 2))));";
"    assert_eq!(scanner.next(), Some(Token::NumericLiteral(0x00, SourceFileLocation::new(""-"", 1, 4, 3))));";
"    assert_eq!(scanner.next(), Some(Token::NumericLiteral(0x000, SourceFileLocation::new(""-"", 1, 8, 4))));";
"    assert_eq!(scanner.next(), Some(Token::NumericLiteral(0x1, SourceFileLocation::new(""-"", 1, 13, 2))));";
"    assert_eq!(scanner.next(), Some(Token::NumericLiteral(0xF, SourceFileLocation::new(""-"", 1, 16, 5))));";
"    assert_eq!(scanner.next(), Some(Token::NumericLiteral(0xFF, SourceFileLocation::new(""-"", 1, 22, 9))));";
"    assert_eq!(scanner.next(), Some(Token::NumericLiteral(0x1FF, SourceFileLocation::new(""-"", 1, 32, 10))));";
"    assert_eq!(scanner.next(), Some(Token::NumericLiteral(0x1, SourceFileLocation::new(""-"", 1, 43, 2))));";
"    assert_eq!(scanner.next(), Some(Token::Identifier(""_0"", SourceFileLocation::new(""-"", 1, 45, 2))));";
"    assert_eq!(scanner.next(), Some(Token::Error(Error::InvalidBinaryLiteral, SourceFileLocation::new(""-"", 1, 48, 1))));";
"    assert_eq!(scanner.next(), None);";
"    assert_eq!(scanner.is_at_end(), true);";
"  }";
"  ";
"  #[test]";
"  fn test_string_literal() {";
"    let mut scanner = Scanner::new(""-"", ""\""\"" \""a\"" \""😊😞\"" \""123\"" \""end-of-line"");";
"    assert_eq!(scanner.next(), Some(Token::StringLiteral("""", SourceFileLocation::new(""-"", 1, 1, 2))));";
"    assert_eq!(scanner.next(), Some(Token::StringLiteral(""a"", SourceFileLocation::new(""-"", 1, 4, 3))));";
"    assert_eq!(scanner.next(), Some(Token::StringLiteral(""😊😞"", SourceFileLocation::new(""-"", 1, 8, 4))));";
"    assert_eq!(scanner.next(), Some(Token::StringLiteral(""123"", SourceFileLocation::new(""-"", 1, 13, 5))));";
"    assert_eq!(scanner.next(), Some(Token::Error(Error::InvalidStringLiteral, SourceFileLocation::new(""-"", 1, 19, 1))));";
"    assert_eq!(scanner.next(), None);";
"    assert_eq!(scanner.is_at_end(), true);";
"  }";
"";
"  #[test]";
"  fn test_string_literal_multiline() {";
"    let mut scanner = Scanner::new(""-"", ""\""Hello 😊\n🐳 World\"""");";
"    assert_eq!(scanner.next(), Some(Token::StringLiteral(""Hello 😊\n🐳 World"", SourceFileLocation::new(""-"", 1, 1, 9))));";
"    assert_eq!(scanner.next(), None);";
"    assert_eq!(scanner.is_at_end(), true);";
"  }";
"  ";
"}"
].

(** parser.rs:516-847 *)
Definition parser_tests : list string :=
[
"#[cfg(test)]";
"mod tests {";
"  ";
"  use twelve_bit::u12::*;";
"  ";
"  use assembler::source_file_location::SourceFileLocation;";
"  use assembler::scanner;";
"  use assembler::scanner::Scanner;";
"  use assembler::token::Token;";
"  use assembler::token::display_names;";
"";
"  use super::Error;";
"  use super::Parser;";
"  use super::{DirectiveData, InstructionData, LabelData};";
"  use super::{Literal, Node, InstructionField};";
"";
"  #[test]";
"  fn test_error_display_unexpected_eof() {";
"    let one_item = format!(""{}"", Error::UnexpectedEndOfFile(vec![display_names::COMMA]));";
"    assert_eq!(one_item, ""error: Unexpected end-of-file reached, expecting comma."");";
"    let two_items = format!(""{}"", Error::UnexpectedEndOfFile(vec![display_names::COMMA, display_names::STRING_LITERAL]));";
"    assert_eq!(two_items, ""error: Unexpected end-of-file reached, expecting one of: comma, string literal."");";
"  }";
"";
"  #[test]";
"  #[should_panic]";
"  fn test_error_display_unexpected_eof_panics_on_zero_expectations() {";
"    let _ = format!(""{}"", Error::UnexpectedEndOfFile(vec![]));";
"  }";
"";
"  #[test]";
"  fn test_error_display_unexpected_token_error() {";
"    let error_token = Token::Error(scanner::Error::InvalidStringLiteral, SourceFileLocation::new(""-"", 1, 1, 1));";
"    let one_item = format!(""{}"", Error::UnexpectedToken { ";
"      expected: vec![display_names::COMMA], ";
"      encountered: error_token.clone()";
"    });";
"    let one_item_expected = String::new()";
"      + &""-:1:1: error: Encountered syntax error: Invalid quoted string literal.\n""";
"      + &""-:1:1: error: Expecting comma."";";
"    assert_eq!(one_item, one_item_expected);";
"";
"    let two_items = format!(""{}"", Error::UnexpectedToken { ";
"      expected: vec![display_names::COMMA, display_names::STRING_LITERAL],";
"      encountered: error_token.clone()";
"    });";
"    let two_items_expected = String::new()";
"      + &""-:1:1: error: Encountered syntax error: Invalid quoted string literal.\n""";
"      + &""-:1:1: error: Expecting one of: comma, string literal."";";
"    assert_eq!(two_items, two_items_expected);";
"  }";
"";
"  #[test]";
"  #[should_panic]";
"  fn test_error_display_unexpected_token_error_panics_on_zero_expectations() {";
"    let error_token = Token::Error(scanner::Error::InvalidStringLiteral, SourceFileLocation::new(""-"", 1, 1, 1));";
"    let _ = format!(""{}"", Error::UnexpectedToken {";
"      expected: vec![],";
"      encountered: error_token";
"    });";
"  }";
"";
"  #[test]";
"  fn test_error_display_unexpected_token() {";
"    let comma_token = Token::Comma(SourceFileLocation::new(""-"", 1, 1, 1));";
"    let one_item = format!(""{}"", Error::UnexpectedToken { ";
"      expected: vec![display_names::NEWLINE], ";
"      encountered: comma_token.clone()";
"    });";
"    let one_item_expected = ""-:1:1: error: Unexpected token found: comma, expecting newline."";";
"    assert_eq!(one_item, one_item_expected);";
"";
"    let two_items = format!(""{}"", Error::UnexpectedToken { ";
"      expected: vec![display_names::NEWLINE, display_names::STRING_LITERAL],";
"      encountered: comma_token.clone()";
"    });";
"    let two_items_expected = ""-:1:1: error: Unexpected token found: comma, expecting one of: newline, string literal."";";
"    assert_eq!(two_items, two_items_expected);";
"  }";
"";
"  #[test]";
"  #[should_panic]";
"  fn test_error_display_unexpected_token_panics_on_zero_expectations() {";
"    let error_token = Token::Comma(SourceFileLocation::new(""-"", 1, 1, 1));";
"    let _ = format!(""{}"", Error::UnexpectedToken {";
"      expected: vec![],";
"      encountered: error_token";
"    });";
"  }";
"";
"  #[test]";
"  fn test_parse_literal_list() {";
"    // A literal list expects to be terminated by a newline.";
"    let mut parser = Parser::new(Scanner::new(""-"", """"));";
"    assert_eq!(parser.parse_literal_list(Vec::new()),";
"      Err(";
"        Error::UnexpectedEndOfFile(";
"          vec![display_names::NUMERIC_LITERAL, display_names::STRING_LITERAL]";
"        )";
"      )";
"    );";
"";
"    // A literal list cannot contain a comma alone.";
"    parser = Parser::new(Scanner::new(""-"", "",\n""));";
"    assert_eq!(parser.parse_literal_list(Vec::new()),";
"      Err(";
"        Error::UnexpectedToken {";
"          encountered: Token::Comma(SourceFileLocation::new(""-"", 1, 1, 1)),";
"          expected: vec![display_names::NUMERIC_LITERAL, display_names::STRING_LITERAL]";
"        }";
"      )";
"    );";
"";
"    // An empty literal list is valid.";
"    parser = Parser::new(Scanner::new(""-"", ""\n""));";
"    assert_eq!(parser.parse_literal_list(Vec::new()), Ok(vec![]));";
"";
"    // A literal list can contain a single item.";
"    parser = Parser::new(Scanner::new(""-"", ""1\n""));";
"    assert_eq!(parser.parse_literal_list(Vec::new()), Ok(vec![Literal::Numeric(1)]));";
"    parser = Parser::new(Scanner::new(""-"", ""\""Hello\""\n""));";
"    assert_eq!(parser.parse_literal_list(Vec::new()), Ok(vec![Literal::String(""Hello"")]));";
"";
"    // A literal list can end in a trailing comma.";
"    parser = Parser::new(Scanner::new(""-"", ""1,\n""));";
"    assert_eq!(parser.parse_literal_list(Vec::new()), Ok(vec![Literal::Numeric(1)]));";
"";
"    // A literal can contain multiple items of the same type.";
"    parser = Parser::new(Scanner::new(""-"", ""1,2,3\n""));";
"    assert_eq!(parser.parse_literal_list(Vec::new()), ";
"      Ok(vec![Literal::Numeric(1), Literal::Numeric(2), Literal::Numeric(3)]));";
"";
"    // A literal can contain multiple items of the different types.";
"    parser = Parser::new(Scanner::new(""-"", ""1,\""Hello\"",3\n""));";
"    assert_eq!(parser.parse_literal_list(Vec::new()), ";
"      Ok(vec![Literal::Numeric(1), Literal::String(""Hello""), Literal::Numeric(3)]));";
"  }";
"";
"  #[test]";
"  fn test_parse_directive() {";
"    // Test an origin directive.";
"    let mut org_parser = Parser::new(Scanner::new(""-"", "".org $100\n""));";
"    let expected_org_data = DirectiveData { ";
"      location: SourceFileLocation::new(""-"", 1, 2, 3),";
"      identifier: ""org"", ";
"      arguments: vec![Literal::Numeric(0x100)] ";
"    };";
"    assert_eq!(org_parser.parse_directive(), Ok(Node::Directive(expected_org_data)));";
"";
"    // Test a db directive.";
"    let mut db_parser = Parser::new(Scanner::new(""-"", "".db \""Hello, World!\"", $0\n""));";
"    let expected_db_data = DirectiveData { ";
"      location: SourceFileLocation::new(""-"", 1, 2, 2),";
"      identifier: ""db"", ";
"      arguments: vec![Literal::String(""Hello, World!""), Literal::Numeric(0)]";
"    };";
"    assert_eq!(db_parser.parse_directive(), Ok(Node::Directive(expected_db_data)));";
"";
"    // Test a fictional argument-free directive.";
"    let mut test_parser = Parser::new(Scanner::new(""-"", "".test\n""));";
"    let expected_test_data = DirectiveData { ";
"      location: SourceFileLocation::new(""-"", 1, 2, 4),";
"      identifier: ""test"", ";
"      arguments: vec![]";
"    };";
"    assert_eq!(test_parser.parse_directive(), Ok(Node::Directive(expected_test_data)));";
"  }";
"";
"  #[test]";
"  fn test_parse_label() {";
"    // Parse a label.";
"    let mut parser = Parser::new(Scanner::new(""-"", ""a:\n""));";
"    let expected_label_data = LabelData { ";
"      location: SourceFileLocation::new(""-"", 1, 1, 1),";
"      identifier: ""a"" ";
"    };";
"    assert_eq!(parser.parse_label(), Ok(Node::Label(expected_label_data)));";
"  }";
"";
"  #[test]";
"  fn test_parse_field_list() {";
"    // A field list expects to be terminated by a newline.";
"    let mut parser = Parser::new(Scanner::new(""-"", """"));";
"    assert_eq!(parser.parse_field_list(Vec::new()), ";
"      Err(";
"        Error::UnexpectedEndOfFile(";
"          vec![display_names::INSTRUCTION_FIELD]";
"        )";
"      )";
"    );";
"";
"    // A field list cannot contain a comma alone.";
"    parser = Parser::new(Scanner::new(""-"", "",\n""));";
"    assert_eq!(parser.parse_field_list(Vec::new()), ";
"      Err(";
"        Error::UnexpectedToken {";
"          encountered: Token::Comma(SourceFileLocation::new(""-"", 1, 1, 1)),";
"          expected: vec![display_names::INSTRUCTION_FIELD]";
"        }";
"      )";
"    );";
"";
"    // A field list cannot contain a string literal.";
"    parser = Parser::new(Scanner::new(""-"", ""\""Hello\""\n""));";
"    assert_eq!(parser.parse_field_list(Vec::new()), ";
"      Err(";
"        Error::UnexpectedToken {";
"          encountered: Token::StringLiteral(""Hello"", SourceFileLocation::new(""-"", 1, 1, 7)),";
"          expected: vec![display_names::INSTRUCTION_FIELD]";
"        }";
"      )";
"    );";
"";
"    // An empty field list is valid.";
"    parser = Parser::new(Scanner::new(""-"", ""\n""));";
"    assert_eq!(parser.parse_field_list(Vec::new()), Ok(vec![]));";
"";
"    // A field list can contain a single item.";
"    parser = Parser::new(Scanner::new(""-"", ""$00\n""));";
"    assert_eq!(parser.parse_field_list(Vec::new()), Ok(vec![InstructionField::NumericLiteral(u12![0])]));";
"    parser = Parser::new(Scanner::new(""-"", ""v1\n""));";
"    assert_eq!(parser.parse_field_list(Vec::new()), Ok(vec![InstructionField::GeneralPurposeRegister(1)]));";
"    parser = Parser::new(Scanner::new(""-"", ""dt\n""));";
"    assert_eq!(parser.parse_field_list(Vec::new()), Ok(vec![InstructionField::DelayTimer]));";
"    parser = Parser::new(Scanner::new(""-"", ""st\n""));";
"    assert_eq!(parser.parse_field_list(Vec::new()), Ok(vec![InstructionField::SoundTimer]));";
"    parser = Parser::new(Scanner::new(""-"", ""k\n""));";
"    assert_eq!(parser.parse_field_list(Vec::new()), Ok(vec![InstructionField::KeypadRegister]));";
"    parser = Parser::new(Scanner::new(""-"", ""i\n""));";
"    assert_eq!(parser.parse_field_list(Vec::new()), Ok(vec![InstructionField::IndexRegister]));";
"    parser = Parser::new(Scanner::new(""-"", ""[i]\n""));";
"    assert_eq!(parser.parse_field_list(Vec::new()), Ok(vec![InstructionField::IndexRegisterIndirect]));";
"    parser = Parser::new(Scanner::new(""-"", ""LABEL\n""));";
"    assert_eq!(parser.parse_field_list(Vec::new()), Ok(vec![InstructionField::Identifier(""LABEL"")]));";
"    parser = Parser::new(Scanner::new(""-"", ""b\n""));";
"    assert_eq!(parser.parse_field_list(Vec::new()), Ok(vec![InstructionField::Bcd]));";
"    parser = Parser::new(Scanner::new(""-"", ""f\n""));";
"    assert_eq!(parser.parse_field_list(Vec::new()), Ok(vec![InstructionField::Sprite]));";
"";
"    // A field list can end in a trailing comma.";
"    parser = Parser::new(Scanner::new(""-"", ""$FF,\n""));";
"    assert_eq!(parser.parse_field_list(Vec::new()), Ok(vec![InstructionField::NumericLiteral(U12::from(255))]));";
"";
"    // A field list can contain multiple items of the same type.";
"    parser = Parser::new(Scanner::new(""-"", ""v0,vf\n""));";
"    assert_eq!(parser.parse_field_list(Vec::new()), ";
"      Ok(vec![";
"        InstructionField::GeneralPurposeRegister(0), ";
"        InstructionField::GeneralPurposeRegister(15)";
"      ])";
"    );";
"";
"    // A field list can contain multiple items of the different types.";
"    parser = Parser::new(Scanner::new(""-"", ""v1,v2,$ff\n""));";
"    assert_eq!(parser.parse_field_list(Vec::new()), ";
"      Ok(vec![";
"        InstructionField::GeneralPurposeRegister(1),";
"        InstructionField::GeneralPurposeRegister(2),";
"        InstructionField::NumericLiteral(U12::from(255))";
"      ])";
"    );";
"  }";
"";
"  #[test]";
"  fn test_parse_instruction() {";
"    // Test an instruction with no fields.";
"    let mut parser = Parser::new(Scanner::new(""-"", ""nop\n""));";
"    let mut expected_data = InstructionData {";
"      location: SourceFileLocation::new(""-"", 1, 1, 3),";
"      mnemonic: ""nop"",";
"      fields: vec![]";
"    };";
"    assert_eq!(parser.parse_instruction(), Ok(Node::Instruction(expected_data)));";
"";
"    // Test an instruction with one address target.";
"    parser = Parser::new(Scanner::new(""-"", ""jp $002\n""));";
"    expected_data = InstructionData {";
"      location: SourceFileLocation::new(""-"", 1, 1, 2),";
"      mnemonic: ""jp"",";
"      fields: vec![ InstructionField::NumericLiteral(U12::from(2)) ]";
"    };";
"    assert_eq!(parser.parse_instruction(), Ok(Node::Instruction(expected_data)));";
"";
"    // Test an instruction with a heterogenous field list.";
"    parser = Parser::new(Scanner::new(""-"", ""drw v1, v2, $fe\n""));";
"    expected_data = InstructionData {";
"      location: SourceFileLocation::new(""-"", 1, 1, 3),";
"      mnemonic: ""drw"", ";
"      fields: vec![";
"        InstructionField::GeneralPurposeRegister(1),";
"        InstructionField::GeneralPurposeRegister(2),";
"        InstructionField::NumericLiteral(U12::from(254))";
"      ]";
"    };";
"    assert_eq!(parser.parse_instruction(), Ok(Node::Instruction(expected_data)));";
"  }";
"";
"  #[test]";
"  fn test_parse_instruction_trailing_comment() {";
"    // Test an instruction with no fields and a trailing comment.";
"    let mut parser = Parser::new(Scanner::new(""-"", ""nop;test_comment\n""));";
"    let mut expected_data = InstructionData {";
"      location: SourceFileLocation::new(""-"", 1, 1, 3),";
"      mnemonic: ""nop"",";
"      fields: vec![]";
"    };";
"    assert_eq!(parser.parse_instruction(), Ok(Node::Instruction(expected_data)));";
"";
"    // Test an instruction with one address target and a trailing comment.";
"    parser = Parser::new(Scanner::new(""-"", ""jp $002;test_comment\n""));";
"    expected_data = InstructionData {";
"      location: SourceFileLocation::new(""-"", 1, 1, 2),";
"      mnemonic: ""jp"",";
"      fields: vec![ InstructionField::NumericLiteral(U12::from(2)) ]";
"    };";
"    assert_eq!(parser.parse_instruction(), Ok(Node::Instruction(expected_data)));";
"";
"    // Test an instruction with a heterogenous field list, a trailing comma and comment.";
"    parser = Parser::new(Scanner::new(""-"", ""drw v1, v2, $fe, ;test_comment\n""));";
"    expected_data = InstructionData {";
"      location: SourceFileLocation::new(""-"", 1, 1, 3),";
"      mnemonic: ""drw"", ";
"      fields: vec![";
"        InstructionField::GeneralPurposeRegister(1),";
"        InstructionField::GeneralPurposeRegister(2),";
"        InstructionField::NumericLiteral(U12::from(254))";
"      ]";
"    };";
"    assert_eq!(parser.parse_instruction(), Ok(Node::Instruction(expected_data)));";
"  }";
"";
"}"
].

(** assembler.rs:266-406 *)
Definition assembler_tests : list string :=
[
"#[cfg(test)]";
"mod tests {";
"  ";
"  use twelve_bit::u12::*;";
"  ";
"  use assembler::parser::*;";
"  use assembler::source_file_location::SourceFileLocation;";
"";
"  use super::define_labels;";
"";
"  // MARK: - Helpers";
"";
"  /// Creates a Label type node with associated data at location ""-:seq:1-name.len()"".";
"  fn make_label_node<'a>(seq: usize, name: &'a str) -> Node<'a> {";
"    Node::Label (";
"      LabelData {";
"        location: SourceFileLocation::new(""-"", seq, 1, name.len()),";
"        identifier: name";
"      }";
"    )";
"  }";
"";
"  /// Creates a Directive type node with associated data at location ""-:seq:2-name.len()+1"".";
"  fn make_directive_node<'a>(seq: usize, name: &'a str, args: Vec<Literal<'a>>) -> Node<'a> {";
"    Node::Directive (";
"      DirectiveData {";
"        location: SourceFileLocation::new(""-"", seq, 2, name.len()),";
"        identifier: name,";
"        arguments: args";
"      }";
"    )";
"  }";
"";
"  /// Creates an Instruction type node with associated data at location ""-:seq:1-name.len()"".";
"  fn make_instruction_node<'a>(seq: usize, name: &'a str, fields: Vec<InstructionField<'a>>) -> Node<'a> {";
"    Node::Instruction (";
"      InstructionData {";
"        location: SourceFileLocation::new(""-"", seq, 1, name.len()),";
"        mnemonic: name,";
"        fields: fields";
"      }";
"    )";
"  }";
"";
"  // MARK: - Pass 1 Tests";
"";
"  #[test]";
"  fn test_define_labels() {";
"    let program = vec![";
"      make_directive_node   (1, ""org"", vec![Literal::Numeric(0x100)]),";
"      make_label_node       (2, ""label1""),";
"      make_directive_node   (3, ""db"", vec![Literal::Numeric(0xFF)]),";
"      make_label_node       (4, ""label2""),";
"      make_instruction_node (5, ""trap"", vec![]),";
"      make_label_node       (6, ""label3""),";
"    ];";
"";
"    let result = define_labels(&program);";
"";
"    // Assert that semantic analysis passed.";
"    if let Err(reason) = result {";
"      assert!(false, ""Unexpected failure in assembler pass 1: {}"", reason);";
"      return;";
"    }";
"";
"    // Verify that the labels are defined as expected.";
"    let label_map = result.unwrap();";
"    assert_eq!(label_map.len(), 3);";
"    assert_eq!(label_map.get(""label1"").unwrap(), &(u12![0x100]));";
"    assert_eq!(label_map.get(""label2"").unwrap(), &(u12![0x101]));";
"    assert_eq!(label_map.get(""label3"").unwrap(), &(u12![0x103]));";
"  }";
"";
"  #[test]";
"  fn test_define_constants() {";
"    let program = vec![";
"      make_directive_node   (1, ""org"", vec![Literal::Numeric(0x100)]),";
"      make_label_node       (2, ""CONST_1""),";
"      make_directive_node   (3, ""equ"", vec![Literal::Numeric(0xFFF)]),";
"      make_label_node       (4, ""CONST_2""),";
"      make_directive_node   (5, ""equ"", vec![Literal::Numeric(100)]),";
"      make_label_node       (6, ""address_1""),";
"    ];";
"";
"    let result = define_labels(&program);";
"";
"    // Assert that semantic analysis passed.";
"    if let Err(reason) = result {";
"      panic!(""Unexpected failure in assembler pass 1: {}"", reason);";
"    }";
"";
"    // Verify that the labels are defined as expected.";
"    let label_map = result.unwrap();";
"    assert_eq!(label_map.len(), 3);";
"    assert_eq!(label_map.get(""CONST_1"").unwrap(), &(u12![0xFFF]));";
"    assert_eq!(label_map.get(""CONST_2"").unwrap(), &(u12![100]));";
"    assert_eq!(label_map.get(""address_1"").unwrap(), &(u12![0x100]));";
"  }";
"";
"  #[test]";
"  fn test_define_labels_does_semantic_analysis_on_org() {";
"    let program = vec![";
"      make_directive_node(1, ""org"", vec![])";
"    ];";
"";
"    let result = define_labels(&program);";
"    assert_eq!(format!(""{}"", result.unwrap_err()), ""-:1:2-4: error: Incorrect number of parameters (0) for directive .org, expecting 1."");";
"  }";
"";
"  #[test]";
"  fn test_define_labels_does_semantic_analysis_on_db() {";
"    let program = vec![";
"      make_directive_node(1, ""db"", vec![])";
"    ];";
"";
"    let result = define_labels(&program);";
"    assert_eq!(format!(""{}"", result.unwrap_err()), ""-:1:2-3: error: Incorrect number of parameters (0) for directive .db, expecting 1 or more."");";
"  }";
"";
"  #[test]";
"  fn test_define_labels_does_semantic_analysis_on_equ() {";
"    let program = vec![";
"      make_directive_node(1, ""equ"", vec![])";
"    ];";
"";
"    let result = define_labels(&program);";
"    assert_eq!(format!(""{}"", result.unwrap_err()), ""-:1:2-4: error: Incorrect number of parameters (0) for directive .equ, expecting 1."");";
"  }";
"";
"  #[test]";
"  fn test_define_labels_fails_on_redefinition() {";
"    let program = vec![";
"      make_label_node(1, ""L1""),";
"      make_label_node(2, ""L1""),";
"    ];";
"";
"    let result = define_labels(&program);";
"    assert_eq!(format!(""{}"", result.unwrap_err()), ""-:2:1-2: error: Attempted re-definition of label 'L1'."");";
"  }";
"";
"}"
].

(** ihex_writer.rs:72-173 *)
Definition ihex_writer_tests : list string :=
[
"#[cfg(test)]";
"mod tests {";
"";
"  use twelve_bit::u12::*;";
"";
"  use assembler::data_range::DataRange;";
"";
"  use super::ihex_representation_of_data_ranges;";
"";
"  #[test]";
"  fn test_ihex_representation_of_data_ranges_no_ranges() {";
"    // An empty set of data ranges yields just an EOF marker.";
"    assert_eq!(ihex_representation_of_data_ranges(&[]), String::from("":00000001FF\n""));";
"  }";
"";
"  #[test]";
"  fn test_ihex_representation_of_data_ranges_one_range() {";
"    // Build an average-case ihex record.";
"    let mut data_range = DataRange::new(u12![0x100]);";
"    data_range.append(&vec![0x21,0x46,0x01,0x36,0x01,0x21,0x47,0x01,0x36,0x00,0x7E,0xFE,0x09,0xD2,0x19,0x01]);";
"    data_range.append(&vec![0x21,0x46,0x01,0x7E,0x17,0xC2,0x00,0x01,0xFF,0x5F,0x16,0x00,0x21,0x48,0x01,0x19]);";
"    data_range.append(&vec![0x19,0x4E,0x79,0x23,0x46,0x23,0x96,0x57,0x78,0x23,0x9E,0xDA,0x3F,0x01,0xB2,0xCA]);";
"    data_range.append(&vec![0x3F,0x01,0x56,0x70,0x2B,0x5E,0x71,0x2B,0x72,0x2B,0x73,0x21,0x46,0x01,0x34,0x21]);";
"";
"    // Validate the average case yielded the anticipated result.";
"    let ihex_rep_average = ihex_representation_of_data_ranges(&[data_range]);";
"    let expected_ihex_rep_average = String::new() +";
"      &"":10010000214601360121470136007EFE09D2190140\n"" + ";
"      &"":100110002146017E17C20001FF5F16002148011928\n"" +";
"      &"":10012000194E79234623965778239EDA3F01B2CAA7\n"" +";
"      &"":100130003F0156702B5E712B722B732146013421C7\n"" +";
"      &"":00000001FF\n"";";
"    assert_eq!(ihex_rep_average, expected_ihex_rep_average);";
"  }";
"";
"  #[test]";
"  fn test_ihex_representation_of_data_ranges_adjacent_ranges() {";
"    // Build a pair of adjacent data ranges.";
"    let mut range_a = DataRange::new(u12![0x100]);";
"    range_a.append(&vec![0x21,0x46,0x01,0x36,0x01,0x21,0x47,0x01,0x36,0x00,0x7E,0xFE,0x09,0xD2,0x19,0x01]);";
"    let mut range_b = DataRange::new(u12![0x110]);";
"    range_b.append(&vec![0x21,0x46,0x01,0x7E,0x17,0xC2,0x00,0x01,0xFF,0x5F,0x16,0x00,0x21,0x48,0x01,0x19]);";
"";
"    // Validate the average case yielded the anticipated result.";
"    let ihex_rep_adjacent = ihex_representation_of_data_ranges(&[range_a, range_b]);";
"    let expected_ihex_rep_adjacent = String::new() +";
"      &"":10010000214601360121470136007EFE09D2190140\n"" + ";
"      &"":100110002146017E17C20001FF5F16002148011928\n"" +";
"      &"":00000001FF\n"";";
"    assert_eq!(ihex_rep_adjacent, expected_ihex_rep_adjacent);";
"  }";
"";
"  #[test]";
"  fn test_ihex_representation_of_data_ranges_disjoint_ranges() {";
"    // Build an disjoint pair of data ranges.";
"    let mut range_a = DataRange::new(u12![0x100]);";
"    range_a.append(&vec![0x21,0x46,0x01,0x36,0x01,0x21,0x47,0x01,0x36,0x00,0x7E,0xFE,0x09,0xD2,0x19,0x01]);";
"    let mut range_b = DataRange::new(u12![0x130]);";
"    range_b.append(&vec![0x3F,0x01,0x56,0x70,0x2B,0x5E,0x71,0x2B,0x72,0x2B,0x73,0x21,0x46,0x01,0x34,0x21]);";
"";
"    // Validate the average case yielded the anticipated result.";
"    let ihex_rep_disjoint = ihex_representation_of_data_ranges(&[range_a, range_b]);";
"    let expected_ihex_rep_disjoint = String::new() +";
"      &"":10010000214601360121470136007EFE09D2190140\n"" + ";
"      &"":100130003F0156702B5E712B722B732146013421C7\n"" +";
"      &"":00000001FF\n"";";
"    assert_eq!(ihex_rep_disjoint, expected_ihex_rep_disjoint);";
"  }";
"";
"  #[test]";
"  fn test_ihex_representation_of_data_ranges_uneven_ranges() {";
"    // Build an uneven set of data ranges.";
"    let mut range_a = DataRange::new(u12![0x100]);";
"    range_a.append(&vec![0x21,0x46,0x01,0x36,0x01,0x21,0x47,0x01,0x36,0x00,0x7E,0xFE,0x09,0xD2,0x19]);";
"    let mut range_b = DataRange::new(u12![0x130]);";
"    range_b.append(&vec![0x3F,0x01,0x56,0x70,0x2B,0x5E,0x71,0x2B,0x72,0x2B,0x73,0x21,0x46,0x01,0x34,0x21,0x22]);";
"    let mut range_c = DataRange::new(u12![0x200]);";
"    range_c.append(&vec![0x3F]);";
"";
"    // Validate the average case yielded the anticipated result.";
"    let ihex_rep = ihex_representation_of_data_ranges(&[range_a, range_b, range_c]);";
"    let expected_ihex_rep = String::new() +";
"      &"":0F010000214601360121470136007EFE09D21942\n"" + ";
"      &"":100130003F0156702B5E712B722B732146013421C7\n"" +";
"      &"":01014000229C\n"" +";
"      &"":010200003FBE\n"" +";
"      &"":00000001FF\n"";";
"    assert_eq!(ihex_rep, expected_ihex_rep);";
"  }";
"";
"  #[test]";
"  #[should_panic]";
"  fn test_ihex_representation_of_data_ranges_panics_when_overlapping() {";
"    // Build an overlapping pair of ranges.";
"    let mut range_a = DataRange::new(u12![0x100]);";
"    range_a.append(&vec![0x21,0x46,0x01,0x36,0x01,0x21,0x47,0x01,0x36,0x00,0x7E,0xFE,0x09,0xD2,0x19,0x01]);";
"    let mut range_b = DataRange::new(u12![0x101]);";
"    range_b.append(&vec![0x3F,0x01,0x56,0x70,0x2B,0x5E,0x71,0x2B,0x72,0x2B,0x73,0x21,0x46,0x01,0x34,0x21]);";
"    ihex_representation_of_data_ranges(&[range_a, range_b]);";
"  }";
"";
"}"
].
