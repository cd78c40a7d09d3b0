-Q theories Verif
theories/Base.v
theories/Text.v
theories/U12.v
theories/Location.v
theories/Token.v
theories/Scanner.v
theories/Parser.v
theories/Directive.v
theories/Opcode.v
theories/Instruction.v
theories/DataRange.v
theories/Assembler.v
theories/IHex.v
theories/Main.v
theories/GoldenTests.v
theories/UnitTests.v
theories/Findings.v
theories/BaseFacts.v
theories/SpecLex.v
theories/LexProofs.v
theories/ScanProofs.v
theories/LexTheorems.v
theories/LexCode.v
theories/SpecGrammar.v
theories/ParseProofs.v
theories/SpecOpcode.v
theories/SpecDisasm.v
theories/OpcodeProofs.v
theories/InstructionProofs.v
theories/DecodeProofs.v
theories/SpecRefusal.v
theories/InstructionTheorems.v
theories/CaseProofs.v
theories/SpecLayout.v
theories/LayoutProofs.v
theories/EmitProofs.v
theories/PropLex.v
theories/PipelineProofs.v
theories/SpecUtf8.v
theories/UtfProofs.v
theories/DataRangeProofs.v
theories/SpecHex.v
theories/HexProofs.v
theories/OutputProofs.v
theories/SpecTool.v
theories/MainProofs.v
theories/OperandProofs.v
theories/AddressProofs.v
theories/PropParse.v
theories/PropInstr.v
theories/PropLayout.v
theories/PropOutput.v
theories/SpecErase.v
theories/SpecCode.v
theories/LexAppend.v
theories/GrammarLines.v
theories/TextProofs.v
theories/TextCode.v
theories/SpecWrite.v
theories/WriteProofs.v
theories/PropText.v
theories/FmtProofs.v
theories/DisasmProofs.v
theories/PropDisasm.v
theories/PropMessage.v
theories/SpecMeta.v
theories/MetaProofs.v
theories/SectionProofs.v
theories/PropMeta.v
theories/PropDecode.v
theories/SpecInverse.v
theories/InverseProofs.v
theories/PropInverse.v
theories/SpecNumeral.v
theories/NumeralProofs.v
theories/SpecRewrite.v
theories/RewriteProofs.v
theories/PropRewrite.v
theories/SpecExpect.v
theories/PropExpect.v
theories/SpecMove.v
theories/MoveProofs.v
theories/PropMove.v
theories/StreamParser.v
theories/SpecStream.v
theories/StreamProofs.v
theories/FirstProofs.v
theories/PropStream.v
theories/PropTool.v
theories/SpecDos.v
theories/DosProofs.v
theories/PropDos.v
theories/SpecConcat.v
theories/ConcatProofs.v
theories/PropConcat.v
theories/SpecRegex.v
theories/RegexProofs.v
theories/PropRegex.v
theories/LocalProofs.v
theories/PropLocal.v
theories/SpecImage.v
theories/PropImage.v
theories/SpecPlace.v
theories/PlaceProofs.v
theories/PropPlace.v
theories/Getopts.v
theories/SpecArgs.v
theories/ArgsProofs.v
theories/PropArgs.v
theories/SpecRename.v
theories/RenameProofs.v
theories/PropRename.v
theories/DepthParser.v
theories/SpecDepth.v
theories/DepthProofs.v
theories/PropDepth.v
theories/SpecRun.v
theories/RunProofs.v
theories/PropRun.v
theories/MainIO.v
theories/SpecOut.v
theories/IoProofs.v
theories/PropIo.v
theories/ScannerW.v
theories/SpecWidth.v
theories/WidthProofs.v
theories/PropWidth.v
theories/SpecDiag.v
theories/DiagProofs.v
theories/PropDiag.v
theories/SpecDistinct.v
theories/DistinctProofs.v
theories/PropDistinct.v
theories/SpecSize.v
theories/SizeProofs.v
theories/Accessors.v
theories/PropSize.v
theories/Process.v
theories/SpecProcess.v
theories/ProcessProofs.v
theories/PropProcess.v
theories/Description.v
theories/PropDescription.v
theories/SpecConstant.v
theories/ConstantProofs.v
theories/PropConstant.v
theories/SpecBlank.v
theories/BlankProofs.v
theories/PropBlank.v
theories/PropReadme.v
theories/SpecDamage.v
theories/DamageProofs.v
theories/PropDamage.v
theories/PropData.v
theories/PropBegin.v
theories/SpecInsert.v
theories/InsertProofs.v
theories/PropInsert.v
theories/ScannerO.v
theories/CounterProofs.v
theories/PropCounter.v
theories/Calls.v
theories/SpecCalls.v
theories/CallsProofs.v
theories/PropCalls.v
theories/EditProofs.v
theories/PropEdit.v
theories/Profile.v
theories/ProfileProofs.v
theories/PropProfile.v
theories/SpecGlue.v
theories/GlueProofs.v
theories/PropGlue.v
theories/Shared.v
theories/SpecShared.v
theories/SharedProofs.v
theories/PropShared.v
theories/SpecRecords.v
theories/RecordProofs.v
theories/PropRecords.v
theories/SpecCapital.v
theories/CapitalProofs.v
theories/PropCapital.v
theories/SpecHexFile.v
theories/PropHexFile.v
theories/SpecKind.v
theories/KindProofs.v
theories/PropKind.v
theories/SpecMode.v
theories/ModeProofs.v
theories/PropMode.v
theories/SpecSafe.v
theories/SafeProofs.v
theories/PropSafe.v
theories/LimitProofs.v
theories/PropLimit.v
theories/Work.v
theories/SpecWork.v
theories/WorkProofs.v
theories/PropWork.v
theories/SpecMachine.v
theories/MachineProofs.v
theories/MachineLimits.v
theories/PropMachine.v
theories/Maps.v
theories/SpecMap.v
theories/MapProofs.v
theories/PropMap.v
theories/Arms.v
theories/SpecArms.v
theories/ArmsProofs.v
theories/PropArms.v
theories/ScannerB.v
theories/AssemblerB.v
theories/SpecBytes.v
theories/BytesProofs.v
theories/ByteToolProofs.v
theories/PropBytes.v
theories/MessageB.v
theories/MessageBProofs.v
theories/SpecMend.v
theories/MendProofs.v
theories/PropMend.v
theories/SpecRegister.v
theories/RegisterProofs.v
theories/PropRegister.v
theories/SrcText.v
theories/SrcLex.v
theories/SrcParse.v
theories/SrcRun.v
theories/SrcCode.v
theories/SrcEnc.v
theories/SrcFacts.v
theories/SrcOpcodeProofs.v
theories/SrcInstructionProofs.v
theories/PropSource.v
theories/SrcDirectiveProofs.v
theories/SrcRangeProofs.v
theories/SrcAssemblerProofs.v
theories/PropSourceAssembler.v
theories/SrcScannerProofs.v
theories/PropSourceScanner.v
theories/SrcParserProofs.v
theories/PropSourceParser.v
theories/SrcHexProofs.v
theories/PropSourceHex.v
theories/SrcTool.v
theories/SrcMainProofs.v
theories/PropSourceMain.v
theories/PropSourceErrors.v
theories/SrcTestText.v
theories/SrcTests.v
theories/PropSourceTests.v
theories/PropSourceFindings.v
theories/PropSourceGolden.v
theories/PropSourceSpec.v
theories/PropSourceTool.v
theories/PropSourceChanges.v
theories/PropSourceMessages.v
