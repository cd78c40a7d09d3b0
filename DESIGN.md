# A formal model of c8s in Coq 8.16.1

c8s is an assembler for CHIP-8: one source file in, one Intel HEX file out. Everything between the bytes of the
input file and the bytes of the output file is modelled, function by function, and 119 properties
(`properties.jsonl`) are proved of the model or refuted with a witness. `MANIFEST.json` says which theorem answers
which property.

## Layout

`rocq/theories` holds four kinds of files.

| kind | files | role |
|------|-------|------|
| model | `Base` `Text` `U12` `Location` `Token` `Scanner` `Parser` `StreamParser` `Directive` `Opcode` `Instruction` `DataRange` `Assembler` `IHex` `Main`; `Accessors` `Description` (what only the API uses); `MainIO` `Process` `Calls` `Shared` `Getopts` `ScannerW` `ScannerO` `Profile` `DepthParser` `Work` `Maps` `Arms` `ScannerB` `AssemblerB` `MessageB` (the same code seen in more detail) | one file per Rust file (plus std and crates); executable; every definition cites the lines it models |
| specification | `Spec*.v` | what the properties talk about, written without the model's functions: lexical grammar, token grammar, README table, program layout, UTF-8, HEX reader, writer |
| proofs | `*Proofs.v` `*Theorems.v` `BaseFacts` `LexAppend` `GrammarLines` | |
| results | `Prop*.v` | for each property its theorems `Cnn_...`, each followed by `Print Assumptions`, and a concrete `Cnn_instance` that meets the hypotheses |

The files `Src*.v` are explained under "The text of the source".

Two files test the model; they prove nothing about it. `GoldenTests.v` assembles the six `/repo/tests/*.S` and
compares with the `.hex` next to each. `UnitTests.v` restates every test of the `#[cfg(test)]` modules (345
assertions) against the model. The expected values are the repository's, so these are the evidence, apart from
reading, that the model is the code. `Findings.v` holds witnesses for findings that no property theorem carries.

## Trusted base

1. **Coq 8.16.1's kernel.** `vm_compute` is used for finite computations on closed terms.
2. **Axioms.** `Print Assumptions` answers `Closed under the global context` for every theorem in `Prop*.v`. No axiom
   is used. `coqchk` lists seven axioms of the standard library's module `Coq.ssr.ssrunder.Under_rel`
   (`Under_rel`, `Under_relE`, `Under_rel_from_rel`, `over_rel`, `over_rel_done`, `under_rel_done`, ...): they are
   in the context because loading the standard library's `List`, `NArith` or `Lia` loads `ssreflect`; no theorem
   depends on them.
3. **That the model is the code.** The model was written from the text of `/repo`; it was not run against a build. C107 to C113 prove that the text of
   the source, executed by the machine of `SrcRun.v`, does what the model says; what is trusted then is the machine, see "The text of the source".
   The places where this involves more than transcription:
   * *Panics.* `run A = Done a | Crash why`. `assert!`, `unwrap`, slicing off a character boundary or past the end,
     `usize`/`u16` arithmetic overflow (debug profile), `panic!` and exhausted fuel are all `Crash`. "Never panics"
     is therefore a theorem about the model and not an assumption. Fuel is only used where Rust loops or recurses
     on a shrinking input; that it never runs out is part of C01, C11, C43.
   * *Text.* A `&str` is the list of its Unicode scalar values; the scanner keeps the Rust *byte* position, and
     slicing takes byte offsets. C104 shows that the tool does the same on the bytes.
   * *usize* is 64 bits where the code can see it (numeric literals; other widths in C72); positions, line and column counters are
     unbounded. C87 shows with `ScannerO.v`, where they are not, that this makes no difference; C90 does the same for the whole tool and for
     the release profile, in which overflow does not panic.
   * *HashMap* of labels: an association list; only `get`, `contains_key`, `insert` of absent keys occur, never iteration. C102 shows that any map that obeys the laws of these functions gives the same.
   * *Matches in `instruction.rs`* are grouped by mnemonic in the model; C103 shows that this is the same as taking the arms in order (`Arms.v` was generated
     from the text of the source).
   * *Recursion to loop.* `parse_literal_list`/`parse_field_list` recurse in Rust; the stack they need is the subject of C69 only.
4. **External code**, modelled by its documentation:
   * `twelve_bit` 0.1: `U12.v` (`unchecked_into` truncates, `failable_into`, `checked_add`, `wrapping_add`).
   * `regex` with `lazy_static`: `SpecRegex.v` defines the part of the crate's syntax that occurs and its documented
     search (leftmost, then preferred alternative). The model's functions are proved equal to the searches for the six
     patterns as written (C63). `\s` is the Unicode White_Space property. That the crate's engine implements its
     documentation is assumed.
   * `ihex` 1.0: record syntax, checksum, "exactly one EOF record, last" (`IHex.v`).
   * `getopts`: the result of parsing the command line is an arbitrary parameter of `main` (`e_options`), except in C67,
     which uses `Getopts.v`, written from the crate's documentation; two points in which releases differ (an option as
     the argument of -o, `--h`) are parameters. The texts of its failures and of the usage are arbitrary.
   * std: `from_str_radix`, `checked_shl`, `{}`/`{:x}`/`{:X}`/width formatting, `to_lowercase`, `len_utf8`, UTF-8
     decoding of `read_to_string`. `to_lowercase` is exact where it can matter (comparison with ASCII names).
   * The operating system: a file system (path to contents; with links and changes by others in C77) and four optional
     failures (open, read, create, write), all universally quantified. A failing write may leave any prefix. In C88 each
     call is answered on its own; that `read_to_string` and `write_all` repeat interrupted calls is as documented.
   * Standard output: it takes everything, except in C71, where it takes a number of bytes and then none. It is buffered
     by lines, `print!` and `println!` panic when they cannot write, and the rest is flushed at exit without looking at the
     result. A *closed* standard output is one that takes everything: the standard library ignores that error.

**Not modelled:** stack and memory exhaustion, time other than the steps of C100, changes of a file by others while it is being read or written,
`mod.rs` (re-exports), the `#[cfg(test)]` modules (restated in `UnitTests.v`).

## Findings

Where the code does not do what the property says, the property is refuted by a theorem with a witness and the
part that holds is proved.

| | finding | theorem |
|-|---------|---------|
| R1 | `checked_shl` does not detect lost bits: a binary literal of 65 or more digits is read modulo 2^64, e.g. `%1` followed by 64 zeros is 0 | `C08_refuted`, `C08_actual` |
| R2 | The last byte of memory cannot be used: the counter may not exceed `$FFF`, so a byte *at* `$FFF` is refused | `C35_refuted`, `C35_partial` |
| R3 | `DataRange::intersects` wraps at 4096 and misses overlaps of ranges that end there; unreachable from the tool because of R2 | `C37_api_refuted` |
| R4 | Disassembly pads numbers with spaces (`ld v0, $ 7`); the result does not scan | `C26_refuted`, `C26_padded` |
| R5 | `Dt`, `dT`, `St`, `sT` are labels, not the timers | `C18_refuted`, `C18_mixed` |
| R6 | A comment after a directive's trailing comma, or after a directive without arguments, is a syntax error | `C16_refuted` |
| R7 | A mnemonic without operands as the last word of the file needs a newline after it | `C17_refuted` |
| R8 | `Display` of a data range underflows for an empty range at 0 and for one ending with memory; unreachable from the tool | `R8_display`, `R8_display_end`; `C43_total` |
| R9 | `$200cls` is two tokens: a four-digit hexadecimal number whose fourth digit is a letter is split silently | `C09_refuted`, `C09_meaning` |
| R10 | Labels named `b`, `f`, `k`, `i`, `dt`, `st`, `v0`... can be defined but not referenced | `C19_refuted`, `C19_exact` |
| R11 | "size ... exceeds 4096 bytes" is printed for a `.db` of exactly 4096 bytes | `R11_size` |
| R12 | `[i]:` is accepted as a label, which no operand can refer to | `R12_bracket` |
| R13 | Statements need not be on separate lines: `ld v0, v1 cls` is two instructions | `R13_one_line` |
| R14 | The second register of SHR and SHL is lost in disassembly | `C26_shift` |
| R15 | `/repo/tests/test_directives.S` has an `.equ` without a label and is refused, although a `.hex` for it is in the repository | `R15_test_directives` |
| R16 | The expectations in syntax errors leave out the end of the line, comments, commas and the colon of a label | `C55_refuted`, `C55_token_partial` |
| R17 | The parser recurses once per operand; `.db "", "", ...` is accepted at any length, so a text can exhaust the stack | `C69_refuted`, `C69_partial` |
| R18 | On a full standard output the tool panics (status 101) instead of reporting an error with status 1: error messages go to standard output too, by `println!` | `C71_panics`, `C71_exact` |
| R19 | R1 depends on the machine: a 32-bit build accepts `%1` followed by 32 zeros, as 0, and a 64-bit build refuses it | `C72_refuted`, `C72_partial` |
| R20 | The errors `InvalidDecimalLiteral` and `InvalidIdentifier` of the scanner are never reported | `C73_scanner_unused` |
| R21 | The message for a binary number out of range does not say the number; the one for a decimal number does | `C74_instance` |
| R22 | The overlap report is not bounded by the size of the text: it has n(n-1)/2 pairs for n blocks of 19 characters each | `C75_overlaps_attained` |
| R23 | An argument that is not UTF-8 makes the tool panic (`env::args`), as does an empty argument list | `C76_refuted`, `C76_partial` |
| R24 | Line ends other than LF and CR LF are blanks: in a file with CR line ends everything after the first comment is dropped without an error | `C81_lines_refuted`, `C81_lost_partial` |
| R25 | A file that begins with a byte order mark is refused as having an invalid character | `C81_mark_refuted`, `C81_mark_partial` |
| R26 | Labels cannot be values of directives (`.db x`), although the README lists them as literals valid there | `C82_refuted`, `C82_name_partial` |
| R27 | The output file is emptied before the new contents are written: a process ended in between leaves neither the old nor the new | `C88_lost` |
| R28 | Without -o every run writes a.hex: two runs at once may both succeed and leave a valid file that is neither program | `C92_default` |
| R29 | `.ORG` and `.EQU` take 12-bit numbers, although the README has these valid "in the context of a mnemonic only, not within directives" | `C99_twelve_refuted`, `C99_twelve` |
| R30 | The time to assemble is not in proportion to the text: every block is compared with every other, twice if none overlap | `C100_refuted`, `C100_partial` |

## The properties

For each: what is modelled, how it is stated independently, how it is proved.

### Scanning: C01-C10, C63, C72, C81, C87

*Model*: `Scanner.v` (state machine over byte positions). *Specification*: `SpecLex.v` gives regular-expression ASTs
for the patterns of `scanner.rs`, a match relation, longest match, and the relation `lexes file before rest tokens`;
locations are computed by counting newlines and characters of the text before.
* **C87** (`ScannerO.v`, `CounterProofs.v`) The scanner again, with every addition and subtraction checked. While it stands
  after `before` all counters are at most `byte_len before + 1` (the invariant `at_` of C01), so each step agrees.
* **C81** From C80, as each mark is a blank; a comment extends to the next newline only (`last_comment`). No lexeme begins
  with the byte order mark, so the scanner is stuck at it.
* **C01, C04** Invariant: the position is the byte length of a prefix, line and column are those of the prefix. Each
  `consume_*` is proved to perform one `lexes` step (`ScanProofs`), induction on the rest gives
  `scan file s = Done ts <-> lexes file [] s ts`; `lexes` is deterministic.
* **C02, C03, C05** Induction over `lexes`.
* The statements of C06-C10 and C14-C17 are about the code: `SpecCode.v` names what is said (`reading`: the tokens the
  scanner returns from where it stands after a given text; `parsed`: the syntax list scanner and parser return;
  `cut_at`: a place in a text where the tokens of the whole are those of the two parts). `C04_states` says where the
  scanner stands. `LexCode`, `TextCode` carry the theorems proved about the grammars over to the code.
* **C06-C08** Digit loops against positional values; by induction on the digits. C08 refuted beyond 64 digits, with
  an exact description.
* **C09** refuted; the decimal-digit case and the exact meaning proved with the lemmas of `LexAppend`.
* **C10** The string pattern's content; `.db` against relational UTF-8 (`SpecUtf8`), which is shown to be an encoding
  (decodable) in `UtfProofs`.
* **C63** All ways to match are computed in order of preference; lemmas describe the list for a class repeated, for
  `{1,3}` and for the string pattern, by induction on the text (`RegexProofs`).
* **C72** *Model*: `ScannerW.v`, the scanner with the width as a parameter, equal to `Scanner.v` at 64. The three number
  readers are compared digit by digit; the text does not change while it is scanned (`WidthProofs`).

### Parsing and messages: C11-C19, C55, C57, C58, C69, C73, C74, C78, C82, C96, C97

*Model*: `Parser.v` (current/next window, fuel). *Specification*: `SpecGrammar.v`, inductive grammar; `SpecErase.v`
(equality up to locations); `SpecWrite.v` (a writer).
* **C97** (`SpecMode.v`, `ModeProofs.v`) The machine is run over each kind of lexeme; a lexeme outside comments and strings has no quote and no
  semicolon, which is read off its pattern. For changed comments the tokens are related by induction on the cut of the text into
  lexemes, keeping line and column except for the newline after a comment, which is never the offending token.
* **C101** (`SpecMachine.v`, `MachineProofs.v`, `MachineLimits.v`) *Modelled*: nothing new; the machine is part of the specification,
  and was written from the patterns and the grammar. *Proof*: for each kind of lexeme, reading it leads from one place between lexemes
  to the next, and the places are those of the grammar; induction over the tokens. Every memory but the refusal has a continuation, which is
  written down. For the labels: after `2 ^ k` texts, one for each choice among `k` labels, the memories differ, because a jump to
  one of the labels tells any two of them apart.
* **C102** (`Maps.v`, `SpecMap.v`, `MapProofs.v`) *Modelled*: the functions of `Instruction.v`, `Assembler.v` and `Main.v` that handle the map,
  once more, with the map and its four functions as a parameter. *Proof*: the map and the list of pairs answer every `get` alike at every step.
  For the hash table: every entry is in the bucket of its key and no key is there twice, also after moving everything to a larger table.
* **C103** (`Arms.v`, `SpecArms.v`, `ArmsProofs.v`) *Modelled*: the arms of the matches of `instruction.rs` and of `Opcode::from_instruction`, one by one in the
  order of the source. *Proof*: cases by mnemonic and kinds of fields, and by the digits of the word. An instruction for each arm is written down.
* **C104** (`ScannerB.v`, `AssemblerB.v`, `SpecBytes.v`, `BytesProofs.v`, `ByteToolProofs.v`, `MessageB.v`, `MessageBProofs.v`) *Modelled*: the scanner on bytes, with `is_char_boundary`, `next_code_point`
  and slicing; `.db`, the assembler and the messages on strings as bytes. *Proof*: decoding an encoded text gives the text; a cut at a byte is a cut between characters or panics; function by function
  the two scanners keep in step; every pattern but those of comments and strings is ASCII. Everything in a message but the name of the file, a string and an invalid character is ASCII.
* **C105** (`SpecMend.v`, `MendProofs.v`) *Modelled*: nothing new. *Proof*: what is in error in the first pass depends on what stands before it; the counter is monotone, so labels move
  down when an instruction is taken out, and a value that fitted in four or eight bits still does; no `.equ` can follow an instruction, so no label becomes one of a constant.
* **C106** (`SpecRegister.v`, `RegisterProofs.v`) *Modelled*: nothing new; `exchange_word` says by the first digit of a word which digits are registers, without the table. *Proof*: a field is
  of the kind of a column exactly if the exchanged one is; row by row the word of the exchanged operands is the exchanged word; layout and labels do not look at operands.
* **C107** (`SrcText.v` `SrcLex.v` `SrcParse.v` `SrcRun.v` `SrcCode.v` `SrcEnc.v`, `SrcFacts.v` `SrcOpcodeProofs.v` `SrcInstructionProofs.v`) *Modelled*: Rust, as far as the source uses it. `SrcText.v`
  has the lines of the files as they are, `SrcLex.v` and `SrcParse.v` read them, `SrcRun.v` executes what was read, one step at a time, and `SrcEnc.v` says how a value of the model looks there. *Proof*:
  symbolic execution by `lazy`, which stops at each choice that depends on an argument; the cases of the choice are the cases of the model's definition. See "The text of the source" below.
* **C108** (`SrcDirectiveProofs.v` `SrcRangeProofs.v` `SrcAssemblerProofs.v`) *Modelled*: as C107. *Proof*: the machine stops at the head of each loop; induction on the nodes, the arguments or the ranges that are
  left shows that the rest of the loop ends with what the model's recursion gives.
* **C109** (`SrcScannerProofs.v`) *Modelled*: as C107; a regular expression of scanner.rs is looked up by its text. *Proof*: one lemma per function, the loops of `advance_by`, `consume_bin_literal` and
  `consume_single_line_comment` by induction on the characters that are left; then induction on the calls of `next`, and `scan_lexes` of C02.
* **C110** (`SrcParserProofs.v`) *Modelled*: as C107; the iterator is a value `v` that is related to the tokens it has still to give, and the lemmas hold for any such relation that `consume_token` keeps.
  *Proof*: one lemma per rule; induction on the model's fuel for the two lists and the statements; the relation is shown for a list of tokens and, with C109, for a scanner.
* **C111** (`SrcHexProofs.v`) *Modelled*: as C107; `map` and `inspect` one after the other are one `map` (see below).
  *Proof*: one lemma for a chunk, induction over the chunks of a range with the address as the state, induction over the ranges; C39 and C40 then say what the text is.
* **C112** (`SrcTool.v`, `SrcMainProofs.v`) *Modelled*: what is not in the files is a question (`Ask`) that stops the machine; `perform` answers it from a `host`, and may change the world (MainIO.v), end the process or panic. `runs` is the machine and the host by turns.
  *Proof*: `main` is walked from question to question, with one case for each answer; the lemmas of C108 to C111 stand for the calls in between; induction over the overlaps that are reported. `runs_once`: a run has one end. C42, C41 and C71 then say what it is.
* **C113** (`PropSourceErrors.v`) *Modelled*: as C107. *Proof*: one run for each constructor. With it every function of `/repo/src` outside the tests has been executed.
* **C114** (`PropSourceTests.v`, `PropSourceGolden.v`) *Modelled*: the text of the tests (`SrcTestText.v`), read and run with the reader and machine of the files (`SrcTests.v`). *Proof*: computation.
* **C115** (`PropSourceFindings.v`) *Modelled*: as C112. *Proof*: computation, and that a run is unique.
* **C116** (`PropSourceSpec.v`) *Modelled*: as C107 to C111; the model is used in the proofs only, and the statements are about the text, executed, and the specifications. *Proof*: C12, C20, C21, C25, C29, C30, C32, C36, C37, C39 and C49 carried over along C107 to C111; that a run has one end, and that the encoders are injective, gives the converses.
* **C117** (`PropSourceTool.v`) *Modelled*: as C112. *Proof*: that the text and the model of `main` leave the same behind (C112_tool, C71, C43), and then C59, C70, C71 and C98 carried over.
* **C118** (`PropSourceChanges.v`) *Modelled*: as C112; the syntax lists the hypotheses speak of are those the executed text of the scanner and parser answers (C116). *Proof*: the object file is the text the model makes (C117_leaves), and then C15, C50, C54, C61, C62, C79, C94 and C106 carried over.
* **C119** (`PropSourceMessages.v`) *Modelled*: as C112 and C113. *Proof*: what is printed is the text the model makes (C117_leaves), and then C30, C41, C42, C44, C66 and C113 carried over.
* **C96** (`KindProofs.v`) Induction on the grammar, and on the relation of C13 between a list of tokens and its first error.
* **C82** Induction over the grammar: a directive's marker is never inside another statement, and after it only literals
  and commas are read.
* **C11, C12** By induction on the fuel: with at least as much fuel as tokens the parser follows exactly one
  derivation; unambiguity follows from determinism.
* **C13** Viable prefixes: an explicit completion is constructed for each parser state.
* **C55** The same states: what can follow is determined for each of the parser's four lists (`SpecExpect.v`,
  `PropExpect.v`); a token that cannot gives the same error. Refuted as stated, the tokens not listed are described.
* **C57** `StreamParser.v` models the parser once more over an arbitrary iterator, as in the code; a simulation relates
  it to `Parser.v`, for any iterator that delivers the same tokens (`SpecStream.v`).
* **C58** The parser's error depends on the tokens up to the offending one; `FirstProofs` shows that the tokens of
  complete lines do not depend on later ones, except for a string left open.
* **C69** `DepthParser.v` is the parser with the number of nested activations; induction on the fuel, with the commas
  up to the end of the line as measure (`DepthProofs`). Refuted, with both bounds in terms of the longest list.
* **C73** `SpecDiag.v` lists the errors of scanner, parser and assembler that can occur. A text is given for each, built with
  the writer of C14 for the assembler's; that there are no others is an induction over `lexes`, over the parser's
  error derivations, and C30 (`DiagProofs`).
* **C74** A message is read from the left: the file name is the same, the place is decimal numbers ended by a character
  that is no digit, names end at a character no name has, and the fixed texts differ before they end. That the parts
  have these forms is C73 (`DistinctProofs`).
* **C78** *Model*: `Description.v`, the trait `Error` of the five error types. Case analysis over all pairs of kinds.
* **C14** Each written piece spells its tokens whatever follows (`spells`), induction over the syntax list.
  `C14_range`: every parsed list is writable.
* **C15-C17** `LexAppend` (scanning a concatenation at a token boundary, changes of locations only),
  `GrammarLines` (grammar of line sequences). C16, C17 refuted in general, with exact conditions.
* **C18, C19** Case analysis on names; both have counterexamples; the exact rule is proved.

### Instructions: C20-C26, C49, C60

*Model*: `Instruction.v`, `Opcode.v`. *Specification*: `SpecOpcode.v`, the rows of the README tables as text
(mnemonic, operand pattern, opcode pattern), interpreted by a small independent matcher; `SpecRefusal.v` for errors.
* **C20-C23** Case analysis over mnemonics and operand kinds; nibble arithmetic lemmas relate `|`/`<<` to patterns.
* **C24** Simulation between programs differing in case.
* **C25** Bit lemmas for encoding; decoding by cases on nibbles.
* **C26** refuted; for every word the text displayed is described exactly, and the words that come back are
  characterised (`FmtProofs`, `DisasmProofs`).
* **C60** `SpecInverse.v` says where each operand stands in a word; the row's digits are compared one by one, and a
  word matches one row only (C49).
* **C49** `SpecDisasm.v` reads the same README rows the other way: a word matches a row if filling its own digits into
  the pattern gives the word back. Cases on the nibbles of a word (`DecodeProofs`).

### Layout: C27-C38, C64, C65, C75

*Model*: `Assembler.v`, `Directive.v`, `DataRange.v`. *Specification*: `SpecLayout.v`: meaning of a directive, address
of a statement as a fold over the statements before it, label values, violations, well-formedness, output blocks.
* **C27-C30** `define_violations`: invariant of the first pass relating its state to the prefix read; strong
  induction because a label and its `.equ` are consumed together. `emit_spec`: invariant of the second pass.
* **C31-C34** corollaries: no violation implies the assertions hold; address bounds.
* **C35** refuted (R2), with the part that holds.
* **C36, C37** Arithmetic and induction on append histories, index pairs.
* **C38** Overlap check against `memory`.
* **C64** Addresses depend only on sizes; the output is compared block by block (`LocalProofs`).
* **C99** (`LimitProofs.v`) A row of the table has at most one number, whose digits are the last of the pattern, so the word is the one
  for 0 plus the number. C64 gives the output; when the number is too large every earlier statement is as before, so the error is
  the first.
* **C65** `SpecImage.v` writes a program for given blocks (an `.org` and a `.db` each), shown to assemble to them; the
  other direction is C32 with the bounds of C34.
* **C75** Each token is given the least number of bytes it takes in the text, and each statement emits no more than its
  tokens weigh: no mnemonic is shorter than the two bytes of an instruction (`SizeProofs`). The size of the HEX file is
  read off its specification (`SpecHex.v`). The worst cases are texts of C65.
* **C100** (`Work.v`, `WorkProofs.v`) *Modelled*: the code from scanner to HEX text once more, each function with the number of its
  steps; what a step is stands at the head of `Work.v`. It is assumed that a `HashMap` takes what hashing the key takes, that printing a
  message is one step, and that a search goes on only while a match is possible; how far that is is proved of the patterns
  (`SpecWork.v`). The parser asks for tokens one at a time, so that the steps counted for scanning a text with a syntax error are an
  upper bound. *Proof*: leaving out the counts gives the other model, by induction; the parser is paid forty steps by each token
  and each character of a name, which bounds all its loops at once.

### Output and tool: C39-C44, C59, C66, C67, C70, C71, C76, C77, C83, C88, C90, C92, C93, C95

*Model*: `IHex.v`, `Main.v`. *Specification*: `SpecHex.v` (an I8HEX reader written independently of the writer),
`SpecTool.v`.
* **C90** (`Profile.v`, `ProfileProofs.v`) The tool again, every addition and subtraction of the source being one of
  `add_p`, `sub_p`, which panic or wrap according to the profile. Each function does what its checked counterpart does
  unless that one panics (`as_good`, closed under `bind`), and C43 and C87 say that it does not. Columns in messages come
  from tokens (C44).
* **C92** (`Shared.v`, `SharedProofs.v`) The runs of C88 on shared files: a read gives what is in the file now, a write
  replaces what is there at the run's own position. The invariant, kept by every call of every run: an output file is as
  its run has left it, what a run has read is a beginning of the file as it was at the start. Links between names are not
  in this model (they are in C77).
* **C93** (`RecordProofs.v`) A record that ends inside another one: the next byte starts a record in one file only, as no
  address occurs twice. With C52 and the sizes of the sections this decides when an '.org' is visible.
* **C95** (`SpecHexFile.v`, `PropHexFile.v`) Blocks are cut into records which are themselves blocks of C65, so the source of
  C65 for the records gives them back. The records are read back line by line (C39), hence unique.
* **C88** (`Calls.v`, `CallsProofs.v`) The tool as a machine that is fed the answers to its calls, with the loops of
  `read_to_end` and `write_all`. An invariant of its states by induction on the answers (`sound`): what was read, what is
  to be written, and for ended runs the errors for which `main` does the same. Cut files are refused by C83.
* **C83** (`DamageProofs.v`) About the reader of `SpecHex.v`: a changed digit changes one byte and so the sum; a digit more
  or less makes their number odd; a wrong line feed leaves a line that does not begin with a colon, or has one within.
* **C39, C40** Induction over chunks; the reader inverts each record.
* **C41-C43** Case analysis over the pipeline, for every environment.
* **C59** Case analysis; a HEX text starts with ':', with which no program starts.
* **C44** Numerals and places are specified in `PropMessage.v` from the text.
* **C66** `SpecPlace.v` replaces every place by its image under any function; both parser and assembler commute with it,
  by induction on the fuel and the syntax list (`PlaceProofs`).
* **C70** *Specification*: `SpecRun.v`, a processor whose state and instruction effects are parameters; statements and
  words are both read as lines of the README's tables. From C20, C32, C60: the row of a statement is unique, and so is
  that of a word (`RunProofs`).
* **C98** *Specification*: `SpecSafe.v`, where each instruction of the README's table leads, the processors of C70 that go there, and
  containment of a program in its instructions. *Proof* (`SafeProofs.v`): by C70 the word at the program counter says what the
  statement says; its successors and the return addresses are at instructions, which is an invariant. For `C98_exact` the processor
  that only walks is put at each instruction. The decision procedure is shown right, and the game in `tests/` passes it
  (`PropSafe.v`, a test at build time and not a theorem).
* **C71** *Model*: `MainIO.v`, main.rs effect by effect; the standard output is a device taking a number of bytes behind
  the standard library's line buffer. *Proof*: every path prints complete lines and then ends (`prints`), so a run is
  that of `Main.v` cut off (`process_main`).
* **C76, C77** *Model*: `Process.v`: arguments are bytes; a name leads to an entry of a directory (symbolic links
  followed) and an entry to a file (hard links), on a disk at the time of reading and another at the time of creating.
  *Proof*: case analysis on what the output's name leads to (`ProcessProofs`); the rest is C42 and C67.
* **C67** *Model*: `Getopts.v`. *Specification*: `SpecArgs.v`, an inductive grammar of command lines; both directions by
  induction (`ArgsProofs`).

### Changes that do not matter: C45-C48, C50-C54, C56, C61, C62, C68, C79, C80, C84-C86, C89, C91, C94

*Specification*: `SpecMeta.v`. Simulations between two runs of both passes (`MetaProofs`, `SectionProofs`): renamed
label tables, tables agreeing but on a fresh name, first pass as a walk that adds a block of labels per section
(frame lemma), second pass section by section, `.db` concatenation.
`SpecNumeral.v` gives the notations of numbers for C50 (`NumeralProofs`: each is one token with the same value).
`SpecRewrite.v` has the changes of C51-C53; `RewriteProofs` runs both passes on both programs in step: the same label
table and operands that resolve alike (C51), states of the second pass that hold the same bytes and the same next
address (C52), label tables that extend one another (C53). C54 states them for texts.
C56 (`SpecMove.v`, `MoveProofs`) is proved on the specification: moving preserves `well_formed` and `output` of
`SpecLayout.v`, which C32 says are the assembler's.
C61 (`SpecDos.v`, `DosProofs`): every lexeme of the text is one of the text with CR LF, with blanks after it.
C62 (`SpecConcat.v`, `ConcatProofs`): the first pass as a walk with a frame, the second split at the '.org'; the texts
with the lemmas on complete lines (`FirstProofs`).
C68 (`SpecRename.v`, `RenameProofs`) relates the errors of both passes, as C45 does their results.
* **C91** (`SpecGlue.v`, `GlueProofs.v`) White space can go exactly if the lexeme before it does not join the next
  character. That it cannot go otherwise is shown by counting: the number of names and values, the sum of the numbers and
  the number of directives are the same for all texts of a program, and joining changes one of them, except that two
  numbers could become two others; but no accepted program has two numbers in a row.
* **C94** (`CapitalProofs.v`) As C80: every pattern of the scanner treats the two cases of a letter alike, and the digits have
  the same values. The grammar then relates the statements; C18 gives the operands, C24 the mnemonics and directives, C45 the
  labels; C96 and C68 the errors.
* **C89** (`EditProofs.v`) Texts, not syntax lists: complete lines are parsed on their own (C62), labels and addresses
  of the program with the new lines are those of the old one, and its bytes are those of `node_bytes` for the same labels.
  The part on insertion lifts C86.
* **C86** (`SpecInsert.v`, `InsertProofs.v`) Well-formedness is restated statement by statement (`fits`, `follows`), so that
  it can be cut at the place of insertion; then the image of C32. References to moved labels by C51.
* **C85** (`PropBegin.v`) A newline is in no statement, so the tokens can be cut there; then C53, and the addresses of the
  beginning are among those of the whole, so none is written twice.
* **C84** From C64, as the bytes of a statement are unique; back by the rows of the tables (C60).
* **C80** (`SpecBlank.v`, `BlankProofs.v`) Every character class of the patterns has all blanks or none, so matches carry
  over; no blank is a newline, so places do. The parser commutes with erasing the texts of comments, and no message has one.
* **C79** The first pass with the definition ends as without it but for one label more, whatever the place
  (`define_constant`); the second pass skips it and asks for labels by name only. Labels of one value: both programs are
  those of C51 with the numbers instead.

## The text of the source

C107 and those after it replace "the model was written from the text" by a proof for the functions they name: what is left to trust for these is
that `SrcParse.v` and `SrcRun.v` read Rust as Rust does. They know only what occurs in the files. Of this the following is more than syntax.

* Types are not checked and mostly not looked at. A method is found by its name and the constructor it is applied to. A literal number takes the
  type of the parameter, the field or the other operand it meets.
* A reference is what it refers to. A function that changes an argument gives it back changed, and the caller stores it where it came from.
* `u8` and `u16` arithmetic panics if it overflows; `usize` arithmetic is unbounded, as in the model (C90).
* `format!`, `HashMap`, iterators, `U12`, the regexes and so on are the model's functions for these: the theorems say that the source puts them
  together as the model does.
* `it.map(f).inspect(g)` is `it.map(|x| { let y = f(x); g(&y); y })`, which is the order in which a lazy iterator runs them. `.borrow()` and `.borrow_mut()`
  of a `RefCell` are the thing in it; that no two borrows meet is not checked. A vector that was appended to another is not emptied.
* A closure given to a function is the variables around it and its text; it changes none of them (those of main.rs do not).
* `print!` and `println!` make the whole text and then write it once (C71_pieces: this does not matter).
* `perform` in `SrcTool.v` is the meaning of everything main.rs calls outside the files, with the line of each call. A file that was opened is known by its
  path; a second writer in the meantime is not modelled here (C88 has the calls of the process one by one).
* C114 tests the reader and the machine from outside: the unit tests of the repository are text as well, neither was written for them, and
  91 of the 92 end as their authors expect. `SrcTests.v` has what only the tests use.
* What the reader cannot read makes `read_files` give `None`, and what the machine does not know makes it stop in `Stuck`; the theorems exclude both.

## Testing the theorems

`seeded/LOG.jsonl` records deliberate bugs put into a copy of the model: the definition, the edit, the claim it
should break, the theorems that then fail. For each mutant the whole development was rebuilt; a proof that failed
was admitted in the copy so that the rest could be checked, and a property theorem counts as failed if it rests on
an admitted lemma according to `Print Assumptions`. Where the theorem of the claim did not fail it was tightened (the
entry says how) or the mutant is an equivalent program (noted as such).
