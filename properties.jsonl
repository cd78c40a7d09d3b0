{"id": "C01", "title": "Scanning any text terminates without panicking", "statement": "For every source text (any sequence of Unicode characters), repeatedly asking the scanner for the next token ends after finitely many tokens, never panics (no failed assertion, no slice off a character boundary, no unwrap of None), and once it has answered None it keeps answering None.", "quantifier": "all file names and all source texts of any length", "why_tests_cant": "The set of texts is infinite and the panics hide behind byte offsets inside multi-byte characters; tests only sample a few texts.", "anchors": ["src/assembler/scanner.rs:Scanner::next_token", "src/assembler/scanner.rs:Scanner::advance_by", "src/assembler/scanner.rs:Scanner::is_at_end"]}
{"id": "C02", "title": "Tokens partition the source text", "statement": "If scanning meets no lexical error, the source text is exactly the concatenation, in order, of the tokens' lexemes separated only by non-newline whitespace; no character is skipped, duplicated or reordered. A newline is always its own token, outside strings.", "quantifier": "all source texts", "why_tests_cant": "Dropped or duplicated characters can occur at any position in any text.", "anchors": ["src/assembler/scanner.rs:Scanner::next_token", "src/assembler/scanner.rs:Scanner::consume_whitespace"]}
{"id": "C03", "title": "Token locations are exact", "statement": "The location reported with a token is: line = 1 + number of newlines before it in the text; column = 1 + number of characters (not bytes) between the last preceding newline and it; length = number of characters of its lexeme up to and including the first newline in it. Error tokens carry the line and column of the offending character.", "quantifier": "all source texts and every token in them", "why_tests_cant": "Depends on all the text before the token, including multi-line strings and multi-byte characters.", "anchors": ["src/assembler/scanner.rs:Scanner::advance_by", "src/assembler/source_file_location.rs:SourceFileLocation"]}
{"id": "C04", "title": "Tokens follow the documented lexical grammar (longest match)", "statement": "The token produced at each point is the one whose documented pattern (the regular expressions in the scanner) matches there, its lexeme being the longest prefix matching the pattern; whitespace is the maximal run of non-newline white space. The lexical grammar determines the token list uniquely.", "quantifier": "all source texts", "why_tests_cant": "The grammar is a relation over infinitely many texts.", "anchors": ["src/assembler/scanner.rs:Scanner", "src/assembler/token.rs:Token"]}
{"id": "C05", "title": "A lexical error is final and fatal", "statement": "The scanner produces at most one error token, and it is the last token; a source text whose tokens contain an error token is never accepted by the parser, and the assembler never produces output for it.", "quantifier": "all source texts", "why_tests_cant": "Requires that no parser path ignores or skips the error token, for every context in which it may appear.", "anchors": ["src/assembler/scanner.rs:Scanner::next_token", "src/assembler/parser.rs:parse", "src/main.rs:assemble_file"]}
{"id": "C06", "title": "Decimal literals have their exact value or are rejected", "statement": "A run of decimal digits of any length denotes its base-10 value; it yields a numeric token with that value if the value is at most 4095, and otherwise a DecimalLiteralOutOfRange error, even when the value does not fit a machine word.", "quantifier": "all digit strings of any length", "why_tests_cant": "Digit strings are unbounded, and machine-word overflow happens only beyond 19 digits.", "anchors": ["src/assembler/scanner.rs:Scanner::consume_decimal_literal"]}
{"id": "C07", "title": "Hexadecimal literals have their exact value", "statement": "'$' or '#' followed by one to three hexadecimal digits (either case), taken maximally, denotes its base-16 value (0..4095); '$' or '#' not followed by a hexadecimal digit is an InvalidHexadecimalLiteral error.", "quantifier": "all texts following '$' or '#'", "why_tests_cant": "Must hold for each following context.", "anchors": ["src/assembler/scanner.rs:Scanner::consume_hex_literal"]}
{"id": "C08", "title": "Binary literals have their exact value or are rejected", "statement": "'%' followed by a run of '0', '1' and '.' (meaning 0) of any length denotes its base-2 value; it yields a numeric token with that value when it is at most 4095 and a BinaryLiteralOutOfRange error otherwise.", "quantifier": "all binary digit strings of any length", "why_tests_cant": "Digit strings are unbounded; the code drops bits shifted beyond the 64-bit word, which no test length reaches.", "anchors": ["src/assembler/scanner.rs:Scanner::consume_bin_literal", "src/assembler/scanner.rs:parse_12_bit_bin_str"]}
{"id": "C09", "title": "Over-long hexadecimal literals are never silently split", "statement": "A '$' or '#' literal with four or more hexadecimal digits makes the program be rejected rather than being read as a three-digit literal followed by something else.", "quantifier": "all programs containing such a literal", "why_tests_cant": "Depends on what tokens the remaining digits form and on the parser context.", "anchors": ["src/assembler/scanner.rs:Scanner::consume_hex_literal", "src/assembler/parser.rs:Parser::parse_statement_list"]}
{"id": "C10", "title": "Strings and .db emit exactly the source bytes", "statement": "A string literal's content is the exact text between the quotes (backslash pairs kept verbatim, the literal ending at the first unescaped quote), and '.db' emits, in argument order, the UTF-8 bytes of each string, without terminator, and one byte for each number; nothing else.", "quantifier": "all string contents and all argument lists", "why_tests_cant": "Unbounded strings over all of Unicode.", "anchors": ["src/assembler/scanner.rs:Scanner::consume_string_literal", "src/assembler/directive.rs:Directive::from_identifier_and_parameters", "src/assembler/directive.rs:Directive::into_vec"]}
{"id": "C11", "title": "Parsing any token list terminates without panicking", "statement": "For every token list, parsing terminates and returns either a syntax list or an error; every error carries a non-empty list of expectations, so that printing it never panics.", "quantifier": "all token lists", "why_tests_cant": "Infinite domain; the Display implementation panics on empty expectations.", "anchors": ["src/assembler/parser.rs:parse", "src/assembler/parser.rs:Error::fmt"]}
{"id": "C12", "title": "The parser accepts exactly the grammar", "statement": "Parsing succeeds with syntax list N exactly when the token list derives N in the documented grammar: a sequence of comments, newlines, directives ('.' identifier literals), labels (identifier ':') and instructions (identifier fields), with comma-separated lists that may end in a trailing comma before the line end.", "quantifier": "all token lists and syntax lists", "why_tests_cant": "Both directions quantify over all token lists.", "anchors": ["src/assembler/parser.rs:Parser::parse_statement_list", "src/assembler/parser.rs:Parser::parse_literal_list", "src/assembler/parser.rs:Parser::parse_field_list"]}
{"id": "C13", "title": "Syntax errors point at the first offending token", "statement": "When parsing fails with an unexpected token t, the tokens before t can be completed to an accepted program and the tokens up to and including t cannot, whatever follows; when it fails with end-of-file, the whole token list can be completed to an accepted program but is not one itself.", "quantifier": "all token lists and all continuations", "why_tests_cant": "A universally quantified statement about all continuations of a program.", "anchors": ["src/assembler/parser.rs:parse", "src/assembler/parser.rs:Parser::syntax_error_for_unexpected_token"]}
{"id": "C14", "title": "Every syntax list can be written and read back", "statement": "Writing any syntax list whose identifiers and literals are lexically valid as source text, then scanning and parsing it, gives back the same syntax list (up to source locations).", "quantifier": "all syntax lists", "why_tests_cant": "Round trip over an infinite set of programs.", "anchors": ["src/assembler/scanner.rs:Scanner", "src/assembler/parser.rs:parse"]}
{"id": "C15", "title": "Layout does not matter", "statement": "Adding or removing blank lines, comments on lines of their own or after instructions, and white space between tokens does not change the parsed program (up to locations), nor the output.", "quantifier": "all programs and all insertion points", "why_tests_cant": "Metamorphic property over all programs.", "anchors": ["src/assembler/scanner.rs:Scanner::consume_whitespace", "src/assembler/parser.rs:Parser::parse_statement_list"]}
{"id": "C16", "title": "A comment may follow any statement", "statement": "Appending a comment at the end of any line of an accepted program leaves it accepted with the same output.", "quantifier": "all programs, all lines", "why_tests_cant": "Universally quantified over programs and lines; the literal-list rule treats comments differently from the field-list rule.", "anchors": ["src/assembler/parser.rs:Parser::parse_literal_list", "src/assembler/parser.rs:Parser::parse_field_list"]}
{"id": "C17", "title": "The final newline is optional", "statement": "Removing the final newline of an accepted program leaves it accepted with the same output.", "quantifier": "all programs", "why_tests_cant": "Universally quantified over programs.", "anchors": ["src/assembler/parser.rs:Parser::parse_field_list", "src/assembler/parser.rs:Parser::parse_literal_list"]}
{"id": "C18", "title": "Operand names denote registers case-insensitively", "statement": "As operands, v0..v9, va..vf denote the sixteen general registers, dt, st, i, [i], k, b and f the special operands, all case-insensitively; every other identifier is a label reference and labels are case-sensitive.", "quantifier": "all identifiers", "why_tests_cant": "All identifiers of any length.", "anchors": ["src/assembler/parser.rs:Parser::parse_field_list"]}
{"id": "C19", "title": "Any label that can be defined can be referenced", "statement": "For every identifier accepted as a label, using it as an operand refers to that label.", "quantifier": "all identifiers", "why_tests_cant": "All identifiers.", "anchors": ["src/assembler/parser.rs:Parser::parse_field_list", "src/assembler/parser.rs:Parser::parse_label"]}
{"id": "C20", "title": "Instruction encoding follows the README tables", "statement": "An instruction is accepted exactly when its mnemonic (any case) and operands match a row of the README's tables (plus NOP = 0000), every label operand is defined, and every value fits its field; the emitted two bytes, big endian, are that row's opcode pattern with its x, y and n nibbles filled from the operands (the unused y nibble of SHR/SHL being 0).", "quantifier": "all mnemonics, operand lists and label tables", "why_tests_cant": "Infinite set of mnemonics, operands and label tables; must exclude accepting anything else.", "anchors": ["src/assembler/instruction.rs:Instruction::from_mnemonic_and_parameters", "src/assembler/opcode.rs:Opcode::as_instruction", "src/assembler/instruction.rs:Instruction::into_vec"]}
{"id": "C21", "title": "Values are never truncated", "statement": "A literal or label value that does not fit its field (more than 255 for nn, more than 15 for n) is rejected with an error naming the value; no accepted instruction contains a truncated value.", "quantifier": "all instructions, literals and label tables", "why_tests_cant": "All values in all field positions.", "anchors": ["src/assembler/instruction.rs:numeric_literal_to_8_bit_field", "src/assembler/instruction.rs:numeric_literal_to_4_bit_field"]}
{"id": "C22", "title": "A label operand means its value", "statement": "Replacing a label operand by a numeric literal of that label's value yields the same outcome for that instruction, for every mnemonic and operand position.", "quantifier": "all instructions, operand positions and label tables", "why_tests_cant": "Metamorphic property over all instructions.", "anchors": ["src/assembler/instruction.rs:Instruction::from_mnemonic_and_parameters", "src/assembler/instruction.rs:resolve_label_with_map"]}
{"id": "C23", "title": "Undefined labels are errors", "statement": "An instruction that would match a format but whose label operand is not defined is rejected with UnableToResolveLabel of that label; defined labels never yield that error.", "quantifier": "all instructions and label tables", "why_tests_cant": "All label tables.", "anchors": ["src/assembler/instruction.rs:resolve_label_with_map"]}
{"id": "C24", "title": "Mnemonics and directive names are case-insensitive", "statement": "Changing the letter case of instruction mnemonics and directive names does not change the program's outcome: the same bytes, or an error of the same kind at the same place.", "quantifier": "all programs and all re-casings", "why_tests_cant": "All re-casings of all programs.", "anchors": ["src/assembler/instruction.rs:Instruction::from_mnemonic_and_parameters", "src/assembler/directive.rs:Directive::from_identifier_and_parameters"]}
{"id": "C25", "title": "Opcode decoding and encoding are mutually inverse", "statement": "Encoding an opcode with fields in range and decoding gives the same opcode; decoding a 16-bit word and encoding gives the same word unless the word decodes to NOP; encoding panics exactly when a nibble field is out of range.", "quantifier": "all opcodes and all 65536 words", "why_tests_cant": "The unit test stops at 0xFFFE and never ranges over opcode values or out-of-range fields.", "anchors": ["src/assembler/opcode.rs:Opcode::from_instruction", "src/assembler/opcode.rs:Opcode::as_instruction"]}
{"id": "C26", "title": "Disassembly re-assembles to the same word", "statement": "Assembling the text produced by disassembling a word that is not NOP-by-default gives the word back.", "quantifier": "all 65536 words", "why_tests_cant": "Tests only compare fixed strings and never feed them to the assembler.", "anchors": ["src/assembler/opcode.rs:Opcode::to_assembly_string", "src/assembler/scanner.rs:Scanner", "src/assembler/parser.rs:parse", "src/assembler/assembler.rs:assemble"]}
{"id": "C27", "title": "Label values are addresses or constants", "statement": "On success each label's value is the constant of an '.equ' directive immediately following it, or otherwise the address at which the next emitted byte would go: the last preceding '.org' address (or 0) plus the sizes of all statements emitted since.", "quantifier": "all programs", "why_tests_cant": "Depends on the whole prefix of every program.", "anchors": ["src/assembler/assembler.rs:define_labels"]}
{"id": "C28", "title": "Labels are defined once", "statement": "A program defining a label twice is rejected with RedefinitionOfLabel at the second definition (unless an earlier statement is itself in error), and an accepted program defines no label twice; every label of an accepted program is in the label table and nothing else is.", "quantifier": "all programs", "why_tests_cant": "All programs with any number of labels.", "anchors": ["src/assembler/assembler.rs:define_labels"]}
{"id": "C29", "title": "Acceptance is exactly well-formedness", "statement": "A syntax list assembles successfully exactly when all directives are valid, every '.equ' follows a label, no label is defined twice, no statement moves the address counter past $FFF, and every instruction is encodable; label references may precede definitions.", "quantifier": "all programs", "why_tests_cant": "An if-and-only-if over all programs.", "anchors": ["src/assembler/assembler.rs:assemble", "src/assembler/assembler.rs:define_labels", "src/assembler/assembler.rs:emit_data_ranges"]}
{"id": "C30", "title": "The first error is reported", "statement": "When assembly fails, the error is about the first statement in source order violating the first pass's conditions, or, if there is none, about the first instruction in source order that cannot be encoded, and carries that statement's location.", "quantifier": "all programs", "why_tests_cant": "All programs with any combination of errors.", "anchors": ["src/assembler/assembler.rs:define_labels", "src/assembler/assembler.rs:emit_data_ranges"]}
{"id": "C31", "title": "The second pass never panics", "statement": "For every syntax list whose register operands are in 0..15 (in particular for every parsed one), assembly returns a result or an error without panicking: neither the unwrap of re-validated directives nor the assertions that data fits its range can fail after the first pass succeeded.", "quantifier": "all syntax lists", "why_tests_cant": "Consistency of two passes over all programs.", "anchors": ["src/assembler/assembler.rs:emit_data_ranges", "src/assembler/data_range.rs:DataRange::append"]}
{"id": "C32", "title": "The memory image is exactly what the program says", "statement": "On success, the bytes of the produced data ranges are exactly the bytes emitted by the statements, each at the address of its statement plus its offset within the statement, in source order; no other byte is produced and each range is non-empty.", "quantifier": "all programs", "why_tests_cant": "Relates all bytes of all programs to their source statements.", "anchors": ["src/assembler/assembler.rs:emit_data_ranges", "src/assembler/assembler.rs:assemble"]}
{"id": "C33", "title": "Jumps to labels land on the labelled statement", "statement": "If an accepted program references an address label in a jump, call or 'ld i', the 12-bit address encoded there is the address at which the first byte emitted after the label's definition (before any '.org') is placed in the output.", "quantifier": "all programs, labels and references", "why_tests_cant": "Needs agreement of the address computations of two separate passes over all programs.", "anchors": ["src/assembler/assembler.rs:define_labels", "src/assembler/assembler.rs:emit_data_ranges"]}
{"id": "C34", "title": "No address is written outside memory", "statement": "Every byte of an accepted program lies at an address in 0..4095; the address arithmetic of the produced ranges never wraps.", "quantifier": "all programs", "why_tests_cant": "All programs.", "anchors": ["src/assembler/assembler.rs:define_labels", "src/assembler/data_range.rs:DataRange::address_range"]}
{"id": "C35", "title": "Every byte of memory can be used", "statement": "A program whose bytes all lie in $000..$FFF is not rejected for overflow; in particular the byte $FFF can be emitted.", "quantifier": "all programs", "why_tests_cant": "Boundary over all programs.", "anchors": ["src/assembler/assembler.rs:define_labels"]}
{"id": "C36", "title": "Data range operations are atomic and bounded", "statement": "Appending to a data range either succeeds, adding exactly the bytes at the end, or fails leaving it unchanged; it succeeds exactly when the data fit below address 4096; start + length never exceeds 4096 for any history of appends.", "quantifier": "all ranges and all sequences of appends", "why_tests_cant": "All histories of operations.", "anchors": ["src/assembler/data_range.rs:DataRange::append", "src/assembler/data_range.rs:DataRange::bytes_remaining"]}
{"id": "C37", "title": "Overlap detection is exact", "statement": "Two produced data ranges are reported as overlapping exactly when some address belongs to both; the report lists every such pair exactly once, in order.", "quantifier": "all pairs and lists of ranges", "why_tests_cant": "All lists of ranges; wrap-around of the end address at $FFF.", "anchors": ["src/assembler/data_range.rs:DataRange::intersects", "src/assembler/data_range.rs:find_overlapping_ranges"]}
{"id": "C38", "title": "Accepted output writes each address at most once", "statement": "When the tool writes output, no address is written twice; when two statements emit to the same address the tool reports an error and writes nothing.", "quantifier": "all programs", "why_tests_cant": "All programs.", "anchors": ["src/main.rs:assemble_file", "src/assembler/data_range.rs:find_overlapping_ranges"]}
{"id": "C39", "title": "The HEX output loads to the program's memory image", "statement": "Reading the produced text with an independent Intel HEX (I8HEX) reader succeeds, with valid checksums, and yields exactly the bytes of the data ranges at their addresses, in order, and nothing else.", "quantifier": "all lists of data ranges", "why_tests_cant": "All memory contents.", "anchors": ["src/assembler/ihex_writer.rs:ihex_representation_of_data_ranges"]}
{"id": "C40", "title": "The HEX output is well-formed", "statement": "The output consists of newline-terminated lines of upper-case ASCII records: data records of 1 to 16 bytes, then exactly one end-of-file record ':00000001FF' as the last line; record lengths, addresses and checksums are correct; record-address arithmetic never overflows and no panic occurs for non-overlapping ranges.", "quantifier": "all lists of data ranges", "why_tests_cant": "All memory contents.", "anchors": ["src/assembler/ihex_writer.rs:ihex_representation_of_data_ranges"]}
{"id": "C41", "title": "Nothing is written unless everything succeeded", "statement": "If the input cannot be read or is not UTF-8, or scanning, parsing, assembly or the overlap check fails, the tool exits with status 1 after printing an error, and creates, truncates or writes no file.", "quantifier": "all inputs, file systems and failures", "why_tests_cant": "All failing inputs and I/O behaviours.", "anchors": ["src/main.rs:assemble_file", "src/main.rs:main"]}
{"id": "C42", "title": "On success exactly the HEX text is written to the chosen output", "statement": "If everything succeeds the tool writes exactly the HEX text once to the path given by -o ('a.hex' by default, standard output for '-'), touches no other file, prints no error and exits with status 0.", "quantifier": "all accepted programs and options", "why_tests_cant": "All programs.", "anchors": ["src/main.rs:assemble_file", "src/main.rs:main"]}
{"id": "C43", "title": "The tool never panics", "statement": "For every command line (with a program name), file system behaviour and input file contents, the tool terminates without panicking.", "quantifier": "all environments and inputs", "why_tests_cant": "All inputs.", "anchors": ["src/main.rs:main", "src/main.rs:assemble_file"]}
{"id": "C44", "title": "Source location arithmetic and messages", "statement": "Every diagnostic about a statement or token begins with 'file:line:column' (or 'file:line:first-last' for longer spans) of that statement or token, with last = first + length - 1.", "quantifier": "all diagnostics", "why_tests_cant": "All programs in error.", "anchors": ["src/assembler/source_file_location.rs:SourceFileLocation::fmt", "src/assembler/assembler.rs:SemanticError::fmt", "src/assembler/parser.rs:Error::fmt"]}
{"id": "C45", "title": "Label names do not matter", "statement": "Renaming the labels of a program injectively, in definitions and references alike, does not change the produced data ranges.", "quantifier": "all programs and all injective renamings", "why_tests_cant": "Metamorphic property over all programs and renamings.", "anchors": ["src/assembler/assembler.rs:assemble"]}
{"id": "C46", "title": "Unused labels do not matter", "statement": "Inserting a definition of a fresh label that nothing references, anywhere not separating a label from its '.equ', does not change the produced data ranges.", "quantifier": "all programs and positions", "why_tests_cant": "Metamorphic property over all programs.", "anchors": ["src/assembler/assembler.rs:assemble"]}
{"id": "C47", "title": "Sections may be reordered", "statement": "Permuting the '.org' sections of an accepted program that starts with '.org' (and whose labels are not separated from their '.equ') permutes the produced data ranges and so leaves the memory image unchanged.", "quantifier": "all programs and permutations", "why_tests_cant": "Metamorphic property over all programs and permutations.", "anchors": ["src/assembler/assembler.rs:assemble"]}
{"id": "C48", "title": "Splitting or joining .db changes nothing", "statement": "Replacing '.db a, b' by '.db a' followed by '.db b' (for non-empty argument lists a and b) leaves the produced data ranges unchanged.", "quantifier": "all programs, argument lists and split points", "why_tests_cant": "Metamorphic property over all programs.", "anchors": ["src/assembler/directive.rs:Directive::from_identifier_and_parameters", "src/assembler/assembler.rs:assemble"]}
{"id": "C49", "title": "The disassembler knows exactly the README's opcodes", "statement": "A 16-bit word is decoded to an instruction other than NOP exactly if its hexadecimal digits match the pattern of a row of the README's table; it matches at most one row; and the text displayed for it is that row's mnemonic and operands with the digits of the word filled in. An instruction that was assembled is displayed as the row it was written by.", "quantifier": "all 65536 words; all instructions with labels", "why_tests_cant": "A table-driven test covers a sample of words; the claim is about every word and every row, and relates decoding, encoding and display.", "anchors": ["src/assembler/opcode.rs:Opcode::from_instruction", "src/assembler/opcode.rs:Opcode::to_assembly_string", "README.md"]}
{"id": "C50", "title": "How a number is written does not matter", "statement": "Replacing a numeric literal by another way to write the same number (decimal, '$' or '#' hexadecimal in either case, '%' binary with '.' for zero, with leading zeros) does not change the program read or the output.", "quantifier": "all texts, all places of a literal, all pairs of notations of numbers up to 4095", "why_tests_cant": "Quantifies over all source texts and pairs of notations.", "anchors": ["src/assembler/scanner.rs:Scanner", "src/assembler/parser.rs:Parser"]}
{"id": "C51", "title": "Labels may be replaced by their values", "statement": "Replacing any label operands of a program by the numbers the labels stand for leaves the outcome unchanged: the same data ranges, or the same error at the same place (up to the operands quoted in 'No matching instruction').", "quantifier": "all programs and all subsets of their label operands", "why_tests_cant": "Metamorphic property over all programs, including forward references and constants.", "anchors": ["src/assembler/assembler.rs:assemble", "src/assembler/instruction.rs:resolve_label_with_map"]}
{"id": "C52", "title": "An .org to the next address changes nothing in memory", "statement": "Inserting '.org' with the address the next statement has anyway (not between a label and its '.equ') leaves the bytes and their addresses unchanged, or the error.", "quantifier": "all programs and positions", "why_tests_cant": "Metamorphic property over all programs and positions.", "anchors": ["src/assembler/assembler.rs:define_labels", "src/assembler/assembler.rs:emit_data_ranges"]}
{"id": "C53", "title": "Later statements do not mend errors", "statement": "If a program is refused for anything but an undefined label, it is refused with any statements added at the end; errors of the first pass are reported unchanged. So every beginning of an accepted program is accepted or uses a label defined later.", "quantifier": "all programs and continuations", "why_tests_cant": "Quantifies over all programs and all continuations.", "anchors": ["src/assembler/assembler.rs:assemble"]}
{"id": "C54", "title": "Changes that do not matter, for whole texts", "statement": "If two source texts are read as programs that differ by renaming labels, by labels replaced by values, by an unused label, or by a split '.db', in any layout and under any file names, the tool produces the same HEX text for both or for neither.", "quantifier": "all pairs of source texts so related", "why_tests_cant": "Relates two runs of the whole pipeline for all texts.", "anchors": ["src/main.rs:assemble_file", "src/assembler/assembler.rs:assemble"]}
{"id": "C55", "title": "Syntax errors list exactly what could stand there", "statement": "The kinds of tokens listed as expected in a syntax error are exactly the kinds that could stand at that place: with such a token there, and with no other, the tokens so far can be completed to an accepted program.", "quantifier": "all token lists that fail to parse, all tokens in place of the offending one or of the end of the file", "why_tests_cant": "Quantifies over all rejected token lists and all their completions.", "anchors": ["src/assembler/parser.rs:Parser", "src/assembler/parser.rs:Error", "src/assembler/token.rs:display_names"]}
{"id": "C56", "title": "A program can be moved in memory", "statement": "Adding k to every '.org' of a program that starts with one moves its blocks by k and, if no instruction refers to an address label, leaves their bytes the same; it is accepted exactly if it was before and there is room. Address labels move by k, constants do not; in general the bytes are those of the program with its labels replaced by their new values.", "quantifier": "all programs that start with '.org', all distances", "why_tests_cant": "Metamorphic property over all programs and distances.", "anchors": ["src/assembler/assembler.rs:define_labels", "src/assembler/assembler.rs:emit_data_ranges"]}
{"id": "C57", "title": "Scanning and parsing may be interleaved", "statement": "Pulling tokens from the scanner one at a time, as the code does, gives the same result as parsing the list of all its tokens, for this or any other iterator that delivers them; the scanner delivers the tokens of the text and then nothing, however often it is asked.", "quantifier": "all iterators and token lists; all texts", "why_tests_cant": "Quantifies over all iterators and all texts.", "anchors": ["src/assembler/parser.rs:Parser", "src/assembler/scanner.rs:next", "src/main.rs:assemble_file"]}
{"id": "C58", "title": "The first syntax error is reported whatever follows", "statement": "When the first lines of a text contain a syntax error, the tool prints the same message whatever lines follow them (unless they close a string left open).", "quantifier": "all texts, all continuations", "why_tests_cant": "Quantifies over all continuations of all texts.", "anchors": ["src/assembler/parser.rs:parse_statement_list", "src/assembler/scanner.rs:next"]}
{"id": "C59", "title": "The tool depends on one file and changes one", "statement": "What the tool prints, its exit status and what it writes depend only on the contents of the input file; it changes at most the output file; running it again gives the same again, unless the output is the input, when it refuses: a HEX file is not a program.", "quantifier": "all environments and file systems, all programs", "why_tests_cant": "Quantifies over all file systems and all input files.", "anchors": ["src/main.rs:main", "src/main.rs:assemble_file"]}
{"id": "C60", "title": "An instruction can be read back from its two bytes", "statement": "The two bytes of an accepted instruction determine it: the same mnemonic (up to letter case), the same registers, the same numbers; two accepted instructions have the same bytes exactly if they agree in these. The words there are are exactly those matching a row of the README's table, with the unused digit of a shift 0.", "quantifier": "all pairs of instructions with operands and labels; all 16-bit words", "why_tests_cant": "Quantifies over all pairs of instructions under all label tables.", "anchors": ["src/assembler/instruction.rs:from_mnemonic_and_parameters", "src/assembler/opcode.rs:as_instruction"]}
{"id": "C61", "title": "DOS line ends are accepted", "statement": "Writing each line end as CR LF gives the same tokens, except that strings which go on to the next line get the CRs. If there is no such string the text is read as the same program, or refused in both forms, and the HEX text is the same.", "quantifier": "all source texts", "why_tests_cant": "Quantifies over all texts, including refused ones.", "anchors": ["src/assembler/scanner.rs:consume_whitespace", "src/assembler/scanner.rs:consume_newline"]}
{"id": "C62", "title": "Independent programs may be put one after the other", "statement": "If no label of one program is mentioned in the other and the second starts with '.org', then the two together are accepted exactly if each is (up to overlaps), with the ranges of the one followed by those of the other; if refused, for the reason one of the two is. The same for texts: the HEX file has the records of the first, those of the second, and the record at the end.", "quantifier": "all pairs of programs or texts", "why_tests_cant": "Quantifies over all pairs of programs of any length.", "anchors": ["src/assembler/assembler.rs:define_labels", "src/assembler/assembler.rs:emit_data_ranges", "src/assembler/ihex_writer.rs:ihex_representation_of_data_ranges"]}
{"id": "C63", "title": "The regular expressions find the lexemes", "statement": "The six patterns of the scanner, as written in the source, read by the rules of the regex crate and matched leftmost-first, find exactly the longest lexemes of strings, numbers and identifiers and exactly all the blanks before a token, at the start of the rest of the text and nowhere else.", "quantifier": "all texts", "why_tests_cant": "Quantifies over all texts; the preference order of alternatives and repetitions must coincide with the longest match.", "anchors": ["src/assembler/scanner.rs:consume_whitespace", "src/assembler/scanner.rs:consume_string_literal", "src/assembler/scanner.rs:consume_hex_literal", "src/assembler/scanner.rs:consume_bin_literal", "src/assembler/scanner.rs:consume_decimal_literal", "src/assembler/scanner.rs:consume_identifier"]}
{"id": "C64", "title": "A statement determines only its own bytes", "statement": "Replacing a statement by another of the same positive size changes exactly the bytes at the statement's address, to those of the new one; all other bytes and all addresses stay. If the new statement has no bytes under the labels of the program, the program is refused.", "quantifier": "all programs, all statements of equal size", "why_tests_cant": "Quantifies over all programs and replacements.", "anchors": ["src/assembler/assembler.rs:define_labels", "src/assembler/assembler.rs:emit_data_ranges"]}
{"id": "C65", "title": "Exactly the possible memory contents can be produced", "statement": "Every list of non-empty blocks of bytes that end at or before 4095 is the output of some source text, and the output of every text is such a list; every assignment of bytes to distinct addresses below 4095 is the memory some HEX file of the tool loads, and no other is.", "quantifier": "all lists of blocks, all memory images", "why_tests_cant": "Quantifies over all outputs; no test shows that nothing else can be produced.", "anchors": ["src/assembler/assembler.rs:emit_data_ranges", "src/assembler/directive.rs:from_identifier_and_parameters", "src/assembler/ihex_writer.rs:ihex_representation_of_data_ranges"]}
{"id": "C66", "title": "Diagnostics move with the text", "statement": "Putting k lines that are blank or comments before a text, or reading it from a file of another name, changes nothing about the outcome: the same HEX text, or the same message with the line number increased by k and the file name replaced wherever the place is named. Parser and assembler only pass places on.", "quantifier": "all texts, all file names, any number of lines", "why_tests_cant": "Quantifies over all texts including all refused ones and over every message of the tool.", "anchors": ["src/assembler/parser.rs:parse", "src/assembler/assembler.rs:assemble", "src/assembler/source_file_location.rs:fmt", "src/main.rs:assemble_file"]}
{"id": "C67", "title": "The command line", "statement": "A command line is accepted exactly if it is made of the letters and long names of the three options, with the argument of -o attached, after '=' or in the next word, of other words, and of '--' with any words after it, and gives no option twice; it means one thing; options and other words may stand in any order. One word that is no option is the input, the output is the argument of -o or 'a.hex'; help comes before version; all other command lines are refused and change no file.", "quantifier": "all lists of arguments, for each release of getopts", "why_tests_cant": "Quantifies over all command lines.", "anchors": ["src/main.rs:main", "src/main.rs:print_usage", "src/main.rs:print_version"]}
{"id": "C68", "title": "Diagnostics carry the names of the labels", "statement": "Renaming the labels of a refused program, without making two into one, gives a program refused for the same reason at the same place, with the new names in the diagnostic: a label defined twice, an unknown label, the operands of an unknown instruction. No program starts or stops being refused.", "quantifier": "all syntax lists, all renamings that keep labels apart", "why_tests_cant": "Quantifies over all refused programs and all renamings.", "anchors": ["src/assembler/assembler.rs:define_labels", "src/assembler/assembler.rs:emit_data_ranges", "src/assembler/instruction.rs:resolve_label_with_map"]}
{"id": "C69", "title": "The stack needed by the parser does not grow with the text", "statement": "However long the text, the functions of the parser are nested to a bounded depth, so that no text exhausts the stack. (False: operand lists are read by recursion.)", "quantifier": "all token lists, all texts", "why_tests_cant": "A test shows that one list fits one stack; the claim is about all lists and the dependence of the depth on their length.", "anchors": ["src/assembler/parser.rs:parse_literal_list", "src/assembler/parser.rs:parse_field_list", "src/assembler/parser.rs:parse_statement_list"]}
{"id": "C70", "title": "The program that runs is the program that was written", "statement": "Load the HEX file of an accepted source into the memory of any processor that takes its instructions from memory and reads them by the README's tables. As long as the code is not overwritten and the program counter is at an instruction of the source, each step executes the statement written there, with the registers, numbers and label values it names; the processor always finds an instruction, and only one.", "quantifier": "all accepted programs, all processors (state, effect of instructions), all runs", "why_tests_cant": "A statement about all programs and unbounded runs on any processor.", "anchors": ["src/assembler/assembler.rs:assemble", "src/assembler/instruction.rs:from_mnemonic_and_parameters", "src/assembler/ihex_writer.rs:ihex_representation_of_data_ranges", "src/main.rs:assemble_file"]}
{"id": "C71", "title": "A standard output that cannot be written", "statement": "If the standard output takes only so many bytes: what comes out is the beginning of what would have come out otherwise, the files are changed exactly as otherwise, and the status is 101 (a panic of println!) exactly when a complete line did not fit. A run that assembles and ends with status 0 has delivered its whole result.", "quantifier": "all command lines, file systems, inputs, and amounts of room on standard output", "why_tests_cant": "Tests run with a working standard output.", "anchors": ["src/main.rs:main", "src/main.rs:assemble_file", "src/main.rs:print_usage", "src/assembler/ihex_writer.rs:ihex_representation_of_data_ranges"]}
{"id": "C72", "title": "The word size of the machine does not matter", "statement": "A text is scanned to the same tokens whatever the width of usize (at least 12 bits). Numbers are read from the text into a usize; nothing else in the text reaches one.", "quantifier": "all texts, all word sizes", "why_tests_cant": "Tests run on one machine.", "anchors": ["src/assembler/scanner.rs:parse_12_bit_bin_str", "src/assembler/scanner.rs:consume_hex_literal", "src/assembler/scanner.rs:consume_decimal_literal", "src/assembler/scanner.rs:consume_bin_literal"]}
{"id": "C73", "title": "The diagnostics are exactly these", "statement": "For every error of the scanner, the parser and the assembler it is decided whether some source text provokes it. The scanner never reports an invalid decimal literal or an invalid identifier; the end of the text is reported only after '.', in a literal list or in a field list; a number is reported as too large for a byte or a nibble with its value, at most 4095; only '.db' can be too large or leave the address space.", "quantifier": "all texts, all error values", "why_tests_cant": "A test that provokes an error shows that it can occur; that no text provokes it takes a proof.", "anchors": ["src/assembler/scanner.rs:next", "src/assembler/scanner.rs:consume_decimal_literal", "src/assembler/scanner.rs:consume_identifier", "src/assembler/parser.rs:parse_statement", "src/assembler/assembler.rs:define_labels"]}
{"id": "C74", "title": "Different errors have different messages", "statement": "Two source texts get the same message exactly if they are refused for the same reason at the same place of the file, up to three details no message says: the digits of a binary number out of range, the text of a misplaced comment, and which bytes a '.db' has. A refusal is never mistaken for a report of overlapping ranges, and that report tells where each of the ranges starts and how many bytes it has.", "quantifier": "all file names, all pairs of texts", "why_tests_cant": "Messages are put together from several texts and numbers; that no two combinations coincide is a statement about all pairs.", "anchors": ["src/assembler/scanner.rs:fmt", "src/assembler/parser.rs:fmt", "src/assembler/assembler.rs:fmt", "src/assembler/instruction.rs:fmt", "src/assembler/directive.rs:fmt", "src/assembler/data_range.rs:fmt"]}
{"id": "C75", "title": "Sizes", "statement": "A text has no more tokens than characters and no more statements than tokens; a program emits no more bytes than its text has, in no more blocks than bytes. The HEX file has 12 characters for each record, two for each byte and 12 for the end, so at most 57342 characters, which some program reaches. The overlap report has at most one pair for every two blocks, and for every number of blocks some program has that many. Directives and instructions announce exactly as many bytes as they emit.", "quantifier": "all file names, all texts", "why_tests_cant": "A largest size is a statement about all programs; the worst cases are not the programs one would test.", "anchors": ["src/assembler/scanner.rs:next", "src/assembler/parser.rs:parse", "src/assembler/assembler.rs:emit_data_ranges", "src/assembler/data_range.rs:find_overlapping_ranges", "src/assembler/ihex_writer.rs:ihex_representation_of_data_ranges"]}
{"id": "C76", "title": "Arguments as bytes", "statement": "Whatever bytes the arguments of the process are, the tool does what it is asked for or refuses, but does not panic. (Refuted: it panics exactly if there are no arguments at all or one of them is not UTF-8; otherwise the arguments are read as in C67.)", "quantifier": "all lists of byte strings as arguments, all environments and file systems", "why_tests_cant": "Arguments that are no text do not occur in tests.", "anchors": ["src/main.rs:main"]}
{"id": "C77", "title": "Files with several names, and changed by others", "statement": "The output is the program that was in the input when it was read, whatever others do to the files meanwhile, and it is found under every name of the output file; the output may be the input file, under the same or another name. No other file changes, none at all if the input is refused or the output cannot be created, and a failing write changes the output file only.", "quantifier": "all file systems at the time of reading and of creating, with any links; all arguments", "why_tests_cant": "Links and concurrent changes are outside what a test of an assembler sets up.", "anchors": ["src/main.rs:main", "src/main.rs:assemble_file"]}
{"id": "C78", "title": "Descriptions and causes of errors", "statement": "The general description of an error tells its kind and nothing more: two errors of the scanner, the parser, directives, instructions or the assembler have the same description exactly if they are of the same type and kind. An error with a cause is printed as its place and its cause, and a cause has no further cause; an error of the scanner with no details is printed as its description with a full stop. The cause is why the directive reported means nothing or why the instruction reported has no word; other errors of the assembler have none.", "quantifier": "all errors of the five types", "why_tests_cant": "Distinctness of texts is a statement about all pairs of kinds; the details range over all texts and numbers.", "anchors": ["src/assembler/scanner.rs:description", "src/assembler/parser.rs:description", "src/assembler/directive.rs:description", "src/assembler/instruction.rs:description", "src/assembler/assembler.rs:description", "src/assembler/assembler.rs:cause"]}
{"id": "C79", "title": "Constants may be defined anywhere", "statement": "Moving the definition of a constant (a label and its '.equ') to any other place, not between another label and its '.equ', leaves the outcome unchanged, be it ranges or an error; so does removing a constant nobody uses. Labels with the same value, constants or addresses, may be used for one another.", "quantifier": "all programs, all places", "why_tests_cant": "Both places, and all the other statements of the program, are arbitrary.", "anchors": ["src/assembler/assembler.rs:define_labels", "src/assembler/assembler.rs:emit_data_ranges", "src/assembler/instruction.rs:resolve_label_with_map"]}
{"id": "C80", "title": "A blank may stand for another", "statement": "Replacing blanks (Unicode white space other than the newline) by other blanks, one for one, leaves the tokens and their places unchanged, except for the blanks within comments and strings; if the strings are the same, the tool's outcome is the same, be it the output or the message.", "quantifier": "all pairs of texts that differ in blanks only", "why_tests_cant": "There are 24 blanks, and any number of them in any places.", "anchors": ["src/assembler/scanner.rs:consume_whitespace", "src/assembler/scanner.rs:next_token", "src/assembler/parser.rs:parse", "src/main.rs:assemble_file"]}
{"id": "C81", "title": "Files from other systems", "statement": "A text whose line ends are CR, VT, FF, NEL, LS or PS, or which begins with a byte order mark, is read like the one with newlines and without the mark.", "quantifier": "all texts, all marks", "why_tests_cant": "The line ends may be anywhere, next to anything; a test shows one file.", "anchors": ["src/assembler/scanner.rs:next_token", "src/assembler/scanner.rs:consume_single_line_comment"]}
{"id": "C82", "title": "Labels as the values of directives", "statement": "As the README says, a label in the range of a literal may stand for it in a directive.", "quantifier": "all texts with a name among the values of a directive", "why_tests_cant": "That no such text is accepted is a statement about all texts.", "anchors": ["src/assembler/parser.rs:parse_literal", "src/assembler/parser.rs:parse_literal_list", "src/assembler/parser.rs:parse_directive"]}
{"id": "C83", "title": "Damage to the output is noticed", "statement": "If one character of the output file is changed, lost or added, a reader of Intel HEX refuses the file or reads the same bytes from it; it refuses every proper beginning of the file, and the file with anything after it.", "quantifier": "all accepted texts, all places in the output, all characters", "why_tests_cant": "All places and characters of all outputs.", "anchors": ["src/assembler/ihex_writer.rs:ihex_representation_of_data_ranges", "src/main.rs:assemble_file"]}
{"id": "C84", "title": "Instructions are data, and data instructions", "statement": "In an accepted program any instruction, or all of them, may be replaced by a '.db' of its two bytes, and a '.db' of two bytes that are a word of the README's tables by an instruction: the output is the same.", "quantifier": "all accepted programs, all their statements", "why_tests_cant": "All programs, at any place, with labels before and after.", "anchors": ["src/assembler/assembler.rs:emit_data_ranges", "src/assembler/assembler.rs:define_labels", "src/assembler/instruction.rs:into_vec"]}
{"id": "C85", "title": "Beginnings of accepted texts", "statement": "The beginning of an accepted text, up to the end of any of its lines, is accepted too, unless a string goes on in the next line, a label is defined later, or the next line starts with the '.equ' of the last label.", "quantifier": "all accepted texts, all their lines", "why_tests_cant": "All texts and all lines where they may be cut.", "anchors": ["src/assembler/scanner.rs:next", "src/assembler/parser.rs:parse", "src/assembler/assembler.rs:define_labels", "src/main.rs:assemble_file"]}
{"id": "C86", "title": "Inserting and removing statements", "statement": "Instructions and data put into a program move what follows up to the next '.org' by their size and nothing else: address labels there go up with it, all others stay. If no instruction refers to a label that goes up, the program is accepted exactly if it was before, the new statements have a meaning and there is room; the bytes are the old ones, moved, and the new ones. In general they are those of the program with its label operands replaced by their new values.", "quantifier": "all programs, all places in them, all lists of instructions and data", "why_tests_cant": "All programs, places and inserted statements, with labels and '.org's on either side.", "anchors": ["src/assembler/assembler.rs:define_labels", "src/assembler/assembler.rs:emit_data_ranges", "src/assembler/instruction.rs:resolve_label_with_map"]}
{"id": "C87", "title": "No counter overflows", "statement": "With positions, lines and columns of the size of a machine word and a panic on every addition or subtraction that does not fit, the scanner gives the same tokens as with unbounded counters, for all texts that fit into memory; the same holds for the columns computed for messages. The bound on the text is the best possible.", "quantifier": "all texts, all word sizes of 12 bits and more", "why_tests_cant": "Texts of the size of the address space.", "anchors": ["src/assembler/scanner.rs:advance_by", "src/assembler/scanner.rs:consume_single_line_comment", "src/assembler/source_file_location.rs:fmt"]}
{"id": "C88", "title": "Call by call, and ended at any moment", "statement": "However the operating system divides reads and writes, and whatever calls it interrupts, a run that ends has done what the other properties say for the bytes that were read. If the process is ended at any moment, it has made no file, or the output file holds a beginning of the HEX text of the program that was read: all of it exactly if the run was successful, and otherwise something that no reader of HEX files accepts. It never panics and can always end. What was in the output file before is lost as soon as the new file is made.", "quantifier": "all sequences of answers of the operating system to the calls of the tool, at every point of them", "why_tests_cant": "Short reads, signals and kills at every possible moment cannot be provoked by a test.", "anchors": ["src/main.rs:assemble_file", "src/main.rs:main"]}
{"id": "C89", "title": "Lines of a source file replaced or inserted", "statement": "If complete lines that hold instructions and data are replaced by lines of the same size, the HEX file has the same bytes at the same addresses except for those of these lines; the new file is refused only if one of the new statements has no meaning there. If such lines are inserted or removed, and no instruction refers to an address that moves, the bytes up to the next '.org' move by their size and all others stay.", "quantifier": "all source texts, all cuts between lines, all replacements", "why_tests_cant": "There are infinitely many edits.", "anchors": ["src/assembler/assembler.rs:define_labels", "src/assembler/assembler.rs:emit_data_ranges", "src/main.rs:assemble_file"]}
{"id": "C90", "title": "The build profile does not matter", "statement": "With integers of the machine everywhere, the tool behaves the same whether it is built with overflow checks (debug profile: an addition or subtraction that does not fit panics) or without (release profile: the result is reduced modulo the word size): the same output, exit status and files for every command line and all files that fit in memory.", "quantifier": "both profiles, all command lines, all file systems, all texts below 2^63 bytes", "why_tests_cant": "Tests run in one profile; an overflow would be a panic there and silent in the other.", "anchors": ["src/main.rs:assemble_file", "src/assembler/scanner.rs:advance_by", "src/assembler/data_range.rs:bytes_remaining", "src/assembler/data_range.rs:fmt", "src/assembler/ihex_writer.rs:ihex_representation_of_data_ranges", "src/assembler/source_file_location.rs:fmt"]}
{"id": "C91", "title": "Where white space is needed", "statement": "White space between two tokens can be left out exactly if the text before it cannot be read on into the character after it, which a small table decides: words go on with letters, digits and '_', decimal numbers with digits, '$' or '#' numbers with up to three hexadecimal digits, '%' numbers with '0', '1' and '.', everything else with nothing. Where it can be left out, tokens, program and HEX file stay the same; where it cannot, an accepted text becomes another program or is refused.", "quantifier": "all texts, all positions between tokens, all runs of white space", "why_tests_cant": "Which pairs of neighbours run together depends on all eleven token patterns at once; tests write programs with the customary spaces.", "anchors": ["src/assembler/scanner.rs:next_token", "src/assembler/scanner.rs:consume_whitespace", "src/assembler/parser.rs:parse"]}
{"id": "C92", "title": "Several runs at once", "statement": "If several runs of the tool are under way at the same time on the same file system, their system calls interleaved in any order, and no run writes a file that another one reads or writes, then each run prints, returns and writes what it would alone on the files as they were at the start; the order of the calls does not matter. (Without -o all runs write a.hex: two of them may both succeed and leave a valid HEX file that is the program of neither.)", "quantifier": "all numbers of runs, all interleavings of their calls, all sizes of reads and writes, all failures", "why_tests_cant": "The interleavings are not under a test's control.", "anchors": ["src/main.rs:assemble_file", "src/main.rs:main"]}
{"id": "C93", "title": "When two HEX files are the same", "statement": "Two accepted sources give the same HEX file exactly if they put the same bytes at the same addresses in the same order and the same addresses begin a block or come a multiple of 16 bytes after its beginning. An '.org' line to the address where it stands is accepted, leaves every byte where it is, and leaves the file as it is exactly if a multiple of 16 bytes precede it in its block or none follow it.", "quantifier": "all pairs of accepted texts; all texts and places for an '.org' line", "why_tests_cant": "The space of pairs of programs is unbounded; agreement of the bytes hides the division into records.", "anchors": ["src/assembler/ihex_writer.rs:ihex_representation_of_data_ranges", "src/assembler/assembler.rs:emit_data_ranges"]}
{"id": "C94", "title": "A source file in capitals", "statement": "Writing letters of a source in the other case leaves every token at its place, changes no number, and changes names, comments and strings only in the case of the letters. If the strings are as they were, no name is 'Dt', 'dT', 'St' or 'sT', and labels which were different remain so, the HEX file is the same. In particular a source without strings may be written in capitals, or in small letters, throughout. A source that is refused is refused in the same way, with a message that differs only in the case of letters.", "quantifier": "all pairs of texts which differ only in the case of ASCII letters", "why_tests_cant": "Mnemonics, registers, directives, hexadecimal digits and labels may each be written in any mixture of cases, in texts of any length.", "anchors": ["src/assembler/scanner.rs:Scanner::next_token", "src/assembler/parser.rs:Parser::parse_field_list", "src/assembler/assembler.rs:assemble"]}
{"id": "C95", "title": "The HEX files are exactly these", "statement": "A text is the HEX file of some source exactly if it consists of the lines of data records of 1 to 16 bytes at pairwise different addresses below 4095, in any order, and the end record. The records of a file are unique, and a source of one '.org' and one '.db' for each of them gives the very same file again.", "quantifier": "all texts; all lists of records", "why_tests_cant": "The space of HEX files is unbounded, and tests cannot show that a file is not written for any source.", "anchors": ["src/assembler/ihex_writer.rs:ihex_representation_of_data_ranges", "src/assembler/assembler.rs:emit_data_ranges"]}
{"id": "C96", "title": "Syntax is a matter of the kinds of the tokens", "statement": "Whether a text is a program depends only on the kinds of its tokens: names may be replaced by names, numbers by numbers and strings by strings. If it is, the statements have the same shapes; if not, the error is at the same token and lists the same expectations. Two syntax lists have the same shapes exactly if they are written with tokens of the same kinds.", "quantifier": "all pairs of token lists of the same kinds", "why_tests_cant": "The names, numbers and strings that can stand in a program are unbounded.", "anchors": ["src/assembler/parser.rs:parse", "src/assembler/parser.rs:parse_literal_list", "src/assembler/parser.rs:parse_field_list"]}
{"id": "C97", "title": "Comments and strings can be found without scanning", "statement": "A machine of four states that reads one character at a time (in code, in a string, after a backslash in a string, in a comment) finds exactly the comments and strings the scanner finds in a text without lexical errors; outside them there are only letters, digits, the characters _ . : , $ # % [ ], newlines and white space. No token, not even an error, begins inside a comment or a string. Deleting the comments leaves the same program at the same places, if their newlines stay. What comments say has no influence on the outcome, be it the output or a message, unless the message is about a comment itself.", "quantifier": "all texts, all pairs of texts that differ within comments", "why_tests_cant": "Semicolons in strings, quotes in comments and escaped characters can be nested in unboundedly many ways.", "anchors": ["src/assembler/scanner.rs:next_token", "src/assembler/scanner.rs:consume_string_literal", "src/assembler/scanner.rs:consume_single_line_comment"]}
{"id": "C98", "title": "Contained programs stay among their instructions", "statement": "Call a program contained if whatever an instruction of it leads to by the README's table (the next instruction, the one after if it may skip, the target of a jump or call and the place to return to) is the address of an instruction of the program, and there is no trap and no 'JP V0'. On every processor that goes where the README says, an accepted contained program that is loaded and started at one of its instructions always has its program counter at an instruction of the program, and executes what is written there, for as long as it does not write over its instructions and does not return without having been called; if it has no storing instruction it does not write over them. Nothing less than containment is enough. Containment is decidable; an instruction followed by another, and labels before instructions, satisfy it.", "quantifier": "all accepted programs, processors and runs", "why_tests_cant": "The runs of a program are unboundedly long, and processors differ.", "anchors": ["src/assembler/assembler.rs:define_labels", "src/assembler/assembler.rs:emit_data_ranges", "src/assembler/instruction.rs:from_mnemonic_and_parameters"]}
{"id": "C99", "title": "Which numbers may stand where", "statement": "In an accepted program the value of an instruction, a number or a label, may be replaced by another one exactly if that is at most 4095, 255 or 15, whichever the operand's column in the README's tables stands for; the word of the instruction then changes by the difference and nothing else changes. Otherwise the program is refused at that instruction with the value in the error. The same goes for the numbers of a '.db' and 255. '.org' and '.equ' take one number of at most 4095, which the README rules out.", "quantifier": "all accepted programs, all operands and values", "why_tests_cant": "There is a limit for each operand of each instruction, and any program around it.", "anchors": ["src/assembler/instruction.rs:from_mnemonic_and_parameters", "src/assembler/directive.rs:from_identifier_and_parameters", "src/assembler/assembler.rs:emit_data_ranges"]}
{"id": "C100", "title": "The work grows with the text", "statement": "Between reading the input and writing the output, assembling a text takes a number of steps in proportion to its bytes. A step is a call, an operation on numbers, a turn of a loop, or a character or byte that is copied, compared or searched.", "quantifier": "all texts", "why_tests_cant": "Time depends on the length of the text, and only large texts with many blocks show that it does not grow in proportion.", "anchors": ["src/assembler/scanner.rs:advance_by", "src/assembler/parser.rs:parse", "src/assembler/assembler.rs:assemble", "src/assembler/data_range.rs:find_overlapping_ranges", "src/assembler/ihex_writer.rs:ihex_representation_of_data_ranges", "src/main.rs:assemble_file"]}
{"id": "C101", "title": "Little memory is enough for the syntax, but not for the labels", "statement": "Whether a text is a program, as far as the scanner and the parser are concerned, can be found out by a machine that reads one character after the other and remembers 69 bits; it refuses a text at the first character after which nothing could make a program of it. Which texts are accepted as a whole cannot be found out with any fixed amount of memory: k labels need k bits.", "quantifier": "all texts; all machines", "why_tests_cant": "A machine agrees with any finite number of tests without being right, and that no machine is right cannot be tested at all.", "anchors": ["src/assembler/scanner.rs:next_token", "src/assembler/parser.rs:parse", "src/assembler/assembler.rs:define_labels"]}
{"id": "C102", "title": "Any map will do", "statement": "What the program writes does not depend on how the map from labels to addresses is made: with any map that obeys the laws of new, get, contains_key and insert the result is the same. A hash table that grows obeys them whatever its hash function, so neither the seed nor collisions matter.", "quantifier": "all texts, all maps that obey the laws, all hash functions", "why_tests_cant": "The hash function of the standard library is seeded at random; tests see a few seeds and hardly any collisions.", "anchors": ["src/assembler/assembler.rs:define_labels", "src/assembler/assembler.rs:emit_data_ranges", "src/assembler/instruction.rs:resolve_label_with_map"]}
{"id": "C103", "title": "The arms of the matches", "statement": "Taken in the order of the source, the arms of the matches on mnemonics and fields, and of the match on the digits of a word, give what the model gives. No two arms apply to the same instruction, so their order does not matter; each of the 46 arms for instructions without, with one or with two fields is used by some instruction. Of the arms for words only the last has to stay where it is.", "quantifier": "all mnemonics, fields, label maps, words and orders of the arms", "why_tests_cant": "An arm that is hidden by an earlier one is noticed only by a test made for it, and there is no end of fields to test with.", "anchors": ["src/assembler/instruction.rs:from_mnemonic_and_parameters", "src/assembler/opcode.rs:from_instruction"]}
{"id": "C104", "title": "Texts as bytes", "statement": "Scanning the UTF-8 bytes of a text, with the character boundaries, the decoder and the cuts of a Rust string, gives the tokens of the text as a list of characters, with their texts as bytes, and does not panic. Names are ASCII. A string is in the file as it is, between quotation marks, and `.db` copies these bytes. The data ranges, the errors, and the texts that are printed or written are the same as for the characters.", "quantifier": "all texts and their encodings; all ranges of bytes to cut out", "why_tests_cant": "A byte offset inside a character is reached only by texts outside ASCII in the right places, and there is no end of them.", "anchors": ["src/assembler/scanner.rs:Scanner", "src/assembler/directive.rs:from_identifier_and_parameters"]}
{"id": "C105", "title": "Taking out the statement reported", "statement": "The error reported is about a statement. When that statement is taken out, the next error, if there is one, is no sooner: a statement in error in the first pass stands behind it; after an instruction which cannot be encoded is taken out the first pass still finds nothing, although the labels behind it move, and what cannot be encoded then stands behind it. So a program is mended in one pass forward through its declarations and one forward through its instructions, and in as many steps as statements are taken out.", "quantifier": "all programs", "why_tests_cant": "A statement taken out moves every label behind it, and instructions before it may refer to these; which programs would then fail earlier is a question about all of them.", "anchors": ["src/assembler/assembler.rs:define_labels", "src/assembler/assembler.rs:assemble"]}
{"id": "C106", "title": "Other registers", "statement": "If the registers of a program other than V0 are replaced by others, the program is accepted exactly if it was. Its labels, its data and the addresses of its ranges are the same, and in its instructions exactly the digits that are registers change. If it was refused, it is refused for the same reason at the same place. On a processor to which the registers used are alike, it runs as before with the registers moved. V0 cannot be replaced: an instruction asks for it.", "quantifier": "all programs, all maps of the registers 1 to 15 among themselves", "why_tests_cant": "There are 15^15 such maps; a wrong digit in one instruction for one register shows in few of them.", "anchors": ["src/assembler/instruction.rs:from_mnemonic_and_parameters", "src/assembler/opcode.rs:Opcode"]}
{"id": "C107", "title": "The text of the source, executed: instructions", "statement": "The text of opcode.rs and instruction.rs, read as Rust and executed expression by expression, does for all arguments what the model of these files does: each function returns the model's value, and panics exactly if the model does.", "quantifier": "all opcodes, all 16-bit words, all mnemonics, operand lists and label tables", "why_tests_cant": "The table has rows that differ in one digit or one operand; a test executes the rows it names. Here every row is executed for every operand.", "anchors": ["src/assembler/opcode.rs:from_instruction", "src/assembler/opcode.rs:to_assembly_string", "src/assembler/opcode.rs:as_instruction", "src/assembler/instruction.rs:from_mnemonic_and_parameters", "src/assembler/instruction.rs:into_vec"]}
{"id": "C108", "title": "The text of the source, executed: assembling", "statement": "The text of directive.rs, data_range.rs, source_file_location.rs and assembler.rs, read as Rust and executed expression by expression, does for all arguments what the model of these files does: the two passes give the model's label table, data ranges, error or panic, and the messages are the model's.", "quantifier": "all syntax lists, label tables, data ranges, directives and locations", "why_tests_cant": "The two passes walk the list with a lookahead and change addresses on the way. A test runs a few lists; the loops here are executed for all lists, by induction on the list.", "anchors": ["src/assembler/assembler.rs:define_labels", "src/assembler/assembler.rs:emit_data_ranges", "src/assembler/assembler.rs:assemble", "src/assembler/directive.rs:from_identifier_and_parameters", "src/assembler/data_range.rs:find_overlapping_ranges", "src/assembler/data_range.rs:append"]}
{"id": "C109", "title": "The text of the source, executed: scanning", "statement": "The text of scanner.rs and token.rs, read as Rust and executed expression by expression, cuts every text into the tokens the grammar of the language gives it: calling next until it answers None gives this list, with the positions and the error of the grammar, and from any other position of the scanner next gives the token or the panic of the model.", "quantifier": "all texts, file names, scanner positions, tokens and scanner errors", "why_tests_cant": "The scanner keeps a byte position, a line and a column in step by hand. A test scans a few texts; here the text of all its functions is executed for all inputs and the tokens are those of the regular expressions.", "anchors": ["src/assembler/scanner.rs:next_token", "src/assembler/scanner.rs:advance_by", "src/assembler/scanner.rs:consume_single_line_comment", "src/assembler/scanner.rs:consume_string_literal", "src/assembler/scanner.rs:consume_bin_literal", "src/assembler/token.rs:location"]}
{"id": "C110", "title": "The text of the source, executed: parsing", "statement": "The text of parser.rs, read as Rust and executed expression by expression, parses every list of tokens as the grammar says: parse answers, with a list of nodes just if the grammar gives that list, and else with the model's error; also when the tokens come from the scanner of scanner.rs, executed a token at a time; and its messages are the model's.", "quantifier": "all texts, lists of tokens, syntax errors and instruction fields", "why_tests_cant": "The parser has two tokens in hand, recursive rules that pass a list along, and early returns. A test parses a few texts; here the text of its functions is executed for all token lists by induction.", "anchors": ["src/assembler/parser.rs:parse", "src/assembler/parser.rs:consume_token", "src/assembler/parser.rs:parse_field_list", "src/assembler/parser.rs:parse_literal_list", "src/assembler/parser.rs:parse_statement", "src/assembler/parser.rs:parse_statement_list"]}
{"id": "C111", "title": "The text of the source, executed: the HEX writer", "statement": "The text of ihex_writer.rs, read as Rust and executed expression by expression, turns every list of data ranges into the model's HEX text; so, for ranges of bytes that do not overlap, into a text in which a reader of HEX files finds exactly their bytes, in records of up to 16; and it panics if two of them overlap.", "quantifier": "all lists of data ranges", "why_tests_cant": "The records are made by two closures that are run alternately by a lazy iterator and share a RefCell. A test looks at a few texts; here the text of the function is executed for all lists by induction.", "anchors": ["src/assembler/ihex_writer.rs:ihex_representation_of_data_ranges"]}
{"id": "C112", "title": "The text of the source, executed: the tool", "statement": "The text of main.rs, read as Rust and executed expression by expression, with the command line, getopts, the files and the standard output answered by an arbitrary host, ends exactly as the model of the tool does: if the input file is a program it writes a file in which a reader of HEX files finds the program and ends with status 0, else it says so, ends with status 1 and touches no file; and status 0 means that the text was delivered.", "quantifier": "all command lines, file systems, errors of the system and amounts the standard output takes", "why_tests_cant": "Tests cannot run main with every failure of every file operation, and never look at what the process leaves behind. Here everything from main down to the opcodes is the executed text of the source.", "anchors": ["src/main.rs:main", "src/main.rs:assemble_file", "src/main.rs:print_usage", "src/main.rs:print_version"]}
{"id": "C113", "title": "The text of the source, executed: errors", "statement": "The text of the trait Error and of Display for the five error types, read as Rust and executed expression by expression, gives every error the model's description, cause and message; so two errors have the same description just if they are of one kind.", "quantifier": "all errors of the scanner, the parser, directives, instructions and the assembler", "why_tests_cant": "The description and cause methods are called by no test and by no other code of the repository. Here their text is executed for all errors.", "anchors": ["src/assembler/assembler.rs:cause", "src/assembler/assembler.rs:description", "src/assembler/instruction.rs:description", "src/assembler/directive.rs:description", "src/assembler/parser.rs:description", "src/assembler/scanner.rs:description"]}
{"id": "C114", "title": "The project's own tests, executed", "statement": "The text of the #[cfg(test)] modules, read as Rust together with the text of the files and executed expression by expression, ends as its authors expect: every test but one (92 in all) returns, or panics where #[should_panic] stands above it. Run as the tool on programs of tests/, the text of the source writes the object files that stand next to them, byte for byte, and refuses test_directives.S.", "quantifier": "all unit tests of the repository except test_from_instruction_round_trips, whose loop over the words is covered for every word by C116_round_trip; the programs of tests/ (the two largest as a build-time test, outside the proof term)", "why_tests_cant": "cargo test runs the tests on a compiler; here they test the reader and the machine the proofs about the source text rest on. The instance shows what they leave open: a program that loses everything before the last .org passes all of them.", "anchors": ["src/assembler/opcode.rs:test_to_assembly_string", "src/assembler/parser.rs:test_parse_field_list", "src/assembler/scanner.rs:test_string_literal_multiline", "src/assembler/data_range.rs:test_find_overlapping_ranges", "src/assembler/assembler.rs:test_define_labels", "src/assembler/ihex_writer.rs:test_ihex_representation_of_data_ranges_uneven_ranges", "src/main.rs:main"]}
{"id": "C115", "title": "The findings, seen by running the source", "statement": "The text of the source, executed from main as 'c8s a.s', shows each of these: a text refused for want of a last newline, the last byte of the memory out of use, a 65-digit binary number read as 0, 'Dt' unlike 'dt', a label nothing can name, a line lost behind a carriage return, constants refused by .db, '$200cls' read as two, a comment that makes a text wrong, a kept backslash, a byte order mark refused.", "quantifier": "for each finding there are texts that show it; the run of the tool on them is unique", "why_tests_cant": "No test runs the whole tool, and none has these texts. The claims they refute are C08, C09, C16, C17, C18, C19, C35, C81 and C82, where the model says exactly how far each is false; here the model plays no part.", "anchors": ["src/main.rs:main", "src/main.rs:assemble_file", "src/assembler/scanner.rs:parse_12_bit_bin_str", "src/assembler/parser.rs:parse_statement", "src/assembler/assembler.rs:define_labels"]}
{"id": "C116", "title": "The specifications, of the source text", "statement": "For the text of the source, executed, and with no function of the model in between: every 16-bit word is decoded and encoded to itself or to NOP; an instruction becomes two bytes just if the table has that word for it and is refused just with the error that is due; append takes what fits and nothing else; find_overlapping_ranges finds the pairs with an address in common; a text gives nodes just if the grammar does, and ranges just if the program is well formed, those of its layout, and otherwise the first error; and the HEX text of a well-formed program holds the bytes of each statement at its address if no two are at one address, and else there is a panic.", "quantifier": "all words, mnemonics, fields, label maps, ranges and texts", "why_tests_cant": "Tests compare single runs with single answers. Here what the text does is equated with what the tables, the grammar and the layout say.", "anchors": ["src/assembler/opcode.rs:from_instruction", "src/assembler/opcode.rs:as_instruction", "src/assembler/instruction.rs:from_mnemonic_and_parameters", "src/assembler/instruction.rs:into_vec", "src/assembler/data_range.rs:append", "src/assembler/data_range.rs:find_overlapping_ranges", "src/assembler/parser.rs:parse", "src/assembler/assembler.rs:assemble", "src/assembler/ihex_writer.rs:ihex_representation_of_data_ranges"]}
{"id": "C117", "title": "The tool, executed, and what is claimed of the tool", "statement": "The text of main.rs, executed on any command line and any files with enough room on the standard output, ends in one way, with status 0 or 1 and never with a panic; with less room it prints as much as there is room for and panics just if a complete line is lost, and the files are the same. It depends on one file and changes at most one; run again it leaves the same, unless the output is the input, which is then refused; and the file it writes is run by a processor as the statements of the source say.", "quantifier": "all hosts (arguments, option parsers, error messages), files, rooms, texts and processors; writing to the standard output fails for want of room only", "why_tests_cant": "Tests cannot run the tool on all command lines, files and full disks, and do not execute what the assembler has written.", "anchors": ["src/main.rs:main", "src/main.rs:assemble_file"]}
{"id": "C118", "title": "Changes that do not matter, of the executed source", "statement": "The text of main.rs, executed on two source files, writes the same object file, or neither, when the files differ only in what does not matter: blanks, idle lines and comments at the ends of lines, how a number is written, the names of labels, a label for its value, a label nothing refers to, one '.db' or two, where a constant is defined, the ends of the lines, and capitals. With other registers the same places hold the other words; and the object file of two independent programs one after the other is made of theirs.", "quantifier": "all hosts asked to assemble one file into another with no failure outside, all files holding the two texts, and all such pairs of texts", "why_tests_cant": "Tests compare one text with one expected object file; none compares two texts, or quantifies over the ways to write the same program.", "anchors": ["src/main.rs:main", "src/main.rs:assemble_file", "src/assembler/scanner.rs:Scanner", "src/assembler/parser.rs:parse", "src/assembler/assembler.rs:assemble"]}
{"id": "C119", "title": "What is printed, of the executed source", "statement": "The text of main.rs, executed on a file, either writes an object file or prints something and ends with status 1, and not both. It writes one just if the text means something, and the file then holds the memory it means. The first error in the order of the statements is what is printed, exactly as the text of its Display writes it, with the place of the name in the statement concerned. Everything printed is about the end of the file, about a piece of the text and its place, or about overlapping data; and with idle lines put before the text only the line number changes.", "quantifier": "all hosts asked to assemble one file into another with no failure outside, all files, all texts, all numbers of idle lines", "why_tests_cant": "The tests of the project never look at what is printed or at the status, and none has an erroneous file for the tool as a whole.", "anchors": ["src/main.rs:main", "src/main.rs:assemble_file", "src/assembler/assembler.rs:SemanticError", "src/assembler/source_file_location.rs:SourceFileLocation"]}
