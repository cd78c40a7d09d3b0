{"claims": [
  {"property": "C01", "status": "proved", "theorems": ["C01_scan", "C01_slice"], "note": "Scanner model with byte positions; slicing off a boundary is a crash in the model. The token list of any text is produced without crash and within the fuel. C01_slice: slicing gives the text on character boundaries, and crashes off them."},
  {"property": "C02", "status": "proved", "theorems": ["C02_partition", "C02_newline"], "note": "Error-free token lists spell the text with only non-newline white space between lexemes (C02_partition); a newline is in no lexeme but its own and strings (C02_newline)."},
  {"property": "C03", "status": "proved", "theorems": ["C03_location"], "note": "Locations of all tokens are those computed from the text before the token by an independent counting function."},
  {"property": "C04", "status": "proved", "theorems": ["C04_grammar", "C04_unique", "C04_longest", "C04_states"], "note": "The token list is the unique derivation of the relational longest-match grammar built from the regular expressions documented in scanner.rs. C04_states: where the scanner stands after any number of tokens."},
  {"property": "C05", "status": "proved", "theorems": ["C05_last", "C05_fatal", "C05_output"], "note": "An error token is last and unique; the parser rejects it; the tool reports an error."},
  {"property": "C06", "status": "proved", "theorems": ["C06_decimal"], "note": "Positional value, any number of digits."},
  {"property": "C07", "status": "proved", "theorems": ["C07_hexadecimal", "C07_invalid", "C07_numbers"], "note": "One to three digits, either case; the invalid literal error."},
  {"property": "C08", "status": "partial", "theorems": ["C08_refuted", "C08_claim_refuted", "C08_binary_partial", "C08_digits", "C08_actual"], "note": "False beyond 64 binary digits: C08_refuted gives a 65-digit literal read as 0. C08_binary_partial proves the claim of every numeral whose value is below 2^64 (all of up to 64 digits, C08_digits) or is not in range modulo 2^64 either, and these are all of which it is true: C08_actual says what happens for every length (value modulo 2^64)."},
  {"property": "C09", "status": "partial", "theorems": ["C09_refuted", "C09_false", "C09_digit_partial", "C09_meaning"], "note": "False when the fourth digit is a letter: 'ld i, $200cls' is read as two statements (C09_refuted, C09_false). C09_digit_partial: rejected when the fourth digit is decimal. C09_meaning: in every case the text means what it means with a blank after the third digit."},
  {"property": "C10", "status": "proved", "theorems": ["C10_string", "C10_strings", "C10_unterminated", "C10_db"], "note": "Scanner side both ways (C10_string, C10_strings, C10_unterminated) and '.db' side against a relational UTF-8 encoding (C10_db)."},
  {"property": "C11", "status": "proved", "theorems": ["C11_parse", "C11_expected"], "note": "All token lists. Errors carry expectations, so the message printer does not index out of bounds."},
  {"property": "C12", "status": "proved", "theorems": ["C12_grammar", "C12_unambiguous"], "note": "Acceptance and the resulting syntax list coincide with an inductive grammar, which is unambiguous."},
  {"property": "C13", "status": "proved", "theorems": ["C13_token", "C13_eof"], "note": "Viable prefix property, for unexpected tokens and for end of file."},
  {"property": "C14", "status": "proved", "theorems": ["C14_round_trip", "C14_range", "C14_normal"], "note": "Writer with one statement per line; read back by the scanner and parser up to locations. Every parsed syntax list is writable (C14_range), so every accepted text is equivalent to the written form of its syntax list (C14_normal)."},
  {"property": "C15", "status": "proved", "theorems": ["C15_blanks", "C15_lines", "C15_first_line", "C15_comment", "C15_instruction", "C15_output"], "note": "Blanks at any token boundary, idle lines at any line boundary or at the start, comments after any line that does not end inside a directive's literal list; equivalence in both directions, and equal output."},
  {"property": "C16", "status": "partial", "theorems": ["C16_refuted", "C16_comment_partial", "C16_output_partial"], "note": "False after a comma (or the name) of a directive's literal list: '.db 1, ; one' (C16_refuted). C16_comment_partial: true for every other line, and only for those; C16_output_partial: same output."},
  {"property": "C17", "status": "partial", "theorems": ["C17_refuted", "C17_newline_partial", "C17_added", "C17_output_partial"], "note": "False for a mnemonic without operands at the end of the file: 'cls' (C17_refuted). C17_newline_partial says exactly when the newline can go; C17_added: it can always be added."},
  {"property": "C18", "status": "partial", "theorems": ["C18_refuted", "C18_partial", "C18_mixed"], "note": "False for mixed case of two-letter special names: 'Dt', 'dT', 'St' and 'sT' are labels (C18_refuted, C18_mixed). C18_partial proves the rest."},
  {"property": "C19", "status": "partial", "theorems": ["C19_refuted", "C19_claim_refuted", "C19_exact"], "note": "False for reserved names, which can be defined as labels but not referenced (C19_refuted). C19_exact: those are the only exceptions."},
  {"property": "C20", "status": "proved", "theorems": ["C20_table"], "note": "Against the README table transcribed row by row in SpecOpcode.v."},
  {"property": "C21", "status": "proved", "theorems": ["C21_refused", "C21_errors"], "note": "Out of range values are refused, with the value in the error."},
  {"property": "C22", "status": "proved", "theorems": ["C22_label"], "note": "For every mnemonic, field list and position."},
  {"property": "C23", "status": "proved", "theorems": ["C23_undefined", "C23_defined"], "note": "Both directions."},
  {"property": "C24", "status": "proved", "theorems": ["C24_case"], "note": "At the level of nodes and directives."},
  {"property": "C25", "status": "proved", "theorems": ["C25_encode", "C25_decode", "C25_panics"], "note": "Including the exact panic condition of encoding."},
  {"property": "C26", "status": "partial", "theorems": ["C26_refuted", "C26_words_partial", "C26_padded", "C26_shift"], "note": "False: numbers are displayed padded with spaces ('ld v0, $ 7'), which is a lexical error, and the second register of SHR/SHL is not displayed (C26_refuted). C26_words_partial: exactly the other words come back; C26_padded and C26_shift say what happens to these."},
  {"property": "C27", "status": "proved", "theorems": ["C27_table", "C27_address"], "note": "The label table equals an independently defined table."},
  {"property": "C28", "status": "proved", "theorems": ["C28_redefinition", "C28_accepted"], "note": ""},
  {"property": "C29", "status": "proved", "theorems": ["C29_accepts", "C29_parsed"], "note": ""},
  {"property": "C30", "status": "proved", "theorems": ["C30_reported", "C30_location"], "note": ""},
  {"property": "C31", "status": "proved", "theorems": ["C31_total"], "note": "Including that every parsed program satisfies the hypothesis."},
  {"property": "C32", "status": "proved", "theorems": ["C32_output", "C32_image"], "note": ""},
  {"property": "C33", "status": "proved", "theorems": ["C33_lands"], "note": ""},
  {"property": "C34", "status": "proved", "theorems": ["C34_bounds"], "note": "Addresses are below 4095, stronger than asked (see C35)."},
  {"property": "C35", "status": "partial", "theorems": ["C35_refuted", "C35_claim_refuted", "C35_partial"], "note": "False: the byte $FFF cannot be emitted (C35_refuted). C35_partial: bytes in $000..$FFE can."},
  {"property": "C36", "status": "proved", "theorems": ["C36_append", "C36_history"], "note": ""},
  {"property": "C37", "status": "proved", "theorems": ["C37_intersects", "C37_report", "C37_api_refuted"], "note": "For the ranges the assembler produces (start + length <= 4095 by C34). C37_api_refuted: the functions called directly on ranges ending with the memory miss overlaps."},
  {"property": "C38", "status": "proved", "theorems": ["C38_written", "C38_overlap"], "note": ""},
  {"property": "C39", "status": "proved", "theorems": ["C39_loads", "C39_ranges"], "note": "The reader is defined in SpecHex.v independently of the writer."},
  {"property": "C40", "status": "proved", "theorems": ["C40_form", "C40_overlap"], "note": ""},
  {"property": "C41", "status": "proved", "theorems": ["C41_refuses", "C41_other"], "note": "File system and command line are parameters of the model."},
  {"property": "C42", "status": "proved", "theorems": ["C42_file", "C42_stdout", "C42_failed"], "note": ""},
  {"property": "C43", "status": "proved", "theorems": ["C43_total"], "note": "Panics are explicit in the model; println! to a closed stdout is not modelled."},
  {"property": "C44", "status": "proved", "theorems": ["C44_unique", "C44_token", "C44_statement", "C44_text"], "note": "Messages about tokens and statements begin with the place of the token or of the statement's name, computed independently from the source text; the text of a place is unique (no leading zeros). The tool's refusals are such messages, the end of file message (which has no place), or the overlap report."},
  {"property": "C45", "status": "proved", "theorems": ["C45_ranges"], "note": "For every program and every renaming that keeps the names used apart, the renamed program is accepted exactly if the original is, with the same ranges. C45_clash shows the condition is needed."},
  {"property": "C46", "status": "proved", "theorems": ["C46_outcome"], "note": "The whole outcome (ranges or error) is equal, for every position not directly before a constant definition. C46_separates shows that condition is needed."},
  {"property": "C47", "status": "proved", "theorems": ["C47_ranges", "C47_memory"], "note": "For every division of an accepted program into parts starting with '.org' and every permutation of the parts: ranges are permuted; the same bytes at the same addresses; overlaps before iff after."},
  {"property": "C48", "status": "proved", "theorems": ["C48_ranges"], "note": "For every program, split point and spelling of the directive names: accepted with ranges rs iff the split program is."},
  {"property": "C49", "status": "proved", "theorems": ["C49_known", "C49_unique", "C49_text", "C49_assembled"], "note": "For every word: decoded to an instruction other than NOP iff its digits match a row (C49_known), of which there is one at most (C49_unique), displayed as the row says (C49_text). Assembled instructions are displayed by the row they were written by (C49_assembled)."},
  {"property": "C50", "status": "proved", "theorems": ["C50_reading", "C50_output"], "note": "For every text cut before and after the numeral; both ways to write it must be separate tokens from what precedes (the same tokens before). C50_output carries it to the HEX text."},
  {"property": "C51", "status": "proved", "theorems": ["C51_outcome", "C51_ranges"], "note": "For any operands replaced. The message 'No matching instruction' quotes the operands, so it is compared without them (operands_aside)."},
  {"property": "C52", "status": "proved", "theorems": ["C52_memory"], "note": "same_memory: same addresses and bytes in the same order, or the same error. q must not start with an '.equ', which would belong to a label before it."},
  {"property": "C53", "status": "proved", "theorems": ["C53_first", "C53_stuck", "C53_beginning"], "note": "C53_first: first-pass errors are stable. C53_stuck: other errors but undefined labels give the same error or one of the first pass. C53_beginning: the contrapositive."},
  {"property": "C54", "status": "proved", "theorems": ["C54_output", "C54_renamed", "C54_inlined", "C54_unused", "C54_split"], "note": "C54_output is the general form: the HEX text depends on the ranges only. The others combine it with C45, C46, C48, C51."},
  {"property": "C55", "status": "partial", "theorems": ["C55_refuted", "C55_claim_refuted", "C55_token_partial", "C55_eof_partial", "C55_directive"], "note": "Refuted as stated: after '.db' only a literal is listed, but the line could also end (C55_refuted). C55_token_partial and C55_eof_partial are exact: every kind listed can stand there, and the other tokens that can are those of `passed_over` (newline, comment, a comma after an operand, the colon after a first name). C55_directive: after '.' the list is complete."},
  {"property": "C56", "status": "proved", "theorems": ["C56_blocks", "C56_labels", "C56_program"], "note": "C56_blocks: no references to addresses; exact condition `room`. C56_labels: the label tables. C56_program: any program, against the one whose labels are replaced by their new values (with C51)."},
  {"property": "C57", "status": "proved", "theorems": ["C57_parser", "C57_scanner", "C57_grammar", "C57_tool"], "note": "The parser is modelled a second time over an arbitrary iterator (StreamParser.v); simulation with the list parser. C57_tool: the whole of assemble_file."},
  {"property": "C58", "status": "proved", "theorems": ["C58_tokens", "C58_lines", "C58_string"], "note": "C58_tokens: nothing after the offending token matters. C58_lines: the same for texts, line by line. C58_string: the exception is real."},
  {"property": "C59", "status": "proved", "theorems": ["C59_input", "C59_other", "C59_again", "C59_hex", "C59_itself"], "note": "C59_input, C59_other: dependence. C59_again: idempotence. C59_itself, C59_hex: output over the input."},
  {"property": "C60", "status": "proved", "theorems": ["C60_operands", "C60_distinct", "C60_words"], "note": "C60_operands: each operand read back from its digits. C60_distinct: same bytes iff same instruction. C60_words: the image of the encoding."},
  {"property": "C61", "status": "proved", "theorems": ["C61_tokens", "C61_reading", "C61_output"], "note": "C61_tokens: the tokens of the text in the other form. C61_reading, C61_output: same program, same HEX text. C61_strings: a string over two lines is changed."},
  {"property": "C62", "status": "proved", "theorems": ["C62_ranges", "C62_error", "C62_text", "C62_file"], "note": "C62_ranges: outcome of the two together. C62_error: its errors. C62_text, C62_file: texts and HEX files. C62_dependent shows that the labels must be separate."},
  {"property": "C63", "status": "proved", "theorems": ["C63_lexeme", "C63_blanks", "C63_model"], "note": "C63_lexeme, C63_blanks: what the patterns find. C63_model: the scanner model's functions are these searches. C63_rules: tests of the reader and matcher of regular expressions."},
  {"property": "C64", "status": "proved", "theorems": ["C64_bytes", "C64_refused"], "note": "C64_bytes: the output before and after. C64_refused: if the new statement has no bytes."},
  {"property": "C65", "status": "proved", "theorems": ["C65_every", "C65_only", "C65_image"], "note": "C65_every, C65_only: the blocks. C65_image: the memory a HEX file loads."},
  {"property": "C66", "status": "proved", "theorems": ["C66_parser", "C66_assembler", "C66_tokens", "C66_output", "C66_message"], "note": "C66_parser, C66_assembler: any change of places. C66_tokens: lines put before a text. C66_output, C66_message: what the tool prints."},
  {"property": "C67", "status": "proved", "theorems": ["C67_accepts", "C67_refuses", "C67_unique", "C67_order", "C67_default", "C67_output", "C67_help", "C67_refused"], "note": "C67_accepts, C67_refuses, C67_unique: the command lines of SpecArgs.v. C67_order: order of words. C67_default, C67_output, C67_help, C67_refused: what the tool does. getopts is modelled from its documentation."},
  {"property": "C68", "status": "proved", "theorems": ["C68_error", "C68_converse"], "note": "C68_error: what a refused program reports under new names. C68_converse: no program starts to fail."},
  {"property": "C69", "status": "partial", "theorems": ["C69_parser", "C69_partial", "C69_needed", "C69_enough", "C69_refuted"], "note": "C69_refuted: for every stack an accepted text of one byte of output that needs more. C69_parser: the counting parser is the parser. C69_partial, C69_needed, C69_enough: the depth is the length of the longest operand list plus 4 to 6."},
  {"property": "C70", "status": "proved", "theorems": ["C70_step", "C70_progress", "C70_run", "C70_tool"], "note": "C70_step, C70_progress, C70_run: steps and runs, for any processor. C70_tool: from the source file through the HEX file."},
  {"property": "C71", "status": "proved", "theorems": ["C71_exact", "C71_enough", "C71_success", "C71_pieces", "C71_panics"], "note": "main.rs again, effect by effect, on a line-buffered standard output (MainIO.v). C71_exact: every run. C71_enough: with room the run of C41-C43. C71_success: status 0 means delivered. C71_pieces: println! may write in pieces. C71_panics: the panic that C43 leaves out."},
  {"property": "C72", "status": "partial", "theorems": ["C72_model", "C72_partial", "C72_digits", "C72_binary", "C72_refuted"], "note": "Refuted (C72_refuted): a binary number is read modulo the word size, so one of more than 32 digits can be accepted by a 32-bit build only. C72_partial: the same tokens if no binary number reaches the word size; C72_digits: if none has more digits than bits; C72_binary: what is read; C72_model: 64 bits is the model of the other properties."},
  {"property": "C73", "status": "proved", "theorems": ["C73_scanner", "C73_scanner_unused", "C73_syntax", "C73_semantic", "C73_space"], "note": "Both directions for each of the three stages: a text for every error listed in SpecDiag.v (C73_scanner, C73_syntax, C73_semantic), and no text for any other; C73_scanner_unused, C73_space are consequences."},
  {"property": "C74", "status": "proved", "theorems": ["C74_distinct", "C74_operands", "C74_text"], "note": "C74_distinct: equivalence of equal messages and equal reasons; C74_text: the same for what the tool prints, overlaps included; C74_operands: the operands listed in 'Unsupported instruction' can be read back."},
  {"property": "C75", "status": "proved", "theorems": ["C75_counts", "C75_bytes", "C75_output", "C75_attained", "C75_overlaps", "C75_overlaps_attained", "C75_announced"], "note": "C75_counts, C75_bytes, C75_output, C75_overlaps: the bounds; C75_attained, C75_overlaps_attained: texts which reach them, so that a text of 19n characters gets a report of n(n-1)/2 pairs. C75_announced: sizes announced are sizes emitted."},
  {"property": "C76", "status": "partial", "theorems": ["C76_refuted", "C76_partial", "C76_arguments"], "note": "C76_refuted: an argument that is not UTF-8 panics in env::args. C76_partial: exactly when; C76_arguments: what happens otherwise."},
  {"property": "C77", "status": "proved", "theorems": ["C77_refused", "C77_written", "C77_failed", "C77_plain", "C77_process"], "note": "C77_written, C77_failed, C77_refused; C77_process: the same from the bytes of the arguments; C77_plain: Main.v is the special case of one name and no changes."},
  {"property": "C78", "status": "proved", "theorems": ["C78_kind", "C78_cause", "C78_plain", "C78_place", "C78_source"], "note": "C78_kind: equal descriptions are equal kinds; C78_cause, C78_plain, C78_place: how messages are made of descriptions and causes. C78_source: where the cause comes from."},
  {"property": "C79", "status": "proved", "theorems": ["C79_moved", "C79_unused", "C79_exchanged", "C79_text"], "note": "C79_moved, C79_unused: the outcomes are equal, errors included; C79_exchanged: up to the operands listed in a message; C79_text: for texts in any layout."},
  {"property": "C80", "status": "proved", "theorems": ["C80_tokens", "C80_outcome"], "note": "C80_tokens: the tokens; C80_outcome: the outcome, when the strings agree; C80_without_strings: whenever the text has no quotes."},
  {"property": "C81", "status": "partial", "theorems": ["C81_lines_refuted", "C81_lost_partial", "C81_space_partial", "C81_first_line_partial", "C81_mark_refuted", "C81_mark_partial"], "note": "Refuted: with another line end than the newline a comment swallows all the rest silently (C81_lines_refuted, C81_lost_partial), and a text with a byte order mark is never accepted (C81_mark_refuted, C81_mark_partial). What holds: the marks are blanks, so the text means what it means with spaces (C81_space_partial), all on line 1 (C81_first_line_partial). CR before a newline is C61."},
  {"property": "C82", "status": "partial", "theorems": ["C82_refuted", "C82_name_partial", "C82_text_partial"], "note": "Refuted: '.db x' is refused for every label x. Exactly: no accepted text has a name among the values of a directive (C82_name_partial, C82_text_partial). For instructions the statement holds (C22, C51)."},
  {"property": "C83", "status": "proved", "theorems": ["C83_character", "C83_cut", "C83_more", "C83_any"], "note": "C83_character, C83_cut, C83_more; C83_any says the first of any readable file. C83_unnoticed shows that two characters, or a line, may go unnoticed."},
  {"property": "C84", "status": "proved", "theorems": ["C84_data", "C84_instruction", "C84_program", "C84_text"], "note": "C84_data, C84_instruction: one statement; C84_program: all instructions; C84_text: texts in any layout."},
  {"property": "C85", "status": "proved", "theorems": ["C85_lines"], "note": "C85_lines; C85_instance, C85_string, C85_later and C85_constant show that each of the four cases occurs."},
  {"property": "C86", "status": "proved", "theorems": ["C86_labels", "C86_accepted", "C86_memory", "C86_program"], "note": "C86_labels, C86_accepted, C86_memory; C86_program for programs that refer to labels that go up."},
  {"property": "C87", "status": "proved", "theorems": ["C87_counters", "C87_memory", "C87_memory_32", "C87_locations", "C87_limit"], "note": "C87_counters for all word sizes, C87_memory and C87_locations for 64 bits, C87_memory_32 for 32; C87_limit: the bound is sharp."},
  {"property": "C88", "status": "proved", "theorems": ["C88_main", "C88_pieces", "C88_same", "C88_anytime", "C88_ends", "C88_failed", "C88_lost"], "note": "C88_main and C88_pieces: ended runs are runs of main; C88_anytime: every moment of every run; C88_ends; C88_failed: no failing call goes unnoticed; C88_lost: the old output is lost first (R27)."},
  {"property": "C89", "status": "proved", "theorems": ["C89_replaced", "C89_inserted"], "note": "From source texts to HEX files; C89_replaced for lines of the same size, C89_inserted for lines put in or taken out."},
  {"property": "C90", "status": "proved", "theorems": ["C90_text", "C90_tool", "C90_profiles", "C90_text_32", "C90_display"], "note": "The whole tool with integers of the machine; C90_display shows where functions of the library do differ, C90_small that the bound on the text is needed."},
  {"property": "C91", "status": "proved", "theorems": ["C91_exact", "C91_longer", "C91_tokens", "C91_program", "C91_output"], "note": "An equivalence for accepted programs; C91_two_numbers shows why it cannot be one of token lists."},
  {"property": "C92", "status": "proved", "theorems": ["C92_alone", "C92_moment", "C92_unwritten", "C92_order", "C92_default"], "note": "C92_default shows that the hypothesis is needed, and that the default output name breaks it."},
  {"property": "C93", "status": "proved", "theorems": ["C93_exact", "C93_org"], "note": "C93_order shows that the order of the bytes counts."},
  {"property": "C94", "status": "proved", "theorems": ["C94_tokens", "C94_program", "C94_output", "C94_recased", "C94_capitals", "C94_small", "C94_refused"], "note": "C94_needed shows that each of the three conditions is needed. C94_tokens and C94_program hold for any relation between characters that respects letters up to case. C94_refused: texts which are refused."},
  {"property": "C95", "status": "proved", "theorems": ["C95_source", "C95_records", "C95_exact", "C95_again", "C95_unique"], "note": "C95_source and C95_records: the two directions of C95_exact. C95_unique, C95_again: the records of a file, and a source made of them."},
  {"property": "C96", "status": "proved", "theorems": ["C96_accepted", "C96_refused", "C96_refused_end", "C96_text", "C96_shapes"], "note": "C96_accepted, C96_refused, C96_refused_end: token lists. C96_text: texts. C96_shapes: what shapes say."},
  {"property": "C97", "status": "proved", "theorems": ["C97_found", "C97_starts", "C97_characters", "C97_exact", "C97_without", "C97_without_last", "C97_output", "C97_said", "C97_another"], "note": "C97_found, C97_starts, C97_characters, C97_exact: the machine and the scanner. C97_without, C97_without_last, C97_output: comments deleted. C97_said, C97_another: comments changed."},
  {"property": "C98", "status": "proved", "theorems": ["C98_stays", "C98_goes", "C98_runs", "C98_harmless", "C98_check", "C98_tool", "C98_next", "C98_label", "C98_exact", "C98_chip"], "note": "C98_stays, C98_goes, C98_runs, C98_harmless: runs. C98_tool: from the source file. C98_exact: containment is needed. C98_check, C98_next, C98_label: how to tell. C98_chip: a processor that obeys."},
  {"property": "C99", "status": "proved", "theorems": ["C99_operand", "C99_data", "C99_directive", "C99_twelve_refuted", "C99_twelve"], "note": "C99_operand: instructions. C99_data, C99_directive: directives. C99_twelve_refuted: the README's rule for 12-bit numbers; C99_twelve: what holds."},
  {"property": "C100", "status": "partial", "theorems": ["C100_same", "C100_search", "C100_scan", "C100_parse", "C100_assemble", "C100_refuted", "C100_partial", "C100_accepted"], "note": "Refuted (C100_refuted): every block is compared with every other, so no number of steps for each byte is enough. C100_partial: the square of the number of blocks, and a number for each byte, is. Scanning, parsing and assembling are in proportion (C100_scan, C100_parse, C100_assemble), and so are accepted texts (C100_accepted), which have at most 4095 blocks. C100_same, C100_search: what is counted is the code of the other theorems and the patterns of scanner.rs."},
  {"property": "C101", "status": "proved", "theorems": ["C101_syntax", "C101_soon", "C101_memory", "C101_alike", "C101_labels", "C101_unlimited"], "note": "C101_syntax, C101_soon, C101_memory, C101_alike: the machine for the syntax. C101_labels, C101_unlimited: machines for all that is checked. C101_binary shows why so many bits: a binary number that is out of range can come back into range (see C08)."},
  {"property": "C102", "status": "proved", "theorems": ["C102_any_map", "C102_hash_table", "C102_same_every_run", "C102_list"], "note": "C102_any_map: any lawful map gives what the model with a list of pairs gives. C102_hash_table, C102_list: maps that are lawful. C102_same_every_run: the seed does not matter. C102_careless: a table that goes by the hash only gives something else."},
  {"property": "C103", "status": "proved", "theorems": ["C103_instruction", "C103_decode", "C103_one_arm", "C103_any_order", "C103_decode_one_arm", "C103_every_arm"], "note": "C103_instruction, C103_decode: the arms in the order of the source, generated from the text of the source, give what the model gives. C103_one_arm, C103_any_order, C103_decode_one_arm: no two apply. C103_every_arm: each is used."},
  {"property": "C104", "status": "proved", "theorems": ["C104_scan", "C104_slice", "C104_names", "C104_strings", "C104_tool", "C104_printed"], "note": "C104_scan: the tokens. C104_slice: where a text of bytes may be cut. C104_names: names are ASCII. C104_strings: strings as they are in the file. C104_tool: data and errors. C104_printed: what is printed or written."},
  {"property": "C105", "status": "proved", "theorems": ["C105_fault", "C105_first", "C105_second", "C105_next", "C105_mended"], "note": "C105_first: in the first pass. C105_second: in the second. C105_next: of the assembler. C105_mended: until there is no error."},
  {"property": "C106", "status": "proved", "theorems": ["C106_word", "C106_memory", "C106_errors", "C106_text", "C106_run", "C106_zero"], "note": "C106_word: the digits. C106_memory: the output. C106_errors: refusals. C106_text: for source files. C106_run: running. C106_zero: V0."},
  {"property": "C107", "status": "proved", "theorems": ["C107_text", "C107_one_end", "C107_from_instruction", "C107_to_assembly_string", "C107_to_formatted_assembly_string", "C107_as_instruction", "C107_instruction_from", "C107_instruction_into_vec", "C107_instruction_error_fmt", "C107_field_fmt"], "note": "C107_text: the program is what the text says. C107_one_end: a run has one end. The others: one theorem per function of opcode.rs and instruction.rs. Instruction::description is not among them."},
  {"property": "C108", "status": "proved", "theorems": ["C108_directive_from", "C108_directive_size", "C108_directive_into_vec", "C108_append", "C108_find_overlapping_ranges", "C108_range_fmt", "C108_location_new", "C108_location_fmt", "C108_directive_fmt", "C108_directive_error_fmt", "C108_define_labels", "C108_emit_data_ranges", "C108_assemble", "C108_message"], "note": "One theorem per function. SemanticError::cause and the description methods of directive::Error are not among them."},
  {"property": "C109", "status": "proved", "theorems": ["C109_new", "C109_next", "C109_scan", "C109_token_location", "C109_error_fmt", "C109_token_fmt"], "note": "C109_scan joins the executed text with the declarative grammar (lexes, SpecLex.v). The regular expressions are known by their text and do what the model's find functions do, which C02 relates to the patterns."},
  {"property": "C110", "status": "proved", "theorems": ["C110_tokens", "C110_text", "C110_assemble", "C110_message", "C110_field_fmt"], "note": "C110_assemble joins scanner, parser and assembler: from any text to its data ranges or its error, by executing the text of the source. The values Parser methods leave behind after an error are not described (the parser is dropped then)."},
  {"property": "C111", "status": "proved", "theorems": ["C111_hex", "C111_loads", "C111_overlap"], "note": "create_object_file_representation of the ihex crate is the model's function (IHex.v), not executed: its source is not in the repository."},
  {"property": "C112", "status": "proved", "theorems": ["C112_tool", "C112_file", "C112_refuses", "C112_success", "C112_options", "C112_command"], "note": "C112_tool is an equivalence: a run ends in r just if main_io does. getopts, the files and the standard output are the host's (SrcTool.v): parse and usage are arbitrary functions of what main.rs declares; C112_options and C112_command take getopts as documented (Getopts.v). A write error of the standard output is decided by the room it has (as in C71), so C112_refuses and C112_success assume no other write error."},
  {"property": "C113", "status": "proved", "theorems": ["C113_description", "C113_cause", "C113_display", "C113_kind"], "note": "The message of a parser or assembler error is given for places that have a column, which all places have (C04); fmt panics where the model says so."},
  {"property": "C114", "status": "proved", "theorems": ["C114_golden", "C114_unit_tests"], "note": "Finite checks, by running. What the tests use and the files do not (assert_eq!, derived ==, u12::MIN, repeat, to_vec, unwrap_err, string +, closures held by let, non-ASCII text) is given in SrcTests.v. One unit test of 92 is left out (65535 rounds). test_PONG.S and test_standard_instructions.S are run when building PropSourceGolden.v and not by the checker."},
  {"property": "C115", "status": "proved", "theorems": ["C115_last_line_refuted", "C115_last_byte_refuted", "C115_large_binary_refuted", "C115_case_refuted", "C115_label_refuted", "C115_carriage_return_refuted", "C115_constant_refuted", "C115_digits_refuted", "C115_comment_refuted", "C115_backslash", "C115_mark_refuted"], "note": "Existential statements, by running the text; that a run is unique is runs_once."},
  {"property": "C116", "status": "proved", "theorems": ["C116_one", "C116_round_trip", "C116_disassembly", "C116_encodes", "C116_refuses", "C116_size", "C116_display", "C116_range", "C116_append", "C116_overlaps", "C116_parses", "C116_accepts", "C116_reports", "C116_total", "C116_memory"], "note": "Label maps are association lists searched by label_get; the encoders of values (SrcEnc.v) are shown to be injective where an equivalence needs it."},
  {"property": "C117", "status": "proved", "theorems": ["C117_one", "C117_leaves", "C117_ends", "C117_room", "C117_input", "C117_again", "C117_itself", "C117_runs"], "note": "As C112: what is outside of the files is answered by a host. C117_leaves says how the model of main.rs and the text are related; the others follow from it and C41 to C43, C59, C70, C71 and C98."},
  {"property": "C118", "status": "proved", "theorems": ["C118_reading", "C118_layout", "C118_numbers", "C118_renamed", "C118_inlined", "C118_unused", "C118_split", "C118_constant", "C118_dos", "C118_capitals", "C118_registers", "C118_joined"], "note": "As C112 and C117. The conditions that separate these changes from ones that do matter (strings over several lines, mixed names such as Dt, labels that become equal) are hypotheses here, and shown to be needed at C15, C46, C61 and C94."},
  {"property": "C119", "status": "proved", "theorems": ["C119_either", "C119_object", "C119_statement", "C119_place", "C119_moved"], "note": "As C112 and C117; with enough room on the standard output (C117_room says how it is with less)."}
]}
