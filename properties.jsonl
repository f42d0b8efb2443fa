{"id": "C01", "title": "Soundness: everything accepted is in the Wasm 3.0 binary grammar", "statement": "If decode_module returns Ok(m) on a byte stream, then the stream is a sentence of the WebAssembly 3.0 binary module grammar (preamble, sections in prescribed order, exact sizes, well-formed contents, side conditions of 5.5.17) and every field of m is the abstract syntax that grammar assigns to the stream.", "quantifier": "all byte strings, all resulting modules", "why_tests_cant": "the set of byte strings is infinite; tests only sample it and compare single outputs", "anchors": ["src/decode/module.rs: decode_module", "src/decode/sections/*.rs", "src/decode/types/*.rs", "src/decode/instructions.rs: Instruction::parse"]}
{"id": "C02", "title": "Completeness: every sentence of the grammar is accepted with the right module", "statement": "If a byte string is a sentence of the binary module grammar for module m, then decode_module returns Ok(m) on it (given enough stack and heap).", "quantifier": "all byte strings and all modules related by the grammar", "why_tests_cant": "unboundedly many valid modules, nesting depths and LEB128 paddings", "anchors": ["src/decode/module.rs: decode_module", "src/decode/instructions.rs: Instruction::parse", "src/decode/sections/*.rs"]}
{"id": "C03", "title": "u32 LEB128 immediates", "statement": "A u32 is decoded from a byte sequence iff it is a spec uN(32) encoding (at most 5 bytes, value < 2^32), the value is exact and exactly those bytes are consumed; otherwise the error is TooLarge exactly for excess payload bits in byte 5, RepresentationTooLong exactly when five continuation bytes are read, and Io exactly on early end of input.", "quantifier": "all byte sequences", "why_tests_cant": "2^40 five-byte sequences and arbitrary continuations", "anchors": ["src/decode/integer.rs: decode_u32"]}
{"id": "C04", "title": "u64 LEB128 immediates", "statement": "Same as C03 for u64: at most 10 bytes, value < 2^64.", "quantifier": "all byte sequences", "why_tests_cant": "2^80 ten-byte sequences", "anchors": ["src/decode/integer.rs: decode_u64"]}
{"id": "C05", "title": "i32 LEB128 immediates", "statement": "An i32 constant is decoded iff the bytes are a spec sN(32) encoding (sign bits in byte 5 consistent), with exact value and consumption; out-of-range is TooLarge; five continuation bytes is RepresentationTooLong.", "quantifier": "all byte sequences", "why_tests_cant": "2^40 sequences; sign-extension corner cases", "anchors": ["src/decode/integer.rs: decode_i32"]}
{"id": "C06", "title": "i64 LEB128 immediates", "statement": "Same for sN(64): at most 10 bytes, byte 10 must be 0x00 or 0x7F; anything else terminal there is IncorrectSignExtension.", "quantifier": "all byte sequences", "why_tests_cant": "2^80 sequences", "anchors": ["src/decode/integer.rs: decode_i64"]}
{"id": "C07", "title": "s33 LEB128 type indices", "statement": "Same for sN(33): at most 5 bytes, the three top payload bits of byte 5 must agree; values range over [-2^32, 2^32).", "quantifier": "all byte sequences", "why_tests_cant": "2^40 sequences", "anchors": ["src/decode/integer.rs: decode_s33"]}
{"id": "C08", "title": "Vectors hold exactly the declared number of elements in order", "statement": "A length-prefixed vector decodes to v iff the prefix is a u32 encoding of |v| and the rest is the concatenation, in order, of encodings of v's elements.", "quantifier": "all element grammars, all lengths < 2^32, all byte sequences", "why_tests_cant": "length ranges to 2^32-1 and the property is parametric in the element decoder", "anchors": ["src/decode/helpers.rs: decode_list", "src/decode/helpers.rs: decode_byte_vector"]}
{"id": "C09", "title": "Vector errors name the failing element", "statement": "When decoding a vector fails with ParseElement{position,source}, then the length decoded to some n > position, elements 0..position-1 decoded successfully in sequence, and decoding the element at that place failed with exactly source.", "quantifier": "all vectors, all failure positions", "why_tests_cant": "positions and prefixes are unbounded", "anchors": ["src/decode/helpers.rs: DecodeListError", "src/decode/helpers.rs: decode_list"]}
{"id": "C10", "title": "Names are exactly well-formed UTF-8", "statement": "A name is accepted iff its bytes are the UTF-8 encoding of a sequence of Unicode scalar values (no surrogates, no overlong forms, none above U+10FFFF), and the resulting string has exactly those bytes.", "quantifier": "all byte sequences", "why_tests_cant": "unbounded strings; every boundary of the encoding table", "anchors": ["src/decode/helpers.rs: decode_name"]}
{"id": "C11", "title": "Float and v128 immediates are preserved bit for bit", "statement": "f32.const/f64.const/v128.const/i8x16.shuffle immediates are taken verbatim, little-endian, including NaN payloads and signed zeros; nothing is normalised or rejected.", "quantifier": "all 2^32 / 2^64 / 2^128 bit patterns", "why_tests_cant": "pattern space too large", "anchors": ["src/decode/helpers.rs: decode_f32", "src/decode/helpers.rs: decode_f64", "src/decode/instructions.rs: V128Const, I8x16Shuffle"]}
{"id": "C12", "title": "Value, reference and heap types", "statement": "Value/reference/heap types are accepted iff they are in the grammar (abbreviated abstract heap types, 0x63/0x64 forms, non-negative s33 type indices) and denote exactly that type.", "quantifier": "all byte sequences", "why_tests_cant": "multi-byte s33 indices, overlap of one-byte markers with negative LEB values", "anchors": ["src/decode/types/valtype.rs", "src/decode/types/reftype.rs", "src/decode/types/heaptype.rs"]}
{"id": "C13", "title": "Composite, sub and recursive types", "statement": "Type-section entries (rec groups, sub/final, func, struct, array, packed storage) are accepted iff in the grammar and denote exactly that type; shorthand forms denote singleton rec groups and final subtypes without supertypes.", "quantifier": "all byte sequences", "why_tests_cant": "unbounded nesting of lists", "anchors": ["src/decode/types/rectype.rs", "src/decode/types/comptype.rs"]}
{"id": "C14", "title": "Limits, memory, table, global, tag and external types", "statement": "These types are accepted iff in the grammar; the flag byte determines the address type and presence of a maximum; mutability and marker bytes other than the listed ones are rejected.", "quantifier": "all byte sequences", "why_tests_cant": "64-bit limits in any padding", "anchors": ["src/decode/types/limits.rs", "src/decode/types/tabletype.rs", "src/decode/types/memtype.rs", "src/decode/types/globaltype.rs", "src/decode/types/tagtype.rs", "src/decode/types/externtype.rs"]}
{"id": "C15", "title": "Block types are unambiguous", "statement": "A block type is accepted iff it is 0x40, a value type, or a non-negative s33 type index, and no byte sequence is readable in two of these ways; the speculative value-type attempt never changes how a type index is read.", "quantifier": "all byte sequences", "why_tests_cant": "backtracking over a consumed stream; collisions would be in multi-byte corner cases", "anchors": ["src/decode/instructions.rs: BlockType::decode"]}
{"id": "C16", "title": "Memory arguments", "statement": "A memarg is accepted iff flags < 64 (memory 0) or 64 <= flags < 128 (explicit memory index), alignment is the low six bits, offset is a u64; flags >= 128 are rejected with InvalidFlagsBit.", "quantifier": "all byte sequences", "why_tests_cant": "all LEB paddings of three immediates", "anchors": ["src/decode/instructions.rs: Memarg::decode"]}
{"id": "C17", "title": "Opcode map is exactly the specification's", "statement": "Each one-byte, 0xFB-, 0xFC- and 0xFD-prefixed opcode decodes to the instruction the specification assigns to it; each unassigned opcode is rejected with the error carrying that opcode.", "quantifier": "all 256 opcodes and all 2^32 sub-opcodes in every LEB padding", "why_tests_cant": "sub-opcodes are u32s with several encodings", "anchors": ["src/decode/instructions.rs: Instruction::parse"]}
{"id": "C18", "title": "Immediates are bound to the right operand", "statement": "Instructions with several immediates (call_indirect, memory.init/copy, table.init/copy, br_table, br_on_cast, array.* , struct.*, lane loads, try_table) store each immediate in the field the spec says, in spec order.", "quantifier": "all immediates", "why_tests_cant": "swapping bugs only show when the two immediates differ", "anchors": ["src/decode/instructions.rs: Instruction::parse"]}
{"id": "C19", "title": "Structured control nests uniquely", "statement": "block/loop/if/try_table bodies end at their matching end; else is accepted exactly once and only directly inside if; any other else is rejected; an expression is a sequence of instructions closed by end.", "quantifier": "all instruction sequences of every nesting depth", "why_tests_cant": "nesting is unbounded", "anchors": ["src/decode/instructions.rs: Instruction::parse", "src/decode/helpers.rs: decode_expr"]}
{"id": "C20", "title": "Non-custom sections appear at most once and in order", "statement": "In every accepted module the non-custom sections are pairwise distinct and in the order type, import, function, table, memory, tag, global, export, start, element, data count, code, data.", "quantifier": "all accepted inputs", "why_tests_cant": "any number/interleaving of sections", "anchors": ["src/decode/module.rs: validate_section_kind_expected", "src/core/module.rs: SectionKind"]}
{"id": "C21", "title": "Section order violations are diagnosed exactly", "statement": "If decoding stops with SectionOutOfOrder{current,previous} then previous is the last non-custom section before it and current is ordered strictly before previous; DuplicateSection(k) only if k equals the last non-custom section; and conversely a section with such a header is always rejected with that error, before its contents are looked at.", "quantifier": "all inputs", "why_tests_cant": "all section histories", "anchors": ["src/decode/module.rs: validate_section_kind_expected"]}
{"id": "C22", "title": "Section and code-entry sizes are exact fences", "statement": "A section's (and a code entry's) contents are decoded from exactly the declared number of bytes: contents shorter or longer than declared are rejected, and decoding one section never consumes or depends on a byte beyond its declared size.", "quantifier": "all inputs", "why_tests_cant": "needs all contents, sizes and suffixes", "anchors": ["src/decode/module.rs: decode_module", "src/decode/sections/code.rs: parse_code"]}
{"id": "C23", "title": "Function and code sections agree", "statement": "In every accepted module the number of functions equals the number of declared type indices and of code entries, function i pairs the i-th type index with the i-th body; a mismatch is rejected with both counts.", "quantifier": "all inputs", "why_tests_cant": "counts unbounded", "anchors": ["src/decode/module.rs: decode_module"]}
{"id": "C24", "title": "Data count matches data segments", "statement": "In every accepted module a data count, when present, equals the number of data segments (0 when there is no data section).", "quantifier": "all inputs", "why_tests_cant": "counts unbounded, section may be absent", "anchors": ["src/decode/module.rs: decode_module"]}
{"id": "C25", "title": "Data indices in code require a data count section", "statement": "In every accepted module whose function bodies mention a data index anywhere, at any nesting depth, a data count is present; and a module lacking it is rejected with DataIndexWithoutDataCount.", "quantifier": "all inputs, all nestings", "why_tests_cant": "nesting is unbounded", "anchors": ["src/decode/module.rs: decode_module", "src/decode/helpers.rs: instruction_contains_data_index"]}
{"id": "C26", "title": "Locals are expanded exactly and bounded", "statement": "Function i's locals are the concatenation of count copies of each declared type in order; total < 2^32, and totals of 2^32 or more are rejected with LocalsCountOutOfBound.", "quantifier": "all local declarations", "why_tests_cant": "counts up to 2^32-1, sums of arbitrarily many groups", "anchors": ["src/decode/sections/code.rs: parse_code_local", "src/decode/module.rs: decode_module"]}
{"id": "C27", "title": "Custom sections are transparent", "statement": "Inserting or removing well-formed custom sections at any section boundary changes nothing in the decoded module except the custom section list and section headers.", "quantifier": "all modules, all insertion points, all custom contents", "why_tests_cant": "all positions and multiplicities", "anchors": ["src/decode/module.rs: decode_module", "src/decode/sections/custom.rs"]}
{"id": "C28", "title": "Custom section contents are verbatim", "statement": "The custom section list is, in file order, each custom section's name and exactly the remaining payload bytes.", "quantifier": "all inputs", "why_tests_cant": "arbitrary payloads", "anchors": ["src/decode/sections/custom.rs"]}
{"id": "C29", "title": "Section headers account for the whole file", "statement": "For every accepted input, section_headers lists kind and declared size of every section in file order, and the file is exactly the 8-byte preamble plus each header and its declared number of payload bytes (nothing skipped, nothing trailing).", "quantifier": "all accepted inputs", "why_tests_cant": "arbitrary number of sections", "anchors": ["src/decode/module.rs: decode_module"]}
{"id": "C30", "title": "Result is independent of read chunking and interruptions", "statement": "For any reader that delivers the same bytes, in any chunk sizes and with any number of Interrupted results in between, decode_module returns the same result (Ok or the very same error).", "quantifier": "all byte strings, all chunkings, all interruption patterns", "why_tests_cant": "schedules are unbounded", "anchors": ["src/decode/module.rs: decode_module", "src/decode/helpers.rs: read_byte", "src/decode/helpers.rs: decode_byte_vector", "src/decode/sections/custom.rs: read_to_end"]}
{"id": "C31", "title": "A failing reader never yields a module", "statement": "If the reader raises an I/O error (other than Interrupted/UnexpectedEof) before reporting end of stream, decode_module does not return Ok, no matter what was delivered before or would be delivered after.", "quantifier": "all event streams and failure points", "why_tests_cant": "every crash point of every input", "anchors": ["src/decode/module.rs: decode_module", "src/decode/module.rs: decode_section_header"]}
{"id": "C32", "title": "A reader's own UnexpectedEof counts as the end of the stream", "statement": "One would expect an error of kind UnexpectedEof raised by the reader itself (e.g. a truncated compressed stream) to make decoding fail; that is refuted. What holds: for every module there is such a failing stream that decodes to it; and whenever a stream that stops with UnexpectedEof decodes, the bytes before the failure are a complete module.", "quantifier": "all event streams", "why_tests_cant": "needs a particular failure point and kind", "anchors": ["src/decode/module.rs: decode_section_header"]}
{"id": "C33", "title": "I/O failures are reported as I/O errors (naive form REFUTED)", "statement": "If the reader fails with an I/O error of kind k and decode_module returns an error, then one of: the error's root cause is that I/O error; or the failure struck inside a block type that starts with 0x63/0x64, which the decoder reports as NegativeTypeIndex -29/-28, swallowing the failure (so the naive expectation is false there); or the bytes delivered before the failure are already faulty, and the same error is returned for every continuation of them. In particular, if those bytes begin some module, only the first two occur. Conversely, an I/O error found at the root of a returned error is the reader's own failure, or UnexpectedEof.", "quantifier": "all event streams, failure points and failure kinds", "why_tests_cant": "every crash point of every input", "anchors": ["src/decode/instructions.rs: BlockType::decode"]}
{"id": "C34", "title": "No panics", "statement": "With enough stack and heap, decode_module never panics: no unwrap, unreachable!, index, arithmetic or shift overflow is reachable, for any reader behaviour. It gives up for want of heap only if vectors of 2^32-1 elements, or of as many as there are bytes of input, do not fit; and for want of stack only if the stack is no deeper than the input is long.", "quantifier": "all event streams", "why_tests_cant": "absence claim over all inputs", "anchors": ["all of src/decode"]}
{"id": "C35", "title": "Termination", "statement": "decode_module terminates on every finite event stream, including failing and interrupted ones, after a number of loop iterations bounded by the stream's size.", "quantifier": "all event streams", "why_tests_cant": "absence of infinite loops over all inputs", "anchors": ["src/decode/module.rs: decode_module", "src/decode/instructions.rs: Instruction::parse"]}
{"id": "C36", "title": "Memory needed and memory requested", "statement": "One would expect an input of n bytes to make the decoder request memory for O(n) elements. That holds for modules, apart from locals: memory for vectors of n elements, and for the locals of the largest function, always suffices. More precisely, given stack and heap at all, a file that is a module is decoded if and only if its instructions are nested less deep than the stack, each vector of the module (lists, names, contents, data, instruction sequences, locals) fits in memory, and so does, for each function, the list of its groups of locals as written in the file; otherwise decoding runs out of memory or stack: out of memory only if a vector or list of groups does not fit, out of stack only if instructions are nested too deep. The expectation is refuted for malformed inputs: a fixed 15-byte input, not a module, makes the decoder reserve 2^32-1 elements at once and abort if it cannot. That is also the most any input can make it reserve, apart from vectors that grow with the bytes read.", "quantifier": "all inputs, all heap limits", "why_tests_cant": "quantifies over heap limits", "anchors": ["src/decode/helpers.rs: decode_list", "src/decode/helpers.rs: decode_byte_vector", "src/decode/instructions.rs: parse_body, decode_expr", "src/decode/sections/custom.rs", "src/decode/sections/code.rs", "src/decode/module.rs: decode_module"]}
{"id": "C37", "title": "Stack needed", "statement": "With enough memory, decoding a module with a stack of depth d succeeds exactly if all its instructions are nested less than d deep, and overflows the stack otherwise. So the expectation that every module can be decoded is refuted: for every d there is a module of at most 3d+26 bytes that overflows a stack of depth d.", "quantifier": "all stack limits", "why_tests_cant": "quantifies over limits", "anchors": ["src/decode/instructions.rs: Instruction::parse"]}
{"id": "C38", "title": "Decoded size is linear in the input, except for locals", "statement": "The number of vector elements and name, custom and data bytes in the decoded module, locals excepted, is at most twice the number of input bytes. For locals this is refuted: for every n below 2^32 there is a module of at most 32 bytes with a function of n locals.", "quantifier": "all inputs", "why_tests_cant": "amplification factor is a supremum over inputs", "anchors": ["src/decode/module.rs: decode_module (locals expansion)"]}
{"id": "C39", "title": "Element segments: all eight encodings", "statement": "Each of the 8 element encodings decodes to the segment (type, initialisers, mode) of the grammar; other bitfields rejected.", "quantifier": "all byte sequences", "why_tests_cant": "unbounded contents", "anchors": ["src/decode/sections/element.rs: parse_elem"]}
{"id": "C40", "title": "Data segments: all three encodings", "statement": "Each of the 3 data encodings decodes to the bytes and mode of the grammar; other bitfields are rejected.", "quantifier": "all byte sequences", "why_tests_cant": "unbounded contents", "anchors": ["src/decode/sections/data.rs: parse_data"]}
{"id": "C41", "title": "Tables and their default initialisers", "statement": "A table entry without initialiser is completed with ref.null of its element heap type; with 0x40 0x00 prefix its own expression is used; the one-byte lookahead never changes the reading.", "quantifier": "all byte sequences", "why_tests_cant": "lookahead over all reference types", "anchors": ["src/decode/sections/table.rs: decode_table"]}
{"id": "C42", "title": "Imports and exports", "statement": "Import/export entries decode to name(s) and descriptor of the grammar; marker bytes other than 0..4 rejected.", "quantifier": "all byte sequences", "why_tests_cant": "unbounded names", "anchors": ["src/decode/sections/import.rs", "src/decode/sections/export.rs"]}
{"id": "C43", "title": "Preamble", "statement": "Inputs not starting with 00 61 73 6D 01 00 00 00 are rejected (with the eight bytes when at least eight are present), and all accepted inputs start with it.", "quantifier": "all inputs", "why_tests_cant": "all 2^64 prefixes", "anchors": ["src/decode/module.rs: parse_preamble"]}
{"id": "C44", "title": "Truncation is detected", "statement": "A strict prefix of an accepted input is itself accepted only if it ends exactly at a section boundary. When a prefix of a module is rejected, the error is one of: a root cause UnexpectedEof; a block type cut after 0x63/0x64; a missing counterpart of a section seen; a size mismatch of a custom section; it is never an accusation of malformedness.", "quantifier": "all accepted inputs, all cut points", "why_tests_cant": "every crash point", "anchors": ["src/decode/module.rs: decode_module"]}
{"id": "C45", "title": "The decodable modules are exactly the representable ones", "statement": "Every module decode_module returns is representable: its version is 1, every immediate, index, count and size is in range, names are UTF-8, the recorded section kinds are ordered and unique, everything in the module has a section of the right kind to be in, the data count (if any) is the number of data segments and is there if a function body uses it; and each recorded section header is that of an encoding of the section. Conversely every representable module is, up to the sizes recorded in its section headers, what decode_module returns for some input.", "quantifier": "all module values, all inputs, all environments with sufficient resources", "why_tests_cant": "surjectivity: says for every value of the module type whether some input decodes to it", "anchors": ["src/core/*.rs", "src/decode/module.rs: decode_module"]}
{"id": "C46", "title": "Resource limits only ever cause resource failure", "statement": "For any two environments, decode_module gives the same result in both, or one of them fails: for lack of heap, having the smaller heap limit, or by overflowing the stack, having the smaller stack limit. So limits never change one Ok/Err result into another, and with equal heap limits only a stack overflow can make a difference, with equal stack limits only a failed allocation.", "quantifier": "all limits, all inputs", "why_tests_cant": "all limits", "anchors": ["all of src/decode"]}
{"id": "C47", "title": "CLI exit status and report (root cause always shown: REFUTED)", "statement": "wadec exits 0 iff the input was opened and decoded, with nothing on stderr; otherwise it exits 1, prints nothing on stdout, prints the error on stderr and then each cause in its source chain once, in order, numbered in decimal from 0, preceded by the Debug text when verbose. The texts printed are exactly those of the levels of the error up to the first level without a source; the root I/O error is printed if no level is detached, but not in general.", "quantifier": "all inputs and error chains", "why_tests_cant": "all inputs", "anchors": ["wadec-cli/src/main.rs: main, abort", "src/decode/errors and thiserror #[error]/#[source]/#[from] attributes"]}
{"id": "C48", "title": "Errors imply malformedness", "statement": "If decode_module returns Err on a byte string then no module is assigned to it by the grammar: rejections are never spurious.", "quantifier": "all byte strings", "why_tests_cant": "negative claim over all derivations", "anchors": ["src/decode/module.rs: decode_module"]}
{"id": "C49", "title": "Success consumes the whole stream", "statement": "If decode_module returns Ok, the reader has reported end of stream and no delivered byte is left over.", "quantifier": "all byte strings", "why_tests_cant": "all inputs", "anchors": ["src/decode/module.rs: decode_module"]}
{"id": "C50", "title": "Every module-level error is exactly diagnosed", "statement": "With sufficient memory and stack, decode_module reports a given error on a stream if and only if the stream's bytes show that fault at the earliest place: a wrong preamble, an unreadable section header, a misplaced section, faulty contents, a size or count mismatch after a well-formed beginning, or a missing counterpart at the end. Every rejected input has exactly one diagnosis and no accepted input has any.", "quantifier": "all byte strings, all stream endings, all errors", "why_tests_cant": "all inputs and all error values", "anchors": ["src/decode/module.rs: decode_module", "src/decode/module.rs: DecodeModuleError"]}
{"id": "C51", "title": "Errors are final", "statement": "If decode_module rejects a stream, then either the error is due to where the input stops (its root cause is the way it stops, a cut block type, a missing counterpart, a cut custom section), or every stream that begins with the same bytes is rejected with the very same error, so reading more input can never help.", "quantifier": "all streams and all continuations of them", "why_tests_cant": "ranges over every continuation of every rejected input", "anchors": ["src/decode/module.rs: decode_module"]}
{"id": "C52", "title": "Every component reports exactly its faults", "statement": "For each component of the binary format (integers, names, types, instructions, expressions, imports, tables, globals, exports, elements, data, code entries, section contents) the errors its decoder returns are exactly the faults of the bytes it is given; the faults are the exact complement of the component's grammar: every byte string either begins with a well-formed component or has exactly one fault, never both.", "quantifier": "all byte strings, all stream endings, all errors, every component", "why_tests_cant": "an exact partition of all inputs", "anchors": ["src/decode/**/*.rs: every decode_*/parse_* function"]}
{"id": "C53", "title": "Re-encoding a decoded module gives its shortest, canonical form", "statement": "For every module decode_module returns there is one shortest byte string (a function of the module): no input decoding to the same module is shorter; decoding it gives back the same module except for the recorded section sizes, each of which is at most the one recorded before; re-encoding again changes nothing; two inputs carry the same module up to section sizes exactly when these byte strings are equal; and resources sufficient for the input suffice for it.", "quantifier": "all inputs (streams) that decode, all environments", "why_tests_cant": "minimality and canonicity range over all inputs that decode to the same module", "anchors": ["src/decode/module.rs: decode_module", "src/core/module.rs: Module", "src/decode/integer.rs"]}
{"id": "C54", "title": "== on modules (\"decoding twice compares equal\": REFUTED for NaN constants)", "statement": "For modules returned by decode_module, m == m' holds exactly when m and m' agree in everything but their f32/f64 constants and these are numerically equal pairwise (IEEE 754: NaN equals nothing, +0 equals -0). Hence: two decodings of the same stream compare equal exactly if no constant is a NaN; == is symmetric and transitive; without zero constants m == m' implies that m and m' are identical; without float constants == is equality. Section sizes are compared, so different encodings of one module need not compare equal.", "quantifier": "all pairs of decoded modules, all streams", "why_tests_cant": "ranges over all pairs of modules with about 500 instruction variants nested arbitrarily, and over all bit patterns of constants", "anchors": ["src/core/module.rs: Module (derive PartialEq)", "src/core/instruction.rs: Instruction (derive PartialEq)", "src/core/mod.rs", "src/core/types"]}
{"id": "C55", "title": "How the caller's reader is used", "statement": "For any implementation of Read, decode_module never calls read with an empty buffer, repeats a call exactly while it is answered by Interrupted or by data, and makes no call after the first answer that is end of file or another error, whether it returns a module or an error; if it returns a module, it has seen such an answer. A call that panics or claims more bytes than the buffer holds is the last, too, and decode_module panics. So there are at most (bytes + interruptions + 1) calls, and the reader is left right after its first end of file or failure if a module is returned, and never beyond it otherwise. Recording the calls does not change the result.", "quantifier": "all Read implementations (arbitrary state and answers), all buffer growth policies of read_to_end", "why_tests_cant": "ranges over all readers, with state of any kind; tests use in-memory slices", "anchors": ["src/decode/module.rs: decode_module, decode_section_header, decode_custom_section", "src/decode/helpers.rs", "src/decode/integer.rs"]}
{"id": "C56", "title": "Text and cause of every error variant", "statement": "Each of the 230 variants of the crate's public error types prints the text of its #[error] attribute (values in decimal, with sign where signed, or as 0x with at least two upper-case hexadecimal digits), and its source() is: that of its payload for the 67 transparent variants; the payload itself for the 75 variants marked #[from]/#[source] or with a field named source; nothing for the remaining ones, including 44 that do carry an underlying error, which is therefore never shown in a chain of causes.", "quantifier": "all values of all error types", "why_tests_cant": "there are infinitely many error values, nested; a test sees one", "anchors": ["src/decode: #[error], #[from], #[source] attributes of all error types", "src/decode/mod.rs: markers_formatted"]}
{"id": "C57", "title": "Every implementation of Read", "statement": "For any implementation of Read whatsoever, with state of any kind and answers that may depend on the buffer sizes asked for. Either every call kept the contract of read (no claim of more bytes than the buffer holds, no panic): then the outcome of decode_module is determined by the answers it received, i.e. an in-memory stream that gives the same answers in the same order leads to the same module, error or panic and is used up exactly. Or a call broke it: then it is the last call, and decode_module panics; and it panics in this way only then. So a module is returned only if no call broke the contract and the bytes delivered up to the first end of file are a well-formed binary of it; an error is a true diagnosis of the bytes delivered, however the input would have gone on; there is no other panic but for want of heap or stack; and decode_module returns if the reader keeps its contract and does not deliver or is interrupted without end. A well-behaved reader that serves the bytes bs and then stops gives the same outcome as any other such reader, whatever the sizes of its pieces and its interruptions.", "quantifier": "all Read implementations (arbitrary state, arbitrary dependence on buffer sizes, broken ones included), all environments", "why_tests_cant": "ranges over all possible readers; tests use in-memory slices", "anchors": ["src/decode/module.rs: decode_module", "src/decode/helpers.rs", "src/decode/integer.rs"]}
{"id": "C58", "title": "The verbose output identifies the module", "statement": "The pretty Debug text of a module ({:#?}, what wadec --verbose prints on success) is the same for two modules exactly if the modules are equal in every field, order and constant, except for which NaN a floating-point constant is (sign and payload of NaNs are not shown). So for modules without NaN constants the text identifies the module; -0.0 and 0.0 are told apart although == equates them. The expectation that the text always identifies the module is refuted by two NaNs.", "quantifier": "all pairs of modules, all readers and environments for the tool, all texts of floats, strings and I/O errors that determine what they print", "why_tests_cant": "injectivity ranges over all pairs of modules of any size and nesting; tests compare a few snapshots", "anchors": ["wadec-cli/src/main.rs: main", "src/core: derive(Debug)"]}
{"id": "C59", "title": "The verbose output identifies the error", "statement": "The pretty Debug text of an error ({:#?}) is the same for two decode errors exactly if they are the same error, in kind, nesting, positions and payloads. With --verbose, what wadec prints to stderr for two failing inputs, taken as one text, is the same exactly if decode_module returned the same error: the debug text can always be found behind the last empty line, whatever the messages before it contain. Without --verbose different errors can be printed alike.", "quantifier": "all pairs of errors, all readers and environments for the tool, all texts of I/O errors that determine the kind", "why_tests_cant": "injectivity ranges over all pairs of values of about a hundred nested error types", "anchors": ["wadec-cli/src/main.rs: abort", "src/decode/helpers.rs: impl Debug for DecodeListError", "src/decode: derive(Debug) of the error types"]}
{"id": "C60", "title": "Readers with their own read_exact", "statement": "Read::read_exact is a provided method that std replaces for &[u8], Cursor, BufReader, StdinLock and others. For any reader whose read and read_exact keep their contracts (read does not claim more than the buffer holds; read_exact fills the buffer or fails, and handles interruptions itself): what C57 says of decode_module holds as well. The outcome is determined by the answers received; no call follows one that reports the end of file or a failure; a module is returned only if the bytes delivered are a well-formed binary of it; an error is a true diagnosis; no panic but for want of heap or stack; it returns. If read and read_exact serve the same bytes and the same end, the outcome is that of any other reader serving them. In particular decoding a &[u8] directly, or wrapping a reader in a BufReader of any capacity, makes no difference. So wadec, which opens its input through a BufReader, prints and returns what C47, C58 and C59 say for the bytes of the file.", "quantifier": "all implementations of Read with an overriding read_exact (arbitrary state), all byte strings, ways of ending, buffer capacities and environments", "why_tests_cant": "ranges over all possible readers and overriding implementations", "anchors": ["src/decode/module.rs: decode_module, parse_preamble, decode_section_header", "src/decode/integer.rs: decode_u32", "src/decode/helpers.rs: read_byte", "wadec-cli/src/main.rs: main"]}
{"id": "C61", "title": "The compact Debug text identifies the module and the error", "statement": "The text of {:?}, which unwrap, expect and assert_eq! print, tells as much as that of {:#?}: it is the same for two modules exactly if they differ in the choice of NaNs at most, and the same for two decode errors exactly if they are the same error. A module's {:?} is a single line, whatever names and constants it contains. An error's is not always: an error below a list element is pretty-printed even then.", "quantifier": "all pairs of modules and errors, all texts of floats, strings and I/O errors of the shape std prints", "why_tests_cant": "injectivity ranges over all pairs of values of over a hundred nested types", "anchors": ["src/core: derive(Debug)", "src/decode/helpers.rs: impl Debug for DecodeListError", "src/decode: derive(Debug) of the error types"]}
{"id": "C62", "title": "The tool's exit status can be trusted", "statement": "Whatever stdout and stderr do with what is written to them: wadec exits with 0 only if the input decodes, nothing went to stderr and, with --verbose, the whole Debug text of the module has been written to stdout; it exits with 1 only if the input could not be opened or does not decode and the whole report has been written to stderr, stdout untouched; otherwise it panics with status 101 after printing a proper part of the text (unless the decoder itself crashes). If the streams take everything it does exactly what C47, C58 and C59 say. Without --verbose, a decodable input gives 0 even with broken streams; with --verbose and a full or closed stdout it does not, although the input decodes.", "quantifier": "all streams (arbitrary state, failing at any write after any part of the text), all inputs, readers and environments", "why_tests_cant": "ranges over all points at which a write can fail", "anchors": ["wadec-cli/src/main.rs: main, abort"]}
{"id": "C63", "title": "The names, fields and layout of the debug output", "statement": "With {:#?}, and hence with wadec --verbose, a module is printed as its type's name and, one per line and in the order of declaration, the names and values of its fields, recursively down to every section, type, instruction and operand; an error likewise, from its outermost variant to the io::Error; an element of a failed vector is printed behind the name of its type and '::'. A tuple or struct opens a bracket at the end of a line and closes it on a line of its own, each level is indented by four spaces, each field ends in a comma, a value without fields and an empty list take one line; numbers are decimal without leading zeros. With {:?} the same names and values are printed on one line, separated by ', ', except below the '::' of a vector element, which is laid out as by {:#?}. The tool prints the module's text as its only output, and the error's text after the messages it prints without --verbose.", "quantifier": "all modules, all errors, all readers and environments; all texts of floats, strings and io errors that are single words, string literals or well-formed trees", "why_tests_cant": "ranges over every module and every error, arbitrarily nested", "anchors": ["src/core: derive(Debug) of Module and every type below it", "src/decode: derive(Debug) of DecodeModuleError and every error below it", "src/decode/helpers.rs: impl Debug for DecodeListError", "wadec-cli/src/main.rs: main, abort"]}
{"id": "C64", "title": "Every part of the module comes from its own section", "statement": "Each part of the decoded module (types, imports, the functions' types, their locals and bodies, tables, ..., custom sections) depends on the contents of the sections of its kind alone: two decodable inputs whose sections of one kind have the same bytes decode to modules that agree in that part, whatever else they contain; without such a section the part is empty. Hence in a decodable file a section can be exchanged for that of another decodable file, and the result decodes, to the module with just that part exchanged, if and only if function and code section still have the same length, the data count still matches the data section, and no body uses data indices without a data count; likewise for leaving a section out.", "quantifier": "all pairs of decodable inputs, all kinds of sections, all readers and environments", "why_tests_cant": "a statement about all pairs of inputs and all ways to recombine their sections", "anchors": ["src/decode/module.rs: decode_module", "src/decode/sections/*.rs"]}
{"id": "C65", "title": "Reports are short and safe to print on a terminal", "statement": "Whatever the input, what the command-line tool prints on stdout and stderr, with and without --verbose, consists of lines of printable characters: no escape sequence, carriage return or other control character of the input reaches the terminal. A report without --verbose is short however large the input: an error has at most nine causes (plus those of an I/O error), and the report takes at most 19 rows (12 except for a wrong preamble, plus the causes of an I/O error); decoding a module prints nothing.", "quantifier": "all inputs (valid or not), all readers and environments, all errors, verbose or not; all texts of std that are themselves printable lines", "why_tests_cant": "ranges over all inputs and all nestings of errors; a control character or a deeper chain would have to be guessed", "anchors": ["wadec-cli/src/main.rs: main, abort", "src/decode/**: #[error(..)] attributes, derive(Debug)"]}
{"id": "C66", "title": "Every entry of a section stands for itself", "statement": "The contents of a section other than custom, start and data count fall, in exactly one way, into a count and one item for each entry the decoded module holds (type, import, function's type, table, memory, tag, global, export, element segment, function's code, data segment), in the same order. What an entry is depends on the bytes of its item alone. So a tool can edit files at this level: put any list of well-formed items in place of a section's, and the result decodes, to the module with exactly these entries and everything else as before, if and only if there are still as many functions as bodies, as many data segments as the data count says, and no data indices without a data count. In particular replacing a single item replaces just that entry.", "quantifier": "all decodable inputs, all eleven kinds of sections holding lists, all entries and their encodings, all readers and environments", "why_tests_cant": "ranges over all modules, entries and edits: state carried from one entry to the next would have to be guessed", "anchors": ["src/decode/helpers.rs: decode_list", "src/decode/sections/*.rs: decode_*_section", "src/decode/module.rs: decode_module"]}
{"id": "C67", "title": "Section kinds compare as sections are ordered", "statement": "The comparison operators of SectionKind form a total order that agrees with ==; for kinds other than Custom, a < b says exactly that in a module a section of kind a comes before one of kind b (Custom is below all others, although custom sections may be anywhere). In a decoded module parsed_section_kinds is strictly ascending, and every strictly ascending list of kinds other than Custom is that of some decodable file. When SectionOutOfOrder{current, previous} is reported, current < previous; neither it nor DuplicateSection ever concerns custom sections.", "quantifier": "all pairs and triples of kinds, all decodable inputs, all ascending lists of kinds, all inputs that give these errors", "why_tests_cant": "the order must agree with the acceptance of every file; tests try a few pairs", "anchors": ["src/core/module.rs: SectionKind, derive(PartialOrd)", "src/decode/module.rs: validate_section_kind_expected"]}
{"id": "C68", "title": "An error in a section is about that section alone", "statement": "If decoding fails with an error about the contents of a section, every input in which a section of that kind has the same contents (declared size, the bytes behind it up to that size, and, if the input stops before, how it stops) fails with exactly this error, whatever other sections come before (as long as the section is in its place) and whatever comes after its declared bytes. So the preamble and the input from that section on reproduce the error; and of two files that end with the same complete section both or neither report a given error about its contents. Likewise an error about the entry at some position of a section depends on the bytes from that entry on alone: other well-formed entries before it only change the reported position, and a file with one section, and in it one entry, reproduces it at position 0.", "quantifier": "all inputs that give such an error, all kinds of sections, all positions; all inputs in which the section or the entry recurs, all readers and environments", "why_tests_cant": "ranges over all failing inputs and everything that can be put around the faulty bytes: state carried into a section would have to be guessed", "anchors": ["src/decode/module.rs: decode_module", "src/decode/sections/*.rs", "src/decode/helpers.rs: decode_list"]}
{"id": "C69", "title": "An error does not contradict itself", "statement": "No message of a reported error, nor of an error it contains, that says '...; got X' names X among what it says was expected (as a word before it, or as the whole of what follows a blank). Conversely, for the flag byte of limits, the marker bytes of composite types, tag types, external types, catch clauses and tables, the mutability of globals and fields, the kind of an export, of an element segment and of a data segment, and section ids: the decoder refuses a value by that error exactly if its message does not name the value among what it expects. For reference types and value types the converse fails: the message names the abstract heap types only, not 0x63 and 0x64, nor 0x7B to 0x7F for value types, which are all accepted.", "quantifier": "all inputs, readers and environments for the first half; all byte values (all 32-bit numbers for data segments), in all well-formed contexts before them, for the second", "why_tests_cant": "ranges over all failing inputs and all values; a message that names what it refuses, or a value that is refused but named, shows only on the one input that has it", "anchors": ["src/decode/types/*.rs: error enums", "src/decode/sections/*.rs: error enums", "src/decode/module.rs: DecodeModuleError, InvalidSectionIdError", "src/decode/mod.rs: markers_formatted"]}
{"id": "C70", "title": "A name that is not UTF-8 is located exactly", "statement": "If decoding fails because the bytes of a name are not UTF-8, the bytes in the error are indeed not UTF-8, and what the error says of them is exact: `valid_up_to` is the length of their longest prefix that is UTF-8; `error_len` is absent exactly if some continuation would make them UTF-8 (the last character is cut off), and otherwise is the number of bytes, one to three, that begin a character which the next byte breaks (one if no character begins with the first byte), and stays so whatever follows. Display and the DEBUG OUTPUT state these numbers, and the text determines them; if the error reaches it through its sources it is the last text of the report.", "quantifier": "all byte strings; all inputs, readers and environments", "why_tests_cant": "ranges over all byte strings: the boundaries of UTF-8 (overlong forms, surrogates, values above 10FFFF, truncation at every byte) combine with every position in the name", "anchors": ["src/decode/helpers.rs: decode_name, DecodeNameError::Utf8", "src/decode/sections/custom.rs", "src/decode/sections/import.rs", "src/decode/sections/export.rs", "wadec-cli/src/main.rs"]}
{"id": "C71", "title": "Printing what was decoded needs stack in proportion to nesting", "statement": "`{:#?}` of a decoded module is recursive like the decoder, but deeper: an instruction takes at least two and at most three nested Debug calls for each block around its innermost instruction (and at most seven more). So a module that decodes on a stack of d levels is printed on max(13, 3d+9), and no stack suffices for every file: for every d there is a file of at most 3d+26 bytes that decodes on d+1 levels and is accepted silently, while `wadec-cli --verbose` overflows any stack of less than 2d+4. An error, in contrast, is at most 17 levels above what std prints for the I/O or UTF-8 error in it, whatever the input: a failure is always reported, with --verbose or without.", "quantifier": "all modules, errors, inputs, readers, stack sizes and environments", "why_tests_cant": "ranges over all nesting depths and stack sizes, and over every type that can be inside a module or an error", "anchors": ["src/core/instruction.rs: derive(Debug) for Instruction", "src/core/module.rs: derive(Debug) for Module", "src/decode: derive(Debug) of the error types", "src/decode/helpers.rs: Debug for DecodeListError", "wadec-cli/src/main.rs"]}
{"id": "C72", "title": "The verbose output has at most eight lines per byte of the file and per local, but quadratically many bytes", "statement": "The text that `{:#?}` gives for a decoded module, which `wadec-cli --verbose` prints, has at most 8 lines for each byte of the file plus 8 for each local of its functions (and at least 3 for each local). The locals have to be counted: for every n below 2^32 there is a file of at most 32 bytes that decodes and prints on more than 3n lines. Lines are indented by their nesting, so the output is not linear in bytes: no line is indented by more than 4*max(13, 3d+9) spaces when instructions are nested less than d deep, and for every d there is a file of at most 3d+26 bytes without locals of which at least 20*d*d bytes are printed. Of an error, `{:#?}` prints at most 33 lines, those of std for the I/O or UTF-8 error in it (at most 6 for the latter), and one for each byte of the file (none if the error is not about a name).", "quantifier": "all modules, errors, byte strings, readers, environments, nesting depths and numbers of locals", "why_tests_cant": "a bound relating the size of every input to the size of its output, over all types that can be inside a module; the refutations are families of files of unbounded size", "anchors": ["src/core/module.rs: derive(Debug) for Module", "src/core/instruction.rs: derive(Debug) for Instruction", "src/decode/sections/code.rs: parse_func", "wadec-cli/src/main.rs", "src/decode: derive(Debug) of the error types"]}
