# Formal model of agis/wadec in Rocq (Coq 8.16.1)

`/repo` is a streaming decoder for WebAssembly 3.0 binaries (`decode_module`
plus a small command-line tool).  This directory holds

* `properties.jsonl` — the properties, in English;
* `rocq/theories/Model` — the code, function by function, as executable Gallina;
* `rocq/theories/Spec` — what the properties are stated with: the binary grammar,
  the faults, resources, encodings, equality, CLI output. Independent of the model's
  functions (only the data types are shared);
* `rocq/theories/Proofs` — lemmas;
* `rocq/theories/Properties` — the theorems `Cnn_*` the manifest names, each closed
  by `exact`, with `Print Assumptions` and with a concrete case (`Cnn_ex…`) that
  meets its hypotheses;
* `MANIFEST.json` — property → theorems;
* `seeded/LOG.jsonl` — mutation testing of the theorems.

## 1. The model

| file | models |
|---|---|
| `Prelude.v` | `Result`, `?`, `map_err`, panics, allocation, bounded loops |
| `Io.v` | `std::io::Read`, `read_exact`, `read_to_end`, `Take`, `Chain<Cursor<[u8;1]>, _>`; sources: slices and arbitrary event streams |
| `Ast.v` | `src/core` (all public data types) |
| `Errors.v` | every public error type of `src/decode`, variant by variant |
| `Integer.v` | `src/decode/integer.rs` (five LEB128 decoders) |
| `Helpers.v` | `src/decode/helpers.rs`, `indices.rs`, and `str::from_utf8`'s automaton |
| `Types.v` | `src/decode/types/*.rs` |
| `Instr.v` | `src/decode/instructions.rs`: `Instruction::parse` and all opcode tables |
| `Sections.v` | `src/decode/sections/*.rs` |
| `Module.v` | `src/decode/module.rs`: `decode_module` |
| `Display.v` | the `thiserror` attributes: text (`Display`) and `source()` of every error variant |
| `Cli.v` | `wadec-cli/src/main.rs` |
| `Eq.v` | the derived `PartialEq` of the types in `src/core` |
| `Order.v` | the derived `PartialOrd` of `SectionKind` |
| `Debug.v`, `DebugError.v` | the Debug texts of modules and of errors |
| `Print.v` | `wadec-cli/src/main.rs` with output streams that can fail |
| `Utf8.v` | std's `Utf8Error` (where and how bytes are not UTF-8), its Display and Debug |
| `Stack.v` | `{:#?}` with a limited number of nested Debug calls; wadec-cli printing that way |
| `Override.v` | `decode_module` again, on readers with their own `read_exact`; `&[u8]` and `BufReader` of std as such |

* A function `fn f(reader: &mut R) -> Result<A, E>` is `f : M R E A`, i.e.
  `R -> res E A * R`, polymorphic in a type class `Reader R` with one operation
  `read`.  `res` is `Ok | Err | Panic | Stuck`: every `unwrap`, `unreachable!`,
  index, arithmetic overflow, failed allocation and exhausted stack is an explicit
  `Panic`; `Stuck` (loop fuel exhausted) has no counterpart in Rust and is proved
  unreachable (C35).
* Integer arithmetic is on `N`/`Z` with the width stated where Rust's matters
  (wrapping shifts, casts, overflow checks are explicit operations).
* `Env` (a class) carries the limits of the process: depth of the recursion of
  `Instruction::parse`, number of elements a single `Vec::with_capacity`/`vec![0; n]`
  may have, and the buffer sizes `read_to_end` chooses (`probe`, arbitrary).  Each
  theorem either quantifies over all `Env`s or says what it needs (`sufficient`).
* Recursion: `Instruction::parse` recurses structurally on the stack limit; loops
  whose number of iterations the input decides take fuel from the reader's `budget`
  (number of calls left that deliver data or are interrupted); counted loops are `N.iter`-like (`loopN`).

### Modelled, and simplified

Every definition's comment cites file and lines, and its own simplifications. Global ones:

* `io::Error` is its kind (`UnexpectedEof`, `Interrupted`, any other by number);
  payload and message are not modelled.  `FromUtf8Error` is the bytes it carries.
* `String` is its bytes; `f32`/`f64` are bit patterns; index newtypes are numbers;
  fixed-size arrays are lists; ranges are proved (C45), not typed.
* `usize` is taken to have at least 32 bits, so `u32 as usize` is lossless.
* Heap: the limit is on the number of elements of one vector, whatever their size.
  `with_capacity(n)`, `vec![0; n]`, the expansion of locals and each growth of an instruction sequence,
  of the list of section headers and of the buffer of `read_to_end` are charged the
  length reached.  Not charged: the capacity std rounds up to; vectors of constant
  length (the one-instruction initialisers of tables and element segments); the lists of
  section kinds and of custom sections, which are no longer than that of headers; and
  `funcs`, which is no longer than the list of type indices.  What `read_to_end` does when memory is
  short (an `OutOfMemory` error) is modelled as a failed allocation like the others.
* Stack use is the nesting depth of `Instruction::parse`; other frames are constant.
  `instruction_contains_data_index`, dropping an instruction and the derived `Debug`
  and `PartialEq` recurse with the nesting too, in smaller frames: not charged.
* A reader that panics, or that claims more bytes than the buffer holds, is modelled
  (`RdPanic`, `Panic ReaderFault`): `Take`'s `assert!`, the slicing in `read_exact`, the
  checks of `read_to_end` and of `BufReader` turn such a claim into a panic.  A false
  claim is represented by a byte string longer than what was asked for.  Drop code run
  while unwinding is not modelled.
* Output streams (Model/Print.v, C62): what std does between `println!` and the file
  descriptor is one call that says whether all of the text went through; a stream that
  fails has taken a part of the text (Spec/Print.v: `Stream`).  Text left in std's line
  buffer is not an issue, since every text ends in a newline.
* What std prints for `io::Error` and `FromUtf8Error`/`Utf8Error` (Display and Debug) and
  the Debug texts of `f32`, `f64` and `str` are abstract parameters (class `Texts`); C58,
  C59 and C61 state what they require of them (`readable`, Spec/Debug.v: floats are
  numerals or names, strings are quoted with escapes, I/O errors are written with the
  builders) and show a non-trivial instance (`sample_readable`).  All other Debug texts
  are modelled (Model/Debug.v, Model/DebugError.v): the derived implementations and the
  builders of core::fmt, with `{:#?}` and with `{:?}`.  For `FromUtf8Error` there is also
  the concrete model of std (Model/Utf8.v): `located_texts` puts it in place of the
  parameters, and C70 shows that it meets what is required of them.

### Not modelled

`clap` argument parsing and `patharg` (the CLI model starts with an input and the two
flags); `Hash`/`Eq`/`Clone` derives that
no code of the crate uses; the build files; performance.  Threads do not occur.

### Validation

`Properties/Fixtures.v` runs the model (in the kernel) on all 158 binary fixtures of
the repository's test suite and compares with what `tests/*.rs` expects: module or
error, down to the payload.

## 2. Readers

`Reader` instances: byte slices, and `list event` — an arbitrary finite sequence of
chunks, `Interrupted`s, ends of file and failures, with whatever follows an end of
file or a failure.  Theorems about "any reader" quantify over event lists; `Take` and
`Chain` over any reader are readers.  A *machine* (Proofs/Machine.v) delivers one atom at a time;
`Lawful R C` says a reader behaves like a machine up to chunking and interruption.
All walks over the decoders are done once for every lawful reader.

## 3. Proof architecture

One judgement, its combinators, one lemma per function of the decoder:

| judgement | says | used for |
|---|---|---|
| `Parses p G` (Parses, Leb, Utf8, G*.v) | `p` succeeds exactly on the words of grammar `G`, with their value, consuming exactly them, or gives up for lack of a resource | C01–C20, C23–C29, C39–C42, C48, C49 |
| `Blames p F` (Blames, F*.v) | the errors of `p` are exactly the faults `F` of its input | C21, C22, C50–C52, C33, C44 |
| `Safe d p m Q` (Safe, SafeWalk.v) | no panic but resource exhaustion, no `Stuck`, budget decreases | C34, C35 |
| `Sim` (Sim.v) | two runs on readers with the same content, under different limits | C30, C31, C46 |
| `Tame`, `Ended` (Tame.v) | an invariant of every reader is kept through all calls; no call after a stop | C55 |
| `Er` (Erase.v) | the decoder commutes with any map of readers that preserves `read` | C55 |
| `Rp` (Replay.v) | a decoder run on any reader and on an event stream that repeats the answers give the same outcome | C57 |
| `Reads` (Debug.v) | a Debug implementation yields a printable tree (Pretty.v: `wf`) that determines the value; for modules `Shows`: up to the choice of NaNs | C58, C59, C61 |
| size/need inductions on grammar derivations (Need, Fits, Exact, Sizes, Shortest, ShortModule) | | C36–C38, C45, C53 |

## 4. Properties: what is modelled and how it is proved

| property | statement in the model | method |
|---|---|---|
| C01 | `decode_module evs = Ok m` → content of `evs` is a word of `Bmodule m` (Spec/Module.v) | `Parses` for every production; `GAssemble`: incremental assembly = declarative assembly |
| C02 | word of `Bmodule m`, sufficient limits → `Ok m` | same, completeness half |
| C03–C07 | decoder vs. the specification's recursive uN/sN; the outcomes on non-encodings stated arithmetically (Spec/Leb.v) | unrolled loops with explicit width, arithmetic of 7-bit groups |
| C08, C09 | vectors over an arbitrary element decoder (stateful closures included) | induction on the count |
| C10 | `from_utf8` automaton vs. encoder of scalar values | case analysis on lead bytes, arithmetic on code points |
| C11 | little-endian bit patterns | direct |
| C12–C16, C39–C42 | `decodes p G`: exactly the words of the production, otherwise an error | corollaries of `Parses`; bad markers by `Blames` |
| C17 | instruction ↔ table of opcodes in Spec/Instr.v; unassigned opcodes carry the opcode | table lookup reflected by computation over the 256 bytes / by arithmetic over u32 opcodes |
| C18 | one theorem per instruction with several immediates, with explicit operands | `Parses` |
| C19 | bodies, `else` in the wrong place (Spec/Else.v) | nested induction on instructions / on the stack limit |
| C20, C21, C23–C25 | about the accepted module, or the exact error | section-loop invariant; `Blames` |
| C22 | sizes as fences: result depends only on the declared number of bytes | `Sim` on `Take` readers, `Blames` |
| C26 | expansion and bound of locals; `LocalsCountOutOfBound` exactly for totals ≥ 2^32 | induction on the groups |
| C27–C29 | insertion/removal of custom sections; contents; layout of the file | induction on the division into sections (Unamb) |
| C30 | same content → same result, for all chunkings and interruptions | `Sim` |
| C31–C33 | failing readers | machines with a failing atom; root cause by induction on faults (Causes) |
| C34, C35 | all outcomes of all readers | `Safe` |
| C36–C38 | exact needs; refutations by witness families | induction on derivations |
| C43 | preamble | direct |
| C44, C51 | prefixes; errors that no continuation repairs | induction on faults |
| C45, C53 | `representable m`, `encode_module m` (Spec/Encode.v) | induction on syntax; minimality by induction on derivations |
| C46 | limits change nothing but resource failures | `Sim` |
| C47 | exit status, stdout, stderr | model of `main`/`abort`, induction on the source chain |
| C48–C50, C52 | errors ↔ faults; faults and words are complementary | `Blames` + `Parses` |
| C54 | derived `==` vs. IEEE equality of constants and identity of the rest | decision of `equal` by induction on syntax; injectivity of variants |
| C55 | the sequence of `read` calls | Tame.v + Erase.v, with a reader that records its calls |
| C56 | text and source() of every error variant | statements generated from the Rust attributes, independently of Model/Display.v; numerals specified in Spec/Texts.v |
| C57 | every `Read` implementation, also one that breaks its contract | Replay.v + Logs.v reduce the run to an event stream unless the last call broke the contract (`gone`), where C01, C34, C50 apply; Tame.v (`broken`) shows that such a call is the last and makes the decoder panic; SafeWalk.v (any `ReaderOk`) for termination |
| C58 | what `--verbose` prints identifies the module up to NaNs | the tree handed to core::fmt modelled per type (Model/Debug.v); `pretty` injective on well-formed trees (Pretty.v: one parsing lemma, `show_det`, for both styles); one `Reads`/`Shows` instance per type |
| C59 | what `--verbose` prints identifies the error | same (Model/DebugError.v); Blank.v: the debug text has no empty line, so it can be found in what is printed |
| C60 | readers with their own `read_exact` | Own.v: one state, two readers (`read_exact` of one byte for headers, `read` for bodies); the lemmas of Replay.v, Tame.v, Erase.v, SafeWalk.v for each part |
| C61 | `{:?}` identifies the module up to NaNs, and the error; modules on one line, errors not always | same trees, `compact`; `show_det` with the flat style; `wf false` (no `format_args!` inside) for the one-line claim |
| C62 | what the tool does if it cannot print | Model/Print.v: main.rs with the two streams, a failing `println!`/`eprintln!` panics (status 101); induction over the lines printed |
| C63 | names, fields and layout of the debug output | Spec/Shown.v: per type, the name and fields the Rust definition has (written by a script that parses /repo/src, not from the model); Spec/Outline.v: lines with levels. Proofs/Shown.v: one lemma per type (induction for instructions); Proofs/Outline.v: `pretty` writes these lines (induction on trees, via `show` of Pretty.v) |
| C64 | section locality | Spec/Locality.v says what belongs to which kind of section; from C01/C02, the unambiguous split of a file into sections and unambiguous contents; the cross-section requirements of the grammar recombined per kind |
| C65 | short reports of printable characters | Spec/Report.v: characters and rows; one lemma per error type (`tidy`: single printable lines, depth of the chain), bottom up; Debug output: all texts in the tree are names, numerals or quoted strings (Pretty.v), induction on trees |
| C66 | entries of a section | Spec/Elements.v: entries, their encodings, what may be exchanged; the list grammar taken apart and put together again, prefix-freeness of each entry (as a list of one), then as C64 |
| C67 | order of section kinds | Model/Order.v: the derived `PartialOrd`; case analysis against `section_order`; from C20, C50; a least file for every ascending list, from C02 |
| C68 | errors are about their section | Spec/Isolation.v; from C50: the faults of a section's contents mention nothing before it; entries by moving the fault of a list element behind other entries |
| C69 | consistent messages | Spec/Honest.v: words of a text, `honest`, `lists`; every fault of Spec/Faults.v walked through its message, then C50; what is listed compared with what is refused byte by byte over C52 |
| C70 | location of UTF-8 errors | Model/Utf8.v: `run_utf8_validation` with its errors, the texts; Spec/Utf8.v: `located` in terms of prefixes of encodings of scalar values only; one step of the automaton against boolean characterisations of such prefixes, induction on the length; every fault of Spec/Faults.v walked for the bytes it carries, then C50 |
| C71 | stack of printing | Model/Stack.v: `pretty_in n` fails when more than n Debug calls are nested, counted like the nesting of `Instruction::parse` (a level is a bounded number of Rust frames); Spec/Stack.v: `height`; induction on trees, then on nested instructions for both bounds; every error type bounded; with C37_exact, `nested d` refutes any fixed bound |
| C72 | length of the verbose output | lines by recursion on the tree (one, or two and those of the fields), linear in the bytes by induction on the grammar like C38, with locals apart; a text has the lines of its page since no atom contains a line feed (C63); every level is below the height (C71); the levels of `nested d` sum up to 5d², four spaces each; errors: a constant per type, and the name, which C50 finds in the input |

Nothing in the list had to be left out of the model.

## 5. What the proofs found

Expectations that are false of the code, stated with a witness (the theorem states what does hold):

* C32: a reader that fails with `UnexpectedEof` exactly between sections is taken for
  a complete input.
* C33: a malformed, cut or failing block type that starts with 0x63/0x64 is reported
  as `NegativeTypeIndex` −29/−28: the value-type attempt's error (an I/O error too) is
  dropped and the byte is reinterpreted as a type index.
* C36: 15 bytes make the decoder reserve 2^32−1 elements; C38: a 32-byte module has
  2^32−1 locals; C37: every stack is overflowed by a module of 3d+26 bytes.
* C71: printing a module takes more stack than decoding it: 3d+26 bytes decode on d+1
  levels and are accepted silently, and `--verbose` overflows less than 2d+4.
* C72: the verbose output is quadratic in nesting: 3d+26 bytes of nested blocks print
  more than 20d² spaces (a 30 kB file, 2 GB), and 32 bytes with n locals more than 3n lines.
* C47: several error variants carry their cause without `#[source]`/`#[from]`, so the
  CLI's cause chain stops early and does not show the root cause.
* C52: the offset expression of element bitfield 2 is reported as
  `DecodeElementExpression`, i.e. as the expression of an element.
* C54: a module with a NaN constant is not equal to itself; the recorded section sizes
  make different encodings of the same module unequal.

## 6. Trusted base

* Coq's kernel (8.16.1), including `vm_compute` conversion.
* Axioms: `Print Assumptions` of every theorem named in the manifest prints "Closed
  under the global context".  No axiom, `Parameter`, `Admitted`, functor or module
  type is defined here.  The only axioms in the loaded library files are the sealed
  constants of the standard library's `Coq.ssr.ssrunder` (pulled in by `Lia`/`Zify`), on which no theorem depends.
* The transcription of the code into `Model/` (by reading; checked against the fixtures and by mutation), of `std::io` into `Model/Io.v`, of the derive macros into `Eq.v`/`Display.v`.
* The specifications in `Spec/`: the binary grammar was transcribed from the
  WebAssembly 3.0 specification, chapter 5.

## 7. Mutation testing

`seeded/LOG.jsonl`: one line per edited definition.  In a scratch copy an edit like a
realistic bug is made in `Model/`, everything is rebuilt with `make -k`, and the
theorems that no longer compile are recorded.  Survivors whose claim is broken led to tightened theorems (noted in the log).
