# Formal model of dropbox/divans in Rocq (Coq 8.16.1)

Read in this order: `properties.jsonl` (the claims in English), the `Spec*.v` file
of a property (its vocabulary), the `Thm*.v` file (the theorems), the `Model*.v`
file (the program). `Proof*.v` need not be read to know what is claimed.

* `rocq/theories/Model*.v`: the model, function by function. Every definition cites
  the Rust lines it models and says where it simplifies.
* `rocq/theories/Spec*.v`: small specifications, written without the model's helpers
  where the property allows it (LZ77 meaning of a command list, CRC-32C bit by bit,
  sessions of API calls, and so on).
* `rocq/theories/Thm*.v`: the property theorems. Each is followed by
  `Print Assumptions` and by an `Example` that meets its hypotheses on a concrete case.
* `tools/`: generators of the transcribed tables, of `properties.jsonl` and of
  `MANIFEST.json`.
* `seeded/LOG.jsonl`: wrong versions of the model, and which theorems rejected them.

## Modelling conventions

* Machine integers are `Z`. Where the Rust wraps or truncates, the model wraps
  (`i16`, `i32`, `mod 2^k`). Where it would panic in a debug build (overflow, failed
  assertion, slice out of range, division by zero), the model returns `None`.
  The exceptions are named in the file's header comment: `usize` sums of buffer
  lengths are unbounded.
* Slices are lists. `&mut` parameters are returned.
* Loops are structural recursion, or recursion on fuel with an "out of fuel" value.
  Theorems about termination show that value is not reached; the others treat it as
  a panic, which they exclude.
* A resumable function (called again with more input or more output space) is modelled
  as its state machine, and theorems quantify over all lists of calls.
* Encoder and decoder of a command are one Rust function over a generic arithmetic
  coder. The model is also one function, written as an interaction program that asks
  for nibbles (`ModelCodec.v`); running it with a wanted nibble is encoding, running it
  with the nibble read is decoding.
* Threads: a step is what a thread does while it holds the queue's lock. Schedules are
  arbitrary, spurious wake-ups included.
* A property that is false of the faithful model is kept as a theorem `..._refuted` with
  a witness, and the statement in `properties.jsonl` is the true one.

## Properties

| id | modelled | proved by |
|----|----------|-----------|
| C01 | `ans.rs`: ByteStack, encoder, decoder | encoder and decoder steps are inverse on [2^31, 2^63); induction over symbols, then chunks |
| C02 | `ans.rs`: decoder input, all paths | invariant on bytes still required, for any byte string |
| C03 | `ans.rs`: encoder state and buffer | state interval invariant; output size potential |
| C04 | `probability/interface.rs`: intervals, lookup | floor division arithmetic |
| C05 | `frequentist_cdf.rs`: blend; bit distribution | invariant over histories |
| C06 | `opt_frequentist_cdf.rs` | equality with the reference via C07 |
| C07 | `numeric.rs`, `div_lut.rs` (65536 entries transcribed) | table checked entry by entry in the kernel, then arithmetic for every dividend |
| C08 | `frequentist_cdf.rs`: average | inequalities on shares |
| C09, C10 | `mux.rs` writer and reader with explicit memory | chunk grammar; simulation; invariants over call lists |
| C11, C12 | `codec/crc32.rs` (portable and, for C11, SSE 4.2), table transcribed | linearity over GF(2); table by computation; injectivity of 32 zero steps |
| C13, C14, C15 | header writer and parser, trailer writer and checker | resumable writer = prefix of a fixed string |
| C16, C17, C18 | `cmd_to_raw/mod.rs` | ring buffer refines the history; progress measure for copies |
| C19 | `raw_to_cmd/mod.rs` | ring invariant up to the second wrap; counterexample beyond |
| C20, C21, C22, C23, C24 | `codec/{copy,dict,literal,block_type,context_map}.rs` | both runs of the interaction program stay in step |
| C25 | distance cache in `codec/interface.rs` | case analysis on codes |
| C26 | `codec/mod.rs` command loop | induction over the command list |
| C27 | `codec/mod.rs`, `codec/decoder.rs`, `divans_decompressor.rs`, `threading.rs` (serial) | composition of C01, C09, C13, C15, C16, C26 with call-level invariants |
| C28, C30 | `codec/mod.rs` flush states, `cmd_to_divans`, `divans_compressor.rs` | invariants and a measure over call lists |
| C29 | decoder run of the command loop on arbitrary nibbles | range invariant; three hazards refute the unconditional claim |
| C31 | `priors.rs`, `codec/priors.rs` | mixed radix arithmetic |
| C32, C33, C34 | `parallel_decompressor.rs`, `multithreading.rs`, `threading.rs` | invariants over all interleavings; simulation by the serial decompressor; measure under fairness |
| C35, C36, C37 | `resizable_buffer.rs`, `slice_util.rs`, `alloc_util.rs` | invariants over operation lists; block accounting |
| C38, C39 | `reader.rs`, `writer.rs` | adapter proved over any processor keeping a contract; both (de)compressors keep it |
| C40 | `ffi/compressor.rs`, `ffi/mod.rs`, `ffi/interface.rs` | histories of API calls |
| C41 | `ir_optimize/mod.rs`, cost model as oracle | LZ77 meaning preserved |
| C42, C43 | `arithmetic_coder.rs`; bit coding in `ans.rs` | refinement to a list queue; generic coder |
| C44, C45 | speeds in `interface.rs`, `codec/weights.rs` | finite domain in the kernel; invariant |
| C46 | `divans_compressor.rs` encode and flush on raw bytes | assembler invariant + C28 + C27 |
| C47, C48 | whole serial decompressor on any bytes | invariant over arbitrary sessions; C12 |
| C49 | `simd_frequentist_cdf.rs`: lanes, three lookups, f64 division | lane-wise equality; rounding error bound |
| C50 | `blend_cdf.rs` | the stored total is a function of the count: 399 steps walked in the kernel, then a fixed point |
| C51 | `ffi/mod.rs`, `ffi/compressor.rs`, `ffi/decompressor.rs` (serial) over the real (de)compressor | C program sessions equal C46's sessions; option invariant over setting lists |
| C52 | the whole single-threaded decompressor of C47 on bytes of any origin | guarded run (stops at a named danger, else equals the run); potential function over both workers, queues, window and unread input decreases at every round |
| C53 | the two-threaded decompressor of C33 on bytes of any origin | invariant of the main thread: checksum register, consumed bytes and room, preserved by every step of either thread |
| C54 | the two-threaded decompressor of C33 on bytes of any origin | invariant on the shared queue with a token for each context map; a potential that every step of an awake thread lowers, with sleepers blocked; both blocked in a call implies the command bytes are used up |
| C55 | `decompress_generic` of the tool around the decompressor, sources and outputs as lists of outcomes | loop invariant over the library contract of C27, measure input plus output left; any origin: induction over the rounds, giving the calls of C47; refuted part by a fixed point of the loop |
| C56 | `compress_raw_inner` around the raw compressor | loop invariant over the library contract of C46, with the source as the loop hears it (`heard`); refuted part by the same invariant |
| C57 | `compress_raw` with `is_divans` and the first reads | induction over the source; C55 and C56 |
| C58 | `command_parse`, `window_parse`, literal and number parsing (`ModelText`) | per arm; lemmas on splitting, numerals, literals; case analysis of every arm for the panic claim |
| C59 | `compress_ir`, `compress_inner`, `recode_cmd_buffer` over the compressor of C28 | a loop lemma for any consumer with an invariant (`loop_spec`), applied with C28's |
| C60 | `recode`, `recode_inner` over the replayer of C16 | `loop_spec` with C16's invariant |
| C61 | `brotli_ir_gen.rs`: callback, internal buffer, encode, flush; the brotli encoder as a parameter with a contract | invariant over the calls (`driven`), then C20's codec invariant on the whole command list |
| C62 | the tool's default mode: C56's loop over C61's compressor | induction on the reads left and on the encoder's calls without progress (`hcloop_spec`) |
| C63 | `bin/divans.rs` decompress, compress_raw with two threads; free | the session lemmas of C33 for one call at a time, credit in fair rounds carried through the tool's loop; hang by the invariant of C34 |
| C64 | ModelCapi: `start`, `encode`, `flush` of the C state with the brotli compressor (ModelHybrid) and divans_decode / divans_free_decompressor of a decompressor with two threads (ModelToolThread); buffers and offsets as the C program sees them (SpecCapi). | The C sessions are those of C61 (`clsession_eq`); the two-thread session by induction over the calls from `call_good` (C63). Two refutations. |
| C65 | ModelIo's reader and writer with `hybrid_processor` (ModelHybrid) as the processor; source and inner writer as in C38 | the rounds of the first read up to the end of the source are shown to be the encode calls of a C61 session on pieces that do not depend on the processor (ProofGreedy `feeding`), each later read is one flush call (`reads_finish`); then C61's file and C38's decompressing reader; the early end by executing the rounds with `store` |
| C66 | the callback of `brotli_ir_gen.rs` with `ir_optimize` (ModelTuned over ModelIr); literals as ranges of brotli's input pair | an encoder that keeps the contract without the optimiser keeps it with it: metablock by metablock the optimised commands mean the same (C41), stay acceptable and can be thawed (ProofTuned); then C61 |
| C67 | the parser of C58 (ModelText) | both directions: SpecStrict describes the accepted and the ignored lines without the parser; each step of the parser is inverted (ProofStrict), sections by induction on the words |
| C68 | the reader of C38, the C API of C37/C64, the two-thread tool of C63, on input of any origin | SpecOrigin describes complete chunks and broken end marks; invariants: what has been consumed so far and the checksum of it (as C47), and that unless the end mark has been seen every call takes all it is offered (ProofOrigin2); induction over reads, calls and schedules; refutations by computation |
| C69 | ModelIoThread (the `Processor` of the two-thread decompressor under ModelIo's adapters; the schedule is part of its state) | the contract of ProofIo is proved of a shadow of the decompressor that stops needing turns after a counted number of calls (ProofIoThread2); two processors that agree for that many calls give the same reads and writes (ProofIoThread); ThmIoThread. Trailing bytes: the read after the last byte spins under every fair schedule. |
| C70 | ModelForecast: the distance cache (four entries with origins, hit list of eight-byte rows), populate, and should_merge's change of the trial coder's recent distances, over checked or wrapping u32 arithmetic, inside the loop of ModelIr | Invariant over the commands seen: the cache's distances are the codec's (needs the four to be different, which is kept), every row that is no miss names a later copy and its code; the forecast by cases on the code with i32 wrap-around; wrapping loop equal to the loop of C41; a list that panics with checked arithmetic |
| C71 | ModelDec and ModelHeader as they are; SpecFinal: a run of calls with what each was offered and answered, continued past any verdict | invariant over every history: what the worker holds is at most what the main thread counts, an end seen means a finished worker, a trailer byte means a finished container; success leaves a state that every call maps to itself. Bad header: simulation between the parser with stale bytes and a new one |
| C72 | `ffi/alloc_util.rs` and the allocating and freeing functions of `ffi/mod.rs` as a list of events on two heaps; SpecHooks: what is out after a list of events, undefined when something is freed that is not out | invariant over every list of operations: what is out is a permutation of the pieces behind the owned cells and buffers, the state and what was lost; four refutations by witness |
| C73 | the argument loop of `main` in `bin/divans.rs` and the choice of job and streams after it, `Speed::from_str`; SpecArgs: what each argument means and how it is written, and the settings as the last thing said | step lemma for every spelling with a symbolic number, induction over the line; invariant for the four speeds; refutations by witness |
| C74 | ModelLine: main's calls of `compress_raw` and `decompress` with the settings of the line, over ModelArgs (C73) and the tool models of C55-C63; SpecLine: settings the format can carry, lines that decompress | from the words said to `cfg_ok` (range of every said number, all four speeds are said ones), then C56/C57/C62 and C55/C63; refutations by computation |
| C75 | ModelLineText: main's calls of `compress_ir` and `recode` with the settings of the line; SpecLineText: agreeing size table, commands sayable with the settings of a line | C73 for the line, C59, C74 for the expansion, C60 for the replay; refutation: replay by computation, compression by C59 |
| C76 | ModelSet: the parameter calls of `BrotliDivansHybridCompressor::new` and the options `main` hands over; SpecSet: what an encoder has heard, last value set, last value said | each option field is the last value of its selector (induction on the settings), the parameter list field by field; the settings for a line are written down (`recipe`) and shown to give its options |
| C77 | ModelExample: `c/example.c`, `c/vec_u8.h`, `c/arg.h`, `custom_atoi`, over the calls of ModelCapi; SpecExample: pieces pushed, the machines the library may hand out | rounding: which bits the shifts cover, doubling each time; vector: invariant over pushes with uninitialised cells; compress: the loop is the session of C61 with as many empty calls as it takes (of C46 with -l); decompress: induction on the bytes still to come with the call lemmas of C27 and C63; numerals by induction on the digits; damaged files: induction on the calls with the invariant of C47 (one thread only; two threads: C53) |
| C78 | ModelCustomAlloc: `c/custom_alloc.h` over memory as a function from addresses to bytes, malloc's answer an argument; SpecCustomAlloc: histories of requests, writes and frees with the regions malloc still has out | induction over histories: every block carries its region and an intact header; a second induction numbers the blocks of the static buffer |
| C79 | ModelAns and SpecFile as before; SpecCost: the ideal length as the product of the frequencies, compared as powers of two | induction over the symbols of a group: bytes written, both states and the product of the frequencies stay within (1 + 2^-16) per symbol above and (1 - 2^-16)^2 below; Bernoulli's inequality turns that into 2 bits per group; groups add up |
| C80 | ModelCdf as before; SpecLearn: a history followed by repetitions of one symbol, what the others own | exact cumulative counts after an update; induction over the repetitions with the number of rescalings as ghost: the others shrink to (3 R + 51) / 4 at each, and the total cannot absorb more than 5445 per rescaling; C79 and Bernoulli's inequality give the cost of a run |
| C81 | ModelMeasure: the tallying encoder, the billing coder over an abstract coder, VariantSpeedCDF; costs in a fixed unit with the logarithm a parameter; SpecMeasure: what was counted, the bill as a list of items, a history replayed at another speed | induction over histories; powers of C79's inequality give the estimate; the counter as an association list without duplicate keys |
| C82 | SpecWorst: nibbles per command kind, room of a stream and of a file | a rank on the states of every sub-coder that falls with each nibble written (ProofWorst); for literals also an exact count; then C03 for the streams, the framing relation and C46 for raw sessions |
| C83 | SpecWire: the nibbles of every command, of whole streams, and what is remembered between commands, without coder states | for every state of every sub-coder, the list of nibbles still to be written; each nibble put is its head (ProofWire); what the bookkeeping remembers changes only as [after] says (ProofWire2); the reader by C26; unambiguous, because the reader is deterministic and leaves the rest untouched |
| C84 | ModelDebug: the debugging bit coder over the register queue of C42, with draining and filling; SpecDebug: the caller counts bytes, the answers are taken from the list of bits put | the bytes in encoder, file and decoder, oldest first, are the codes of the bits put and not yet got; induction over the operations (ProofDebug) |
| C85 | ModelLutGen: one entry of the table generator with its loop of checks; tables as in C07 | the divisions are exact (C07, and the 16 by 8 bit one without a bound on the quotient), so every check passes; entries by the table check of C07 |
| C86 | ModelMux as in C09; SpecFrame: heads of chunks and framed bytes as inductive relations | the frames found in the proofs of C09 and C10 are those of the relation; unambiguous, because the byte by byte reader is deterministic and stops after the end mark |

## Trusted base

* Coq 8.16.1's kernel, including its virtual machine (`vm_compute`).
* `Print Assumptions` reports "Closed under the global context" for every theorem
  listed in `MANIFEST.json`: no axiom is used, neither of ours nor of the standard library.
* The correspondence between the Rust source and the model, made by reading. The code
  was not run.
* The table generators in `tools/`: the tables they print are in the model as literals.
  C07 and C11 prove those literals right, so a generator error there would show; the
  context lookup tables of `constants.rs` are trusted as transcribed.
* Outside the repository and therefore parameters: the brotli dictionary, its
  transforms and word lengths; the brotli encoder of C61.
* The meaning of the processor's CRC32 instruction and of the SIMD intrinsics is as written
  in `ModelCrcSse.v` and `ModelSimd.v`, after the processor manual.

## Not modelled

* `codec/specializations.rs` as code (it chooses between monomorphic copies; the choice itself is in ModelTop and ModelLit),
  the printing in `billing.rs` (the rest is in C81), `probability/external_cdf.rs` (floating point),
  `divans_to_raw/mod.rs`, `raw_to_cmd/hash_match.rs`,
  `stub_parallel_decompressor.rs`,
  the command arrays and the specialisation of `ir_optimize/statistics_tracking_codec.rs`, the freeing in `brotli_ir_gen.rs`, `bin/*` except the loops of `bin/divans.rs`
  in C55-C60 and the command line of `bin/divans.rs` in C73 (file opening and brotli mode are not modelled).
* Memory safety of `unsafe` blocks, allocation failure, time and memory consumption.
* Features other than the default ones, except `simd` (C49), `blend` (C50), and the wrappers of `billing` and `findspeed` (C81).

## Simplifications worth knowing

* Literal commands carry no per-byte probabilities (feature external-literal-probability).
* Two-thread model: the worker has already taken its codec mutex when the session
  starts. The race of freeing before that is not modelled.
* SIMD: `f64` division is modelled as the correctly rounded quotient, which is what
  IEEE 754 prescribes; subnormals and infinities cannot occur in the range used.
* C47 and C48 are about the serial decompressor; a call that panics ends the session.
* C40's compressors are abstract: C27, C28, C46 and C51 are about the real ones.
* C51, C64: pointers are lists with offsets; brotli's encoder is a parameter (contract of C61).
* C65: the positive theorems assume an encoder that consumes all input of each PROCESS call; brotli does so unless its output buffer (66000 bytes at first, doubled when fewer than 256 are free) is full.
* C66: the first half of the input pair starts at offset 0; the cost model is an oracle that answers for each question of each metablock; a metablock that cannot be thawed makes the call fail.
* C52: a panic is what an overflow-checking build does; release builds wrap at the subtraction of
  `C52_no_panic_refuted` and go on with a wrong state.
* The texts of C58-C60 are ASCII; the code splits and trims Unicode strings, which differs only
  in which characters count as white space at the ends of a line.
* The tool (C55-C57): a list of write outcomes is finite, after it every write takes all; an
  output that takes 0 bytes forever makes the tool wait forever, which is outside the claims.
* The brotli encoder called by `brotli_ir_gen.rs` is a record of functions (`frontend`) that satisfies
  `good_frontend` (takes no more than it is given, its metablocks' commands are acceptable, it ends) and
  `faithful` (its commands stand for what it took). The optimiser is assumed to leave the codec's
  state unchanged and, when it fails, to leave the encoder as the failing call left it.

## Findings

Proved (theorem in parentheses):

* Speeds the textual parser accepts can wrap a distribution's total negative
  (`C05_documented_speeds_refuted`).
* Speeds 12288..16383 do not survive their one-byte form (`C44_speed_range_refuted`).
* Copy with distance equal to the window never ends; with distance 0 it divides by zero
  (`C17_window_distance_hangs_refuted`, `C17_zero_distance_panics_refuted`).
* The order of the eight history bytes depends on the write position
  (`C18_order_depends_on_position_refuted`).
* The command generator inserts stale bytes for inputs of twice the window and more
  (`C19_long_input_refuted`).
* The framing bytes of a file depend on the output buffer sizes
  (`C28_mux_bytes_refuted`); the streams do not.
* A command offered after flush completed is dropped with Success, and an empty batch
  panics (`C30_refusal_reported_refuted`, `C30_empty_batch_panics_refuted`).
* Hostile input: a length nibble of 14 or more shifts by 32; some speed codes panic;
  a distance of 0 can be decoded (`C29_length_refuted`, `C29_speeds_refuted`,
  `C29_distance_zero_refuted`).
* Two prediction-mode kinds share cells with others (`C31_unlisted_kinds_alias_refuted`).
* Two threads: a stream that ends before its commands do hangs, where the serial
  decompressor asks for input (`C33_missing_commands_hang`); freeing mid-stream hangs
  once the worker has started (`C34_free_mid_stream_refuted`).
* The growable buffer ignores a large minimum (`C35_large_minimum_refuted`).
* Reader: trailing bytes after the file hang it, and so does an empty read buffer when
  compressing (`C38_trailing_bytes_refuted`, `C38_empty_buffer_refuted`).
* Writer: flush never reports a truncated file, and trailing data is swallowed
  (`C39_truncation_refuted`, `C39_trailing_bytes_refuted`).
* Popping all eight bytes of the register queue (`C42_full_pop_refuted`).
* Mixing two blending distributions can leave a symbol no room (`C50_mixed_refuted`).
* The C API accepts a context mixing of 8 and more and a prior depth of 16 and more, and
  then panics, which unwinds into C (`C51_mixing_refuted`,
  `C51_mixing_constructor_refuted`, `C51_depth_refuted`).

Seen while reading, not stated as theorems:

* `mux.rs`: `prealloc` leaves its cursors at 0 (no caller); a hostile `ff ff` stalls;
  header high nibble 11 and above gives a count of 0.
* Copy distances of 2^30 and more and empty literals are not encodable; dictionary word
  sizes 25..34 or transforms of 121 and more are decoding errors.
* Literal lengths 15 and 16 do not set `last_llen`; hostile lengths of 2^31 and more
  overflow the nibble counter and ask for about 4 GiB.
* `literal_adaptation[0]` is used for both halves; a mixing option of 4..7 loses bit 2; the
  prior depth is not persisted; an advanced context map flag of 1 decodes as 2.
* `ir_optimize`: the boundary check ignores `orig_offset`.
* C header: `divans_new_decompressor_with_custom_alloc` is declared with two arguments and
  defined with three; option casts truncate; `force_literal_context_mode` is not validated; memory leaks
  when `free_func` is null.
* The header parser is not sticky after a failure.
* `reader.rs`: output already produced is lost when the source fails; the compressing
  reader may report end of file early for inputs of the window size and more.
* A frozen prediction mode thaws against the ring buffer instead of its own backing.
* Errors of `pull_data` and `push_consumed_data` are ignored in the worker, which then
  loops.
* `helper_advance_sym` (ans.rs:230-244) subtracts the start of the symbol's interval, which is one
  above the smallest offset looked up to it. An encoder never produces the state that makes this
  negative; hostile data does, at once: a header and a chunk of 16 zero bytes (35 bytes) panics
  where overflow is checked (`C52_no_panic_refuted`).
* Named in C52, also from hostile data: a copy with distance 0 divides by zero in the recoder; a
  distance equal to the window makes no progress; a distance above it, up to the window plus the
  bytes written since its start, splits the window out of range or reads overwritten bytes. A
  dictionary word number is only bounded by its number of nibbles and may index past the
  dictionary. A literal chunk of 65536 symbols that ends with the second state below its limit
  fails a debug assertion in `code_nibble_array`.
* When the container reader refuses a byte (two bytes 255 at the start of a trailer), `decode`
  keeps returning NeedsMoreInput without consuming: a caller that loops while input remains hangs.
* The tool's `compress_raw_inner` treats an interrupted read as if it had returned the previous
  piece again: `idec_index` is reset to 0 while `ilim` keeps its value (`C56_interrupt_refuted`).
* The tool's `decompress_generic` never ends on a file whose end mark comes before the streams
  are complete if the bytes after it fill the input buffer: the decompressor takes nothing and
  asks for more, and there is no space to read into (`C55_hang_refuted`).
* The tool's `command_parse`: `ltype 3` panics, the guard asks for two words where three are
  read (`C58_never_panics_refuted`); block types and dictionary fields above 255 are cut off
  silently (`C58_overflow_is_reported_refuted`). `recode_inner` unwraps parse and write errors that
  `compress_inner` reports (`C60_errors_reported_refuted`).
* With feature simd on 32 bit x86, `crc32c_update` calls a `sse_crc32c_update` that is
  `unimplemented!()` whenever the processor has SSE 4.2 (seen, not modelled: C11 is for x86_64).
* `src/brotli_ir_gen.rs` `internal_encode_stream`: an error of the optimiser in the callback is dropped
  if the brotli call consumed all its input and left room: flush ends with success, data missing
  (`C61_optimizer_error_refuted`).
* `src/brotli_ir_gen.rs` `flush`: after a failure in the last metablock a second call reports
  success with only the 16-byte header put out (`C61_failure_is_final_refuted`).
* `src/writer.rs:48`: over the default compressor the writer takes "needs more input" with input left
  (the encoder's own 66000-byte buffer was full) for an error and refuses the buffer (`C61_writer_takes_all_refuted`).
* The tool with its default two threads can hang on a file cut short, where with `-serial`
  (one thread) it reports an error: `decompress` frees the decompressor before it returns
  the error, and free waits for the worker, which waits for bytes
  (`C63_truncated_hangs_refuted`; `C63_truncated_race`: if the worker has not started yet,
  the error is reported).
* C64: with the default options divans_encode can return code 1 (needs more input) while input is left, when brotli's own output buffer is full; with the internal command selection code 1 means that all was taken. divans_new_decompressor makes a decompressor with two threads, and divans_free_decompressor on one that is not at the end of its file does not return once the second thread has started (`C64_code_one_refuted`, `C64_free_mid_stream_refuted`).
* C65: the Read adapter over the default compressor can return 0 (end of file) before it has returned anything. If brotli leaves some input because its own output buffer is full, and the source ends before that input is offered again, the loop of `GenReader::read` stops once the input is consumed, with `needs_input` set and end of file seen, without calling flush. A caller that stops at 0 (`read_to_end`, `io::copy`) gets an empty or truncated file without an error; a caller that reads on gets the file.
* C68: a file that begins as an intact one, then has the byte 255 where a chunk could begin
  and then not 254 makes `DivansDecompressorReader::read` report a clean end of file
  (C68_false_end_refuted: `ff 00`; nothing has been checked by then) or never return
  (C68_stall_refuted: `ff ff`): the multiplexer takes the 255 and no byte after it, and
  `GenReader` takes input left over at the end of the source for progress still to come.
* C70: a build with overflow checks panics in `should_merge` (src/ir_optimize/mod.rs:46-57) when a copy of distance 1 or 2 is followed by one two or three further: the trial coder is to be given the recent distance `copy.distance - 2`, say, of a copy of distance 1. `C70_no_panic_refuted` has a list of six commands that describes its input and panics whatever the cost model answers; `C70_checked_build` shows that short distances are needed, `C70_release_build` that wrapping builds are not affected (the wrapped distance even serves its purpose, `C70_forecast_serves`). C41 and C66 take the cost comparison as an oracle and so do not see this.
* Seen, not modelled: when `ir_optimize` returns an error it has already replaced the codec's thread context by `Worker` and does not put it back, so a later call on the same compressor panics ("Main Thread was none during encode").
* C71: a refused header is forgotten: `HeaderParser::decode` (src/divans_decompressor.rs:53-81) does not record the failure, so the next sixteen bytes are tried as a header and junk followed by a file ends in success with a verified checksum. Errors in the command stream are not recorded either (`encode_or_decode` keeps its state and reads on at the next nibble): read, not proved, because the model leaves out the table adaptation that precedes such an error.
* C72: `divans_*_malloc_*` looks at `alloc_func` and `divans_*_free_*` at `free_func` alone (src/ffi/mod.rs:110-145, 275-309), so with only one of the two a buffer goes back to a heap it did not come from. `free_cell` skips empty blocks (src/ffi/alloc_util.rs:85) although `alloc_cell` asked `alloc_func` for them: such a block is leaked (the optimiser asks for one when a batch has no command, src/ir_optimize/cache.rs:56). The size products are unchecked in release builds.
* C73: an argument that looks like an option but is none becomes a file name (src/bin/divans.rs:1578-1586), so `divans -decompress out` tries to compress a file called -decompress; `--recode` has no effect without `-d` (1198-1713: compression is tested first); `-lgwin` is stored in `lgblock` (1604) and the window stays at 22; `-p` and `-mixing=` are cut to eight bits (1355, 1469); `-O0` after `-O2` changes nothing (1434-1439); `-benchmark=0` with two names empties the output and does nothing.
* C74: `-mixing=8` and `-p16` are accepted and the tool then panics on every input (`C74_mixing_refuted`, `C74_depth_refuted`); `compress_raw` hands `decompress` a constant false for skip_crc (src/bin/divans.rs:885), so `-skipcrc` without `-d` is ignored (`C74_skipcrc_alone_refuted`). Evaluating the model with `-speed=16383,16384` also ends in a panic while `-speed=100,12288` round trips; the first is `C05_documented_speeds_refuted` seen from outside.
* C75: a text whose first line names a window outside 10..24 is compressed with the nearest one and refused by the replay (`C75_far_window_not_replayed`); a `dict` line with a wrong final size is compressed silently as the right one while the replay panics (`C75_wrong_size_refuted`).
* C76: the speeds of the C API are those of a palette of 15; `-speed=ROCKET` of the tool's own words, (384, 16384), is none of them (`C76_beyond_palette_refuted`). `DIVANS_OPTION_USE_BROTLI_BITSTREAM` and value 2 of `DIVANS_OPTION_USE_BROTLI_COMMAND_SELECTION` succeed but are read nowhere: the compressor made is that of brotli's command selection, and writes divans files (`C76_bitstream_refuted`).
* C77: `c/divans/ffi.h` declares `divans_new_decompressor_with_custom_alloc` with two arguments, the library has a third (`multithread`): the example passes two, so one or two threads is decided by whatever stands in the third's place; the theorems cover both. The header also lacks `DIVANS_OPTION_IR_OPTIMIZER` and `divans_new_serial_decompressor`. `-as` of the example is also read as `-a` with the number 0, which sets all literal speeds to an increment of 0 (`C77_as_refuted`); `-cm` without a number forces context mode 0, because line 37 of `c/arg.h` compares a pointer with 0 (`C77_cm_refuted`). The percentage loses the carry: 20001 bytes reduced to 200 are printed as 0.0000% instead of 1.0000% (`C77_line_refuted`).
* `c/custom_alloc.h:46-50` (C78, `C78_buffer_runs_out`, `C78_freed_at_once`): the static buffer of NO_MALLOC takes back a freed block only if it is the last one and began at 12 modulo 32, and then keeps 32 of its bytes; everything else is never reused. `C78_past_the_end_refuted`: nothing checks the end of the buffer. `C78_wraps_refuted`, `C78_null_refuted`: a size near 2^64 wraps, and if malloc fails the header is stored through NULL. The mark is a plain global, so with the two-threaded decompressor concurrent calls race; not modelled.
* `src/debug_encoder.rs:62-72`, `src/arithmetic_coder.rs:68-81` (C84, `C84_notices_refuted`, `C84_full_drain_refuted`): the debugging decoder takes a probability wrong by its lowest digit for the opposite bit; and after eight undrained bits, draining them at once panics (or, without overflow checks, spoils the following bytes).
* `src/ir_optimize/statistics_tracking_codec.rs:67-84` (C81, `C81_bits_refuted`): the tallying encoder charges a single bit with the probabilities of true and false exchanged, and for a probability of 0 with frequency -1, which is read as 65535 and makes the cost negative. The codec codes nibbles only, so no choice depends on it.
* Seen, not modelled: `ExternalProbCDF16::valid` is always true.
