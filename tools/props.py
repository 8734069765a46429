#!/usr/bin/env python3
"""Writes /verif/properties.jsonl (one property per line)."""
import json, os
P = []
def p(title, statement, quantifier, why, anchors):
    P.append(dict(id="C%02d" % (len(P)+1), title=title, statement=statement,
                  quantifier=quantifier, why_tests_cant=why, anchors=anchors))

p("ANS entropy coder round trip",
  "Coding any sequence of symbols with the ANS encoder, flushing, and reading the produced bytes with a fresh ANS decoder that is asked for the same sequence of probability intervals returns exactly the same symbols, and consumes exactly the bytes the encoder produced.",
  "every sequence (any length, any number of internal 65536-symbol chunks) of (start, freq) intervals with freq >= 1 and start + freq <= 2^15 (both representable as i16)",
  "the state space is 2^64 x all symbol histories; tests exercise a few probability sequences",
  ["src/ans.rs: ANSEncoder::put_start_freq, flush_chunk, reverse_put_sym", "src/ans.rs: ANSDecoder::push_data, helper_advance_sym"])
p("ANS decoder input may be split anywhere",
  "Feeding the compressed bytes to the ANS decoder in pieces of any sizes (one byte at a time, empty pieces, everything at once) leads to the same decoded symbols and the same number of consumed bytes as feeding them in one piece.",
  "every byte string and every way to cut it into pieces",
  "the number of ways to cut a stream is exponential in its length",
  ["src/ans.rs: ANSDecoder::push_data, num_push_bytes_avail", "src/arithmetic_coder.rs: drain_or_fill_internal_buffer"])
p("ANS encoder never overflows its machine words or its fixed 256 KiB output buffer",
  "While encoding, both coder states stay in [2^31, 2^63) at every step, so no 64 bit arithmetic overflows, and one chunk never produces more bytes than the encoder's fixed-size buffer can hold, so the encoder never panics.",
  "every sequence of at most 65536 legal symbols per chunk, any number of chunks drained in between",
  "worst-case output needs adversarial probabilities at every one of 65536 positions",
  ["src/ans.rs: ANSEncoder::flush_chunk, ByteStack::stack_data, MAX_BUFFER_SIZE"])
p("Nibble probability intervals are sound",
  "For every distribution the coder can reach, each of the 16 symbols owns a non-empty interval, the intervals are disjoint and inside [0, 2^15), and looking up any offset inside a symbol's interval returns that symbol with the same interval.",
  "every strictly increasing 16 entry cumulative table with total at most 16384, every symbol, every offset",
  "about 2^200 tables",
  ["src/probability/interface.rs: sym_to_start_and_freq, cdf_offset_to_sym_start_and_freq", "src/probability/frequentist_cdf.rs"])
p("Adaptation keeps distributions codable",
  "Starting from the initial distribution, any sequence of observed symbols with adaptation speeds whose increment is at most 5444 and whose limit is at most 16384 (this includes every built-in speed; the textual parser accepts larger increments, for which this is false) keeps the distribution strictly increasing, with a total inside the 16 bit range, hence still codable.",
  "every sequence of (symbol, speed) updates of any length",
  "unbounded adaptation histories",
  ["src/probability/frequentist_cdf.rs: blend", "src/probability/interface.rs: Speed"])
p("Optimised and reference distributions agree",
  "The division-free distribution used by default yields, for every history, exactly the same intervals and symbol lookups as the reference distribution, so streams are interchangeable between builds.",
  "every sequence of updates and every symbol/offset query",
  "needs equality of two algorithms at every reachable state",
  ["src/probability/opt_frequentist_cdf.rs", "src/probability/numeric.rs: fast_divide_30bit_by_16bit", "src/probability/div_lut.rs"])
p("Reciprocal-multiplication division is exact",
  "The table-driven fast division returns the true quotient for every divisor and every dividend in the range the coder uses; the 8 bit variant is exact on its documented range.",
  "all divisors 1..65535 (resp. 1..255) and all dividends below 2^30 (resp. 2^16)",
  "2^46 pairs",
  ["src/probability/numeric.rs: compute_divisor, fast_divide_30bit_by_16bit, compute_divisor8, fast_divide_16bit_by_8bit"])
p("Mixing two distributions yields a codable distribution",
  "Averaging two codable distributions with any mixing weight gives a distribution in which every symbol is still codable.",
  "all pairs of codable distributions and every mixing rate the coder can produce",
  "two full tables times 2^15 weights",
  ["src/probability/frequentist_cdf.rs: average", "src/codec/literal.rs: code_nibble"])
p("Multiplexer round trip",
  "Bytes written to the two streams, serialised by any sequence of linearize/flush calls with any output sizes and concatenated, are reproduced byte for byte per stream by the demultiplexer; nothing is lost, duplicated, reordered or moved between streams, and the end marker is recognised exactly at the end.",
  "every interleaving of writes and every output capacity sequence, every input chunking on the reading side",
  "unbounded interleavings",
  ["src/mux.rs: Mux::linearize, flush, write, write_linear, deserialize, serialize, serialize_close"])
p("Demultiplexer input may be split anywhere",
  "The demultiplexer delivers the same bytes to the same streams, and reaches the same end-of-stream decision, however its input is cut into pieces.",
  "every byte string (valid or hostile) and every way of cutting it",
  "exponentially many cuts, arbitrary bytes",
  ["src/mux.rs: deserialize, deserialize_eof"])
p("Checksum is true CRC-32C and incremental",
  "The table-driven checksum equals the bit-at-a-time CRC-32C definition for every byte string and is independent of how the data is split into update calls.",
  "every byte string, every initial value, every split",
  "unbounded strings; 16-byte slicing has many alignments",
  ["src/codec/crc32.rs: crc32c_update", "src/codec/crc32_table.rs", "src/codec/decoder.rs: SubDigest"])
p("Checksum detects every single burst of at most 32 bits",
  "If two equal-length byte strings differ, and all differences lie within a window of 32 consecutive bits (in particular any single corrupted byte), their checksums differ.",
  "every string, every position, every non-zero difference of at most 32 bits",
  "every position in unbounded strings",
  ["src/codec/crc32.rs: crc32c_update"])
p("File header round trip under any output sizes",
  "The 16 byte header written by the compressor is the same whatever the sizes of the output buffers it is written through; parsing it, however it is cut into pieces, returns the window size that was clamped into 10..24.",
  "every requested window size, every sequence of output capacities, every cut of the input",
  "all schedules",
  ["src/divans_compressor.rs: make_header, write_header, DivansCompressorFactoryStruct::new", "src/divans_decompressor.rs: HeaderParser::decode, parse_header"])
p("Header acceptance is exact",
  "The decompressor accepts a 16 byte header iff its first four bytes are the magic number and the window byte is within 10..24; otherwise it reports the specific error.",
  "all 2^128 headers", "all headers",
  ["src/divans_decompressor.rs: HeaderParser::parse_header", "src/interface.rs: MAGIC_NUMBER"])
p("Trailer written under any output sizes; checksum verification is exact",
  "The 8 byte trailer is the little-endian checksum followed by 'ans~' whatever the output buffer sizes, and the decoder reports success iff all 8 bytes match (4 tail bytes when verification is disabled), otherwise BadChecksum.",
  "every checksum value, every schedule of output/input sizes, every trailer",
  "all schedules and all 2^64 trailers",
  ["src/codec/mod.rs: internal_flush, WriteChecksum", "src/codec/decoder.rs: process_eof, decode_process_input"])
p("Replaying commands produces their LZ77 meaning under any output sizes",
  "Replaying a command list through the history window and concatenating the produced output gives exactly the LZ77 meaning of the commands (literals appended, copies read from the already produced bytes including overlapping copies), whatever the sizes of the output buffers.",
  "every command list with distances 1..window-1 and every sequence of output capacities",
  "unbounded lists, wrap-around and overlap positions, schedules",
  ["src/cmd_to_raw/mod.rs: encode_cmd, parse_copy, parse_literal, parse_dictionary, flush"])
p("Copies never touch memory outside the window and always finish",
  "For every distance from 1 to window size minus one a copy command terminates, with all accesses inside the window and no error; distances larger than the window plus the write position are reported as errors. (The remaining distances are findings: distance = window size never terminates, distance 0 divides by zero, distances in between can panic.)",
  "every window state, distance and length",
  "requires all ring positions and distances",
  ["src/cmd_to_raw/mod.rs: parse_copy, copy_some_decoded_from_ring_buffer_to_decoded"])
p("History snapshot fed to the literal model is position independent",
  "The eight bytes reported to the literal predictor are always the last eight bytes of the history and are a function of the history and the window size only, never of the sizes of the output buffers. (Their order is not fixed: oldest first in general, newest first when the write position is below 8.)",
  "every history length and window size",
  "needs wrap positions",
  ["src/cmd_to_raw/mod.rs: last_8_literals, fallback_last_8_literals"])
p("Raw input to literal commands is lossless",
  "For an input shorter than twice the window minus one, split in any way into encode calls (empty ones included) followed by flush, the commands issued by the built-in command generator mean exactly the input bytes. (For longer inputs this is false: stale window bytes can be inserted, depending on the call schedule.)",
  "every input, every split into calls, every command buffer capacity",
  "depends on ring wrap-around positions and call schedule",
  ["src/raw_to_cmd/mod.rs: stream, flush"])
p("Command coding round trip (copy commands)",
  "Decoding the nibbles written for any copy command (distance below 2^30, any length) in any coder state yields the same distance and length and leaves encoder and decoder with identical adaptive state.",
  "every copy command and every coder state",
  "2^62 commands x unbounded states",
  ["src/codec/copy.rs: CopyState::encode_or_decode", "src/codec/interface.rs: distance_mnemonic_code, get_distance_from_mnemonic_code, obs_distance"])
p("Command coding round trip (dictionary commands)",
  "Decoding the nibbles written for any dictionary command with word size 4..24, a word id within the dictionary for that size, and transform below 121 yields the same word size, word id and transform, the true length of the transformed word (whatever length the caller gave), and identical adaptive state.",
  "every dictionary command and coder state",
  "all word ids/transform combinations x states",
  ["src/codec/dict.rs: DictState::encode_or_decode"])
p("Command coding round trip (literal commands)",
  "Decoding the nibbles written for any literal command (length 1 .. 2^30+14) in any coder state yields the same bytes and the same adaptive state.",
  "every byte string and coder state, all mixing modes",
  "unbounded strings and states",
  ["src/codec/literal.rs: LiteralState::encode_or_decode, encode_or_decode_content_bytes, code_nibble, code_nibble_array"])
p("Command coding round trip (block switches)",
  "Decoding the nibbles written for a block switch yields the same block type and identical adaptive state; for literal block switches the stride is the caller's when the stride option is left open, and the option's value otherwise.",
  "all block types and states",
  "history-dependent coding (LRU, max seen)",
  ["src/codec/block_type.rs: BlockTypeState, LiteralBlockTypeState", "src/codec/interface.rs: _obs_btype_helper"])
p("Command coding round trip (prediction mode / context maps)",
  "Decoding the nibbles written for a prediction-mode command yields the same prediction mode, the context map and mixing entries that were sent (entries beyond those keep the values of the previous prediction-mode command), the mixing parameters, and adaptation speeds that are exact when representable and otherwise at most one eighth slower, with identical coder state.",
  "all context maps within the size limits and all coder states",
  "maps of up to 16384 entries with LRU-dependent coding",
  ["src/codec/context_map.rs: PredictionModeState::encode_or_decode", "src/codec/interface.rs: obs_context_map_for_lru"])
p("Distance short codes are exact",
  "Whenever a distance is coded by a short code, the decoder's recent-distance cache maps that code back to the same distance; the cache is updated identically on both sides and always holds four recent distances.",
  "every cache content, distance and length",
  "2^128 caches",
  ["src/codec/interface.rs: distance_mnemonic_code, get_distance_from_mnemonic_code, obs_distance"])
p("Whole command stream round trip",
  "For every list of encodable commands, encoding them all, then the end marker, and decoding the resulting two nibble streams returns exactly the same list of commands and stops exactly at the end marker.",
  "every finite list of encodable commands of every kind, all options",
  "state carried across unbounded command histories",
  ["src/codec/mod.rs: encode_or_decode_one_command, update_command_state_from_nibble, command_type_to_nibble"])
p("End-to-end round trip of a compressed file",
  "Header, multiplexed entropy-coded command and literal streams, end marker and trailer produced for any list of acceptable commands, whatever the batches and output buffers, decompress to exactly the LZ77 meaning of those commands, whatever the pieces in which the file arrives, the output buffers and what follows the file: the output is a prefix of the meaning at all times, success is reported only with all of it put out and exactly the file consumed, and success is reported once the whole file and enough space have been offered.",
  "every list of acceptable commands, every window size, every schedule of compressor and decompressor calls, every trailing data",
  "composition of all layers over unbounded inputs",
  ["src/codec/mod.rs", "src/divans_compressor.rs", "src/divans_decompressor.rs", "src/codec/decoder.rs"])
p("Compressing under any output buffer sizes gives an equivalent complete file",
  "However acceptable commands are divided over encode_commands calls and whatever the sizes of the output buffers offered (zero included), the compressor never panics, fails, overruns a buffer or loses a command; once enough non-empty buffers were offered flush reports success, and the output is then a header, a multiplexed body that delivers the same two entropy coded streams whatever the schedule, the end marker and the right checksum trailer. (The framing bytes between the streams do depend on the buffer sizes: that stronger claim is refuted.)",
  "every list of encodable commands, every division into non-empty batches, every schedule of output capacities, every window option",
  "all schedules",
  ["src/codec/mod.rs: flush, internal_flush", "src/codec/interface.rs: drain_or_fill_static_buffer"])
p("Command decoder is total on hostile input",
  "Whatever nibbles a fresh command decoder is fed, it stops within three rounds per nibble; until then every nibble is read under a distribution that can decode all sixteen values, every command reported is in range (lengths and distances 32 bit, dictionary word sizes 4 to 24 with an index and transform in range, literals non-empty bytes, block types bytes, context maps of the right size), and it stops at the end marker, for lack of nibbles, or with an error, never with a panic, unless the stream announces a copy of 2^32 bytes or more (which panics), a literal of 2^31 bytes or more, or unusable adaptation speeds. (That it never panics, and that no copy of distance zero is reported, is refuted.)",
  "every pair of nibble streams, every replay buffer that does not panic on commands in range",
  "hostile inputs are unbounded",
  ["src/codec/copy.rs", "src/codec/dict.rs", "src/codec/literal.rs", "src/codec/mod.rs: update_command_state_from_nibble"])
p("Encoder state machine order",
  "Once flush has written the end marker no further command is taken: it is refused with a failure that changes nothing while the streams are being closed, and after flush has reported success neither commands nor another flush add a byte; flush is refused in the middle of a command. (That a refusal is always reported as a failure is refuted: after a completed flush it is reported as success; and an empty command array panics.)",
  "all call sequences",
  "all histories of calls",
  ["src/codec/mod.rs: internal_flush, encode_or_decode_one_command"])
p("Prior table indexing is injective and in bounds",
  "Two different (kind, context) pairs never share an adaptive distribution, and every in-range context addresses inside the table.",
  "all prior kinds and in-range contexts",
  "tens of thousands of indices times all table layouts",
  ["src/priors.rs: define_prior_struct", "src/codec/priors.rs"])
p("Worker hand-off delivers everything in order",
  "Whatever the input (valid or not), the calls made and the interleaving of the main thread and the command-decoding worker, the data buffers reach the worker in order, the commands reach the main thread in order, nothing is lost or duplicated, and the number of outstanding buffers is exact.",
  "every input, every sequence of calls, every interleaving of the two threads with spurious wake-ups",
  "all schedules",
  ["src/threading.rs: SerialWorker push, pull_data, push_cmd, push_consumed_data, pull, push_eof", "src/multithreading.rs: MultiWorker"])
p("Two-thread decompression of a valid file: no panic, no deadlock, same result under every interleaving",
  "Decompressing a file the compressor wrote with the two-thread decompressor: under every interleaving of the two threads, spurious wake-ups included, and however input and output room are split over calls, nothing panics, the threads are never both asleep during a call, the output is always a prefix of the original, every call returns within a bounded number of rounds in which both threads run, and success is reported exactly with the whole original delivered. For a damaged file this does not extend: one whose streams end before its commands do makes a call never return under any interleaving, while the serial decompressor asks for more input (proved as a refutation).",
  "every command list the compressor accepts, every split into calls, every interleaving of the two threads with spurious wake-ups",
  "all interleavings",
  ["src/multithreading.rs: pull_data, push_cmd, pull, force_push, broadcast_err_internal"])
p("Freeing a two-thread decompressor returns once it has reported success",
  "Freeing a two-thread decompressor returns under every fair schedule when the session has reported success, and when the header had not been read yet. Freeing it mid-stream, once the worker has started and while it still wants bytes, never returns under any schedule (proved as a refutation of the unconditional claim).",
  "every point at which the caller may abandon the stream, every schedule of the worker",
  "depends on thread schedule at the moment of free",
  ["src/parallel_decompressor.rs: free, free_ref", "src/multithreading.rs: pull_data, broadcast_err_internal"])
p("Growable buffer preserves its contents and always has the requested room",
  "Appending any sequence of blocks to the growable buffer gives their concatenation; a checkout always offers at least the requested minimum when that minimum is at most 33000 bytes (a larger minimum is not honoured by the code, proved as a refutation).",
  "every sequence of appends and requested sizes",
  "unbounded histories",
  ["src/resizable_buffer.rs: ResizableByteBuffer"])
p("Frozen slices thaw to the same bytes",
  "Freezing a sub-slice of a buffer and thawing it against the same buffer yields the same bytes; the pair form never mixes the two halves.",
  "every buffer, offset and length",
  "all offsets and lengths",
  ["src/slice_util.rs: SliceReference"])
p("Cached allocator hands out exactly what was asked and conserves memory",
  "A request for less than 2^32 cells returns a block with exactly the requested visible length (cleared if asked), and over any history of requests and releases every block obtained from the base allocator is either still held, cached or was returned exactly once.",
  "every sequence of allocations and frees",
  "unbounded histories",
  ["src/alloc_util.rs: CachedAllocator::alloc_cell, free_cell, RepurposingAlloc"])
p("Reader adapter delivers exactly the transformed stream",
  "Reading a valid compressed file through the decompressing reader, with any internal buffer size, a source that delivers it in any pieces with interruptions, and non-empty read buffers of any sizes, never hangs or panics and returns exactly the original bytes, then end of file. End of file is never reported when the source was cut short or failed: then some read returns an error. The compressing reader, for inputs shorter than the window, likewise returns a complete file and then end of file. (Not so: bytes after the file make the decompressing reader hang; an empty read buffer makes the compressing reader hang; a source error can swallow output already produced.)",
  "every valid file and every proper prefix of it, every buffer size, every sequence of source events (data, interruptions, failure), every sequence of read sizes >= 1",
  "all schedules",
  ["src/reader.rs: GenReader::read, copy_to_front", "src/reader.rs: DivansDecompressorReader, DivansExperimentalCompressorReader"])
p("Writer adapter forwards exactly the transformed stream",
  "Writing through the adapters in pieces of any sizes, with any internal buffer size: every write takes its whole buffer, no call hangs or panics, errors are exactly those of the inner writer, and the inner writer receives exactly the transformed bytes in order - for the compressing writer a complete file once flush has succeeded, for the decompressing writer a beginning of the original bytes at any time and all of them once the whole file is written. (Not so: flush of the decompressing writer reports an incomplete file; bytes after the file are refused.)",
  "every input, every sequence of write buffers, every adapter buffer size, every pattern of inner writer failures",
  "all schedules",
  ["src/writer.rs: GenWriter::write, flush", "src/writer.rs: DivansDecompressorWriter, DivansExperimentalCompressorWriter"])
p("C API option handling and return codes",
  "Options can only be set before the first encode/flush; every out-of-range value of an enumerated option is refused and leaves the options unchanged; results map one to one to C return codes; null pointers are refused.",
  "every selector/value pair and every call sequence",
  "2^40 selector/value pairs x histories",
  ["src/ffi/compressor.rs: CompressorState::set_option, encode, flush", "src/ffi/mod.rs: divans_set_option, divans_encode, divans_decode"])
p("Command optimiser preserves the decoded output",
  "Whatever merge decisions the cost model makes, the optimised command list has the same LZ77 meaning as the original list.",
  "every command list produced from a metablock and every merge oracle",
  "all lists and all cost outcomes",
  ["src/ir_optimize/mod.rs: ir_optimize, should_merge"])
p("Small FIFO register queue",
  "The 8 byte register queue used by the bit-wise coders behaves as a FIFO byte queue of capacity 8 for every sequence of pushes and pops that never pops all eight bytes at once (that one case is refuted).",
  "every operation sequence",
  "unbounded histories",
  ["src/arithmetic_coder.rs: RegisterQueue"])
p("Bit-level coding of nibbles and bytes round trips for any bit coder",
  "For any binary entropy coder that round trips bits, the generic nibble and byte coders built from four/eight bit decisions round trip every value.",
  "every coder, distribution and value",
  "all distributions",
  ["src/arithmetic_coder.rs: EntropyEncoder::put_nibble, EntropyDecoder::get_nibble, put_8bit, get_8bit"])
p("Adaptation speed serialisation",
  "Every adaptation speed with at most four significant bits below 12288, and 16384, survives the one-byte mantissa/exponent serialisation exactly, and any other value below 12288 loses at most one eighth (12288..16383 are destroyed).",
  "all 2^16 codes / all i16 values",
  "full domain",
  ["src/probability/interface.rs: speed_to_u8, u8_to_speed, Speed::to_f8_tuple, from_f8_tuple, FromStr"])
p("Literal mixing weights stay in range",
  "The adaptive mixing weights stay within bounds under any history so that the resulting mixing rate is a legal probability.",
  "every sequence of weight updates",
  "unbounded histories",
  ["src/codec/weights.rs"])
p("Raw bytes: compress, then decompress, under every schedule",
  "Raw bytes shorter than twice the window minus one, given to the raw interface of the compressor in any pieces with output buffers of any sizes (including empty ones), then flushed: every call reports truthfully (no panic, no failure, no overrun, no request for input or space it still has), the file completes, and the decompressor, given it in any pieces with buffers of any sizes, puts out exactly those bytes. (Longer inputs are corrupted: C19.)",
  "every byte string up to the limit, every cut of it, every schedule of output buffers on both sides, every legal option setting",
  "commands are frozen and thawed across calls depending on the schedule; tests try a handful of buffer sizes",
  ["src/divans_compressor.rs: encode, flush, flush_freeze_dried_cmds, freeze_dry, thaw", "src/raw_to_cmd/mod.rs", "src/divans_decompressor.rs: decode"])
p("Success means the checksum was right, for input of any origin",
  "Whatever bytes are offered to the single-threaded decompressor, in any pieces and with output buffers of any sizes: if it reports success, what it consumed is a 16 byte header with the magic number and a window size 10..24, a body, and 8 bytes, the first four the CRC-32C of everything before and the last four \"ans~\" (with checking off: any first four). So a file whose header and body were damaged within 32 consecutive bits and whose trailer was not is never reported good once it is consumed whole.",
  "every byte string, every cut of it, every schedule of output buffers, checking on or off",
  "tests damage a few files at a few places; the claim is about every byte string",
  ["src/codec/decoder.rs: decode_process_input, process_eof", "src/divans_decompressor.rs: decode"])
p("The decompressor stays within its buffers, for input of any origin",
  "Whatever bytes are offered, valid or not, no call of the single-threaded decompressor reports more input consumed than it was offered or stores more output than it was given space for, and the bytes consumed over all calls are the bytes offered, in order.",
  "every byte string, every cut of it, every schedule of output buffers",
  "hostile input can put the container reader and the history window into states no valid file reaches",
  ["src/mux.rs: deserialize", "src/cmd_to_raw/mod.rs: flush, encode_cmd", "src/codec/decoder.rs", "src/divans_decompressor.rs: decode"])
p("The SIMD distributions and the reference one are interchangeable",
  "For every history of coded symbols with any legal speeds, alone or mixed with another history, the SIMD build's distribution gives every symbol the interval the reference distribution gives it and answers every offset with the same symbol and interval, in each of its three lookup variants; its division in double precision truncates to the exact quotient. So files do not depend on which build wrote them.",
  "every history, every speed, every mixing weight, every symbol and offset",
  "floating point rounding and lane masks differ from the reference only on particular operands",
  ["src/probability/simd_frequentist_cdf.rs: SIMDFrequentistCDF16", "src/probability/frequentist_cdf.rs: FrequentistCDF16"])
p("The blending distribution can code every symbol after any history",
  "With the blending distribution (feature blend), after every sequence of coded symbols no assertion fires and every one of the sixteen symbols owns a non-empty interval, disjoint from the others, whose every offset is looked up back to that symbol. Mixing two such distributions keeps this when the stored weights leave at least 32 to be shared evenly; without that condition it is refuted: a fresh one mixed with one that has seen seven equal symbols leaves another symbol no room.",
  "every history of symbols, of any length; for mixing, every pair of histories and every weight",
  "the stored total follows a trajectory of 399 steps before it settles, and mixing reaches points off that trajectory",
  ["src/probability/blend_cdf.rs: BlendCDF16, mul_blend, to_blend_lut", "src/probability/interface.rs: sym_to_start_and_freq, cdf_offset_to_sym_start_and_freq"])
p("The C API round trip",
  "A compressor made through the C API, given any options in any order (refused ones included) that end with the internal command selection, a context mixing below 8 and a prior depth below 16: data below twice the window minus one, passed to divans_encode in any pieces with any offsets and any free space, then divans_encode_flush, comes back exactly from divans_decode, again in any pieces and buffers. No call panics or returns failure, writes a byte of a buffer outside the range its offsets report, moves an offset out of its buffer, or asks for input or space that is still there. The two bounds are needed: divans_set_option accepts larger values and the compressor then panics.",
  "every list of option settings, every input up to the limit, every cut of it, every buffer content, offset and size on both sides",
  "the pointer arithmetic and the options are exercised by one C example program only",
  ["src/ffi/mod.rs: divans_set_option, divans_encode, divans_encode_flush, divans_decode", "src/ffi/compressor.rs: DivansCompressorState", "src/divans_compressor.rs"])
p("Bytes of any origin neither hang nor crash the decompressor, outside seven named dangers",
  "Whatever bytes are offered to the single-threaded decompressor, in any pieces and with any output buffers: every call returns, without a panic, within its two buffers; unless the data itself meets one of these: a copy of 2^32 or a literal of 2^31 bytes is announced, a prediction mode carries unusable speeds, a copy of at least one byte has distance 0 or reaches into the part of the window being overwritten, a dictionary word does not exist, a literal stream's 65536-symbol chunk ends with a coder state below its limit, or a coder state is so small that reading a symbol would make it negative. The wording without exceptions is refuted: a header followed by a chunk of 16 zero bytes panics where overflow is checked.",
  "every byte string, every cut of it, every schedule of output buffers",
  "fuzzing samples byte strings; absence of panics and of endless loops is a claim about all of them",
  ["src/divans_decompressor.rs: decode", "src/codec/decoder.rs", "src/codec/mod.rs", "src/codec/literal.rs", "src/cmd_to_raw/mod.rs: encode_cmd, flush", "src/ans.rs: helper_advance_sym", "src/mux.rs: deserialize"])
p("Two threads: success means the checksum was right, and buffers are respected, for input of any origin",
  "Whatever bytes are offered to the multi-threaded decompressor, in any pieces, with output buffers of any sizes and under any schedule of its two threads: no call reports more input consumed than it was offered or stores more output than it was given space for; the bytes consumed are the bytes offered, in order; and if a call reports success, what was consumed is a header with the magic number and a window size 10..24, a body, and 8 bytes that hold the CRC-32C of everything before and \"ans~\".",
  "every byte string, every cut of it, every schedule of output buffers, every interleaving of the two threads with any spurious wake-ups",
  "tests run one schedule per execution and a few damaged files",
  ["src/parallel_decompressor.rs: decode", "src/codec/decoder.rs: decode_process_input, decode_process_output, process_eof", "src/multithreading.rs", "src/mux.rs: deserialize"])
p("Two threads: bytes of any origin neither deadlock nor crash the decompressor, outside the named dangers and one named hang",
  "Whatever bytes are offered to the multi-threaded decompressor, in any pieces, with any output buffers and under any schedule: no thread panics unless the data meets one of the seven dangers of C52; the two threads both stand still in a call only if the command stream has ended and all its bytes are used up while the worker wants more (then the call never returns, under any schedule); otherwise, if both threads keep getting turns, all calls return within a number of rounds linear in the bytes offered, spurious wake-ups costing one round each; and when success is reported the worker thread has ended.",
  "every byte string, every cut of it, every schedule of output buffers, every interleaving of the two threads with any spurious wake-ups",
  "a deadlock or lost wake-up shows under some interleavings of some inputs only; tests run one interleaving per execution",
  ["src/multithreading.rs: MultiWorker, BufferedMultiWorker", "src/threading.rs: SerialWorker", "src/parallel_decompressor.rs: ParallelDivansProcess, decode", "src/codec/decoder.rs: decode_process_input, decode_process_output"])
p("Command line tool: decompressing gives the original bytes, or an error and a beginning of them",
  "The tool decompressing (single-threaded) a complete file, with or without bytes after it: however the input arrives in reads, however many bytes each write takes, and however often reads and writes are interrupted, it ends; on success the output is exactly the original bytes; it fails only if a read or write failed, and for a file cut short always, and then the output is a beginning of the original bytes. For input of any origin, success means the bytes it used are an intact file with the right checksum and the output is what the library put out. That it always ends is refuted for input of any origin: an end mark before the streams are complete, followed by as many bytes as the input buffer holds, makes it loop forever.",
  "every file, every cut into reads, every outcome of each write, every buffer size, every interruption",
  "tests use in-memory buffers that deliver and accept everything asked",
  ["src/bin/divans.rs: decompress, decompress_generic"])
p("Command line tool: compressing writes the file for its input, if no read is interrupted",
  "The tool compressing with the internal command selection, input below twice the window minus one bytes: however the input arrives in reads and however the writes are taken, it ends, and on success the output is the complete file for exactly the input; it fails only if a read or write failed. The claim for interrupted reads is refuted: after an interrupted read the previous piece of input is compressed a second time and success is reported.",
  "every input up to the limit, every cut into reads, every outcome of each write, every buffer size",
  "whether a read is interrupted is decided by the operating system; tests never do it",
  ["src/bin/divans.rs: compress_raw, compress_raw_inner"])
p("Command line tool: run twice without a direction it gives the input back",
  "Run without being told the direction, the tool decompresses every complete file and compresses everything that does not start with the four magic bytes; so data not starting with them, run through the tool twice, comes back exactly. Data that starts with them and is no file is not compressed; the tool reports an error.",
  "every input up to the limit, every cut of it into reads (also within the first 16 bytes), every outcome of each write, every buffer size, on both runs",
  "the decision depends on how the first reads are cut, and on the data",
  ["src/bin/divans.rs: is_divans, compress_raw, compress_raw_inner, decompress_generic"])
p("Lines of the textual command format are read as what they describe",
  "Every line of the textual command format (copy, dict, insert/rndins with a quoted or hexadecimal literal, ctype, dtype, ltype, prediction with its context maps, mixing values and speeds) is parsed to exactly the command it describes; lines that stand for no command (window, a copy or insert of length 0) are parsed to none. The parser panics on exactly one shape of line: ltype followed by one number and nothing else. (The claims that a malformed line is always an error, and that a number too large for its field is reported, are false of the code and refuted.)",
  "every command the format can express, every spelling of its numbers and literals, every string for the panic claim",
  "the parser has dozens of arms and any text can be given to it; tests fix a few lines",
  ["src/bin/divans.rs:command_parse", "src/bin/divans.rs:window_parse", "src/bin/util.rs:literal_slice_to_vec", "src/bin/util.rs:quoted_slice_to_vec", "src/bin/util.rs:hex_slice_to_vec"])
p("Compressing a command text yields a complete file for exactly its commands",
  "Given a text whose lines describe commands the compressor accepts, after a window line, the tool ends for every pattern of interrupted reads, padding and partial or interrupted writes; unless a write fails or takes nothing, it ends with success and what it has written is a complete file for exactly those commands, so that the tool's decompression of it yields the bytes the commands stand for.",
  "every list of acceptable commands, every text for it, every read and write behaviour",
  "commands are sent in batches of 16 through a 64 KiB buffer: lost or doubled commands and bytes appear only at particular batch, buffer and write boundaries",
  ["src/bin/divans.rs:compress_ir", "src/bin/divans.rs:compress_inner", "src/bin/divans.rs:recode_cmd_buffer"])
p("Replaying a command text yields the bytes the commands stand for",
  "Given a text whose lines describe replayable commands, after a window line with a size from 10 to 24, the tool ends for every pattern of reads and writes; unless a write fails or takes nothing it ends with success and has written exactly the bytes the commands stand for. Any other window size is reported as an error with nothing written. (That every malformed line is reported as an error rather than a panic is false of this tool and refuted.)",
  "every list of replayable commands, every text for it, every read and write behaviour",
  "as for compression; the ring buffer adds its own boundaries",
  ["src/bin/divans.rs:recode", "src/bin/divans.rs:recode_inner", "src/bin/divans.rs:recode_cmd_buffer"])
p("Default compressor (brotli front end) makes a complete file for exactly the bytes given",
  "Raw bytes given to the default compressor in any pieces, then flush with output buffers of any sizes: no panic, no overrun and no false claim; when flush reports success, the output is a complete file whose commands stand for exactly the bytes given, and a decompressor gives these bytes back for every way of cutting the file and the output. Flush reports success once the encoder has taken all input and enough calls offer space. The brotli encoder is a parameter that keeps its contract and whose optimiser does not fail. (That an error of the optimiser is reported, that a failure of flush is final, and that the writer takes every buffer, are false of this code and refuted.)",
  "every encoder that keeps the contract, every input, every sequence of calls and buffer sizes, every configuration",
  "the internal buffer grows, is drained across calls and the encoder calls back any number of times: lost or doubled bytes appear only at particular sizes",
  ["src/brotli_ir_gen.rs:BrotliDivansHybridCompressor", "src/brotli_ir_gen.rs:internal_encode_stream", "src/brotli_ir_gen.rs:divans_encode_commands", "src/brotli_ir_gen.rs:flush", "src/writer.rs:DivansBrotliHybridCompressorWriter"])
p("Command line tool with default settings: compresses data of any length, and gives it back",
  "With its default settings (brotli front end) the tool, told to compress or given data without the magic number, ends for every way the data is cut into reads and the writes are taken; on success its output is a complete file whose commands stand for exactly the data, and it reports an error only if a read or a write failed. Given that output, and no direction, the tool with its default settings, decompressing with one thread, puts the data out again (two threads: C63). The reads are not interrupted (an interrupted read repeats data, C56); the brotli encoder is a parameter that keeps its contract.",
  "every data, every read and write behaviour, every buffer size, every encoder that keeps the contract",
  "the tool's loop, the internal buffer of the compressor, the encoder's blocks and the framing all have their own boundaries",
  ["src/bin/divans.rs:compress_raw", "src/bin/divans.rs:compress_raw_inner", "src/brotli_ir_gen.rs:BrotliDivansHybridCompressor"])
p("The command line tool with its default settings (two threads) decompresses under every fair schedule",
  "Unless told otherwise the tool decompresses with two threads. On a complete file, followed by anything, under every schedule that gives each thread enough turns, with any number of spurious wake-ups, for every cutting of the reads and every taking of the writes: if no read or write fails it ends with success and the output is the original bytes; in every case the output is a beginning of them. Compressing and decompressing with no option given brings the data back. On a file cut short success is never reported, but, unlike with one thread, the tool may never end: freeing the decompressor waits for a worker that waits for bytes (proved as a refutation; on a lone header it depends on which thread is first).",
  "every file, read and write pattern, buffer size and schedule of the two threads",
  "the outcome must hold for every interleaving of the tool's loop, the main thread and the worker",
  ["src/bin/divans.rs: decompress, decompress_generic, compress_raw", "src/parallel_decompressor.rs: new, decode, free", "src/divans_decompressor.rs: decode, free"])
p("The C API with its defaults: brotli front end and two threads",
 "A compressor made by divans_new_compressor, with any options that leave the command selection with brotli (the default), a context mixing below 8 and a prior depth below 16, over an encoder that keeps brotli's contract: divans_encode in any pieces and buffers, then divans_encode_flush, never panics, fails, writes outside the range it reports or asks for space that is there, and returns code 0 when enough flush calls have room. The result, given to divans_decode of a serial decompressor or of the default one (two threads, every schedule that gives each enough turns, any spurious wake-ups), in any pieces and buffers, is exactly the input, and the decompressor can then be freed. (Not so: code 1 does not mean that the input was taken; freeing the default decompressor in mid-stream may never return.)",
 "every dictionary, encoder and optimiser within the contract, list of options, division of the input, output buffers and offsets, division of the compressed file, fair schedule with spurious wake-ups",
 "schedules, buffer divisions and encoders are unbounded; the C tests use the serial path with a few sizes",
 ["src/ffi/mod.rs: divans_new_decompressor, divans_decode, divans_encode, divans_encode_flush, divans_free_decompressor", "src/ffi/compressor.rs: start, encode, flush", "src/ffi/decompressor.rs: Drop", "src/brotli_ir_gen.rs: BrotliDivansHybridCompressorFactory::new, encode, flush"])
p("Adapters over the default compressor",
"With an encoder that consumes what it is given, the Read adapter over the default (brotli) compressor returns, for any source and any buffer sizes, a complete file whose contents are exactly the bytes of the source, then reports the end and keeps doing so; what it returned up to the end, read through the decompressing Read adapter, is the source again; the Write adapter accepts every buffer and after flush the inner writer holds a complete file; errors are those of the source or the inner writer. With an encoder that may stop early when its own output buffer is full, the Read adapter can report the end of the file before it has returned anything.",
"all sources (chunks, interruptions, failures), all sequences of buffer sizes, all adapter buffer sizes, all encoders that keep brotli's contract, all options",
"Interaction of three buffers (source chunks, adapter buffer, caller's buffer) with a data-dependent encoder; the early end needs the source to end exactly while the encoder has stopped",
["src/reader.rs:GenReader::read", "src/reader.rs:DivansBrotliHybridCompressorReader", "src/writer.rs:GenWriter::write", "src/writer.rs:DivansBrotliHybridCompressorWriter", "src/brotli_ir_gen.rs:BrotliDivansHybridCompressor"])
p("Default compressor with its command optimiser",
"With the command optimiser switched on, whatever its cost model prefers, the default compressor given raw bytes in any pieces makes a complete file whose commands stand for exactly these bytes, and a decompressor gives the bytes back for every cutting; no panic, no false claim. Brotli's encoder is a parameter that keeps its contract without the optimiser and whose metablocks describe its input.",
"every encoder within the contract, every answer of the cost model, every input, all pieces and buffer sizes, every configuration",
"the optimiser rewrites each metablock before coding; a merge across the halves of brotli's ring buffer, or one that moves bytes, shows only for particular metablocks and costs",
["src/brotli_ir_gen.rs:divans_encode_commands", "src/brotli_ir_gen.rs:ThawingSliceArray", "src/ir_optimize/mod.rs:ir_optimize", "src/brotli_ir_gen.rs:internal_encode_stream"])
p("Exactly which lines the textual format's reader accepts",
"For every line: the reader returns a command exactly if the line is a well-formed line for this command (numbers in range with an optional plus sign; literal bytes as pairs of hexadecimal digits, tabs and line ends aside, or as a closed quotation, and as many of them as the count says; block types, word lengths and transforms taken modulo 256; the sections of a prediction mode read up to the first word that is no number); it returns nothing exactly for the lines that stand for nothing; it reports an error for every other line except the one shape of line that makes it panic.",
"every ASCII line",
"the set of malformed lines is infinite; tests try a few",
["src/bin/divans.rs:command_parse", "src/bin/util.rs:literal_slice_to_vec", "src/bin/util.rs:hex_slice_to_vec", "src/bin/util.rs:quoted_slice_to_vec"])
p("No interface takes a bad file for a good one",
  "Whatever bytes arrive, in whatever pieces and buffers: when the Read adapter over the decompressor reports the end of the file, the source has not failed and its whole contents are an intact file (header, legal window size, end, matching CRC-32C), so a damage within 32 bits is never followed by a clean end of file. The one exception is a file in which the end mark begins and does not go on as such: there the reader can report a false end of file or never return. Through the C API, with one thread or two and any schedule, every call stays within the caller's buffers and changes nothing but what it reports as written, and code 0 means that what was consumed is an intact file. If the two-thread tool ends with success its input begins with an intact file; if the input does not begin with a header it reports an error, having written nothing, and does not hang.",
  "every content, every split into pieces, every sequence of buffer sizes and offsets, every source failure, every thread schedule",
  "bad inputs cannot be enumerated, nor can the interleavings of two threads",
  ["src/reader.rs GenReader::read, DivansDecompressorReader", "src/divans_decompressor.rs DivansDecompressor::decode, finish_parsing_header", "src/ffi/mod.rs divans_decode", "src/bin/divans.rs decompress, decompress_generic", "src/mux.rs deserialize_eof"])
p("Reading and writing through the adapters with two threads",
"A file decompressed through DivansDecompressorReader or DivansDecompressorWriter made with multithread gives what one thread gives. Whatever the operating system's schedule, as long as each thread keeps getting turns, and however many spurious wake-ups there are: no call hangs or panics; the bytes delivered are always a beginning of the original; the reader reports end of file only after the whole original of a complete file, an error only for a cut or failing source; the writer holds the whole original once a complete file has been written. Bytes after the end of the file are not covered: they make the reader hang (refuted).",
"every file the compressor can write, cut anywhere or complete; every sequence of source events, buffer sizes, write sizes and sink faults; every fair schedule of the two threads with spurious wake-ups",
"schedules and partitions of the input cannot be enumerated, and a lost wake-up shows only under one interleaving",
["src/reader.rs: DivansDecompressorReader, GenReader::read","src/writer.rs: DivansDecompressorWriter, GenWriter::write","src/parallel_decompressor.rs: ParallelDivansProcessor","src/divans_decompressor.rs: DivansDecompressor::decode"])
p("The command optimiser's forecast of recent distances",
  "With the command optimiser on, the compressor looks ahead over a batch of commands and records, for a copy, which later copy will profit from it and with which short code. Every recorded reference is true: it names a later copy (or command 0 itself) and exactly the short code the codec will give that copy's distance, because the look-ahead tracks the codec's recent distances. The forecast made from a record gives the copy's own distance a short code. In a build without overflow checks the look-ahead never makes the optimiser panic and never changes what it may return; with overflow checks the same holds when no copy has a distance below three. (It is false without that restriction: a copy of distance 1 followed by one of distance 3 makes a checked build panic, whatever the cost model answers.)",
  "every list of commands, every history of the codec, every distance and recorded code, every cost model",
  "the recorded rows depend on the whole history of distances; the panic needs one particular relation between two short distances",
  ["src/ir_optimize/cache.rs:Cache::populate", "src/ir_optimize/cache.rs:forward_reference_hitlist", "src/ir_optimize/mod.rs:should_merge", "src/codec/interface.rs:distance_mnemonic_code"])
p("Success is the decompressor's last word; a refused header is not",
  "Once a call of the decompressor has reported success, every later call on it, with whatever bytes and whatever room, consumes nothing, writes nothing and reports success again; it neither panics nor runs on. A failure has no such finality: after sixteen bytes that are no header the decompressor answers every further run of calls exactly as a new one would, so that junk followed by a file ends in success.",
  "all byte strings of any origin, all splits into calls, all output sizes, all histories (calls after a failure included), all later calls; all sixteen-byte strings that are no header",
  "The claim is about every continuation of every finished run; a test makes one or two more calls after one file.",
  ["src/divans_decompressor.rs:HeaderParser::decode", "src/divans_decompressor.rs:DivansProcess::decode", "src/codec/decoder.rs:decode_process_input", "src/codec/decoder.rs:process_eof", "src/cmd_to_raw/mod.rs:flush"])
p("Memory functions supplied by the caller of the C API",
  "If the caller of the C API gives both an allocation and a free function, or neither, then over the whole life of a compressor or decompressor everything the library frees had been handed out by the same heap, for the same opaque pointer and (for Rust's heap) with the same size, and had not been freed since; with both functions Rust's heap is never used and every call carries the caller's opaque pointer, with neither only Rust's heap is. When no empty block was asked for, the library forgot none of its cells and the caller returned their buffers, nothing is left behind once the state is freed. The allocation function is asked for as many bytes as the items take, as long as these fit 64 bits. The library's own cells keep the discipline even with one function alone. (False beyond that: with only one of the two functions a buffer obtained and returned through the API crosses from one heap to the other; an empty cell is asked for and never returned; a number of machine words whose size exceeds 64 bits asks for too little.)",
  "every pair of functions and opaque pointer, every list of allocations, frees and omissions by library and caller, every address handed out",
  "Every interleaving of allocations and frees and every choice of functions is meant; a test runs one life with malloc and free and sees no difference between the heaps.",
  ["src/ffi/alloc_util.rs:SubclassableAllocator", "src/ffi/alloc_util.rs:MemoryBlock", "src/ffi/mod.rs:divans_new_compressor_with_custom_alloc", "src/ffi/mod.rs:divans_compressor_malloc_u8", "src/ffi/mod.rs:divans_compressor_free_usize", "src/ffi/mod.rs:divans_free_decompressor"])
p("The command line of the tool means what it says",
  "Options may be given in any order and mixed with up to two file names: the tool then does the job of the last of -d, -i, -c, -nobrotli (decompress, or recode if --recode was also given; compress a command text; compress), reads from the first name and writes to the second or to the standard streams, and every setting has the value of the last option about it, or its default; each adaptation speed given is at its own place whatever the order. After -- every argument is a name. Help and version end the run whatever follows. A third name, a number that does not fit its type, and a repetition count without both names are errors. (False beyond that: a misspelt option is taken for a file name; --recode without -d compresses; -lgwin sets the block size, not the window; -p and -mixing wrap at 256; -O0 does not undo -O2; an empty name is overwritten by the next.)",
  "every list of options in every order and spelling, every number, every name",
  "The number of orders and combinations is unbounded; the repository has no test of the argument loop at all.",
  ["src/bin/divans.rs:main", "src/probability/interface.rs:Speed::from_str"])
p("Any compressing command line and then any decompressing one give the data back",
  "Run the tool with any command line that compresses (options in any order and spelling, with one thread or two, with brotli's command selection or the internal one, told to compress or left to find out), with a mixing value below 8, a prior depth below 16 and speeds with increment at most 5444 and limit below 12288 or 16384; then run it on the output with any command line that decompresses (with -d or no direction, one thread or two, any buffer size, with or without -skipcrc): if no read or write fails and no read of the first run is interrupted, both runs report success and the second writes exactly the original data (for -nobrotli: data shorter than twice the window minus one). (False beyond that: the tool accepts -mixing=8 and -p16 and then panics on every input; -skipcrc without -d is ignored.)",
  "every pair of command lines, every data, every way it is cut into reads and writes, every fair schedule of the two threads",
  "The combinations of options, schedules, pieces and data are unbounded; the tests fix a handful of settings and never go through main.",
  ["src/bin/divans.rs:main", "src/bin/divans.rs:compress_raw", "src/bin/divans.rs:decompress", "src/codec/interface.rs:CrossCommandBookKeeping"])
p("A command text means the same compressed and decompressed as replayed, whatever the command lines",
  "Given a text of commands naming a window from 10 to 24, let one command line compress it (-i, with any other options that the format can carry), any decompressing command line expand the result, and another command line replay the text (-d --recode with any other options): if no read or write fails, all three runs report success and the second and third write the same bytes, those the commands stand for over a window of the size named in the text, whatever window the command lines name. Every command line the tool acts on is either one on text or one on binary data. (False beyond that: a text naming another window is compressed with the nearest allowed one but refused by the replay; a dictionary command with a wrong final size is compressed as if it were right and makes the replay panic.)",
  "every text, every three command lines, every way the files are cut into reads and writes, every fair schedule of the decompressor's two threads",
  "Texts, command lines, settings and schedules are unbounded; tests replay a few fixed texts, with fixed settings, and do not go through main.",
  ["src/bin/divans.rs:main", "src/bin/divans.rs:compress_ir", "src/bin/divans.rs:recode", "src/bin/divans.rs:decompress"])
p("Every setting reaches the encoders as last given, and tool and C API mean the same by it",
  "Whatever documented options are set through the C API, in any order and number, brotli's encoder is told for each parameter (window, block size, quality, quality 9.5, the three detection settings, literal byte score, context mode, the four adaptation speeds) the last value set or the default; the window it is told is the one written in the file header; and the codec has the last mixing value, prior depth, stride, context map use and speeds. The same holds for the tool and what was said on its command line. Whatever is said on a command line with speeds from the palette can be set through the C API, and everything that follows is then the same. Not true: that every speed the tool accepts can be set through the C API; that the option for brotli's own format changes anything.",
  "every list of option settings, every command line",
  "Lists of settings and command lines are unbounded, and brotli's parameters cannot be read back from the outside; tests set a handful of options and check the round trip, which does not depend on them.",
  ["src/brotli_ir_gen.rs:BrotliDivansHybridCompressor::new", "src/bin/divans.rs:main", "src/ffi/compressor.rs:DivansCompressorState::set_option", "src/divans_compressor.rs:DivansCompressorFactory::new"])
p("The example C program gives every file back and reports its sizes",
  "Run the example program for the C interface on any file that is not empty with any options it accepts that the format can carry (context mixing below 8; with -l, files below twice the window): it compresses the file in memory through its growable vector, decompresses the result to exactly the same bytes, whatever its buffers contained before, whether the decompressor it gets uses one thread or two, and prints both sizes as decimal numbers and the percentage to four places. The vector holds the concatenation of what was pushed, never reads or writes outside its memory, up to half the address space, beyond which it aborts. The line is printed only if the bytes came back the same, whatever the library does; with one thread, bytes that do not begin with a file of the right checksum are never accepted; the number after an option is its decimal numeral with an optional sign. (Findings: when rounding reaches the next whole per cent the printed percentage is one too small; -as also turns literal adaptation off; -cm without a number forces a context mode; the header declares the constructor of the decompressor without its third argument.)",
  "all arguments, all files, all contents of uninitialised buffers, all fair schedules of two threads, all sequences of pieces pushed, all pairs of sizes",
  "a test runs the program on some files; that no loop spins, no cell is read before it was written and no piece is lost depends on all call results the library may give and all sizes at which the vector grows",
  ["c/example.c:compress", "c/example.c:decompress", "c/example.c:main", "c/vec_u8.h:push_vec_u8", "c/vec_u8.h:round_up_to_power_of_two", "c/arg.h:set_options", "c/custom_alloc.h:custom_atoi", "c/divans/ffi.h", "src/ffi/mod.rs:divans_encode", "src/ffi/mod.rs:divans_decode"])
p("The example's allocator hands out aligned, separate blocks and frees what it got",
  "Use the allocator of the example C program in any order: take blocks of any size from malloc or from its static buffer, write anything inside the blocks held, free any block held with the opaque pointer it was taken with. Every block is aligned to 32 bytes as the library requires, lies wholly inside memory that was obtained for it, and shares no byte with another; no call changes a byte of a block held; every free passes the allocator's assertions and gives back to free exactly a pointer malloc returned, once; when nothing is held any more malloc has everything back. (Findings: the static buffer loses at least 32 bytes for every block ever taken, whatever is freed, so it serves at most 8355840 blocks; there is no check of its end; a size near 2^64 wraps; a failing malloc is written through.)",
  "all histories of requests, writes and frees, all sizes, all addresses malloc may choose, all addresses and contents of the memory",
  "a test sees the few addresses its malloc happens to return, and headers that were not overwritten; alignment depends on the address modulo 32, the mark of the buffer on the order of frees",
  ["c/custom_alloc.h:custom_malloc_f", "c/custom_alloc.h:custom_free_f", "c/custom_alloc.h:huge_buffer", "c/example.c:main", "c/divans/ffi.h:CAllocator"])
p("The entropy coder spends the ideal length of what it codes",
  "For every list of symbols with legal probability intervals, the encoder's output has the ideal length of the list (the sum of -log2 of the probabilities), plus at least 60 and at most 130 bits for every started group of 65536 symbols; symbols that are nearly certain cost nearly nothing (one bit for 16384 symbols of probability 1 - 2^-15).  A compressed file is never shorter than the ideal length of the nibbles in its two streams at the probabilities the model gave them, each stream is within 130 bits per group of it, and the container adds 27 bytes and at most three bytes per payload byte.",
  "every list of symbols of any length and any intervals; every list of commands, settings and division of the two streams into frames",
  "Rounding happens in every step of a 64 bit state shared by 65536 symbols; a wrong renormalisation limit or a state flushed too often still round trips in every test and only makes the output larger for some sequences.",
  ["src/ans.rs: reverse_put_sym, flush_chunk, put_start_freq","src/mux.rs: MuxSlice framing","src/divans_compressor.rs: encode, flush"])
p("Distributions learn what they are shown",
  "A distribution that has seen nothing gives every symbol the same share.  After every history, one update gives the symbol seen its increment and leaves the others alone, or at the limit scales everything by 3/4 with each share rounded up by at most 1.5 counts.  Whatever was seen before, once one symbol has been repeated until its increments add up to 200000 all other symbols together own at most 51 counts, and the symbol's probability is at least 1 - 68/lim - 2^-14; with limit 16384 a run of equal nibbles then costs at most 1/118 bit per nibble beside the entropy coder's 130 bits per group of 65536.",
  "every earlier history of symbols and speeds, every symbol, increment up to 5444, limit up to 16384 and length of the run",
  "A rounding that leaves a few counts too many with the other symbols, or a limit never reached, still round trips in every test; the loss shows only after long runs following unfortunate histories.",
  ["src/probability/frequentist_cdf.rs: blend","src/probability/opt_frequentist_cdf.rs: blend","src/probability/interface.rs: sym_to_start_and_freq","src/ans.rs: put_start_freq"])
p("Measuring what is coded: estimates, bills and trial speeds",
  "After every history of nibbles, snapshots and resets the optimiser's tallying encoder reports the price of exactly what was counted, in all and since the snapshot; with a logarithm that never errs upwards (downwards) the real encoder's output for the same symbols is at most that price and 130 bits (at least that price and 60 bits) per group of 65536 symbols.  The billing coder over any coder changes no answer and no state, and its total and its entry for every designation are the sums of the items.  The distribution that tries every speed behaves as the one in use, and its variant costs are what the same symbols would have cost at each palette speed.  Single bits are the exception: the tallying encoder charges them with the probabilities exchanged.",
  "every history of operations, every coder, every distribution history, palette speed and logarithm function",
  "A wrapper that charges the wrong interval or loses a charge on a reset still produces correct files; only the choices made on its numbers get worse.",
  ["src/ir_optimize/statistics_tracking_codec.rs: TallyingArithmeticEncoder, billing_snapshot_delta, total_billing_cost","src/billing.rs: BillingArithmeticCoder","src/probability/variant_speed_cdf.rs: VariantSpeedCDF"])
p("No blow-up: a worst case for every command and every file",
  "In every state a command takes at most a fixed number of nibbles on the command stream: 23 for a copy, 7 for a dictionary word, 12 for a literal (13 if marked as high entropy), 5 or 4 for a block switch, and for a prediction mode 22, three per context map entry and one per mixing value; the literal stream holds exactly two nibbles per literal byte.  Hence every compressed file, however the output buffers are sized, fits in a size computed from the commands alone, and what the compressor makes of n raw bytes has at most 16 n bytes, 64 per started 32768 bytes of input, and 67635.",
  "every coder state, option, command and list of commands, every input and every schedule of calls and output buffers",
  "A length code that emits a superfluous nibble for some sizes still round trips; tests compare sizes on a few files only, and the worst case over all states of the adaptive model is not reached by them.",
  ["src/codec/copy.rs: encode_or_decode","src/codec/dict.rs: encode_or_decode","src/codec/literal.rs: encode_or_decode","src/codec/block_type.rs: encode_or_decode","src/codec/context_map.rs: encode_or_decode","src/mux.rs: Mux","src/divans_compressor.rs: DivansCompressor"])
p("The wire format: which nibbles every command becomes",
  "For every list of encodable commands the encoder writes to the command stream exactly the nibbles the format lists: the kind, then lengths and distances as short codes, bit length and mantissa, block types relative to the types before, prediction modes with their speeds, move-to-front coded context maps and mixing values, and 15 at the end; and to the literal stream the two nibbles of each literal byte.  From one command to the next only the four recent distances and the block types matter.  A reader given streams spelled by hand from the format decodes the commands spelled, and leaves what follows alone.  No list of commands is spelled like the beginning of another that means something else.",
  "every encodable command in every reachable state; every list of commands, option and continuation of the streams; every two lists of commands and options",
  "A change made alike in encoder and decoder still round trips in every test but no longer reads files written before; the repository has no compressed files to compare with, and the format has a case for every bit length.",
  ["src/codec/mod.rs: command_type_to_nibble","src/codec/copy.rs: encode_or_decode","src/codec/dict.rs: encode_or_decode","src/codec/literal.rs: encode_or_decode","src/codec/block_type.rs: encode_or_decode","src/codec/context_map.rs: encode_or_decode","src/codec/interface.rs: obs_distance, distance_mnemonic_code, obs_context_map_for_lru"])
p("The debugging bit coder answers every question from the bit it belongs to",
  "The debugging encoder turns each bit into one byte, the announced probability with its lowest digit flipped for a set bit.  However the caller interleaves putting bits, draining the encoder, filling the decoder and getting bits, as long as it puts only when there is room, gets only when there is a byte, and never drains a full buffer at once, the decoder asked with the same probabilities returns the bits put, in order.  Asked with a probability that differs in more than the lowest digit it stops; one that differs in the lowest digit only is not noticed and gives the opposite bit.",
  "every sequence of puts, drains, fills and gets; every bit, probability byte and piece size; builds with and without overflow checks",
  "The buffers hold eight bytes and shift through a 64 bit register, so whether a bit survives depends on how full both are at every step of the interleaving; the repository has no tests of this coder.",
  ["src/debug_encoder.rs: DebugEncoder, DebugDecoder","src/arithmetic_coder.rs: RegisterQueue, drain_or_fill_internal_buffer_unchecked"])
p("The division tables are those their generator prints, and its checks pass",
  "The program that generates the division tables passes its own checks for every divisor, and the entries it prints are the entries the library looks up.  The division of a 16 bit number by an 8 bit one is exact over its whole range when its result is read as an unsigned number; read as signed it is not.",
  "every divisor from 1 to 255 and from 1 to 65535; every dividend checked by the generator",
  "The generator is a program of its own that is not run by the tests, and its loops make four billion divisions; a table edited by hand or made by another version would go unnoticed.",
  ["src/probability/make_div_lut.rs: main","src/probability/div_lut.rs: RECIPROCAL8, RECIPROCAL","src/probability/numeric.rs: compute_divisor, compute_divisor8, fast_divide_16bit_by_8bit, fast_divide_30bit_by_16bit"])
p("The framing of the two streams within a file",
  "Whatever is written to the command and literal streams and however output is asked for, the finished container is a sequence of chunks, each headed by the number of its stream and its length less one in two bytes, or by a single byte for chunks of 4096, 16384 and 65536 bytes, and ends with the bytes 255 254 255.  Any bytes framed by these rules, however the chunks are cut and ordered, are taken apart into the two streams, in whatever pieces they arrive.  Framed bytes determine the two streams and where they end.  The complete files made by the compressors and read by the decompressors are exactly such bytes between header and trailer.",
  "every sequence of writes and output requests; every way to cut two streams into chunks and to order them; every way to cut the bytes into pieces, and every continuation",
  "A change made alike in multiplexer and demultiplexer still round trips; a demultiplexer only ever fed its own multiplexer's output never sees other chunk sizes and orders that the format allows.",
  ["src/mux.rs: Mux, get_code, serialize, serialize_close, deserialize"])
out = os.path.join(os.path.dirname(__file__), "..", "properties.jsonl")
with open(out, "w") as f:
    for x in P: f.write(json.dumps(x) + "\n")
print(len(P))
