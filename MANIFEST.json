{
 "claims": [
  {
   "property": "C01",
   "status": "proved",
   "theorems": [
    "C01_ans_roundtrip"
   ],
   "note": "any alphabet/lookup, any length, any number of chunks, any input pieces, any trailing bytes"
  },
  {
   "property": "C02",
   "status": "proved",
   "theorems": [
    "C02_ans_input_split"
   ],
   "note": "all byte strings, valid or not"
  },
  {
   "property": "C03",
   "status": "proved",
   "theorems": [
    "C03_ans_no_overflow",
    "C03_ans_encode_total"
   ],
   "note": ""
  },
  {
   "property": "C04",
   "status": "proved",
   "theorems": [
    "C04_intervals_sound",
    "C04_intervals_disjoint"
   ],
   "note": "every codable table"
  },
  {
   "property": "C05",
   "status": "proved",
   "theorems": [
    "C05_adaptation_codable",
    "C05_bit_adaptation",
    "C05_documented_speeds_refuted"
   ],
   "note": "increments above 5444 accepted by FromStr are refuted by C05_documented_speeds_refuted; all built-in speeds qualify"
  },
  {
   "property": "C06",
   "status": "proved",
   "theorems": [
    "C06_opt_equals_reference"
   ],
   "note": ""
  },
  {
   "property": "C07",
   "status": "proved",
   "theorems": [
    "C07_fast_division_exact",
    "C07_fast_division8_exact"
   ],
   "note": "with the 65536 entry table of the source transcribed by tools/gen_div_lut.py"
  },
  {
   "property": "C08",
   "status": "proved",
   "theorems": [
    "C08_mixture_codable"
   ],
   "note": ""
  },
  {
   "property": "C44",
   "status": "proved",
   "theorems": [
    "C44_speed_exact",
    "C44_speed_approx",
    "C44_speed_range_refuted"
   ],
   "note": ""
  },
  {
   "property": "C11",
   "status": "proved",
   "theorems": [
    "C11_crc_is_crc32c",
    "C11_sse_is_crc32c"
   ],
   "note": "portable implementation and the variant for the CRC32 instruction (the instruction modelled after the processor manual)"
  },
  {
   "property": "C12",
   "status": "proved",
   "theorems": [
    "C12_crc_detects_bursts"
   ],
   "note": ""
  },
  {
   "property": "C13",
   "status": "proved",
   "theorems": [
    "C13_header_written",
    "C13_header_roundtrip"
   ],
   "note": ""
  },
  {
   "property": "C14",
   "status": "proved",
   "theorems": [
    "C14_header_acceptance",
    "C14_header_errors"
   ],
   "note": ""
  },
  {
   "property": "C15",
   "status": "proved",
   "theorems": [
    "C15_trailer_written",
    "C15_trailer_verified"
   ],
   "note": ""
  },
  {
   "property": "C09",
   "status": "proved",
   "theorems": [
    "C09_mux_roundtrip",
    "C09_mux_writer_completes"
   ],
   "note": ""
  },
  {
   "property": "C10",
   "status": "proved",
   "theorems": [
    "C10_demux_split_independent"
   ],
   "note": "all byte strings, valid or not"
  },
  {
   "property": "C27",
   "status": "proved",
   "theorems": [
    "C27_decode_any_file",
    "C27_end_to_end"
   ],
   "note": "any batches and buffers when compressing, any pieces and buffers when decompressing, with and without checksum verification; encode_commands/flush interface and the single-threaded decoder"
  },
  {
   "property": "C28",
   "status": "proved",
   "theorems": [
    "C28_streams_exist",
    "C28_every_schedule",
    "C28_same_streams",
    "C28_mux_bytes_refuted",
    "C28_mux_streams_independent"
   ],
   "note": "encode_commands/flush interface; byte-for-byte independence of the framing is refuted"
  },
  {
   "property": "C30",
   "status": "proved",
   "theorems": [
    "C30_final_after_flush",
    "C30_refused_while_closing",
    "C30_flush_inside_command_refused",
    "C30_refusal_reported_refuted",
    "C30_empty_batch_panics_refuted"
   ],
   "note": "with the order of the shutdown steps covered by C28_every_schedule"
  },
  {
   "property": "C16",
   "status": "proved",
   "theorems": [
    "C16_replay",
    "C16_replay_list"
   ],
   "note": "the brotli dictionary and transforms are a parameter of the model"
  },
  {
   "property": "C17",
   "status": "proved",
   "theorems": [
    "C17_copy_terminates",
    "C17_far_distance_error",
    "C17_window_distance_hangs_refuted",
    "C17_zero_distance_panics_refuted"
   ],
   "note": "findings for distance 0, window size and window size + k are proved too"
  },
  {
   "property": "C18",
   "status": "proved",
   "theorems": [
    "C18_last_8",
    "C18_order_depends_on_position_refuted"
   ],
   "note": "the original wording (fixed order) is refuted"
  },
  {
   "property": "C19",
   "status": "proved",
   "theorems": [
    "C19_raw_lossless",
    "C19_long_input_refuted"
   ],
   "note": "the unrestricted wording is refuted; proved up to the length at which the window wraps a second time"
  },
  {
   "property": "C31",
   "status": "proved",
   "theorems": [
    "C31_lookup_in_table",
    "C31_lookup_checked",
    "C31_lookup_injective",
    "C31_unlisted_kinds_alias_refuted"
   ],
   "note": "every lookup the coder makes stays inside its table and two different lookups of listed kinds never share a cell; two prediction-mode kinds missing from the declaration alias another cell (refuted, harmless because both sides alias alike)"
  },
  {
   "property": "C20",
   "status": "proved",
   "theorems": [
    "C20_copy_roundtrip"
   ],
   "note": "any reachable coder state, any options, any replay buffer that accepts the command; distances of 2^30 and more are not encodable (finding)"
  },
  {
   "property": "C21",
   "status": "proved",
   "theorems": [
    "C21_dict_roundtrip"
   ],
   "note": "the dictionary's word lengths are a parameter; the decoder reports the true length, not the caller's"
  },
  {
   "property": "C22",
   "status": "proved",
   "theorems": [
    "C22_literal_roundtrip"
   ],
   "note": "all context modes, strides, mixing settings and adaptation speeds reachable"
  },
  {
   "property": "C23",
   "status": "proved",
   "theorems": [
    "C23_block_switch_roundtrip"
   ],
   "note": ""
  },
  {
   "property": "C24",
   "status": "proved",
   "theorems": [
    "C24_prediction_mode_roundtrip"
   ],
   "note": "entries of earlier context maps beyond the new length survive (finding)"
  },
  {
   "property": "C25",
   "status": "proved",
   "theorems": [
    "C25_short_code_meaning",
    "C25_short_code_exact",
    "C25_cache"
   ],
   "note": ""
  },
  {
   "property": "C26",
   "status": "proved",
   "theorems": [
    "C26_stream_roundtrip",
    "C26_same_commands"
   ],
   "note": ""
  },
  {
   "property": "C35",
   "status": "proved",
   "theorems": [
    "C35_growable_buffer",
    "C35_large_minimum_refuted"
   ],
   "note": "minimum up to 33000 bytes; a larger one is not honoured (refuted)"
  },
  {
   "property": "C36",
   "status": "proved",
   "theorems": [
    "C36_freeze_thaw",
    "C36_thaw_pair"
   ],
   "note": ""
  },
  {
   "property": "C37",
   "status": "proved",
   "theorems": [
    "C37_blocks_conserved",
    "C37_request_served"
   ],
   "note": "requests below 2^32 cells (the code casts the length to u32)"
  },
  {
   "property": "C40",
   "status": "proved",
   "theorems": [
    "C40_set_option",
    "C40_options_reachable",
    "C40_history",
    "C40_started_frozen",
    "C40_null_refused",
    "C40_codes"
   ],
   "note": "the compressors behind the API are parameters; numeric options are truncated silently to their machine type (finding)"
  },
  {
   "property": "C42",
   "status": "proved",
   "theorems": [
    "C42_register_queue_fifo",
    "C42_full_pop_refuted"
   ],
   "note": "popping all eight bytes at once is refuted"
  },
  {
   "property": "C43",
   "status": "proved",
   "theorems": [
    "C43_nibble_coding",
    "C43_byte_coding",
    "C43_ans_bits"
   ],
   "note": ""
  },
  {
   "property": "C45",
   "status": "proved",
   "theorems": [
    "C45_weights_in_range",
    "C45_update_exact"
   ],
   "note": ""
  },
  {
   "property": "C41",
   "status": "proved",
   "theorems": [
    "C41_ir_optimize_preserves",
    "C41_ir_optimize_succeeds"
   ],
   "note": "the cost model is an arbitrary oracle"
  },
  {
   "property": "C46",
   "status": "proved",
   "theorems": [
    "C46_raw_file",
    "C46_raw_roundtrip"
   ],
   "note": "inputs below twice the window minus one; longer ones are refuted under C19"
  },
  {
   "property": "C38",
   "status": "proved",
   "theorems": [
    "C38_decompressing_reader",
    "C38_compressing_reader",
    "C38_reader_roundtrip",
    "C38_trailing_bytes_refuted",
    "C38_empty_buffer_refuted"
   ],
   "note": "compressing reader for inputs shorter than the window; the refuted theorems record what does not hold"
  },
  {
   "property": "C39",
   "status": "proved",
   "theorems": [
    "C39_compressing_writer",
    "C39_decompressing_writer",
    "C39_truncation_refuted",
    "C39_trailing_bytes_refuted"
   ],
   "note": "the refuted theorems record what does not hold"
  },
  {
   "property": "C33",
   "status": "proved",
   "theorems": [
    "C33_every_schedule",
    "C33_missing_commands_hang"
   ],
   "note": "valid files; C33_missing_commands_hang records the hang on a damaged file"
  },
  {
   "property": "C34",
   "status": "proved",
   "theorems": [
    "C34_free_after_success",
    "C34_free_while_worker_wants",
    "C34_free_mid_stream_refuted"
   ],
   "note": "the unconditional claim is refuted"
  },
  {
   "property": "C32",
   "status": "proved",
   "theorems": [
    "C32_hand_off",
    "C32_record_is_passive"
   ],
   "note": "any input, calls and schedule"
  },
  {
   "property": "C29",
   "status": "proved",
   "theorems": [
    "C29_any_nibbles",
    "C29_unguarded",
    "C29_total",
    "C29_length_refuted",
    "C29_speeds_refuted",
    "C29_distance_zero_refuted"
   ],
   "note": "the wording without exceptions is refuted; three hazards are named and excluded"
  },
  {
   "property": "C47",
   "status": "proved",
   "theorems": [
    "C47_success_means_intact",
    "C47_damage_detected"
   ],
   "note": "single-threaded decompressor; calls that panic end the session"
  },
  {
   "property": "C48",
   "status": "proved",
   "theorems": [
    "C48_bounds"
   ],
   "note": "single-threaded decompressor; calls that panic end the session"
  },
  {
   "property": "C49",
   "status": "proved",
   "theorems": [
    "C49_simd_equals_reference",
    "C49_double_division_exact"
   ],
   "note": "double precision modelled as correctly rounded quotients"
  },
  {
   "property": "C50",
   "status": "proved",
   "theorems": [
    "C50_any_history",
    "C50_mixed",
    "C50_mixed_refuted"
   ],
   "note": "mixing under a condition; the unconditional claim is refuted"
  },
  {
   "property": "C51",
   "status": "proved",
   "theorems": [
    "C51_c_api_roundtrip",
    "C51_mixing_refuted",
    "C51_mixing_constructor_refuted",
    "C51_depth_refuted"
   ],
   "note": "internal command selection, single-threaded decompressor; option values beyond the bounds are accepted and panic"
  },
  {
   "property": "C52",
   "status": "proved",
   "theorems": [
    "C52_any_input",
    "C52_guard_is_decode",
    "C52_no_panic_refuted"
   ],
   "note": "single-threaded decompressor; the wording without exceptions is refuted; seven dangers are named and excluded"
  },
  {
   "property": "C53",
   "status": "proved",
   "theorems": [
    "C53_any_schedule",
    "C53_damage_detected"
   ],
   "note": "any input, calls and schedule; runs up to a panic, if any"
  },
  {
   "property": "C54",
   "status": "proved",
   "theorems": [
    "C54_every_schedule",
    "C54_progress",
    "C54_exhausted_for_ever"
   ],
   "note": "any input, calls and schedule; the dangers of C52 and the hang on exhausted command bytes are named exceptions"
  },
  {
   "property": "C55",
   "status": "proved",
   "theorems": [
    "C55_decompress_tool",
    "C55_truncated",
    "C55_success_means_intact",
    "C55_hang_refuted"
   ],
   "note": "single-threaded; that the tool ends on input of any origin is refuted"
  },
  {
   "property": "C56",
   "status": "proved",
   "theorems": [
    "C56_compress_tool",
    "C56_interrupt_refuted"
   ],
   "note": "internal command selection; an interrupted read repeats the piece before it (refuted)"
  },
  {
   "property": "C57",
   "status": "proved",
   "theorems": [
    "C57_file_is_decompressed",
    "C57_data_is_compressed",
    "C57_roundtrip",
    "C57_magic_data_refuted"
   ],
   "note": "data with the magic number is outside the claim"
  },
  {
   "property": "C58",
   "status": "proved",
   "theorems": [
    "C58_line_is_read",
    "C58_nothing_is_read",
    "C58_panics_exactly_on",
    "C58_never_panics_refuted",
    "C58_overflow_is_reported_refuted"
   ],
   "note": "Text is ASCII; lenient spellings beyond the described format (for example a plus sign) are covered by the panic claim only. Without feature external-literal-probability."
  },
  {
   "property": "C59",
   "status": "proved",
   "theorems": [
    "C59_text_is_compressed",
    "C59_text_round_trip"
   ],
   "note": "One thread, commands within C20's preconditions; the source of lines does not fail (a failing read is an error at once)."
  },
  {
   "property": "C60",
   "status": "proved",
   "theorems": [
    "C60_text_is_replayed",
    "C60_window_out_of_range",
    "C60_errors_reported_refuted"
   ],
   "note": "A failing write while commands are replayed is a panic, not an error: the theorem allows either."
  },
  {
   "property": "C61",
   "status": "proved",
   "theorems": [
    "C61_default_file",
    "C61_default_round_trip",
    "C61_optimizer_error_refuted",
    "C61_failure_is_final_refuted",
    "C61_writer_takes_all_refuted"
   ],
   "note": "The brotli encoder and its optimiser are parameters under a contract (good_frontend, faithful); an encoder that meets it is given and used for the concrete case."
  },
  {
   "property": "C62",
   "status": "proved",
   "theorems": [
    "C62_default_compress",
    "C62_default_round_trip"
   ],
   "note": "single-threaded decompression; the brotli encoder is a parameter (contract good_frontend, faithful, hungry), met by the encoder of the concrete case"
  },
  {
   "property": "C63",
   "status": "proved",
   "theorems": [
    "C63_two_threads",
    "C63_truncated",
    "C63_truncated_hangs_refuted",
    "C63_truncated_race",
    "C63_default_round_trip"
   ],
   "note": "an error on every truncated file is refuted: the tool can hang in free; the brotli encoder is a parameter as in C61"
  },
  {
   "property": "C64",
   "status": "proved",
   "theorems": [
    "C64_default_round_trip",
    "C64_two_threads",
    "C64_code_one_refuted",
    "C64_free_mid_stream_refuted"
   ],
   "note": "brotli's encoder is a parameter with the contract of C61; the two refutations are findings: code 1 with input left, and divans_free_decompressor in mid-stream"
  },
  {
   "property": "C65",
   "status": "proved",
   "theorems": [
    "C65_default_reader",
    "C65_default_reader_round_trip",
    "C65_default_writer",
    "C65_premature_end_refuted"
   ],
   "note": "The positive theorems hold for greedy encoders (each PROCESS call consumes its input); without greed the early end is refuted by an encoder that keeps the contract. Brotli's encoder is a parameter."
  },
  {
   "property": "C66",
   "status": "proved",
   "theorems": [
    "C66_optimised_file",
    "C66_optimised_round_trip"
   ],
   "note": "Brotli's encoder and the optimiser's cost model are parameters. A failing optimiser is C61_optimizer_error_refuted."
  },
  {
   "property": "C67",
   "status": "proved",
   "theorems": [
    "C67_accepts_exactly",
    "C67_ignores_exactly",
    "C67_the_rest_is_an_error",
    "C67_counts_and_quotes"
   ],
   "note": "ASCII text."
  },
  {
   "property": "C68",
   "status": "proved",
   "theorems": [
    "C68_reader",
    "C68_reader_damage",
    "C68_c_api",
    "C68_c_api_two_threads",
    "C68_two_thread_tool",
    "C68_no_header",
    "C68_false_end_refuted",
    "C68_stall_refuted"
   ],
   "note": "The tool with one thread is C55_success_means_intact. The two refutations show that the exception of the reader is needed; both are findings."
  },
  {
   "property": "C69",
   "status": "proved",
   "theorems": [
    "C69_two_thread_reader",
    "C69_two_thread_writer",
    "C69_trailing_bytes_refuted"
   ],
   "note": "both adapters over the two-thread decompressor, every fair schedule; trailing bytes hang the reader"
  },
  {
   "property": "C70",
   "status": "proved",
   "theorems": [
    "C70_cache_follows_codec",
    "C70_new_codec",
    "C70_forecast_serves",
    "C70_release_build",
    "C70_checked_build",
    "C70_no_panic_refuted"
   ],
   "note": "Distance cache of src/ir_optimize/cache.rs and its use in should_merge. C70_release_build carries C41 over; C70_no_panic_refuted is a finding about builds with overflow checks."
  },
  {
   "property": "C71",
   "status": "proved",
   "theorems": [
    "C71_success_is_final",
    "C71_success_answers",
    "C71_bad_header_is_forgotten",
    "C71_failure_is_final_refuted"
   ],
   "note": "Single-threaded decompressor. Failures inside the command stream are modelled without the adaptation of the last probability table, so what follows them is claimed only as far as the first two theorems go, which do not depend on the tables."
  },
  {
   "property": "C72",
   "status": "proved",
   "theorems": [
    "C72_every_free_matches",
    "C72_own_memory",
    "C72_one_heap",
    "C72_all_returned",
    "C72_request_covers",
    "C72_only_alloc_refuted",
    "C72_only_free_refuted",
    "C72_zero_length_refuted",
    "C72_size_wraps_refuted"
   ],
   "note": "Ranges over every list of allocations and frees a library with owned cells could make; that the library frees each cell in a given run is an assumption of C72_all_returned, not derived. Builds with the standard library, without overflow checks for the size product."
  },
  {
   "property": "C73",
   "status": "proved",
   "theorems": [
    "C73_as_said",
    "C73_after_dashes",
    "C73_help",
    "C73_third_name",
    "C73_repetitions_need_names",
    "C73_number_out_of_range",
    "C73_unknown_option_refuted",
    "C73_recode_alone_refuted",
    "C73_lgwin_refuted",
    "C73_wrap_refuted",
    "C73_O0_refuted",
    "C73_empty_name_refuted"
   ],
   "note": "Arguments are lists of bytes (ASCII); names begin with something other than a dash; the run that follows is a plan, whose jobs are the subject of C55-C63."
  },
  {
   "property": "C74",
   "status": "proved",
   "theorems": [
    "C74_round_trip",
    "C74_every_decompressing_line",
    "C74_refused_line",
    "C74_mixing_refuted",
    "C74_depth_refuted",
    "C74_skipcrc_alone_refuted"
   ],
   "note": "brotli's encoder is a parameter with the hypotheses of C61/C62 (sound_encoder), met by store (Lemma store_sound); the -skipcrc refutation uses smaller context arrays"
  },
  {
   "property": "C75",
   "status": "proved",
   "theorems": [
    "C75_text_lines_agree",
    "C75_text_round_trip",
    "C75_far_window_not_replayed",
    "C75_every_line_runs",
    "C75_refused_line",
    "C75_wrong_size_refuted"
   ],
   "note": "the dictionary and its table of sizes are parameters that agree (sizes_agree); commands that can be coded and replayed (sayable)"
  },
  {
   "property": "C76",
   "status": "proved",
   "theorems": [
    "C76_api_settings_heard",
    "C76_line_settings_heard",
    "C76_line_by_api",
    "C76_beyond_palette_refuted",
    "C76_bitstream_refuted"
   ],
   "note": "what brotli's encoder does with a parameter is outside the model; documented values (valid_option of C40) of 32 bits; command lines as in C73"
  },
  {
   "property": "C77",
   "status": "proved",
   "theorems": [
    "C77_vector",
    "C77_program",
    "C77_program_internal",
    "C77_line",
    "C77_line_refuted",
    "C77_as_refuted",
    "C77_cm_refuted",
    "C77_refused_option",
    "C77_numbers",
    "C77_checks",
    "C77_damage"
   ],
   "note": "the encoder keeps brotli's contract as in C61 and C64 and makes progress; compressed files up to 2^63 bytes, streams up to 2^60 with -l; 64-bit size_t; reading the file and writing the line are not modelled"
  },
  {
   "property": "C78",
   "status": "proved",
   "theorems": [
    "C78_blocks",
    "C78_calls",
    "C78_all_returned",
    "C78_buffer_runs_out",
    "C78_freed_at_once",
    "C78_past_the_end_refuted",
    "C78_wraps_refuted",
    "C78_null_refuted"
   ],
   "note": "malloc is any function that hands out memory not in use; sizes below 2^64 - 52; one thread at a time; the program asks no more of the static buffer than there is (nothing checks it)"
  },
  {
   "property": "C79",
   "status": "proved",
   "theorems": [
    "C79_near_ideal",
    "C79_certain_is_cheap",
    "C79_files"
   ],
   "note": "lengths compared as powers of two, so no real logarithms; probabilities are the 15 bit intervals handed to the coder; nothing is claimed about how well the adaptive model predicts"
  },
  {
   "property": "C80",
   "status": "proved",
   "theorems": [
    "C80_fresh",
    "C80_update",
    "C80_learns",
    "C80_runs_are_cheap"
   ],
   "note": "the frequency counting distributions (the SIMD and table driven ones agree with it, C06 and C49); one distribution at a time, increments at most 5444"
  },
  {
   "property": "C81",
   "status": "proved",
   "theorems": [
    "C81_tally",
    "C81_codec",
    "C81_estimate",
    "C81_logarithms",
    "C81_bits_refuted",
    "C81_billing",
    "C81_billed_and_coded",
    "C81_speeds"
   ],
   "note": "floating point sums are exact sums in a fixed unit and the logarithm is a parameter; printing the bill is not modelled; the tallying of single bits is refuted"
  },
  {
   "property": "C82",
   "status": "proved",
   "theorems": [
    "C82_command",
    "C82_streams",
    "C82_file",
    "C82_raw"
   ],
   "note": "the factor 4 for the framing is that of one payload byte per frame, which the relation is_file allows; two bytes per nibble is the worst probability an interval can have"
  },
  {
   "property": "C83",
   "status": "proved",
   "theorems": [
    "C83_command",
    "C83_streams",
    "C83_reader",
    "C83_unambiguous"
   ],
   "note": "the nibble values and their order, and that no spelling begins another; with which distribution each is coded is left to the model of the priors. The 7 bit codes of speeds are those of the speed model"
  },
  {
   "property": "C84",
   "status": "proved",
   "theorems": [
    "C84_answers",
    "C84_roundtrip",
    "C84_notices_refuted",
    "C84_full_drain_refuted"
   ],
   "note": "the two refuted theorems show what the statement excludes: probabilities out of step by the lowest digit, and draining eight bytes at once"
  },
  {
   "property": "C85",
   "status": "proved",
   "theorems": [
    "C85_tables_generated",
    "C85_small_division",
    "C85_signed_refuted"
   ],
   "note": "entries and checks; the layout of the printed text is not modelled"
  },
  {
   "property": "C86",
   "status": "proved",
   "theorems": [
    "C86_writer",
    "C86_reader",
    "C86_unambiguous",
    "C86_file"
   ],
   "note": "the two streams as lists of bytes; header and trailer of the file are C13 to C15"
  }
 ]
}