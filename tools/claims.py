claim("C01", "proved", ["C01_ans_roundtrip"], "any alphabet/lookup, any length, any number of chunks, any input pieces, any trailing bytes")
claim("C02", "proved", ["C02_ans_input_split"], "all byte strings, valid or not")
claim("C03", "proved", ["C03_ans_no_overflow", "C03_ans_encode_total"], "")
claim("C04", "proved", ["C04_intervals_sound", "C04_intervals_disjoint"], "every codable table")
claim("C05", "proved", ["C05_adaptation_codable", "C05_bit_adaptation", "C05_documented_speeds_refuted"], "increments above 5444 accepted by FromStr are refuted by C05_documented_speeds_refuted; all built-in speeds qualify")
claim("C06", "proved", ["C06_opt_equals_reference"], "")
claim("C07", "proved", ["C07_fast_division_exact", "C07_fast_division8_exact"], "with the 65536 entry table of the source transcribed by tools/gen_div_lut.py")
claim("C08", "proved", ["C08_mixture_codable"], "")
claim("C44", "proved", ["C44_speed_exact", "C44_speed_approx", "C44_speed_range_refuted"], "")
claim("C11", "proved", ["C11_crc_is_crc32c","C11_sse_is_crc32c"], "portable implementation and the variant for the CRC32 instruction (the instruction modelled after the processor manual)")
claim("C12", "proved", ["C12_crc_detects_bursts"], "")
claim("C13", "proved", ["C13_header_written", "C13_header_roundtrip"], "")
claim("C14", "proved", ["C14_header_acceptance", "C14_header_errors"], "")
claim("C15", "proved", ["C15_trailer_written", "C15_trailer_verified"], "")
claim("C09", "proved", ["C09_mux_roundtrip", "C09_mux_writer_completes"], "")
claim("C10", "proved", ["C10_demux_split_independent"], "all byte strings, valid or not")
claim("C27", "proved", ["C27_decode_any_file", "C27_end_to_end"], "any batches and buffers when compressing, any pieces and buffers when decompressing, with and without checksum verification; encode_commands/flush interface and the single-threaded decoder")
claim("C28", "proved", ["C28_streams_exist", "C28_every_schedule", "C28_same_streams", "C28_mux_bytes_refuted", "C28_mux_streams_independent"], "encode_commands/flush interface; byte-for-byte independence of the framing is refuted")
claim("C30", "proved", ["C30_final_after_flush", "C30_refused_while_closing", "C30_flush_inside_command_refused", "C30_refusal_reported_refuted", "C30_empty_batch_panics_refuted"], "with the order of the shutdown steps covered by C28_every_schedule")
claim("C16", "proved", ["C16_replay", "C16_replay_list"], "the brotli dictionary and transforms are a parameter of the model")
claim("C17", "proved", ["C17_copy_terminates", "C17_far_distance_error", "C17_window_distance_hangs_refuted", "C17_zero_distance_panics_refuted"], "findings for distance 0, window size and window size + k are proved too")
claim("C18", "proved", ["C18_last_8", "C18_order_depends_on_position_refuted"], "the original wording (fixed order) is refuted")
claim("C19", "proved", ["C19_raw_lossless", "C19_long_input_refuted"], "the unrestricted wording is refuted; proved up to the length at which the window wraps a second time")
claim("C31", "proved", ["C31_lookup_in_table", "C31_lookup_checked", "C31_lookup_injective", "C31_unlisted_kinds_alias_refuted"],
      "every lookup the coder makes stays inside its table and two different lookups of listed kinds never share a cell; two prediction-mode kinds missing from the declaration alias another cell (refuted, harmless because both sides alias alike)")
claim("C20", "proved", ["C20_copy_roundtrip"], "any reachable coder state, any options, any replay buffer that accepts the command; distances of 2^30 and more are not encodable (finding)")
claim("C21", "proved", ["C21_dict_roundtrip"], "the dictionary's word lengths are a parameter; the decoder reports the true length, not the caller's")
claim("C22", "proved", ["C22_literal_roundtrip"], "all context modes, strides, mixing settings and adaptation speeds reachable")
claim("C23", "proved", ["C23_block_switch_roundtrip"], "")
claim("C24", "proved", ["C24_prediction_mode_roundtrip"], "entries of earlier context maps beyond the new length survive (finding)")
claim("C25", "proved", ["C25_short_code_meaning", "C25_short_code_exact", "C25_cache"], "")
claim("C26", "proved", ["C26_stream_roundtrip", "C26_same_commands"], "")
claim("C35", "proved", ["C35_growable_buffer", "C35_large_minimum_refuted"], "minimum up to 33000 bytes; a larger one is not honoured (refuted)")
claim("C36", "proved", ["C36_freeze_thaw", "C36_thaw_pair"], "")
claim("C37", "proved", ["C37_blocks_conserved", "C37_request_served"], "requests below 2^32 cells (the code casts the length to u32)")
claim("C40", "proved", ["C40_set_option", "C40_options_reachable", "C40_history", "C40_started_frozen", "C40_null_refused", "C40_codes"], "the compressors behind the API are parameters; numeric options are truncated silently to their machine type (finding)")
claim("C42", "proved", ["C42_register_queue_fifo", "C42_full_pop_refuted"], "popping all eight bytes at once is refuted")
claim("C43", "proved", ["C43_nibble_coding", "C43_byte_coding", "C43_ans_bits"], "")
claim("C45", "proved", ["C45_weights_in_range", "C45_update_exact"], "")
claim("C41", "proved", ["C41_ir_optimize_preserves", "C41_ir_optimize_succeeds"], "the cost model is an arbitrary oracle")
claim("C46", "proved", ["C46_raw_file", "C46_raw_roundtrip"], "inputs below twice the window minus one; longer ones are refuted under C19")
claim("C38", "proved", ["C38_decompressing_reader", "C38_compressing_reader", "C38_reader_roundtrip", "C38_trailing_bytes_refuted", "C38_empty_buffer_refuted"], "compressing reader for inputs shorter than the window; the refuted theorems record what does not hold")
claim("C39", "proved", ["C39_compressing_writer", "C39_decompressing_writer", "C39_truncation_refuted", "C39_trailing_bytes_refuted"], "the refuted theorems record what does not hold")
claim("C33", "proved", ["C33_every_schedule", "C33_missing_commands_hang"], "valid files; C33_missing_commands_hang records the hang on a damaged file")
claim("C34", "proved", ["C34_free_after_success", "C34_free_while_worker_wants", "C34_free_mid_stream_refuted"], "the unconditional claim is refuted")
claim("C32", "proved", ["C32_hand_off", "C32_record_is_passive"], "any input, calls and schedule")
claim("C29", "proved", ["C29_any_nibbles", "C29_unguarded", "C29_total", "C29_length_refuted", "C29_speeds_refuted", "C29_distance_zero_refuted"], "the wording without exceptions is refuted; three hazards are named and excluded")
claim("C47", "proved", ["C47_success_means_intact", "C47_damage_detected"], "single-threaded decompressor; calls that panic end the session")
claim("C48", "proved", ["C48_bounds"], "single-threaded decompressor; calls that panic end the session")
claim("C49", "proved", ["C49_simd_equals_reference", "C49_double_division_exact"], "double precision modelled as correctly rounded quotients")
claim("C50", "proved", ["C50_any_history", "C50_mixed", "C50_mixed_refuted"], "mixing under a condition; the unconditional claim is refuted")
claim("C51", "proved", ["C51_c_api_roundtrip", "C51_mixing_refuted", "C51_mixing_constructor_refuted", "C51_depth_refuted"], "internal command selection, single-threaded decompressor; option values beyond the bounds are accepted and panic")
claim("C52", "proved", ["C52_any_input", "C52_guard_is_decode", "C52_no_panic_refuted"], "single-threaded decompressor; the wording without exceptions is refuted; seven dangers are named and excluded")
claim("C53", "proved", ["C53_any_schedule", "C53_damage_detected"], "any input, calls and schedule; runs up to a panic, if any")
claim("C54", "proved", ["C54_every_schedule", "C54_progress", "C54_exhausted_for_ever"], "any input, calls and schedule; the dangers of C52 and the hang on exhausted command bytes are named exceptions")
claim("C55", "proved", ["C55_decompress_tool", "C55_truncated", "C55_success_means_intact", "C55_hang_refuted"], "single-threaded; that the tool ends on input of any origin is refuted")
claim("C56", "proved", ["C56_compress_tool", "C56_interrupt_refuted"], "internal command selection; an interrupted read repeats the piece before it (refuted)")
claim("C57", "proved", ["C57_file_is_decompressed", "C57_data_is_compressed", "C57_roundtrip", "C57_magic_data_refuted"], "data with the magic number is outside the claim")
claim("C58","proved",["C58_line_is_read","C58_nothing_is_read","C58_panics_exactly_on","C58_never_panics_refuted","C58_overflow_is_reported_refuted"],"Text is ASCII; lenient spellings beyond the described format (for example a plus sign) are covered by the panic claim only. Without feature external-literal-probability.")
claim("C59","proved",["C59_text_is_compressed","C59_text_round_trip"],"One thread, commands within C20's preconditions; the source of lines does not fail (a failing read is an error at once).")
claim("C60","proved",["C60_text_is_replayed","C60_window_out_of_range","C60_errors_reported_refuted"],"A failing write while commands are replayed is a panic, not an error: the theorem allows either.")
claim("C61","proved",["C61_default_file","C61_default_round_trip","C61_optimizer_error_refuted","C61_failure_is_final_refuted","C61_writer_takes_all_refuted"],"The brotli encoder and its optimiser are parameters under a contract (good_frontend, faithful); an encoder that meets it is given and used for the concrete case.")
claim("C62","proved",["C62_default_compress","C62_default_round_trip"],"single-threaded decompression; the brotli encoder is a parameter (contract good_frontend, faithful, hungry), met by the encoder of the concrete case")
claim("C63", "proved", ["C63_two_threads", "C63_truncated", "C63_truncated_hangs_refuted", "C63_truncated_race", "C63_default_round_trip"], "an error on every truncated file is refuted: the tool can hang in free; the brotli encoder is a parameter as in C61")
claim("C64","proved",["C64_default_round_trip","C64_two_threads","C64_code_one_refuted","C64_free_mid_stream_refuted"],"brotli's encoder is a parameter with the contract of C61; the two refutations are findings: code 1 with input left, and divans_free_decompressor in mid-stream")
claim("C65","proved",["C65_default_reader","C65_default_reader_round_trip","C65_default_writer","C65_premature_end_refuted"],"The positive theorems hold for greedy encoders (each PROCESS call consumes its input); without greed the early end is refuted by an encoder that keeps the contract. Brotli's encoder is a parameter.")
claim("C66","proved",["C66_optimised_file","C66_optimised_round_trip"],"Brotli's encoder and the optimiser's cost model are parameters. A failing optimiser is C61_optimizer_error_refuted.")
claim("C67","proved",["C67_accepts_exactly","C67_ignores_exactly","C67_the_rest_is_an_error","C67_counts_and_quotes"],"ASCII text.")
claim("C68","proved",["C68_reader","C68_reader_damage","C68_c_api","C68_c_api_two_threads","C68_two_thread_tool","C68_no_header","C68_false_end_refuted","C68_stall_refuted"],"The tool with one thread is C55_success_means_intact. The two refutations show that the exception of the reader is needed; both are findings.")
claim("C69","proved",["C69_two_thread_reader","C69_two_thread_writer","C69_trailing_bytes_refuted"],"both adapters over the two-thread decompressor, every fair schedule; trailing bytes hang the reader")
claim("C70", "proved", ["C70_cache_follows_codec", "C70_new_codec", "C70_forecast_serves", "C70_release_build", "C70_checked_build", "C70_no_panic_refuted"],
      "Distance cache of src/ir_optimize/cache.rs and its use in should_merge. C70_release_build carries C41 over; C70_no_panic_refuted is a finding about builds with overflow checks.")
claim("C71","proved",["C71_success_is_final","C71_success_answers","C71_bad_header_is_forgotten","C71_failure_is_final_refuted"],"Single-threaded decompressor. Failures inside the command stream are modelled without the adaptation of the last probability table, so what follows them is claimed only as far as the first two theorems go, which do not depend on the tables.")
claim("C72","proved",["C72_every_free_matches","C72_own_memory","C72_one_heap","C72_all_returned","C72_request_covers","C72_only_alloc_refuted","C72_only_free_refuted","C72_zero_length_refuted","C72_size_wraps_refuted"],"Ranges over every list of allocations and frees a library with owned cells could make; that the library frees each cell in a given run is an assumption of C72_all_returned, not derived. Builds with the standard library, without overflow checks for the size product.")
claim("C73","proved",["C73_as_said","C73_after_dashes","C73_help","C73_third_name","C73_repetitions_need_names","C73_number_out_of_range","C73_unknown_option_refuted","C73_recode_alone_refuted","C73_lgwin_refuted","C73_wrap_refuted","C73_O0_refuted","C73_empty_name_refuted"],"Arguments are lists of bytes (ASCII); names begin with something other than a dash; the run that follows is a plan, whose jobs are the subject of C55-C63.")
claim("C74","proved",["C74_round_trip","C74_every_decompressing_line","C74_refused_line","C74_mixing_refuted","C74_depth_refuted","C74_skipcrc_alone_refuted"],"brotli's encoder is a parameter with the hypotheses of C61/C62 (sound_encoder), met by store (Lemma store_sound); the -skipcrc refutation uses smaller context arrays")
claim("C75","proved",["C75_text_lines_agree","C75_text_round_trip","C75_far_window_not_replayed","C75_every_line_runs","C75_refused_line","C75_wrong_size_refuted"],"the dictionary and its table of sizes are parameters that agree (sizes_agree); commands that can be coded and replayed (sayable)")
claim("C76","proved",["C76_api_settings_heard","C76_line_settings_heard","C76_line_by_api","C76_beyond_palette_refuted","C76_bitstream_refuted"],"what brotli's encoder does with a parameter is outside the model; documented values (valid_option of C40) of 32 bits; command lines as in C73")
claim("C77","proved",["C77_vector","C77_program","C77_program_internal","C77_line","C77_line_refuted","C77_as_refuted","C77_cm_refuted","C77_refused_option","C77_numbers","C77_checks","C77_damage"],"the encoder keeps brotli's contract as in C61 and C64 and makes progress; compressed files up to 2^63 bytes, streams up to 2^60 with -l; 64-bit size_t; reading the file and writing the line are not modelled")
claim("C78","proved",["C78_blocks","C78_calls","C78_all_returned","C78_buffer_runs_out","C78_freed_at_once","C78_past_the_end_refuted","C78_wraps_refuted","C78_null_refuted"],"malloc is any function that hands out memory not in use; sizes below 2^64 - 52; one thread at a time; the program asks no more of the static buffer than there is (nothing checks it)")
claim("C79","proved",["C79_near_ideal","C79_certain_is_cheap","C79_files"],"lengths compared as powers of two, so no real logarithms; probabilities are the 15 bit intervals handed to the coder; nothing is claimed about how well the adaptive model predicts")
claim("C80","proved",["C80_fresh","C80_update","C80_learns","C80_runs_are_cheap"],"the frequency counting distributions (the SIMD and table driven ones agree with it, C06 and C49); one distribution at a time, increments at most 5444")
claim("C81","proved",["C81_tally","C81_codec","C81_estimate","C81_logarithms","C81_bits_refuted","C81_billing","C81_billed_and_coded","C81_speeds"],"floating point sums are exact sums in a fixed unit and the logarithm is a parameter; printing the bill is not modelled; the tallying of single bits is refuted")
claim("C82","proved",["C82_command","C82_streams","C82_file","C82_raw"],"the factor 4 for the framing is that of one payload byte per frame, which the relation is_file allows; two bytes per nibble is the worst probability an interval can have")
claim("C83","proved",["C83_command","C83_streams","C83_reader","C83_unambiguous"],"the nibble values and their order, and that no spelling begins another; with which distribution each is coded is left to the model of the priors. The 7 bit codes of speeds are those of the speed model")
claim("C84","proved",["C84_answers","C84_roundtrip","C84_notices_refuted","C84_full_drain_refuted"],"the two refuted theorems show what the statement excludes: probabilities out of step by the lowest digit, and draining eight bytes at once")
claim("C85","proved",["C85_tables_generated","C85_small_division","C85_signed_refuted"],"entries and checks; the layout of the printed text is not modelled")
claim("C86","proved",["C86_writer","C86_reader","C86_unambiguous","C86_file"],"the two streams as lists of bytes; header and trailer of the file are C13 to C15")
