{
 "claims": [
  {
   "property": "C01",
   "status": "proved",
   "theorems": [
    "c01_header_roundtrip"
   ],
   "note": "layout byte by byte and parse-back"
  },
  {
   "property": "C02",
   "status": "proved",
   "theorems": [
    "c02_header_parser_exact",
    "c02_header_parser_injective"
   ],
   "note": ""
  },
  {
   "property": "C03",
   "status": "proved",
   "theorems": [
    "c03_crc_is_polynomial_remainder",
    "c03_table_entries",
    "c03_block_crc"
   ],
   "note": "remainder characterised over GF(2)[x] and unique"
  },
  {
   "property": "C04",
   "status": "proved",
   "theorems": [
    "c04_burst_detected",
    "c04_odd_flips_detected",
    "c04_crc_field_change_detected"
   ],
   "note": "bursts lie wholly after the CRC field or wholly inside it"
  },
  {
   "property": "C05",
   "status": "proved",
   "theorems": [
    "c05_multihash_roundtrip",
    "c05_multihash_sound"
   ],
   "note": ""
  },
  {
   "property": "C06",
   "status": "proved",
   "theorems": [
    "c06_metadata_roundtrip"
   ],
   "note": ""
  },
  {
   "property": "C07",
   "status": "partial",
   "theorems": [
    "c07_accepted_metadata_reads_back_refuted",
    "c07_name_length_multiple_of_256_loses_all",
    "c07_accepted_metadata_reads_back_partial",
    "c07_reads_back_iff"
   ],
   "note": "full statement is false of the code (finding F1); c07_reads_back_iff says exactly when accepted metadata reads back: every name has 1..255 bytes and the shard counts are usable"
  },
  {
   "property": "C08",
   "status": "proved",
   "theorems": [
    "c08_parser_sanitises",
    "c08_lookup_is_first",
    "c08_names_are_utf8",
    "c08_utf8_test_exact"
   ],
   "note": ""
  },
  {
   "property": "C09",
   "status": "proved",
   "theorems": [
    "c09_block_roundtrip",
    "c09_block_write_succeeds",
    "c09_history_independence",
    "c09_acceptance"
   ],
   "note": ""
  },
  {
   "property": "C10",
   "status": "proved",
   "theorems": [
    "c10_no_two_blocks_overlap",
    "c10_data_and_metadata_do_not_overlap",
    "c10_metadata_positions"
   ],
   "note": ""
  },
  {
   "property": "C11",
   "status": "proved",
   "theorems": [
    "c11_seq_num_at_index_is_inverse",
    "c11_zero_only_at_metadata"
   ],
   "note": "inverse for sequence numbers representable in u32; coverage for every index"
  },
  {
   "property": "C12",
   "status": "proved",
   "theorems": [
    "c12_burst_hits_one_block_of_a_set",
    "c12_every_set_keeps_enough_blocks",
    "c12_some_metadata_survives"
   ],
   "note": ""
  },
  {
   "property": "C13",
   "status": "proved",
   "theorems": [
    "c13_chunk_goes_to_its_rank",
    "c13_no_parity_chunk_position",
    "c13_chunks_tile_the_file"
   ],
   "note": ""
  },
  {
   "property": "C14",
   "status": "proved",
   "theorems": [
    "c14_independent_of_cpus"
   ],
   "note": "whole outcome of encode_file is equal for any two CPU counts (lots per buffer); the pipeline threads are modelled as one loop, their interleaving is C33"
  },
  {
   "property": "C15",
   "status": "partial",
   "theorems": [
    "c15_container_size_partial",
    "c15_container_size",
    "c15_end_unique",
    "c15_container_size_refuted"
   ],
   "note": "exact whenever a size is returned; panics characterised; full statement false for huge burst levels and for u32::MAX blocks (finding F2)"
  },
  {
   "property": "C16",
   "status": "proved",
   "theorems": [
    "c16_roundtrip",
    "c16_roundtrip_no_metadata",
    "c16_empty_large_burst",
    "c16_large_burst_refuted"
   ],
   "note": "encode_file followed by decode_file to a file; a burst level above 1000 must be told to the decoder if the file is empty (c16_empty_large_burst), and only then"
  },
  {
   "property": "C17",
   "status": "proved",
   "theorems": [
    "c17_decoded_file",
    "c17_decode_statistics",
    "c17_same_blocks_same_file",
    "c17_shuffled_container"
   ],
   "note": "output file characterised byte by byte for arbitrary input files"
  },
  {
   "property": "C18",
   "status": "proved",
   "theorems": [
    "c18_survivors",
    "c18_damaged_container"
   ],
   "note": ""
  },
  {
   "property": "C19",
   "status": "proved",
   "theorems": [
    "c19_reference_block"
   ],
   "note": ""
  },
  {
   "property": "C20",
   "status": "proved",
   "theorems": [
    "c20_repair_restores",
    "c20_restored_is_identical",
    "c20_bursts"
   ],
   "note": "for every Reed-Solomon implementation meeting recon_ok (S_Repair.v); gaps between blocks of a burst layout are left as they are, so byte identity is for damage outside the gaps; the reference block must be found (always if the first block is spared)"
  },
  {
   "property": "C21",
   "status": "proved",
   "theorems": [
    "c21_repair_does_no_harm",
    "c21_dry_run_writes_nothing",
    "c21_counters",
    "c21_repair_twice",
    "c21_metadata_all_repaired_refuted"
   ],
   "note": "for arbitrary files; a block of the container with the wrong number at a metadata place is taken for good (finding F10)"
  },
  {
   "property": "C22",
   "status": "proved",
   "theorems": [
    "c22_sorted_file",
    "c22_sort_ends",
    "c22_sort_statistics",
    "c22_sort_metadata_statistics",
    "c22_sort_rebuilds",
    "c22_metadata_order_refuted"
   ],
   "note": "output characterised block by block for arbitrary input files; a shuffled container is rebuilt byte for byte; the metadata order counter is off when reading from a later block on (finding F9)"
  },
  {
   "property": "C23",
   "status": "partial",
   "theorems": [
    "c23_decode_skip_good",
    "c23_sort_skip_good_partial",
    "c23_sort_skip_good_refuted"
   ],
   "note": "decoding: full. Sorting: false for data and parity blocks within the last 4096 bytes of the output (finding F8), true for all others"
  },
  {
   "property": "C24",
   "status": "proved",
   "theorems": [
    "c24_all_or_nothing",
    "c24_dry_run",
    "c24_updated",
    "c24_succeeds_iff",
    "c24_intact_container",
    "c24_decodes_as_before",
    "c24_no_panic",
    "c24_any_name_refuted"
   ],
   "note": "for arbitrary files and any interruption between two block writes; the fields requested read back for names of 1 to 255 bytes, names the format cannot hold are accepted and make the container undecodable (finding F16)"
  },
  {
   "property": "C25",
   "status": "proved",
   "theorems": [
    "c25_rescue",
    "c25_output_unique",
    "c25_read_error_refuted"
   ],
   "note": "for arbitrary files, filters, ranges, buffer sizes, hash map iteration orders and stop signals; after a read error a block that was never read is written (finding F19)"
  },
  {
   "property": "C26",
   "status": "proved",
   "theorems": [
    "c26_log_roundtrip",
    "c26_cut_log_refused",
    "c26_log_never_ahead",
    "c26_resumed_run_completes",
    "c26_finished_run",
    "c26_resume_always_possible_refuted"
   ],
   "note": "any number of runs cut off at any byte written to the output or the log; a log cut off is refused rather than misread (finding F20). Loss of data already handed to the operating system is not modelled"
  },
  {
   "property": "C27",
   "status": "partial",
   "theorems": [
    "c27_decode_ends",
    "c22_sort_ends",
    "c37_ends",
    "c27_rescue_ends",
    "c27_rescue_empty_refuted"
   ],
   "note": "decoding, sorting, checking; rescuing a file that is not empty; rescue of an empty file runs for ever (finding F18)"
  },
  {
   "property": "C28",
   "status": "partial",
   "theorems": [
    "c28_hidden_block_refuted",
    "c28_scan_finds_partial",
    "c28_scan_finds_iff"
   ],
   "note": "full statement false (finding F5); c28_scan_finds_iff says exactly which blocks are seen"
  },
  {
   "property": "C29",
   "status": "proved",
   "theorems": [
    "c29_guess_minimises",
    "c29_guess_intact"
   ],
   "note": ""
  },
  {
   "property": "C30",
   "status": "proved",
   "theorems": [
    "c30_most_suggested",
    "c30_excerpt"
   ],
   "note": "for every hash map iteration order"
  },
  {
   "property": "C31",
   "status": "partial",
   "theorems": [
    "c31_exclusive_zero_refuted",
    "c31_byte_range_partial",
    "c31_exclusive_zero"
   ],
   "note": "full statement false for an exclusive end of 0 (finding F6), which is the same as no end (c31_exclusive_zero); everything else is proved"
  },
  {
   "property": "C32",
   "status": "proved",
   "theorems": [
    "c32_hex_roundtrip",
    "c32_hex_distinct",
    "c32_hex_parse"
   ],
   "note": ""
  },
  {
   "property": "C33",
   "status": "proved",
   "theorems": [
    "c33_threads_end",
    "c33_same_as_one_by_one",
    "c33_two_threads",
    "c33_encode",
    "c33_stdout",
    "c33_sort",
    "c33_rescue",
    "c33_no_panic_same",
    "c33_panic_not_success",
    "c33_panic_may_hang_refuted",
    "c33_sort_torn_buffer_panics"
   ],
   "note": "every schedule of the ring of threads ends and ends as one buffer after the other does, errors included; a thread that panics may leave the others waiting for ever (finding F21) but is never taken for success"
  },
  {
   "property": "C34",
   "status": "proved",
   "theorems": [
    "c34_size_limit_is_exact",
    "c34_limit_defined",
    "c34_last_data_seq_num",
    "c34_positions_fit_u64"
   ],
   "note": "positions fit for burst levels below 2^32"
  },
  {
   "property": "C35",
   "status": "partial",
   "theorems": [
    "c35_stdin_complete_refuted",
    "c35_stdin_complete_partial",
    "c35_stdin_complete_iff",
    "c38_encoded_stdin"
   ],
   "note": "full statement false (finding F3: at most 5 OS reads per payload); true for pieces of at least a quarter payload; c35_stdin_complete_iff says exactly when everything is encoded: if and only if every payload is made of parts of at most five pieces"
  },
  {
   "property": "C36",
   "status": "partial",
   "theorems": [
    "c36_range_refuted",
    "c36_range_partial",
    "c36_range_exact_iff"
   ],
   "note": "full statement false (finding F4: reads whole payloads past the requested end); what is stored instead is given byte by byte, and c36_range_exact_iff says exactly when it is the range"
  },
  {
   "property": "C37",
   "status": "proved",
   "theorems": [
    "c37_every_block_counted",
    "c37_no_failure_iff",
    "c37_verdict",
    "c37_intact_container",
    "c37_ends",
    "c37_messages_partial",
    "c37_messages_refuted"
   ],
   "note": "counts, failures and the verdict on the stored hash for arbitrary files; the positions listed in verbose mode are wrong or missing (finding F17)"
  },
  {
   "property": "C38",
   "status": "proved",
   "theorems": [
    "c38_encoded_container_is_the_file",
    "c38_encoded_stdin",
    "c38_too_large_refused",
    "c38_metadata_too_big_refused"
   ],
   "note": "for every digest function; the container as a whole is characterised byte by byte"
  },
  {
   "property": "C39",
   "status": "proved",
   "theorems": [
    "c39_container_hash",
    "c39_data_unique",
    "c39_missing_data",
    "c39_intact_container",
    "c39_empty_file_refuted"
   ],
   "note": "for every hash function and recorded size; empty files: finding F11"
  },
  {
   "property": "C40",
   "status": "partial",
   "theorems": [
    "c40_stdout_burst",
    "c40_stdout_sequential",
    "c40_roundtrip",
    "c40_roundtrip_no_metadata",
    "c40_endless_refuted",
    "c40_range_refuted",
    "c40_padding_refuted",
    "c40_trailing_refuted"
   ],
   "note": "whole containers: proved for both read patterns, also damaged ones; false for ranges of burst-resistant containers and empty Reed-Solomon containers (findings F12-F15)"
  },
  {
   "property": "C41",
   "status": "partial",
   "theorems": [
    "c41_field_iff",
    "c41_field_partial",
    "c41_values_refuted"
   ],
   "note": "false of the code for some values (finding F22); c41_field_iff says exactly for which values the JSON text stands for the value: ASCII without control characters and backslashes, no spaces at the ends, not null, true, false or a numeral by itself unless quotes are forced"
  },
  {
   "property": "C42",
   "status": "proved",
   "theorems": [
    "c42_nested_calls_print_json",
    "c42_error_exit",
    "c42_error_in_group_refuted"
   ],
   "note": "every properly nested sequence of calls prints a text of the JSON grammar standing for exactly the values given; commands that fail inside a nested group do not make such a sequence (finding F23)"
  },
  {
   "property": "C43",
   "status": "proved",
   "theorems": [
    "c43_hex_texts",
    "c43_blocks_exist",
    "c43_show_blocks",
    "c43_show_guess",
    "c43_show_guess_fails",
    "c43_show_guess_error",
    "c43_read_error_refuted",
    "c43_names_refuted"
   ],
   "note": "with the names as in C41 and no read errors; otherwise findings F22, F23; F24 on the position of the reference block"
  },
  {
   "property": "C44",
   "status": "proved",
   "theorems": [
    "c44_any_d_shards",
    "c44_codec",
    "c44_distance",
    "c44_encode_damage_repair_decode"
   ],
   "note": "the library is external: what is proved is about the code it documents (GF(2^8) with polynomial 0x11D, evaluation at 0..d+p-1), computed by interpolation; agrees with the test vector the library ships"
  },
  {
   "property": "C45",
   "status": "partial",
   "theorems": [
    "c45_writer_success",
    "c45_reader_success",
    "c45_buffering_invisible",
    "c45_reader_buffering_invisible",
    "c45_blocks_whole",
    "c45_blocks_buffered",
    "c45_rescue_group",
    "c45_short_write_refuted",
    "c45_close_refuted",
    "c45_sort_close_refuted"
   ],
   "note": "the handles are proved correct for all operations and answers of the system; the commands do not look at the length written nor at errors on closing (findings F25, F26)"
  },
  {
   "property": "C46",
   "status": "partial",
   "theorems": [
    "c46_encode",
    "c46_sort",
    "c46_repair",
    "c46_update",
    "c46_ask",
    "c46_encode_keeps",
    "c46_decode_keeps",
    "c46_sort_keeps",
    "c46_encode_success",
    "c46_decode_success",
    "c46_sort_success",
    "c46_decode_input_refuted"
   ],
   "note": "proved as stated; with --force decode may destroy its own input (finding F27)"
  },
  {
   "property": "C47",
   "status": "proved",
   "theorems": [
    "c47_decode_stays_inside",
    "c47_file_name",
    "c47_file_name_unique"
   ],
   "note": "for a file system without symbolic links"
  },
  {
   "property": "C48",
   "status": "proved",
   "theorems": [
    "c48_number",
    "c48_encode_options",
    "c48_encode_parameters",
    "c48_encode_invalid",
    "c48_decode_options",
    "c48_decode_invalid"
   ],
   "note": "equivalences"
  },
  {
   "property": "C49",
   "status": "proved",
   "theorems": [
    "c49_encode_decode",
    "c49_encode_succeeds",
    "c49_encode_decode_stdout",
    "c49_encode_damage_repair"
   ],
   "note": "command level; whole files with metadata; empty files with error correction to standard output excepted (C40)"
  },
  {
   "property": "C50",
   "status": "proved",
   "theorems": [
    "c50_options",
    "c50_predicts_encode",
    "c50_predicts_encode_command",
    "c50_json",
    "c50_tolerance",
    "c50_longest_burst",
    "c50_too_large_refuted"
   ],
   "note": "for what encode accepts with burst levels whose super block set has less than 2^32 blocks; sizes encode refuses are not refused (finding F28)"
  },
  {
   "property": "C51",
   "status": "proved",
   "theorems": [
    "c51_disk",
    "c51_kept_unique"
   ],
   "note": "the disk is given as its pieces: blocks, and 128 byte units that do not start with a readable header"
  },
  {
   "property": "C52",
   "status": "proved",
   "theorems": [
    "c52_lost_file_system",
    "c52_without_burst_refuted"
   ],
   "note": "containers with a metadata block; the rescue starts with no file of this UID; that decode may refuse without the burst level is finding F29"
  },
  {
   "property": "C53",
   "status": "proved",
   "theorems": [
    "c53_lost_blocks"
   ],
   "note": "the Reed-Solomon code is the one of M_Codec, not an assumption"
  },
  {
   "property": "C54",
   "status": "proved",
   "theorems": [
    "c54_refused",
    "c54_only_grows",
    "c54_exit0",
    "c54_rescue",
    "c54_succeeds",
    "c54_resumed",
    "c54_cut_log",
    "c54_log_written_refuted"
   ],
   "note": "for a file system without links; writes succeed completely (otherwise C45); finding F30: a log that cannot be written may go unnoticed"
  },
  {
   "property": "C55",
   "status": "proved",
   "theorems": [
    "c55_lost_file_system",
    "c55_lost_blocks"
   ],
   "note": "whole files with metadata; rescue with no earlier log and no file of this UID in its directory"
  },
  {
   "property": "C56",
   "status": "proved",
   "theorems": [
    "c56_history"
   ],
   "note": "whole files with metadata, non-empty; the first block is spared by the damage; the update options are ones the format can hold (F16)"
  },
  {
   "property": "C57",
   "status": "proved",
   "theorems": [
    "c57_interrupted_update",
    "c57_torn_block_refuted"
   ],
   "note": "blocks written completely or not at all; c57_torn_block_refuted shows that this is needed: a version without error correction has one metadata block, and half of it written costs the size and the way to run update again (F31)"
  },
  {
   "property": "C58",
   "status": "proved",
   "theorems": [
    "c58_cut_is_mixture",
    "c58_interrupted_repair"
   ],
   "note": "a torn block that is by accident another valid block of the container is excluded, as is such damage in C20"
  },
  {
   "property": "C59",
   "status": "proved",
   "theorems": [
    "c59_clock",
    "c59_check",
    "c59_check_error",
    "c59_repair",
    "c59_sort",
    "c59_decode",
    "c59_decode_to_file",
    "c59_encode",
    "c59_encode_error",
    "c59_exit_code_refuted",
    "c59_repair_error",
    "c59_sort_error",
    "c59_decode_error"
   ],
   "note": "repair without --verbose (with it: C66); durations are not negative; finding F32: the exit code is 0 even if blocks failed, were lost or could not be repaired"
  },
  {
   "property": "C60",
   "status": "proved",
   "theorems": [
    "c60_encode",
    "c60_decode",
    "c60_sort",
    "c60_refused"
   ],
   "note": "without --multi-pass (which keeps what is there on purpose, C22, C31); the second run sees the same clock, random identifier and standard input"
  },
  {
   "property": "C61",
   "status": "proved",
   "theorems": [
    "c61_changes_nothing",
    "c61_predicts",
    "c61_json",
    "c61_refused",
    "c61_range_refuted",
    "c61_stdin_json_refuted"
   ],
   "note": "whole file, without --force; with --from-pos and the like the length told is that of the whole file (F33, c61_range_refuted); for standard input the text printed with --json is not JSON (F23, c61_stdin_json_refuted)"
  },
  {
   "property": "C62",
   "status": "proved",
   "theorems": [
    "c62_check_options",
    "c62_show_options",
    "c62_check",
    "c62_show"
   ],
   "note": "check without --verbose and for content that is not empty (F11); show without --show-all and --guess-burst, for names that need no escaping (F22)"
  },
  {
   "property": "C63",
   "status": "proved",
   "theorems": [
    "c63_approved_decodes",
    "c63_doubled_refuted"
   ],
   "note": "for a recorded size that is not 0 and can be numbered; without the proviso on repeated numbers false (F34, c63_doubled_refuted); without --multi-pass and options for parts of the file"
  },
  {
   "property": "C64",
   "status": "proved",
   "theorems": [
    "c64_always_ends",
    "c64_nobody_stuck",
    "c64_bounded",
    "c64_reports",
    "c64_end_told",
    "c64_no_underflow",
    "c64_pause",
    "c64_percent",
    "c64_next_report",
    "c64_paused_or_not",
    "c64_json_only",
    "c64_pause_refuted"
   ],
   "note": "without the lock of the counters pause does not keep reports out (F35, c64_pause_refuted): show; rates, times and the texts of the reports are not modelled; atomic flags are sequentially consistent, as in the code (SeqCst)"
  },
  {
   "property": "C65",
   "status": "proved",
   "theorems": [
    "c65_log_true",
    "c65_always_ends",
    "c65_newest",
    "c65_newest_refuted"
   ],
   "note": "the log may be out of date at a regular end (F36, c65_newest_refuted)"
  },
  {
   "property": "C66",
   "status": "proved",
   "theorems": [
    "c66_repairs_listed",
    "c66_lists_unique",
    "c66_lists_and_numbers",
    "c66_verbose_changes_nothing",
    "c66_repair_verbose"
   ],
   "note": "a dry run on any file, a real run on a file of whole blocks, as C21; the level of burst resistance is below 2^32 in c66_repair_verbose, so that all positions are numbers of 64 bits; the text without --json is not modelled"
  },
  {
   "property": "C67",
   "status": "partial",
   "theorems": [
    "c67_guess",
    "c67_repair_without_burst",
    "c67_guess_large",
    "c67_repair_large",
    "c67_guess_iff",
    "c67_window",
    "c67_window_refuted",
    "c67_one_data_shard_refuted",
    "c67_wrong_burst_refuted"
   ],
   "note": "false of the code for high levels (F46, c67_window_refuted) and for small files with one data shard (F37). Proved for any file and at least 2 data shards if (parity shards + 1) * level <= 1000, and for any shard counts if the data fill the first sets, as many as the level, and (parity + 1) * level <= parity + 1001; c67_guess_iff says that this is the limit. c67_wrong_burst_refuted (F38) shows why it matters: with a wrong level repair destroys an intact container"
  },
  {
   "property": "C68",
   "status": "proved",
   "theorems": [
    "c68_verbose_changes_nothing",
    "c68_changes_listed",
    "c68_dry_run_foretells",
    "c68_update_json",
    "c68_update_error",
    "c68_null_refuted"
   ],
   "note": "that the printed list determines the changes is false of the code for names that read like null, numbers or booleans (finding F39, c68_null_refuted); c68_update_json is for names that print as they are"
  },
  {
   "property": "C69",
   "status": "proved",
   "theorems": [
    "c69_copies",
    "c69_sort_again"
   ],
   "note": "damaged copies: every readable block of the container version and identifier is one of the original blocks (no forged ones), and the first metadata block found is too; for sort with --multi-pass the exact effect is skip_result (finding F8)"
  },
  {
   "property": "C70",
   "status": "proved",
   "theorems": [
    "c70_show",
    "c70_check"
   ],
   "note": "show is for names that print as they are (plain_name); histories as in C56"
  },
  {
   "property": "C71",
   "status": "proved",
   "theorems": [
    "c71_show_all"
   ],
   "note": "for names that print as they are (plain_name); histories as in C56"
  },
  {
   "property": "C72",
   "status": "partial",
   "theorems": [
    "c72_reads_are_true",
    "c72_read_exact",
    "c72_large_pieces_complete_partial",
    "c72_small_pieces_refuted"
   ],
   "note": "the last part is false (F40): after five pieces the end is reported wherever the file is; c72_read_exact says exactly when. The rest is proved in full. Seeks that fail and files changed meanwhile are not modelled."
  },
  {
   "property": "C73",
   "status": "partial",
   "theorems": [
    "c73_not_stopped",
    "c73_encode_stopped",
    "c73_encode_stdin_stopped",
    "c73_part_decodes",
    "c73_part_approved",
    "c73_decode_stopped",
    "c73_check_stopped",
    "c73_hash_stopped",
    "c73_intact_hash_stopped",
    "c73_show_stopped",
    "c73_encode_refuted",
    "c73_check_refuted",
    "c73_sort_not_stopped",
    "c73_sort_stopped",
    "c73_sort_stopped_succeeds",
    "c73_sort_resumed",
    "c73_sort_resumed_rebuilds",
    "c73_stdout_not_stopped",
    "c73_stdout_stopped",
    "c73_stdout_stopped_sequential",
    "c73_stdout_refuted",
    "c73_search_not_stopped",
    "c73_search_stopped",
    "c73_search_outcome",
    "c73_search_show_refuted",
    "c73_search_other_refuted",
    "c73_repair_not_stopped",
    "c73_repair_cmd_not_stopped",
    "c73_repair_stopped",
    "c73_repair_exact",
    "c73_repair_resumed",
    "c73_repair_refuted"
   ],
   "note": "the first part is proved; the second is false (F41, F42, F44, F45, F47). A stopped update: C24, rescue: C54"
  },
  {
   "property": "C74",
   "status": "proved",
   "theorems": [
    "c74_sort_keeps_content",
    "c74_sort_then_decode",
    "c74_sort_again"
   ],
   "note": "For arbitrary input files: blocks missing, damaged, repeated with different content. The burst level must be told for the sorted file where the version has one (it may be guessed differently from a file with gaps), the sorted file is read whole, and for the two theorems that say decoding or sorting the sorted file succeeds, the first metadata block read must be one that records what the reference block does."
  },
  {
   "property": "C75",
   "status": "proved",
   "theorems": [
    "c75_check_any",
    "c75_check_outcome",
    "c75_show_any",
    "c75_show_guess_any",
    "c75_exit"
   ],
   "note": "With --json, as in C62. check with --hash or --hash-only is stated in terms of the outcome C36 and C37 describe (c75_check_outcome). The counts do not influence the exit code: a container with broken blocks is reported with exit code 0. The positions listed with --verbose are those of C37 (F17)."
  },
  {
   "property": "C76",
   "status": "partial",
   "theorems": [
    "c76_stdout_partial",
    "c76_verbose_refuted",
    "c76_stdout_exact",
    "c76_encode_decode_pipe",
    "c76_report_on_stdout"
   ],
   "note": "proved unless --verbose is given without --json; then it is false (finding F43): a line about the reference block comes before the content, c76_verbose_refuted. c76_stdout_exact says what arrives in all cases. Only the channel of each text is modelled, not the texts; interruption with Ctrl-C is not."
  }
 ]
}