{"id": "C01", "title": "Block header serialisation round-trips", "statement": "Writing a block header (version, CRC, 6-byte file UID, 32-bit sequence number) and parsing the 16 bytes back yields exactly the same header, and the bytes follow the published layout: 'SBx', version byte, big-endian CRC, UID, big-endian sequence number.", "quantifier": "every version, every 16-bit CRC, every UID, every 32-bit sequence number", "why_tests_cant": "2^96 headers; tests sample a few", "anchors": ["src/sbx_block/header.rs: Header::to_bytes, Header::from_bytes, header_p"]}
{"id": "C02", "title": "Header parser accepts exactly the well-formed headers", "statement": "Parsing succeeds iff the buffer is 16 bytes, starts with the signature and a known version byte; whenever it succeeds, re-serialising the result reproduces the input bytes, so no two byte strings are confused.", "quantifier": "every byte string of any length", "why_tests_cant": "needs all byte strings, including all corrupt ones", "anchors": ["src/sbx_block/header.rs: header_p, ver_p"]}
{"id": "C03", "title": "Table-driven CRC equals the CRC-CCITT polynomial definition", "statement": "The table computed at build time and the byte loop compute the bit-serial CRC with generator x^16+x^12+x^5+1 from the given start value.", "quantifier": "every start value and every byte string", "why_tests_cant": "unbounded messages; a single wrong table entry can escape samples", "anchors": ["build.rs: make_crcccitt_tab", "src/crc_ccitt.rs: crc_ccitt_generic", "src/sbx_block/crc.rs"]}
{"id": "C04", "title": "Block check value detects every short burst and every odd number of bit flips", "statement": "If a valid block is changed only inside its UID, sequence number and payload, by an error burst of at most 16 consecutive bits, or by any odd number of bit flips, the block is rejected on reading.", "quantifier": "every valid block, every burst position and pattern up to 16 bits, every odd-weight error pattern", "why_tests_cant": "error patterns are exponential in the block size", "anchors": ["src/sbx_block/mod.rs: calc_crc, verify_crc, sync_from_buffer", "src/crc_ccitt.rs"]}
{"id": "C05", "title": "Multihash encoding round-trips", "statement": "Every hash value stored in metadata parses back to the same hash function and digest (up to the documented aliases SHA2-256 = SHA256 and SHA2-512-512 = SHA512), and the parser only accepts the published identifiers with the right digest length.", "quantifier": "every supported hash type, every digest, every trailing bytes", "why_tests_cant": "256-bit and larger digests; trailing input arbitrary", "anchors": ["src/multihash.rs: hash_bytes_to_bytes, multihash_w_len_p, specs::Param"]}
{"id": "C06", "title": "Metadata list round-trips whenever it is accepted and its strings are 1..255 bytes", "statement": "Serialising a list of metadata fields into a block payload succeeds iff the fields fit, pads with 0x1A, and parsing the payload gives back the same fields in the same order.", "quantifier": "every list of metadata fields and every block size", "why_tests_cant": "unbounded lists and contents", "anchors": ["src/sbx_block/metadata.rs: to_bytes, single_to_bytes, from_bytes, meta_p"]}
{"id": "C07", "title": "Metadata with an empty or over-long name is not silently lost", "statement": "Whatever metadata the encoder accepts can be read back. (False of the code: names longer than 255 bytes have their length byte truncated, empty names stop the parser; all later fields disappear.)", "quantifier": "every metadata list accepted by the serialiser", "why_tests_cant": "needs all lengths; tests use short names", "anchors": ["src/sbx_block/metadata.rs: single_to_bytes, make_meta_parser"]}
{"id": "C08", "title": "Metadata parser is total and sanitises untrusted input", "statement": "From any payload bytes the parser returns a list in which every name is valid UTF-8, every RS shard count is at least 1, and the first data and parity counts add up to at most 256; lookups return the first occurrence of a field.", "quantifier": "every payload byte string", "why_tests_cant": "arbitrary attacker-controlled or damaged bytes", "anchors": ["src/sbx_block/metadata.rs: filter_invalid_metadata, from_bytes, get_meta_ref_by_id"]}
{"id": "C09", "title": "Block write/read round trip and history independence", "statement": "A block synced to a buffer and read back by any reader gives the same version, UID, sequence number, type and metadata; whether a buffer is accepted, and what block it yields, depends only on the buffer and the predicate, never on what the Block object held before.", "quantifier": "every block, every payload, every prior state of the Block object", "why_tests_cant": "state times buffer space is infinite", "anchors": ["src/sbx_block/mod.rs: Block::sync_to_buffer, Block::sync_from_buffer, switch_block_type"]}
{"id": "C10", "title": "Block placement is collision-free", "statement": "Two different blocks of a container are never given the same position: positions of data/parity blocks are pairwise distinct and disjoint from all metadata copies.", "quantifier": "every version, data/parity shard count, burst level, and all pairs of sequence numbers", "why_tests_cant": "four unbounded parameters", "anchors": ["src/sbx_block/mod.rs: calc_data_block_write_index, calc_data_block_write_pos, calc_meta_block_all_write_pos_s"]}
{"id": "C11", "title": "Position-to-sequence-number is the exact inverse of placement", "statement": "For every container layout, asking which sequence number belongs at a block index returns the number placed there, returns 0 exactly on metadata positions, and every index is covered.", "quantifier": "every version, shard counts, burst level, every index and sequence number", "why_tests_cant": "four unbounded parameters", "anchors": ["src/sbx_block/mod.rs: calc_seq_num_at_index"]}
{"id": "C12", "title": "Interleaving delivers the advertised burst error resistance", "statement": "Any run of at most B consecutive block positions contains at most one block of each Reed-Solomon set and at most one metadata copy; hence up to N such bursts anywhere leave at least M blocks of every set and at least one metadata block.", "quantifier": "every M, N, B, every set of bursts", "why_tests_cant": "combinatorial in positions and parameters", "anchors": ["src/sbx_block/mod.rs: calc_data_block_write_index", "SBX_FORMAT.md"]}
{"id": "C13", "title": "Decoder places data chunks contiguously in order", "statement": "The k-th data (non-parity) block goes to byte offset k*data_size of the output, parity blocks go nowhere, and distinct data blocks never overlap.", "quantifier": "every version, shard counts, sequence number", "why_tests_cant": "unbounded parameters", "anchors": ["src/sbx_block/mod.rs: calc_data_chunk_write_index, calc_data_chunk_write_pos"]}
{"id": "C14", "title": "Container contents do not depend on core count or buffering", "statement": "The blocks written by the encoder, their bytes and positions are a function of input bytes and parameters only; they do not depend on the number of lots per buffer, the number of buffers, or how work is distributed.", "quantifier": "every input, every lot count and buffer count", "why_tests_cant": "core count and buffer boundaries interact with input length", "anchors": ["src/data_block_buffer/mod.rs: Lot::encode, DataBlockBuffer::encode", "src/encode_core.rs: encode_file"]}
{"id": "C15", "title": "Predicted container size equals the size actually written", "statement": "The container size computed from the original file size equals the end of the last block the encoder writes.", "quantifier": "every file size, version, shard counts, burst level, metadata option", "why_tests_cant": "unbounded parameters; off-by-one only at set boundaries", "anchors": ["src/file_utils.rs: calc_container_size", "src/encode_core.rs"]}
{"id": "C16", "title": "Encode then decode returns the original file", "statement": "Decoding the container produced by the encoder yields the input bytes exactly, for every length including lengths not multiple of the payload size, for every version and placement. (For an empty file a level above 1000 must be given to the decoder, which guesses only up to 1000: otherwise false. Without metadata the padding of the last payload is kept.)", "quantifier": "every input byte string, version, UID, shard counts, burst level", "why_tests_cant": "unbounded inputs and parameters", "anchors": ["src/encode_core.rs: encode_file", "src/decode_core.rs: decode"]}
{"id": "C17", "title": "Decoding is insensitive to block order, duplicates and foreign or damaged blocks", "statement": "If the container's blocks are shuffled, duplicated, interspersed with blocks of other UIDs/versions or blocks that fail validation, decoding to a file produces the same file.", "quantifier": "every permutation, duplication and insertion of foreign or invalid blocks", "why_tests_cant": "factorially many orders", "anchors": ["src/decode_core.rs: decode (file output path)", "src/header_preds.rs"]}
{"id": "C18", "title": "Missing blocks only damage their own bytes", "statement": "When some data blocks are missing or damaged, decoding to a file still yields the right bytes at the right offsets for all surviving blocks, zero bytes elsewhere, and the recorded file size.", "quantifier": "every input and every subset of lost blocks", "why_tests_cant": "exponentially many subsets", "anchors": ["src/decode_core.rs: decode", "src/data_block_buffer/mod.rs: Lot::write"]}
{"id": "C19", "title": "Reference block selection", "statement": "The reference block is the first usable metadata block, falling back to the first usable data block when allowed, in the scanned range; absence is reported only if the scan found none.", "quantifier": "every file content, range and choice", "why_tests_cant": "arbitrary file content", "anchors": ["src/block_utils.rs: get_ref_block, read_block_lazily"]}
{"id": "C20", "title": "Repair restores the container", "statement": "If each Reed-Solomon set has at most N damaged blocks and at least one metadata block survives, repair makes the container byte-identical to the undamaged one.", "quantifier": "every container, every damage pattern within the limit, every garbage content", "why_tests_cant": "exponentially many damage patterns", "anchors": ["src/repair_core.rs: repair_file", "src/rs_codec/repairer.rs: RSRepairer"]}
{"id": "C21", "title": "Repair does no harm", "statement": "Repair never changes a block that is valid for the container, never writes to a set with more than N damaged blocks, writes nothing at all in dry-run mode, and running it again changes nothing.", "quantifier": "every file content and layout", "why_tests_cant": "arbitrary damaged content", "anchors": ["src/repair_core.rs: repair_file, repair_blocks_and_update_stats_using_repair_stats"]}
{"id": "C22", "title": "Sort rebuilds the canonical container", "statement": "Sorting a container whose blocks are in any order (with duplicates) writes each block at its canonical position and the metadata block at every metadata position.", "quantifier": "every permutation of blocks and every layout", "why_tests_cant": "factorially many orders", "anchors": ["src/sort_core.rs: sort_file", "src/data_block_buffer/mod.rs: Lot::write"]}
{"id": "C23", "title": "Multi-pass mode never overwrites good data", "statement": "In skip-good mode sort leaves any position already holding the right valid block unchanged, and decode leaves any chunk that is not blank unchanged.", "quantifier": "every existing output content and every input", "why_tests_cant": "arbitrary prior content", "anchors": ["src/data_block_buffer/mod.rs: Lot::write (skip_good)", "src/sort_core.rs: write_meta_blocks_writer"]}
{"id": "C24", "title": "Metadata update is all-or-nothing and touches nothing else", "statement": "Updating or removing metadata either leaves the file unchanged (when it cannot fit) or rewrites only the metadata block positions; afterwards each field reads back as requested, other fields are kept, and all data blocks are byte-identical.", "quantifier": "every container, every list of updates and removals", "why_tests_cant": "arbitrary metadata combinations", "anchors": ["src/update_core.rs: update_metadata_blocks, update_file", "src/sbx_block/mod.rs: update_meta, remove_metas"]}
{"id": "C25", "title": "Rescue copies exactly the usable blocks, in order, per UID", "statement": "Every block found by the scan that passes the filters is appended verbatim to the file named by its UID in scan order and nothing else is written.", "quantifier": "every input file, every buffer size, every filter", "why_tests_cant": "arbitrary contents and buffer boundaries", "anchors": ["src/rescue_core.rs: rescue_from_file", "src/rescue_buffer/mod.rs: group_by_uid, write"]}
{"id": "C26", "title": "Interrupted rescue resumes without losing blocks", "statement": "At any crash point, every usable block in the prefix recorded by the log has already been written; resuming from the log therefore outputs every usable block at least once. Log text round-trips.", "quantifier": "every crash point, every schedule of log writes, every input", "why_tests_cant": "crash points and schedules unbounded", "anchors": ["src/rescue_core.rs: Stats::serialize/deserialize, rescue_from_file", "src/log.rs"]}
{"id": "C27", "title": "Scans terminate", "statement": "Scanning commands finish on every input file. (False for rescue on an empty file: required length is 1 but every read returns 0 bytes and end of file is ignored.)", "quantifier": "every input file and byte range", "why_tests_cant": "non-termination cannot be observed by tests in general", "anchors": ["src/rescue_core.rs: rescue_from_file", "src/misc_utils.rs: calc_required_len_and_seek_to_from_byte_range"]}
{"id": "C28", "title": "Scanning finds every block aligned at 128 bytes", "statement": "A valid block starting at a multiple of the scan alignment is found. (False: a header that parses but whose block fails its CRC consumes a whole block, hiding valid blocks inside.) True when the preceding data does not contain parseable headers of damaged blocks.", "quantifier": "every file content", "why_tests_cant": "arbitrary contents", "anchors": ["src/block_utils.rs: read_block_lazily"]}
{"id": "C29", "title": "Burst level guess is right on intact containers", "statement": "For an undamaged container the guessed level puts every sampled block where it really is; it minimises the number of mismatches in general and ties go to the smallest level.", "quantifier": "every container layout up to level 1000, every damage", "why_tests_cant": "1001 levels times arbitrary content", "anchors": ["src/block_utils.rs: guess_burst_err_resistance_level"]}
{"id": "C30", "title": "Starting block index guess", "statement": "For an intact excerpt the guessed starting block index is the true index of the first block.", "quantifier": "every layout and excerpt", "why_tests_cant": "unbounded parameters", "anchors": ["src/block_utils.rs: guess_starting_block_index"]}
{"id": "C31", "title": "Byte ranges are respected", "statement": "For any from/to options the computed start is aligned, within the file, not after the requested start; the scanned length stays within the file and ends at the requested end.", "quantifier": "every from/to/exclusive/inclusive value, every file size and resume offset", "why_tests_cant": "64-bit parameter space", "anchors": ["src/misc_utils.rs: calc_required_len_and_seek_to_from_byte_range"]}
{"id": "C32", "title": "UID hex text round-trips", "statement": "Hex rendering of a UID (upper or lower case) parses back to the same bytes; malformed hex is rejected; different UIDs give different file names.", "quantifier": "every byte string", "why_tests_cant": "all byte strings", "anchors": ["src/misc_utils.rs: hex_string_to_bytes, bytes_to_upper_hex_string, bytes_to_lower_hex_string"]}
{"id": "C33", "title": "Worker pipeline never deadlocks or loses buffers", "statement": "Under every interleaving of the reader, encoder and writer threads, including early stop and errors in any stage, all threads terminate, no channel send ever blocks forever, and each filled buffer is written exactly once in order when there is no error.", "quantifier": "every schedule, every number of buffers of work, every failure point", "why_tests_cant": "schedules cannot be enumerated by tests", "anchors": ["src/encode_core.rs: reader/encoder/writer threads", "src/misc_macros.rs: worker_shutdown!, send!"]}
{"id": "C34", "title": "Sequence numbers never overflow for accepted sizes", "statement": "If the input size is within the stated maximum, all blocks (including padding and parity) get distinct sequence numbers in 1..2^32-1, and the container of maximal size still fits.", "quantifier": "every version, shard count, size up to the limit", "why_tests_cant": "would need terabytes of input", "anchors": ["src/sbx_specs.rs: ver_to_max_data_file_size, ver_to_last_data_seq_num_exc_parity", "src/encode_core.rs"]}
{"id": "C35", "title": "Standard input is encoded completely however it is chunked", "statement": "Encoding from standard input stores all bytes whatever the sizes of the individual reads. (False: at most 5 reads per block; a slow pipe makes a short block which is taken as the end of input.)", "quantifier": "every way of splitting the input into reads", "why_tests_cant": "timing dependent", "anchors": ["src/file_reader.rs, src/reader.rs: read", "src/encode_core.rs: reader thread"]}
{"id": "C36", "title": "Encoding a byte range encodes exactly that range", "statement": "With --from/--to options the stored data are exactly the bytes of the range. (False: whole payload-size chunks are read, so bytes after the requested end are stored.)", "quantifier": "every input and range", "why_tests_cant": "unbounded parameters", "anchors": ["src/encode_core.rs: encode_file"]}
{"id": "C37", "title": "Check reports every block exactly once", "statement": "The counts of metadata, data/parity, blank and failed blocks reported by check add up to the number of blocks in the range; a block is counted failed iff it is not valid for the container and not an allowed blank.", "quantifier": "every file content", "why_tests_cant": "arbitrary contents", "anchors": ["src/check_core.rs: check_blocks"]}
{"id": "C38", "title": "Recorded hash and size are those of the input", "statement": "The final metadata blocks hold the length and hash of exactly the input bytes, and hashing the container contents gives the same value, so a successful decode hash check is meaningful.", "quantifier": "every input, every version, treating the hash function as arbitrary", "why_tests_cant": "unbounded input", "anchors": ["src/encode_core.rs: encode_file, pack_metadata", "src/sbx_container_content.rs: hash"]}
{"id": "C39", "title": "The hash computed from a container is the hash of its data", "statement": "For a container of a non-empty file the content hash computed by check and update is the hash of the original data whenever every data block is intact and at its place, whatever else is damaged; if any data block is missing, damaged or from another container an error is reported, never a hash of something else. (For containers of empty files an error is reported although nothing is damaged.)", "quantifier": "every file content, layout, recorded size and hash function", "why_tests_cant": "arbitrary contents and damage", "anchors": ["src/sbx_container_content.rs: hash"]}
{"id": "C40", "title": "Decoding to standard output equals decoding to a file", "statement": "For intact containers the bytes written to standard output equal the original input, for the burst-aware and the sequential read patterns; from a damaged container exactly as many bytes come out, with zeros in place of each chunk that is lost, and the hash reported is that of the bytes written.", "quantifier": "every input and layout", "why_tests_cant": "unbounded inputs and parameters", "anchors": ["src/decode_core.rs: decode (stdout paths), ReadPattern::new"]}
{"id": "C41", "title": "JSON output helpers produce valid text", "statement": "Values printed in JSON are complete and escaped. (False: backslashes are not escaped; non-ASCII text is cut at byte offsets computed from character counts.)", "quantifier": "every string", "why_tests_cant": "all strings", "anchors": ["src/misc_utils.rs: escape_quotes, strip_front_end_chars", "src/json_utils.rs: split_key_val_pair"]}
{"id": "C42", "title": "JSON nesting and commas are well formed", "statement": "Any properly nested sequence of open/close/field calls prints balanced brackets with commas exactly between items.", "quantifier": "every nested call sequence", "why_tests_cant": "unbounded sequences", "anchors": ["src/json_printer.rs: print_open_bracket, print_close_bracket, print_maybe_json"]}
{"id": "C43", "title": "Show lists exactly the metadata blocks", "statement": "show --json prints one JSON object whose list of blocks has, in order of position, exactly the intact metadata blocks the scan of the given range finds (only the first unless all are asked for, only those of the UID asked for), each with its position in the file and with every recorded field as recorded, null where there is none; with burst level guessing also the reference block and the guess.", "quantifier": "every file, range, UID and option", "why_tests_cant": "all files, blocks of all versions at any position", "anchors": ["src/show_core.rs: show_file", "src/cli_show.rs: show", "src/json_printer.rs"]}
{"id": "C44", "title": "Any d shards of a Reed-Solomon set give back all of them", "statement": "For all d >= 1 and p with d + p <= 256 the code blkar uses computes from d data payloads p parity payloads such that any d of the d + p payloads, in any positions and whatever is in the other places, determine all of them, and with fewer an error is reported; so a file encoded, hit by up to p bursts of B blocks, repaired and decoded is the original file.", "quantifier": "every d, p, payload length, data, set of lost payloads and their replacement bytes; every file, burst level and damage", "why_tests_cant": "2^(8 d n) code words and all subsets of positions", "anchors": ["src/data_block_buffer/mod.rs: rs encode", "src/rs_codec/repairer.rs: repair_with_block_sync", "Cargo.toml: reed-solomon-erasure"]}
{"id": "C45", "title": "Buffered file access is the same as plain file access", "statement": "Any sequence of writes, seeks, reads, length changes and position queries on a file handle, buffered or not, appending or not, gives the results and leaves the file that the same operations give on a plain file, as long as every operation and the closing report complete success; a command writing blocks without a buffer leaves a prefix of them when the disk is full, and all of them when it reports success. (False where a write is taken in part, or fails when a buffer is dropped: the commands report success.)", "quantifier": "every sequence of operations, every file, every way the system takes all, part or none of a write", "why_tests_cant": "unbounded sequences and failure points", "anchors": ["src/file_writer.rs: FileWriter", "src/file_reader.rs: FileReader", "src/encode_core.rs: encode", "src/sort_core.rs: sort_file", "src/rescue_buffer/mod.rs: write"]}
{"id": "C46", "title": "A command changes only its output, and nothing that exists without being told to", "statement": "encode and sort change at most one place: OUT, or the name of the input with the extension in the directory OUT or beside the input; repair and update change at most the container given, and nothing on a dry run or if the question asked is not answered with y. Without --force (and multi-pass) encode, decode and sort leave everything that exists as it was, and exit code 0 means that there is a new file where the output belongs. (False for the input of decode --force if the recorded name is that of the container.)", "quantifier": "every file system, working directory, path, combination of options, content of the input and behaviour of the codec and hash", "why_tests_cant": "unbounded file systems, paths and option combinations", "anchors": ["src/cli_encode.rs: encode", "src/cli_decode.rs: decode", "src/cli_sort.rs: sort", "src/cli_repair.rs: repair", "src/cli_update.rs: update", "src/cli_macros.rs"]}
{"id": "C47", "title": "A container cannot make decode write outside of the directory asked for", "statement": "Whatever name a container records, decode writes to OUT, or to an entry of the directory OUT, or (without OUT) to an entry of the working directory, and nowhere else; the entry used is the last name of the recorded path, which is unique, and a path without one is refused.", "quantifier": "every container (crafted ones included), every recorded name, every OUT and working directory", "why_tests_cant": "adversarial names: absolute, with .., with trailing slashes and dots", "anchors": ["src/decode_core.rs: decode_file", "src/file_utils.rs: get_file_name_part_of_path", "src/misc_utils.rs: make_path"]}
{"id": "C48", "title": "Options mean what the help says and everything else is refused", "statement": "encode and decode go ahead exactly if all options given are written as documented: numbers as decimal digits below 2^64, UIDs as six hexadecimal bytes, versions and hash names from the list, data and parity shards at least 1 and together at most 256, all of them present for versions 17 to 19 and defaults only without a version; what they then use is the value written. Anything else ends with exit code 1 without touching any file, and never by a panic given what the option parser guarantees (except for shard counts whose sum does not fit into 64 bits).", "quantifier": "every text of every option, in every combination, every file system", "why_tests_cant": "unbounded strings", "anchors": ["src/cli_macros.rs", "src/cli_encode.rs: encode", "src/cli_decode.rs: decode", "src/multihash.rs: string_to_hash_type", "src/sbx_specs.rs: string_to_ver", "src/misc_utils.rs: hex_string_to_bytes"]}
{"id": "C49", "title": "A file encoded with the command comes back with the command", "statement": "A file encoded by a run that ends with exit code 0 is given back exactly by decode, wherever the container was moved to and whatever it is called, under the name asked for or its own name (or on standard output, with nothing written anywhere), with exit code 0 and nothing else changed. encode on a readable file and a writable output ends with exit code 0 exactly if the metadata fits into a block. After up to p bursts of B blocks damaged the container, repair --burst B leaves the container exactly as encode wrote it.", "quantifier": "every file, file system, name, machine (codec, hash, number of threads), option combination that stores the whole file with metadata, every later place and damage", "why_tests_cant": "unbounded files, names, file systems and damage patterns; two or three commands in a row", "anchors": ["src/cli_encode.rs: encode", "src/cli_decode.rs: decode", "src/cli_repair.rs: repair", "src/encode_core.rs", "src/decode_core.rs", "src/repair_core.rs"]}
{"id": "C50", "title": "calc announces what encode and repair then do", "statement": "For every combination of options encode accepts and every size encode accepts, calc ends with exit code 0 and prints the number of metadata, data, parity and all blocks, and the size, of the container encode writes with these options for any file of that size. Damage within the limits it prints is repaired: any number of bursts of the length printed, at most the printed number of them reaching any one super block set, or one single burst of the longest length printed. With --json it prints one JSON text with these numbers. (False for sizes encode refuses: calc prints wrapped around sizes for them without a warning.)", "quantifier": "every size, option combination, content, damage pattern within the limits", "why_tests_cant": "unbounded sizes, contents and sets of bursts", "anchors": ["src/cli_calc.rs: calc", "src/file_utils.rs: from_orig_file_size", "src/encode_core.rs: encode_file", "src/repair_core.rs: repair_file"]}
{"id": "C51", "title": "Rescuing from a disk finds exactly the sound blocks, in disk order", "statement": "Take a disk that is any sequence of blocks (of any containers and versions, some damaged) and of other data that does not look like a block header. A rescue of the whole disk appends to the file named after each requested UID exactly the sound blocks with that UID, complete, once each and in the order they have on the disk, and changes no other file.", "quantifier": "every disk of that form, every UID selection, buffer size, hash map order and state of the output directory", "why_tests_cant": "unbounded disks and orders of blocks", "anchors": ["src/rescue_core.rs: rescue_from_file", "src/rescue_buffer/mod.rs: RescueBuffer", "src/sbx_block/mod.rs: Block"]}
{"id": "C52", "title": "A container survives the loss of the file system", "statement": "Encode a file; put the blocks of the container on a disk in any order, any number of times, among blocks of other containers, damaged blocks and other data. If one metadata block and every block that holds part of the content are there, then rescue followed by decode of the rescued file never gives anything else than the original file, and gives it for sure if the version has no error correction or the burst level is told to decode. (Without the level decode can refuse: it cannot guess it from the shuffled blocks although it does not need it.)", "quantifier": "every content, encoding parameter, disk, order of blocks, rescue and decode setting", "why_tests_cant": "unbounded contents, disks and permutations; three operations in a row", "anchors": ["src/encode_core.rs: encode_file", "src/rescue_core.rs: rescue_from_file", "src/decode_core.rs: decode_file", "src/misc_macros.rs: get_burst_or_guess"]}
{"id": "C53", "title": "Scattered and partly lost blocks: rescue, sort and repair rebuild the container", "statement": "Encode a file with error correction and scatter its blocks over a disk as in C52, but lose some. If one metadata block is left and, of every set of data + parity blocks, at least as many as there are data shards, then rescue, sort with the burst level, and repair rebuild the container byte for byte, and decode gives the original file.", "quantifier": "every content, encoding parameter, disk, order and loss pattern within that limit", "why_tests_cant": "unbounded contents, disks, permutations and loss patterns; five operations in a row", "anchors": ["src/encode_core.rs: encode_file", "src/rescue_core.rs: rescue_from_file", "src/sort_core.rs: sort_file", "src/repair_core.rs: repair_file", "src/decode_core.rs: decode_file"]}
{"id": "C54", "title": "The command rescue only adds, and what it adds is the blocks", "statement": "The command rescue refuses invalid options, a missing input or a missing directory with exit code 1 and changes nothing. However a run goes on and ends, every file and directory is as it was, except that files named by twelve hexadecimal digits in the directory asked for may be new or have more at the end, and that the log may be written. If a run without an earlier log ends with exit code 0, each of these files has got exactly the blocks of its UID that were asked for, in order; it does end so if input and directory can be used. A run that resumes after any number of interrupted runs and ends with exit code 0 has every block saved. A log cut short is refused with nothing changed. (That the log is there after exit code 0 is false: an error of its last write is not noticed.)", "quantifier": "every file system, set of options, input, order of visiting maps, moments at which the log is written, stop or read error", "why_tests_cant": "unbounded inputs and file systems, schedules of the log thread", "anchors": ["src/cli_rescue.rs: rescue", "src/rescue_core.rs: rescue_from_file", "src/rescue_buffer/mod.rs: RescueBuffer::write", "src/log.rs: LogHandler"]}
{"id": "C55", "title": "From encode to a lost file system and back, with the commands", "statement": "A file is encoded by a run of encode that ends with exit code 0. Later the container's blocks are on a disk in any order among anything else, and the image of the disk is rescued by a run of rescue that ends with exit code 0. If a metadata block and all blocks with content are there, decode of the file named by the container's UID (with --burst if there is error correction) ends with exit code 0 and writes the original file under its name and nothing else. If blocks are missing but of each set of data + parity blocks enough are left, sort with the burst level and then repair end with exit code 0 and give the container back byte for byte, and decode of it gives the original file.", "quantifier": "every file, option, machine, file system, disk, order, loss pattern within the limit, and every place the files are moved to between the commands", "why_tests_cant": "unbounded contents, disks and histories; up to five commands in a row on different machines", "anchors": ["src/cli_encode.rs: encode", "src/cli_rescue.rs: rescue", "src/cli_sort.rs: sort", "src/cli_repair.rs: repair", "src/cli_decode.rs: decode"]}
{"id": "C56", "title": "A container's whole life: updates, damage and repairs never cost the content", "statement": "A non-empty file is encoded by a run of encode that ends with exit code 0. From then on the container goes through any number of runs of update (ended with success or refused, with an error, or dry runs) and of bursts of damage within what the parity and burst level allow, each followed by a run of repair. At every moment of that history decode ends with exit code 0 and writes the original content under the file name recorded last, and nothing else; repair still makes good any bursts within the limit, giving the container back byte for byte; the length and all blocks other than metadata blocks are those encode wrote.", "quantifier": "every file, set of options, machine, file system and history of any length", "why_tests_cant": "unbounded histories of commands and damage", "anchors": ["src/cli_encode.rs: encode", "src/cli_update.rs: update", "src/update_core.rs: update_file", "src/cli_repair.rs: repair", "src/repair_core.rs: repair_file", "src/cli_decode.rs: decode"]}
{"id": "C57", "title": "An update cut short loses nothing and can be run again", "statement": "After any history as in C56, a run of update that would turn the container g into w is cut short, with any of the metadata blocks rewritten and the others not, in whatever order they reached the disk (a block itself being written completely or not at all). Then decode still ends with exit code 0 and writes the original content, under the old name or the new one; and running the same update again, on any machine, ends with exit code 0 and leaves exactly w.", "quantifier": "every file, set of options, history, crash point and order of writes to the disk", "why_tests_cant": "every subset of the metadata blocks, after every history", "anchors": ["src/cli_update.rs: update", "src/update_core.rs: update_file, update_metadata_blocks", "src/cli_decode.rs: decode"]}
{"id": "C58", "title": "A repair cut short can be run again", "statement": "After any history as in C56 a container is damaged within what the parity and burst level allow, and the run of repair that would make it good is cut short at any moment, after any number of bytes written. Every byte of what is left is that of the damaged or of the sound container, and nothing else has changed. From every such mixture (whatever the order in which the writes reached the disk, provided no torn block is by accident another valid block of the container) a run of repair ends with exit code 0 and makes the sound container, byte for byte. On any file at all, a run of repair cut short leaves a mixture of the file before and after.", "quantifier": "every file, set of options, history, damage, crash point (in bytes written) and order of writes to the disk", "why_tests_cant": "every crash point after every history and damage", "anchors": ["src/cli_repair.rs: repair", "src/repair_core.rs: repair_file", "src/rs_codec/repairer.rs: RSRepairer"]}
{"id": "C59", "title": "The JSON reports of the commands say what happened", "statement": "With --json, a run of check, repair, sort, decode or encode prints exactly one JSON value. If the run gets through, that value holds the numbers of blocks found, broken, repaired, sorted, decoded or written (those of C37, C21, C22, C17, C38), the sizes of the files, the recorded and the computed hash, and durations as hours, minutes and seconds; the exit code is 0. If it does not, the value holds the text of the error, and the exit code is 2.", "quantifier": "every file, set of options, outcome and duration", "why_tests_cant": "every number and text that can be printed, for every input file", "anchors": ["src/check_core.rs: Stats (Display), check_file", "src/repair_core.rs: Stats (Display)", "src/sort_core.rs: Stats (Display)", "src/decode_core.rs: Stats (Display)", "src/encode_core.rs: Stats (Display)", "src/time_utils.rs: seconds_to_hms", "src/cli_macros.rs: exit_with_msg", "src/cli_check.rs: check"]}
{"id": "C60", "title": "encode, decode and sort cut short can be run again", "statement": "A run of encode, decode or sort that was cut short leaves its output file with some content or other. Run again with the same options and --force, the command ends exactly as the first run would have ended: same exit code, same output, same files, whatever had been left. Run again without --force, it refuses (exit code 1, for decode 2) and changes nothing.", "quantifier": "every file system, set of options and environment with which the first run would have ended with exit code 0, every place and every content left there", "why_tests_cant": "the crash can come at any byte, so every content must be considered", "anchors": ["src/cli_encode.rs: encode", "src/cli_decode.rs: decode", "src/cli_sort.rs: sort", "src/file_writer.rs: FileWriter::new", "src/encode_core.rs: encode_file", "src/decode_core.rs: decode_file", "src/sort_core.rs: sort_file"]}
{"id": "C61", "title": "encode --info-only tells what encode would do, and does nothing", "statement": "encode --info-only changes no file and prints nothing of the container to standard output. If encode with the same options would write a container of a whole file, --info-only ends with exit code 0 and tells the size and time of that file, the version and shards, the place of the container and exactly its length; with --json it prints exactly one JSON value that holds these. Standard input, and a file that is missing or cannot be read, are refused with exit code 1. (For a part of a file the length told is that of the whole: finding F33.)", "quantifier": "every file system, set of options, environment and calendar", "why_tests_cant": "the length told is computed by a formula, the length written by a run; they have to agree for every size, version and choice of shards", "anchors": ["src/cli_encode.rs: encode", "src/file_utils.rs: from_orig_file_size::calc_container_size", "src/time_utils.rs: i64_secs_to_date_time_string", "src/json_printer.rs: JSONPrinter"]}
{"id": "C62", "title": "check and show tell the truth about a fresh container", "statement": "The commands check and show change no file, and take exactly the options documented. Given a container that encode has just made, check ends with exit code 0 and with --json prints exactly one JSON value, which says that every metadata and every data or parity block passed, that none failed (unless blank blocks are to be reported, then exactly the unused places), and with --hash that recorded and computed hash are the hash of the file encoded; show prints exactly one JSON value with the identifier, names, version, shards, size, times and hash given to encode.", "quantifier": "every file system, file content, set of options of encode and of the commands, wherever the container has been moved to", "why_tests_cant": "holds for every content, version, choice of shards and burst level, and composes five modules", "anchors": ["src/cli_check.rs: check", "src/cli_show.rs: show", "src/check_core.rs: check_file", "src/show_core.rs: show_file", "src/cli_encode.rs: encode", "src/json_printer.rs: JSONPrinter"]}
{"id": "C63", "title": "what check --hash approves, decode gives back", "statement": "If check --hash (or --hash-only) reports that the recorded and the computed hash agree, decode with the same options succeeds, and what it writes has the recorded size and the recorded hash, and decode reports that they agree. This needs that the file does not hold two blocks of the container with the same number and different contents (finding F34).", "quantifier": "every file, damaged or not, every hash function, order of the queue, number of threads and set of matching options", "why_tests_cant": "two commands that find the data in different ways have to agree on every file, also one that encode has not made", "anchors": ["src/check_core.rs: check_file", "src/decode_core.rs: decode_file", "src/sbx_container_content.rs: hash", "src/cli_check.rs: check"]}
{"id": "C64", "title": "the progress report ends, counts right and does not get in the way", "statement": "However the threads of a command and the thread that reports progress are scheduled: nobody waits for ever on the locks and barriers, and a run takes a number of steps bounded by the program and by the number of times the reporting thread woke up; the command can always come to its end, waiting for that thread at most once. The counts reported never go down and never exceed what has been done; after start and stop the end has been reported exactly once (at level 0 not at all), with everything counted, after the header and after every report of progress. What a command prints between pause and resume while it holds the lock of the counters (check, repair) is never mixed with progress; without that lock (show) it can be (finding F35). The percentage is at most 100 and is 100 exactly when all is done; the bar always has 27 characters.", "quantifier": "every order of the steps of any number of threads, every number and size of updates of the counters, every point where pause, resume and stop are called, every verbosity level, text or JSON", "why_tests_cant": "races show up under rare schedules only; tests run a few", "anchors": ["src/progress_report.rs: ProgressReporter (new, start, pause, resume, stop, drop), print_progress, calc_percent, make_progress_bar", "src/check_core.rs: check_file", "src/show_core.rs: show_file"]}
{"id": "C65", "title": "the thread that writes the log of rescue holds nothing up and never runs ahead", "statement": "However the threads of rescue are scheduled and whichever writes to the log or to the files fail: nobody waits for ever, and the command waits for the log thread to wake up at most once; at no moment, also if the program is killed there, does a readable log count a buffer whose blocks have not all been written. If the log thread sleeps or waits for the counters when the last buffer has been written, the log is up to date when the command ends, unless it cannot be written. (Otherwise it may be out of date or missing although nothing failed: finding F36.)", "quantifier": "every order of the steps of the threads, every number of buffers and files, every failing write, every moment", "why_tests_cant": "depends on races between the threads", "anchors": ["src/log.rs: LogHandler (new, start, stop, pop_error, drop), Log::write_to_file", "src/rescue_core.rs: rescue_from_file"]}
{"id": "C66", "title": "repair --verbose lists exactly what was broken and what was repaired", "statement": "With --verbose --json, repair prints a JSON object that lists, in order, the position of every metadata place that had no block of the container, and an entry for every block set with a block not at its place: the first and last number of the set, whether it could be repaired, which is the case exactly if at least as many of its blocks as there are data shards were at their places, and the number and position of each of its blocks that was not. Nothing else is listed, nothing is left out (of the sets that are complete); the numbers in the statistics are the lengths of these lists. --verbose changes neither the statistics nor the file.", "quantifier": "every container file with any damage, every shard counts and burst level, real and dry runs", "why_tests_cant": "which blocks are listed depends on every combination of damaged blocks", "anchors": ["src/repair_core.rs: repair_file, repair_blocks_and_update_stats_using_repair_stats", "src/rs_codec/repairer.rs: RSRepairStats (Display), RSRepairer::repair_with_block_sync"]}
{"id": "C67", "title": "repair finds out the burst level of a damaged container by itself", "statement": "If a container that is not empty was damaged by at most as many bursts as it has parity shards, each no longer than its burst level, and nothing in the damaged places passes for a block of this container, then the burst level the program guesses from the damaged file is the one it was encoded with, and repair without --burst does exactly the same as repair with the right --burst: every block is in place again.", "quantifier": "every file, every shard counts, burst level and block size, every placement of the bursts, every contents of the damaged places", "why_tests_cant": "whether a lower burst level fits the surviving blocks as well depends on which blocks of the first set survive, for every combination of level, shard counts and bursts", "anchors": ["src/block_utils.rs: guess_burst_err_resistance_level", "src/misc_macros.rs: get_data_par_burst!", "src/repair_core.rs: repair_file"]}
{"id": "C68", "title": "update tells exactly what it changes", "statement": "With --verbose --json, update lists for every metadata block it rewrites, in the order of their places, the number of the place, its position and the fields whose value changes, each once, with the value before and the value after, and no other field. A dry run prints the same as the real run would and leaves the file alone; --verbose changes neither the file nor the statistics. The output is a JSON object with these lists (names with characters that print as they are; a name that reads like a number, true, false or null is printed without quotes, so setting the name null looks like removing it: finding F39).", "quantifier": "every container file with any damage, every set of changes, every burst level, real and dry runs", "why_tests_cant": "the list depends on which metadata blocks survive and on the fields each of them has", "anchors": ["src/update_core.rs: update_file, update_metas, print_block_info_and_meta_changes, Stats (Display)", "src/sbx_block/metadata.rs: Metadata (Display), id_to_str"]}
{"id": "C69", "title": "Several damaged copies are combined with --multi-pass", "statement": "When a file has been encoded and several copies of the container have been damaged, each in its own way, decoding the copies one after the other to the same place, all but the first with --multi-pass or --multi-pass-no-skip, leaves a file of the right length that has every part of the original of which some copy still has a readable block, and zeros in the other parts; so the file is the original as soon as every part is readable in some copy. Each run exits with 0 and changes no other file. In the same way sort with a multi-pass option keeps an existing output and adds to it, and without one it starts afresh; an existing output is refused only without these options and --force.", "quantifier": "every file, version and erasure code, every number of copies with every damage that leaves a metadata block, every order of the runs, every mix of the two options, anything happening to other files in between", "why_tests_cant": "the result depends on which blocks are readable in which copy, and on everything earlier runs left; there are unboundedly many histories", "anchors": ["src/decode_core.rs: decode, decode_file", "src/sort_core.rs: sort_file", "src/cli_decode.rs", "src/cli_sort.rs", "src/misc_utils.rs: MultiPassType"]}
{"id": "C70", "title": "What updates record is what show and check tell afterwards", "statement": "After a file has been encoded, and its container then updated, moved, damaged within its burst tolerance and repaired any number of times in any order, show prints for the first metadata block exactly what is recorded by then: the names given last (or null if removed last), the hash of the original content by the hash function given last (or null if removed), and the identifier, version, shard counts, size and times of the encoding. Updates that are dry runs, declined or failed leave all of this as it is. As long as a hash is recorded, check, with --hash as well, finds the container sound, with the recorded and the computed hash equal to the hash of the original content by the function given last.", "quantifier": "every file and encoding, every sequence of updates, refused updates, damages and repairs of any length, on any machine and under any name", "why_tests_cant": "the histories are unbounded, and the values come from three commands that write the same fields", "anchors": ["src/cli_update.rs: update", "src/update_core.rs: update_file", "src/cli_show.rs: show", "src/cli_check.rs: check", "src/cli_repair.rs: repair", "src/cli_encode.rs: encode"]}
{"id": "C71", "title": "show --show-all lists every copy of the metadata, and --guess-burst tells the burst level", "statement": "For a container written by encode, and after any number of updates, damages within its burst tolerance and repairs, show --show-all lists exactly the copies of the metadata the container has (the number of parity shards plus one, or one without erasure code), each once and in the order of their places, numbered from 0, with its position (each copy one more than the burst level of blocks after the one before), and all with the same values, those recorded last. Without --show-all only the first copy is listed. With --guess-burst the burst level printed first is the one the container was encoded with, if that is at most 1000, and null without erasure code. The blank places between the blocks of a container and the contents of its other blocks are never taken for metadata.", "quantifier": "every file, version, shard counts and burst level, every history of updates, damages and repairs, on any machine", "why_tests_cant": "which positions the scan looks at depends on all blocks before them and on the blank places the interleaving leaves; the containers are unbounded", "anchors": ["src/show_core.rs: show_file", "src/block_utils.rs: read_block_lazily, guess_burst_err_resistance_level", "src/cli_show.rs: show", "src/sbx_block/mod.rs: calc_meta_block_all_write_indices"]}
{"id": "C72", "title": "A file is read completely, however the system hands it out", "statement": "The handles through which the commands read files give exactly the bytes of the file, in order, from the position the handle is at, none made up, left out or given twice, whether buffered or not, for any sequence of reads and seeks, and however small the pieces are in which the system hands them out; an error of the system is reported as an error; and the end of the file is reported only at the end of the file.", "quantifier": "every file, every sequence of reads, seeks and questions for position and size, every sequence of piece sizes and errors of the system, buffered or not", "why_tests_cant": "tests get whole reads from a local file system; the pieces and errors are chosen by the system", "anchors": ["src/file_reader.rs: FileReader::read, seek, cur_pos, get_file_size", "src/reader.rs: Reader::read"]}
{"id": "C73", "title": "A command stopped with Ctrl-C is not taken for a complete one", "statement": "However early or late encode, decode, check, sort, show or repair is stopped with Ctrl-C, what it leaves and says is that of a run on the part it has seen: encode leaves the container of the payloads read so far, decode the bytes of the blocks read so far (at standard output: the first bytes of what it would have printed), sort those blocks at their places (so that running it again over them completes it), check the counts and hash of what it has looked at, show the first of its listing, repair a container each block of which is as it was or as the whole run would leave it (so that running it again completes it); if stopped while still looking for its reference block, it goes on with what it has found so far, and says that there is none only if there is none. And it is never taken for a complete run: a stopped encode does not leave something that passes for a container of the whole file, a stopped decode does not tell the size of the whole file, a stopped check does not call an intact container damaged, and a stopped repair does not report as if nothing were left to repair.", "quantifier": "every moment at which the flag is seen, every file, all options and parameters, standard input however it arrives", "why_tests_cant": "the moment is chosen by the user; tests do not send signals", "anchors": ["src/cli_utils.rs: setup_ctrlc_handler", "src/misc_macros.rs: break_if_atomic_bool", "src/encode_core.rs: encode_file", "src/decode_core.rs: decode, hash", "src/check_core.rs: check_blocks", "src/sbx_container_content.rs: hash", "src/show_core.rs: show_file", "src/sort_core.rs: sort_file", "src/block_utils.rs: get_ref_block", "src/misc_macros.rs: get_ref_block"]}
{"id": "C74", "title": "Sorting does not change what a container decodes to, and sorting again changes nothing", "statement": "For every file, sorting it and decoding the result gives the bytes that decoding the file itself gives, also when blocks are missing, damaged, out of order, or repeated with different content; and sorting the sorted file again writes the same file and reports every block as in place.", "quantifier": "every input file, all sort options but the multi-pass ones, all decode options for reading the whole sorted file, any number of CPUs", "why_tests_cant": "which of several blocks with one number wins is decided in three places (the sort writes, the metadata kept, the decode writes); tests use containers without repeated blocks", "anchors": ["src/sort_core.rs: sort_file", "src/decode_core.rs: decode", "src/sbx_block/mod.rs: calc_data_block_write_index"]}
{"id": "C75", "title": "What check and show say about any file", "statement": "Whatever the input file contains, check without hashing ends with exit code 2 and the reason if there is no reference block where it is looked for, and otherwise with exit code 0 and the true counts of metadata blocks, data blocks and broken places of the container the reference block belongs to; show ends with exit code 0 and lists exactly the metadata blocks there are, possibly none; with --guess-burst it ends with exit code 2 if there is none. Exit code 0 is given only if all options were understood and the input is a file. No file is changed.", "quantifier": "every input file, every command line with --json, any file system", "why_tests_cant": "files may be damaged in any way or be no container at all; exit codes and texts depend on the file through several searches", "anchors": ["src/cli_check.rs: check", "src/check_core.rs: check_file", "src/cli_show.rs: show", "src/show_core.rs: show_file", "src/cli_utils.rs: get_in_file!"]}
{"id": "C76", "title": "Decoding to standard output puts nothing but the content there", "statement": "When the output is standard output (decode IN -), the bytes that arrive there are exactly the content decoded, whatever other options are given: warnings, the reference block, statistics, errors and progress reports go to standard error, so that another program can read the content from a pipe.", "quantifier": "every container, every command line with OUT = -, every text printed, every schedule of the thread that reports the progress", "why_tests_cant": "every print statement on every path must choose the right channel; tests compare the output for one set of options", "anchors": ["src/cli_decode.rs: decode", "src/decode_core.rs: decode_file, decode", "src/cli_utils.rs: report_ref_block_info", "src/misc_macros.rs: get_ref_block!, print_block!, print_if!", "src/cli_macros.rs: exit_with_msg!, print_at_output_channel!", "src/output_channel.rs: OutputChannel", "src/progress_report.rs: print_progress"]}
