# Formal model of blockyarchive (blkar 7.2.7) in Rocq/Coq 8.16.1

Source modelled: `/repo` (Rust), read as text. Nothing from the project is built or run.

## 1. Layout

`rocq/theories` (logical name `Verif`), in three kinds of files:

* `M_*.v` — **model**: executable Gallina, function by function, each definition citing file and lines.
* `S_*.v` — **specification**: small independent definitions the properties are stated with.
* `L_*.v` — lemmas and proofs.
* `P_*.v` — **property theorems** only (`Theorem … . Proof. exact lemma. Qed.` plus `Print Assumptions`) and
  non-vacuity `Example`s beside them.

## 2. Modelling conventions

* Bytes are `N` (a Rust `u8` is a number below 256; `bytes_ok l` says a list is a byte string). Files are byte lists.
  Integers are `N`; where the Rust code casts or could wrap, the model writes the `mod 2^k` or an explicit check.
* `&mut` becomes returning the new value; panics and `Result::Err` are explicit error values; loops are structural
  recursion or recursion on fuel with an explicit out-of-fuel result.
* Strings are byte lists with an executable UTF-8 validity check.
* Hash functions: arbitrary function argument of the theorems (no assumption unless stated).
* Reed-Solomon (external crate `reed-solomon-erasure`): the theorems about repair quantify over any codec that
  satisfies the erasure-code specification stated in the theorem (any M of the M+N shards determine all);
  C44 gives the code the crate documents (GF(2^8), evaluation of a polynomial), proves that it satisfies this for all
  M + N <= 256, and states encode-damage-repair-decode without any assumption on the codec.
* The operating system is modelled as: a file is a byte list, a write at an offset replaces bytes and
  extends with zeros, a read returns the available bytes. Short writes, I/O errors and permissions are not modelled,
  except where a property is about them (short reads on standard input: C35; failing stages: C33).

## 3. Plan per property

| id | what is modelled | how it is proved |
|----|------------------|------------------|
| C01, C02 | `Header::to_bytes/from_bytes`, nom parser | big-endian lemmas, case analysis on versions |
| C03 | build-time table, `crc_ccitt_generic` | xor-linearity + finite sweep over 256 entries, induction over message |
| C04 | `calc_crc`, `verify_crc` | bit-serial difference automaton: backwards argument for bursts, parity invariant for odd weight |
| C05 | multihash writer and parser | case analysis over 8 parameter records, append lemmas |
| C06–C08 | metadata writer, `many0(alt…)` parser, filter | induction on the field list; witnesses for refutations |
| C09 | `Block` sync to/from buffer | composition of C01–C06 |
| C10–C13 | index arithmetic | `lia`/`nia` with Euclidean division, generalised over M,N,B |
| C14 | lots and buffers of `data_block_buffer`, reader loop | refinement of buffered encoder to flat chunk list, for every lot/buffer count |
| C15 | `calc_container_size` | maximum of write indices over last super set |
| C16–C18 | `encode_file`, `decode` (file output) | file-as-map reasoning: write at distinct positions, fold over blocks |
| C19 | lazy block reader, `get_ref_block` | induction on scan |
| C20, C21 | `RSRepairer`, `repair_file` | per-set argument with codec specification, lifted over sets |
| C22, C23 | `sort_file`, skip-good writes | fold over blocks, last-writer lemma |
| C24 | `update_file`, `update_metadata_blocks`, options | two-pass model, per-position writes, a stop after any number of them |
| C25–C27 | `rescue_from_file`, `RescueBuffer`, `Stats` log text | induction on reads and buffers; transition system with a crash after any byte written, invariant over any number of runs |
| C28 | lazy block reader | witness; positive theorem for undisturbed data |
| C29, C30 | guessing functions | minimum search lemma + C10/C11 |
| C31, C32 | range arithmetic, hex | `lia`, induction |
| C33 | 3 threads, 3 bounded channels, barrier | ring of threads with bounded queues and a closing barrier as a labelled transition system; diamond property gives: all schedules end, in the same state, if one does; that one schedule and the count of buffers are shown by induction; the states reached are then those of the loops of the sequential models |
| C34 | limits | arithmetic |
| C35, C36 | reader loops with short reads / ranges | witness for refutation, positive theorem for full reads |
| C37 | `check_file`, `check_blocks`, `hash` | induction on blocks; the hash by C39 |
| C38, C39 | metadata packing, container hash | from C14/C16; witness for refutation |
| C40 | stdout read patterns | induction over sequence numbers/blocks; witness for empty files |
| C41, C42 | JSON helpers and printer, string functions by bytes and characters | JSON grammar of RFC 8259 as an inductive relation; induction on nested calls; a parser proved complete for the grammar gives uniqueness and the witnesses; which values read back exactly: by counting, every escape is longer than what it stands for (`L_JsonExact`) |
| C43 | `show_file`, `show` with JSON | induction on the scan as in C19; the calls made are properly nested, so C42 applies |
| C44 | GF(2^8), polynomials, the code of the crate as interpolation | field laws by linearity over bits; a polynomial with more roots than degree is zero; then C20 and C16 |
| C45 | file handle with position, append mode and buffer over a system that may take part of a write or none | the buffered handle refines the plain file: state = file after writing the buffer; witnesses for what the commands do not notice |
| C46, C47 | paths as bytes, their components, a file system of files and directories; the commands from the options to the exit code | case analysis over every early exit of each command; what a path with or without trailing slashes and dots names |
| C48 | the readers of options | each option is accepted exactly if it is written as documented, and has that meaning (equivalences) |
| C49 | the commands one after the other on a file system | refinement of each command to the core functions, then C01, C40 and C44; the size of the metadata decides whether encode succeeds; `--force` is allowed as long as the place of the container is not that of the input |
| C50 | calc: options, counts, container size, the limits it prints, its JSON | C15 and C38 for counts and size; repair with an arbitrary set of bad blocks, at most p in each block set, generalises C20; JSON as C42 |
| C51, C52, C53 | no new code: encode, rescue, sort, repair and decode one after the other; the disk is a list of pieces (`S_Lost`) | the scan of C25 lands exactly at the pieces; then C18 for a heap of blocks; for lost blocks the sorted heap is a damaged container, C20 rebuilds it |
| C54 | the command rescue: options, paths, files opened and appended to one buffer at a time, the log written at any moment | invariant over buffers and files written: every place as before or grown; the view of the directory by names refines C25, C26 |
| C55 | no new code: the commands encode, rescue, sort, repair, decode one after the other on any file systems | C46, C49 and C54 reduce the commands to C52 and C53 |
| C56 | no new code: any number of runs of update, damage and repair after encode (`S_History`, an inductive history) | invariant `kept_well`: intact, metadata blocks plain, size and shards recorded; update keeps it (`L_Renew`), repair gives it back (C20) |
| C57 | no new code: the states between two files at the metadata places (`S_Halfway.between`), any subset and order, after any history of C56 | such a state is the container with other well-formed metadata at some places (`L_Halfway`, Section Patched); update on it reads either metadata and makes the same blocks (`new_twice`: the changes are idempotent) |
| C58 | repair with its writes noted down (`M_RepairCut`, shown to be the same run as `M_Repair`), the disk after any number of bytes | the places written are distinct (C10), so cut short each byte is old or new; such a mixture is damage within the same bursts, then C56 |
| C59 | the reports with --json of check, repair, sort, decode and encode (`M_Report`), the exit codes | each message is a key and a value as in C42 (the keys decided by computation, `lit_ok`); the burst error resistance level in use is printed before the numbers (`level_calls`; by check only if it hashes); the numbers are those of C37, C21, C22, C17, C38; bounds on the counters from the length of the file |
| C60 | the commands of C46 on two file systems that differ in one file | a file where there was none changes no path resolution (`walk` looks at directories only) and not the input; opening the output empties it; decode and sort without --multi-pass do not look at the old content |
| C61 | `M_Cli` (`encode_info`), `M_Info`: the branch `--info-only` of `cli_encode.rs`, what it computes and what it prints | the request is the same as that of encode; C49 gives the container, C15 the formula for its length; the JSON as in C42 and C59 |
| C62 | `M_Look`: the commands check and show, their options, exit codes and calls to the JSON printer | the options as in C48; C38 and C49 give the container, C37 what check finds in it, C32 and C42 what is printed |
| C63 | nothing new: `M_Check`, `M_Decode` | C37 (what a matching hash means) gives every chunk at its place, C18 says what decode does with the blocks it meets, C27 that it ends |
| C64 | `M_Progress`: the reporting thread, start/pause/resume/stop, the two mutexes, three flags and two barriers as a transition system; a command is any list of operations, its other threads any lists of updates | an invariant relating where each thread is, the flags and the owners of the mutexes; a potential that every step lowers except waking up; an invariant on the list of reports |
| C65 | `M_Log`: main thread, writer thread and log thread of rescue with the lock of the counters, flag and barriers as a transition system; any write may fail | an invariant on the owner of the lock and the phases of the threads; a potential |
| C66 | `M_RepairList`: repair once more, with the messages it prints | the messages can be read off the states (`told_step`), so the lists follow the invariants of C21; forgetting them gives `M_Repair`; the lists are determined by the specification |
| C67 | `guess_burst`, `repair_file` as before | no block is misplaced for the right level; for each lower level a block of the first set survives that is misplaced: two of its first p+2 blocks survive (`burst_sets`), and for level 0 against 1 one of p+1 places chosen for that; then C29 and C20. With one data shard and a small file refuted (F37). If the data fill the first sets: p+1 places at least B apart, each holding a block misplaced at the lower level (row j, column l-j), of which p bursts spare one (`far_spared`). Refuted beyond (F46): bursts over all but the first blocks looked at (`first_blocks`) |
| C68 | `M_UpdateList`: update once more, with the changes it lists and the report it prints | forgetting the lists gives `M_Update`; the lists are compared with the fields before and after (C24), per identifier; the report as in C42 and C59 |
| C69 | the decode and sort commands (`M_Cli`) run repeatedly on damaged copies (`S_Copies`: the copies, the parts, the histories) | one pass adds the parts its copy holds and keeps the others (`L_Copies`, from C22); induction over the history |
| C70 | the show, check, update and repair commands (`M_Look`, `M_Cli`) on a container with a history (`S_Facts`: what is recorded, and what an update makes of it) | what the commands print of an intact container with known fields (`L_Facts`, from C37, C43, C59); induction over the history as for C56, with all fields |
| C71 | the show command with --show-all and --guess-burst (`M_Show`, `M_Look`) on a container with a history (`S_ShowAll`: where the copies are, what is said of each) | the scan of an intact container stops at every block and, elsewhere, only within blank places, where there is no header (`L_ShowAll`); then C43, C29 and the history of C70 |
| C72 | `FileReader` over a system that hands out pieces or fails (`M_ReadIO`; results in `S_ReadIO`) | the handle with its buffer always stands before a known byte of the file: invariant over any history; induction over the calls of one read |
| C73 | encode, decode, check, sort, show and repair with the flag that Ctrl-C sets (`M_Stop`, `M_StopSort`, `M_StopOut`, `M_StopRepair`; chunks counted in `S_Stop`), and the search for the reference block (`M_StopRef`; looks numbered in `S_StopRef`) | the loop that looks at the flag before each step is the loop whose input ends there (`loop_stop`, a simulation); then C16, C17, C37, C38, C39 for the shorter input. That the outcome is the one of the shorter input: a container is determined by its parameters and data (`container_unique`). Repair: the writes of the stopped run are the first of those of the whole run (`loop_stopped`), each place is written at most once |
| C74 | sort and decode as in C17 and C22 | what a sorted file contains, for any input: each block in it is one chosen from the input (`sa_from`) and each block of the input is there or another of its number is (`sa_to`); the block sort keeps (the last of its number) is the one whose payload decode keeps. A block in the sorted file belongs where it is, so sorting again writes the same bytes |
| C75 | `check_cmd` and `show_cmd` of M_Look on any file | C62 without the assumption that the file is a container: from the reports of C59, the counts of C37 and the lists of C43. To have the position printed be that of the reference block, `c59_check`, `c59_sort` and `c59_decode_to_file` now name the search that finds it |
| C76 | M_Channel: every text decode prints, in order, with the channel it goes to, next to the content; progress reports as a second thread that prints on standard error | filter the trace by channel, by cases along decode_cmd; with C49 for the round trip through a pipe |

## 4. Trusted base

Coq 8.16.1 kernel (including `vm_compute`), the faithfulness of the hand-written model to the cited lines, and the
assumptions listed by `Print Assumptions` under every property theorem: each one prints "Closed under the global context", that is, no
axiom at all (neither of the standard library nor others). `coqchk -o` lists seven names of `Coq.ssr.ssrunder.Under_rel`: these are the
fields of a module type of the standard library loaded with it; no theorem here uses them.

External code is a parameter of the theorems, with what is required of it stated as a hypothesis: the hash functions (any function of the
right output length), the Reed-Solomon codec (any code with the erasure property; C44 shows that the one the crate documents has it), the conversion of seconds to dates (any function), the
order in which a `HashMap` is visited (any permutation), the schedule of the threads (any), the moments of crashes, stops and failing
reads (any, where the property mentions them).

| source (`/repo/src`) | model | not modelled |
|----------------------|-------|--------------|
| `sbx_specs.rs`, `build.rs`, `crc_ccitt.rs`, `header_preds.rs` | `M_Specs`, `M_Crc`, `M_Scan` | |
| `sbx_block/header.rs`, `metadata.rs`, `mod.rs` | `M_Header`, `M_Metadata`, `M_Block`, `M_Index` | |
| `multihash.rs` | `M_Multihash` (text form, encoding, parser) | the hash functions |
| `data_block_buffer/mod.rs` | `M_Buffer`, `M_Encode`, `M_Sort`, `M_Repair` | `active` statistics; use of several threads inside a buffer (rayon), whose tasks are independent |
| `rs_codec/` | `M_Encode`, `M_Repair`; the codec as documented: `M_Codec` | the source of the codec (an external crate, not in `/repo`) |
| `encode_core.rs`, `decode_core.rs`, `sort_core.rs`, `repair_core.rs`, `check_core.rs`, `update_core.rs`, `rescue_core.rs`, `rescue_buffer/`, `show_core.rs` | `M_Encode`, `M_Decode`, `M_Sort`, `M_Repair`, `M_Check`, `M_Update`, `M_Rescue`, `M_Show`; the writes of repair in `M_RepairCut`; stopping encode, decode, check, sort and show with Ctrl-C in `M_Stop`, `M_StopSort`, `M_StopOut` and `M_StopRef`, `M_StopRepair`; reports with --json in `M_Report`, the lists of repair --verbose in `M_RepairList`, those of update in `M_UpdateList`; threads of all pipelines in `M_Pipeline` | texts of reports without --json; fields of statistics no property mentions |
| `sbx_container_content.rs`, `block_utils.rs`, `file_utils.rs`, `integer_utils.rs`, `misc_utils.rs`, `misc_macros.rs` | `M_Content`, `M_Scan`, `M_FileUtils`, `M_Ranges`, `M_Hex`, `M_Loop` | |
| `log.rs` | `M_Rescue` (log text), `M_RescueCmd` (opening and writing the log, its errors; there writes may happen at any moment between two files written), `M_Log` (the thread that writes it) | |
| `json_printer.rs`, `json_utils.rs`, `json_macros.rs` | `M_Json`; the channel for decode in `M_Channel` | |
| `file_reader.rs`, `file_writer.rs`, `reader.rs`, `writer.rs` | `M_FileIO` (buffers, partial and failed writes); in the other models byte lists with positions, which C45 shows to be the same as long as all writes are complete; reading in pieces and with errors in `M_ReadIO` (C72) | errors of seeks, permissions; standard output |
| `cli_macros.rs`, `cli_encode.rs`, `cli_decode.rs`, `cli_sort.rs`, `cli_repair.rs`, `cli_update.rs`, `cli_rescue.rs`, `cli_check.rs`, `cli_show.rs`, `file_utils.rs` (names), `encode_defaults.rs` | `M_Path`, `M_Cli`, `M_Info`, `M_RescueCmd`, `M_Look`: options, names of outputs, checks for existing files, exit codes, on a file system of files and directories | parsing of the command line (clap), symbolic and hard links, files changed by others meanwhile, texts printed |
| `progress_report.rs` | `M_Progress`: threads, locks, flags, counts, percentage and bar | rates, times, the wording of reports |
| other `cli_*.rs`, `bin/`, `rand_utils.rs`, `*_error.rs` | only `cli_show.rs` (`M_Show`), `cli_calc.rs` (`M_Calc`) and the parameters of the commands | the headings of calc without --json, what check and show print if an option is refused or the input cannot be opened, progress bars, random UIDs |

## 5. Findings

Each finding is a theorem named `…_refuted` (a property that is false of the modelled code, with a
machine-checked witness).

- F1 (C07). `Metadata` names longer than 255 bytes are written with a truncated length byte (and empty
  names are dropped by the reader), so metadata the writer accepts is read back wrongly or not at all:
  a name of 256*k bytes makes every field unreadable. `src/sbx_block/metadata.rs`. Exactly when accepted
  metadata reads back: `c07_reads_back_iff`.
- F2 (C15). `calc_container_size` panics when `(data + parity) * burst` is a multiple of 2^32 (division
  by zero after the `as u32` cast) and when the last sequence number is `u32::MAX` (loop counter
  overflow), both reachable with parameters the command line accepts. `src/file_utils.rs:188-222`.
- F3 (C35). The encoder takes a payload shorter than the payload size as the end of the input, and
  `Reader::read` makes at most 5 OS reads per payload. Standard input that arrives in small pieces is
  silently truncated: no error, and the truncated length and hash are recorded. `src/reader.rs:27-55`,
  `src/encode_core.rs:653-704`. Exactly when everything is encoded: `c35_stdin_complete_iff`.
- F4 (C36). Encoding a byte range reads whole payloads until at least the requested length has been read,
  so up to a payload of bytes after the requested end is stored (and recorded in size and hash).
  `src/encode_core.rs:645-704`. Exactly the range is stored iff it is a whole number of payloads or reaches the
  end of the file: `c36_range_exact_iff`.
- F5 (C28). The scanner moves on by a whole block when it sees 16 bytes that parse as a header, even if the
  block then fails its check; a valid block starting inside that stretch, at a multiple of the scan
  alignment, is never looked at. `src/block_utils.rs:34-96`. Exactly which blocks are seen: `c28_scan_finds_iff`.
- F6 (C31). An exclusive end of 0 (`--to-exc 0`) is converted with `n - 1`, which wraps to `u64::MAX` in a release
  build (and panics in a debug build), so the file is scanned to its end, as if no end were given
  (`c31_exclusive_zero`). `src/misc_utils.rs:163-165`.
- F7 (C16). An empty file encoded with error correction and a burst level above 1000 is not decoded by default: the
  level is only guessed up to 1000, and when every level fits the one metadata block sampled equally well the guess is
  an error (`c16_empty_large_burst`: every level from 1001 + parity shards). A container of a file that is not empty is
  decoded whatever its level (`c16_roundtrip`). `src/block_utils.rs:348-420`.
- F8 (C23). Sorting in skip-good mode reads 4096 bytes at the place of a data or parity block to see whether a good one
  is there, and overwrites on a short read. With smaller blocks the good blocks starting in the last 4096 bytes
  of the output are therefore overwritten. `src/data_block_buffer/mod.rs:542-570`.
- F9 (C22). With `--from` beyond the first block, `sort` looks for the metadata blocks relative to the start of the range
  instead of the start of the container, and reports them as being out of order. `src/sort_core.rs:278-307,518-521`.
- F10 (C21). At a metadata place, repair accepts any block of the container: a data block that ended up there is counted as a
  good metadata block and not repaired (at the places of data and parity blocks the number is checked).
  `src/repair_core.rs:360-400`.
- F11 (C39). The content hash of the container of an empty file cannot be computed: the reader looks for data block 1
  before it compares the number of bytes read with the recorded size, and reports an error. `src/sbx_container_content.rs:93-155`.
- F12 (C40). Decoding a range (`--from`, `--to-*`) of a burst-resistant container to standard output reads the blocks in
  file order and takes the places of blocks that the container does not have for lost data: even `--from 0` outputs zeros and
  stops before all data is out, where decoding to a file restores everything. `src/decode_core.rs:1319-1447`.
- F13 (C40). Decoding a Reed-Solomon container whose recorded size is 0 (or missing) to standard output does not stop at
  the end of the file: blocks of zeros are output up to the last sequence number (2^32 - 1). `src/decode_core.rs:1073-1141`.
- F14 (C40). Decoding to standard output from a later block on outputs the padding of the last block: the recorded number of
  data blocks is never reached. `src/decode_core.rs:1397-1434`.
- F15 (C40). When the file ends within a block, the sequential reader outputs the slot just filled without checking it.
  `src/decode_core.rs:1336-1341`.
- F16 (C24). `update --fnm ""` (or any name whose length is a multiple of 256) succeeds and writes metadata blocks of which the
  reader understands nothing (see F1), in all copies: the shard counts are lost and the container cannot be decoded any more.
  `src/cli_update.rs:107-130`, `src/update_core.rs:294-354`.
- F17 (C37). `check --verbose` announces a list of the blocks that failed. A block that failed because it is damaged is counted but
  never listed; only blank blocks are, with `--report-blank`. The position listed is the distance from the start of the range
  checked (`block_pos = bytes_processed`), not a position in the file: with `--from 512` a blank block at byte 512 is listed as at
  byte 0. `c37_messages_refuted`; what is listed is stated by `c37_messages_partial`.
- F18 (C27). `rescue` of an empty file never ends: the length to read is 1 (`misc_utils.rs`, range of an empty file), every read
  gives 0 bytes, and the end of file is not looked at (`src/rescue_core.rs:330-345`). Theorem `c27_rescue_empty_refuted`.
- F19 (C25). When reading fails, the slot handed out for the block is not cancelled (`src/rescue_core.rs:339-342`), so the writer still
  writes it: whatever the buffer held is appended to the file named by the UID of zeros, or, if the error came after the first 128
  bytes, a torn block to the file of its UID. Theorem `c25_read_error_refuted`.
- F20 (C26). The log is truncated and rewritten in place once per second (`src/log.rs:84-99`). A crash in between leaves an empty or
  cut log, and the next run refuses to start (parse error) although resuming would be possible. No position is misread:
  every proper prefix of a log text is refused (`c26_cut_log_refused`). Theorem `c26_resume_always_possible_refuted`.
- F21 (C33). A thread that panics drops its channel ends, but the other threads may already be waiting at the shutdown barrier, which
  is then never completed; `main` joins the reader first, so the process hangs (`c33_panic_may_hang_refuted`; which of hanging and
  panicking happens depends on the schedule). One way to get there is `sort`: when reading a metadata copy fails
  (`src/sort_core.rs:519-533`) the error is sent but the slot with the metadata block is not cancelled, and the writer then panics on
  sequence number 0 in `calc_data_block_write_index` (`src/sbx_block/mod.rs:323`) (`c33_sort_torn_buffer_panics`). A panic is never
  reported as success (`c33_panic_not_success`). When several threads fail, which of their errors is reported is schedule dependent.
- F22 (C41). Values are printed wrongly in JSON (`src/json_utils.rs:3-16`, `src/misc_utils.rs:223-251`, `src/json_macros.rs:1-58`). Indices of
  characters are used as indices of bytes, so a value with non-ASCII characters loses its end or makes the program panic (`show` of a
  container whose name is "ñ" panics). Backslashes and control characters are not escaped: the text is no JSON, or stands for another
  string. Values that parse as `u64` are printed without quotes, which makes a number of a name "123" and no JSON of "007" and "+5"; a file
  named "null" is shown as having no name. Spaces at the ends are dropped, an empty value is printed as a space.
  Theorems `c41_values_refuted`, `c43_names_refuted`.
- F23 (C42, C43). When a command fails inside a nested group only one bracket is closed (`src/cli_macros.rs:12-32`): after a read error
  within "blocks", `show` prints a field inside an array and leaves a bracket open. Theorems `c42_error_in_group_refuted`, `c43_read_error_refuted`.
- F24 (C43). The position of the reference block reported counts from the start of the scan (`src/block_utils.rs`, `get_ref_block` returns
  the bytes read so far without `seek_to`), while "Found at byte" counts from the start of the file. Visible in `c43_show_guess` and `c43_run`.
- F25 (C45). The length returned by `write` is looked at nowhere (`src/encode_core.rs:467`, `src/decode_core.rs:681-714`,
  `src/data_block_buffer/mod.rs:597`, `src/repair_core.rs:265,393`, `src/update_core.rs:335`, `src/log.rs:96`), and encode, decode, repair and
  update write without a buffer: a block of which the system takes only a part (the last one on a disk that fills up) counts as written and
  the command reports success. Theorem `c45_short_write_refuted`.
- F26 (C45). rescue and sort write through a `BufWriter` which is dropped without being flushed (`src/rescue_buffer/mod.rs:114-134`,
  `src/sort_core.rs:359-401`); an error of the last write is lost. On a full disk `rescue` reports success, advances its log past blocks that
  are nowhere, and resuming does not find them again. Theorems `c45_close_refuted`, `c45_sort_close_refuted`.
- F27 (C46). `decode --force` without OUT, run on a container whose recorded name is the container's own name, truncates the container
  before reading it (`src/decode_core.rs:1691-1723`, `FileWriterParam { truncate: true }`), reports success and leaves zeros of the recorded
  size. No command compares its input with its output. Theorem `c46_decode_input_refuted`.
- F28 (C50). `calc` does not compare the size with the maximum (`src/cli_calc.rs:38-53`), and the container size is computed from a block count
  cut to 32 bits (`src/file_utils.rs:199`): for 5325759452000 bytes and default options, which encode refuses, it prints a container of 69632
  bytes and ends with exit code 0. Theorem `c50_too_large_refuted`.
- F29 (C52). `decode` to a file does not need the burst level, but without `--burst` it guesses it and refuses if all levels fit equally badly
  (`src/misc_macros.rs:286-309`): the blocks of a container of 200 bytes (2+1 shards, level 1), all there but in the order metadata, 3, 2, 1 as a rescue
  may find them, are refused; with any level given they decode. Theorem `c52_without_burst_refuted`.
- F30 (C54). The error of writing the log is noticed only when the next buffer is looked for (`src/log.rs:162-173`, `src/rescue_core.rs`); the last write
  happens when the log thread stops, and its error is dropped. `rescue` with a log in a directory that does not exist, on an input that takes less than a
  second, ends with exit code 0 and there is no log. Theorem `c54_log_written_refuted`; written during the run the error is reported (`c54_log_error`).
- F31 (C57). update overwrites the metadata blocks in place, with no copy kept (`src/update_core.rs`, `update_metadata_blocks`). A version without error correction has
  one metadata block: if the machine stops when the disk holds only a part of the new one, no metadata is left; update cannot be run again (exit code 2), and
  decode with an output file named ends with success but writes the file with the padding of its last block. Witness: `c57_torn_block_refuted`.
- F32 (C59). The exit code says only that the command ran to its end. `BLKAR_SPECS.md` (Exit code) promises 2 if an error is detected during operation, but `check`
  ends with 0 if blocks failed the check or the content does not match its hash, `decode` ends with 0 if blocks were lost and the hash of the output is not the
  recorded one, `repair` ends with 0 if blocks could not be repaired (`src/cli_check.rs:105-109`, `src/cli_decode.rs`, `src/cli_repair.rs`). With --json the verdict
  is not printed either (`write_if!(not_json ...)`, `src/check_core.rs:283-304`): a script has to compare the two hashes and counters itself. Theorem `c59_exit_code_refuted`.
- F33 (C61). `encode --info-only` computes the length of the container from the length of the whole file, although `--from-pos`, `--to-inc` and `--to-exc` are accepted beside it
  (`src/cli_encode.rs:136-182`): for a part of a file the length told is wrong. Theorem `c61_range_refuted`. For standard input, the error is reported inside an
  object that is not closed, as in F23: `c61_stdin_json_refuted`.
- F34 (C63). `check --hash` and `decode` read different blocks: check reads each data block at the place where it belongs (`src/sbx_container_content.rs:21-203`), decode
  takes the last block with that number, wherever it is (`src/decode_core.rs`). If the file holds two blocks of the container with the same number and different contents, for
  example because part of another container with the same identifier was appended, check reports a matching hash and decode writes something else. Theorem `c63_doubled_refuted`.
- F35 (C64). `show` calls pause and resume without holding the lock of the counters (`src/show_core.rs:265`, `400`). The reporting thread may have looked at the active flag just before
  (`src/progress_report.rs:163`) and print its report after pause has wiped out the progress text, in the middle of the lines of `show`. check and repair hold the lock and are safe
  (`c64_pause`, `c64_pause_refuted`).
- F36 (C65). The log thread looks at the shutdown flag after it has written the log and before it sleeps (`src/log.rs:124-133`). If the command ends between the two, or before the thread
  looks for the first time, the log is not written again: after a regular end with exit code 0 it is out of date or does not exist. Running rescue again with it appends the blocks of the
  last part a second time. Theorem `c65_newest_refuted`.
- F37 (C67). With one data shard the guess of the burst level can be wrong although the damage is within what the parameters allow for: in a container with one block set, one parity
  shard and burst level 2, a burst that destroys blocks 3 and 4 leaves the blocks 0 and 1, which are also where level 1 would have them, and the lowest level with no mismatch is taken
  (`src/block_utils.rs`, `guess_burst_err_resistance_level`). repair without --burst then writes the missing blocks to the places of level 1 and reports that nothing is beyond repair, but the
  container is not what it was. With --burst 2 it is. Theorem `c67_one_data_shard_refuted`.
- F38 (C67). repair believes --burst without looking at the blocks. With a wrong level it writes over good blocks: an intact container with one data and one parity shard, level 4 and four
  sets, after `repair --burst 1`, has lost its third set for good. Nothing checks that the block which is overwritten is not a good block of the same container. Theorem
  `c67_wrong_burst_refuted`.
- F39 (C68). The JSON printer leaves out the quotes around any value that reads like a number, true, false or null (`src/json_utils.rs`; the same as for show above). In the list of changes of
  update the name null is therefore printed exactly like a name that is removed: two runs that leave different containers print the same. Theorem `c68_null_refuted`.
- F40 (C72). `FileReader::read` calls the system at most five times and then reports the end of the file (`src/file_reader.rs:97-119`: `eof_seen: len_read < buf.len()`), although only a call that
  gives nothing says that. From a file system that hands out small pieces (a network file system, FUSE, a device) a read of 512 bytes may end after five pieces in the middle of the file: encode
  takes this for the end of its input, show and check stop looking for blocks, rescue goes on but is no longer in step with the blocks, all without an error. As F3, but for files. Theorem `c72_small_pieces_refuted`; exactly when: `c72_read_exact`.
- F41 (C73). Ctrl-C during encode only ends the reading of the input (`src/misc_macros.rs:498-519`, `src/encode_core.rs:643`); then the metadata is written, the statistics are printed and the
  program ends as after a success, with exit code 0. What is left is a container of the first payloads, with their size and hash recorded: check --hash approves of it and decode gives the truncated
  file without a complaint. Theorems `c73_encode_refuted`, `c73_part_decodes`, `c73_part_approved`.
- F42 (C73). Ctrl-C during check, or while decode computes the hash of its output, makes it tell the hash of the part seen so far as that of the whole (`src/sbx_container_content.rs:98`,
  `src/decode_core.rs:1550-1676`): an intact container is said to have the wrong hash. The flag is never cleared, so stopping the first half of a check (the blocks) leaves the second half (the hash) with
  nothing, or one chunk. Theorems `c73_check_refuted`, `c73_intact_hash_stopped`.
- F43 (C76). `decode --verbose IN -` (without `--json`) writes a line of text before the content: `report_ref_block_info` prints with `println!` instead of at the channel of the
  printer (`src/cli_utils.rs:296-306`), although the channel has been set to standard error so that standard output is for the content alone (`src/cli_decode.rs:60-95`). What a
  program reading the pipe gets is not the file. Theorem `c76_verbose_refuted`, for every container that decodes; `c76_run` shows the line.
- F44 (C73). Ctrl-C during a decode to standard output only ends the reading (`src/decode_core.rs:1117,1319`); then the program prints its statistics and ends with exit code 0, and the
  size it tells is the recorded size of the whole file (`src/decode_core.rs:1533-1540`), although only the first chunks have been printed. Where no hash is recorded nothing in the report but the
  number of blocks says so. Theorems `c73_stdout_refuted`, `c73_stdout_stopped`.
- F45 (C73). Ctrl-C during the search for the reference block (`src/block_utils.rs:201`). Check, decode, repair, sort and update then end with success and say nothing if nothing
  has been found yet (`src/misc_macros.rs:88-92`), or go on with a data block although the search was for a metadata block first and there is one (with its UID, options and no recorded name,
  size or hash). `show --guess-burst` does not look at the flag again and says "Failed to find reference block" (`src/show_core.rs:141-143`), which may be false. Theorems `c73_search_outcome`,
  `c73_search_other_refuted`, `c73_search_show_refuted`.
- F46 (C67). The guess looks at the first parity + 1002 blocks only (`src/block_utils.rs:342-349`), and the first level + 1 blocks of a container are the same at every higher level. So if
  (parity + 1) * level >= parity + 1002, bursts that repair could deal with may leave just the first few of the blocks looked at, and the level guessed is too low: with one parity shard from
  level 502 on, with two from level 335 on. Theorems `c67_window` (for every such container), `c67_window_refuted`; below that limit the guess is right if the data fill the first sets
  (`c67_guess_large`, `c67_guess_iff`).
- F47 (C73). A repair stopped with Ctrl-C (`src/repair_core.rs:361,414`) ends with exit code 0 and a report in which no block is said to be beyond repair, although blocks not yet looked at are
  as broken as before; only the number of blocks processed, compared with the number there should be, tells. Nothing is lost: no block is torn, and running repair again completes it
  (`c73_repair_stopped`, `c73_repair_exact`, `c73_repair_resumed`). Theorem `c73_repair_refuted`.
