(* Model of src/decode_core.rs: decode, hash, decode_file. Threads are modelled as one loop (M_Loop). I/O
   errors, progress reports and text output are not modelled; the stop flag (Ctrl-C) is, in M_Stop. *)
From Verif Require Import M_Base M_Specs M_Header M_Multihash M_Metadata M_Block M_Index M_FileUtils
  M_Buffer M_Ranges M_Encode M_Scan M_Loop.

(* src/decode_core.rs:621-625 *)
Inductive multi_pass := OverwriteAll | SkipGood.
(* src/decode_core.rs:627-643: the parameters that matter. The output is the file named, whose content
   before is given separately, or standard output. *)
Record dparam := mkDparam {
  dc_choice : ref_choice; dc_ref_from : option N; dc_ref_to : option range_end;
  dc_guess : option N; dc_force_write : bool; dc_multi : option multi_pass;
  dc_from : option N; dc_to : option range_end; dc_misalign : bool; dc_burst : option N }.

(* src/decode_core.rs:76-99: counters. To a file only the total number of failures is counted. *)
Record dstats := mkDstats {
  ds_meta : N; ds_data : N; ds_parity : N;
  ds_meta_failed : N; ds_data_failed : N; ds_parity_failed : N; ds_failed : N }.
Definition no_dstats : dstats := mkDstats 0 0 0 0 0 0 0.

(* src/sbx_block/mod.rs:664-695 *)
Definition get_FSZ (b : block) : option N :=
  match block_get_meta b IFSZ with Some (FSZ x) => Some x | _ => None end.
Definition get_HSH (b : block) : option hash_bytes :=
  match block_get_meta b IHSH with Some (HSH h) => Some h | _ => None end.
Definition get_FNM (b : block) : option (list N) :=
  match block_get_meta b IFNM with Some (FNM s) => Some s | _ => None end.

(* src/decode_core.rs:742-749 *)
Definition last_chunk_size (v : version) (fsz : option N) : option N :=
  match fsz with
  | None => None
  | Some n => Some (if n mod ver_to_data_size v =? 0 then ver_to_data_size v else n mod ver_to_data_size v)
  end.

Definition with_block (s : slot) (b : block) : slot :=
  mkSlot b (s_buf s) (s_rpos s) (s_wpos s) (s_clen s) (s_pad s).
Definition with_clen (s : slot) (l : option N) : slot :=
  mkSlot (s_block s) (s_buf s) (s_rpos s) (s_wpos s) l (s_pad s).

(* ---- output to a file: src/decode_core.rs:822-990 ---- *)
(* State of the reader: position, bytes_processed, counters. *)
Record dstate := mkDstate { dt_pos : N; dt_bytes : N; dt_stats : dstats }.
(* src/decode_core.rs:886 *)
Definition dec_pre (required_len : N) (st : dstate) : bool := required_len <=? dt_bytes st.
(* src/decode_core.rs:909-925: counting a block that was read *)
Definition count_block (o : dpb) (b : block) (s : dstats) : dstats :=
  if is_meta b then mkDstats (ds_meta s + 1) (ds_data s) (ds_parity s) (ds_meta_failed s) (ds_data_failed s) (ds_parity_failed s) (ds_failed s)
  else if match o with Some (d, p, _) => is_parity b d p | None => false end
  then mkDstats (ds_meta s) (ds_data s) (ds_parity s + 1) (ds_meta_failed s) (ds_data_failed s) (ds_parity_failed s) (ds_failed s)
  else mkDstats (ds_meta s) (ds_data s + 1) (ds_parity s) (ds_meta_failed s) (ds_data_failed s) (ds_parity_failed s) (ds_failed s).
Definition count_failed (s : dstats) : dstats :=
  mkDstats (ds_meta s) (ds_data s) (ds_parity s) (ds_meta_failed s) (ds_data_failed s) (ds_parity_failed s) (ds_failed s + 1).
(* src/decode_core.rs:888-938 *)
Definition dec_step (c : cfg) (f : file) (ref : block) (st : dstate) (s : slot)
  : result (dstate * action * bool) :=
  let d := file_read f (dt_pos st) (slot_view_len c) in
  let s1 := fill_view c s d in
  let st1 := mkDstate (dt_pos st + lenN d) (dt_bytes st + lenN d) in
  if lenN d <? slot_view_len c then ROk (st1 (dt_stats st), Cancel s1, true)
  else match sync_from_buffer (s_block s1) (s_buf s1) (header_pred_same_ver_uid ref) no_pred with
       | RPanic => RPanic
       | RErr _ => ROk (st1 (count_failed (dt_stats st)), Cancel s1, false)
       | ROk b => ROk (st1 (count_block (c_dpb c) b (dt_stats st)), Keep (with_block s1 b), false)
       end.
(* src/decode_core.rs:34 *)
Definition DEC_BUFFERS : N := 9.
(* src/decode_core.rs:854-863 *)
Definition dec_cfg (v : version) (uid : list N) (o : dpb) (skip_good : bool) (cpus : N) : cfg :=
  mkCfg v uid (InBlock Unordered) OutData o true skip_good (cpus * LOT_COUNT_PER_CPU) DEC_BUFFERS.
Definition is_skip_good (m : option multi_pass) : bool :=
  match m with Some SkipGood => true | _ => false end.
(* [old] is the output file's content after opening (empty when truncated) *)
Definition decode_to_file (cpus : N) (p : dparam) (f : file) (ref : block) (o : dpb) (old : file)
  : result (dstats * file) :=
  let v := b_version ref in
  let '(required_len, seek_to) :=
    calc_required_len_and_seek_to_from_byte_range (dc_from p) (dc_to p) (dc_misalign p) 0
      (Len (lenN f)) (Some (ver_to_block_size v)) in
  let c := dec_cfg v (b_uid ref) o (is_skip_good (dc_multi p)) cpus in
  let fuel := S (S (length f)) in
  do! (st, out) <- buf_loop c (dec_pre required_len) (dec_step c f ref) (consume_write c) fuel fuel
                     (dbuf_new_multi c) (mkDstate seek_to 0 no_dstats) old;
  (* src/decode_core.rs:1502-1511 *)
  ROk (dt_stats st, match get_FSZ ref with Some n => file_set_len out n | None => out end).

(* ---- output to standard output: src/decode_core.rs:991-1494 ---- *)
(* src/decode_core.rs:55-74 *)
Inductive read_pattern := Sequential (o : dpb) | BurstErrorResistant (d p : N).
Definition read_pattern_new (from : option N) (to : option range_end) (o : dpb) : read_pattern :=
  match o with
  | Some (d, p, _) => match from, to with None, None => BurstErrorResistant d p | _, _ => Sequential o end
  | None => Sequential None
  end.
(* src/decode_core.rs:1113-1121,1410-1418: a block of zeros in place of the data block missing *)
Definition blank_slot (c : cfg) (seq : N) (s : slot) : result slot :=
  let b := set_seq_num (set_uid (set_version (s_block s) (c_ver c)) (c_uid c)) seq in
  match sync_to_buffer b None (repN (lenN (s_buf s)) 0) with
  | ROk (b', buf) => ROk (mkSlot b' buf (s_rpos s) (s_wpos s) (s_clen s) (s_pad s))
  | _ => RPanic
  end.
(* State of both readers: sequence number (burst) or block index (sequential), file position and bytes
   processed (sequential), counters *)
Record ostate := mkOstate { ot_cur : N; ot_pos : N; ot_bytes : N; ot_stats : dstats }.
Definition add_meta ok s := if ok : bool
  then mkDstats (ds_meta s + 1) (ds_data s) (ds_parity s) (ds_meta_failed s) (ds_data_failed s) (ds_parity_failed s) (ds_failed s)
  else mkDstats (ds_meta s) (ds_data s) (ds_parity s) (ds_meta_failed s + 1) (ds_data_failed s) (ds_parity_failed s) (ds_failed s).
Definition add_data ok s := if ok : bool
  then mkDstats (ds_meta s) (ds_data s + 1) (ds_parity s) (ds_meta_failed s) (ds_data_failed s) (ds_parity_failed s) (ds_failed s)
  else mkDstats (ds_meta s) (ds_data s) (ds_parity s) (ds_meta_failed s) (ds_data_failed s + 1) (ds_parity_failed s) (ds_failed s).
Definition add_parity ok s := if ok : bool
  then mkDstats (ds_meta s) (ds_data s) (ds_parity s + 1) (ds_meta_failed s) (ds_data_failed s) (ds_parity_failed s) (ds_failed s)
  else mkDstats (ds_meta s) (ds_data s) (ds_parity s) (ds_meta_failed s) (ds_data_failed s) (ds_parity_failed s + 1) (ds_failed s).
(* src/decode_core.rs:1124-1134,1424-1434 *)
Definition last_reached (count : option N) (s : dstats) : bool :=
  match count with Some n => ds_data s + ds_data_failed s =? n | None => false end.
(* what the reader makes of a block: the slot with the parsed block, if it is the one expected.
   When parsing fails the code leaves the Block object in an intermediate state; the only use of it after
   that sets version, UID and sequence number, so the state before is kept here. *)
Definition expect_block (ref : block) (seq : N) (s : slot) : result (slot * bool) :=
  match sync_from_buffer (s_block s) (s_buf s) (header_pred_same_ver_uid ref) no_pred with
  | RPanic => RPanic
  | RErr _ => ROk (s, false)
  | ROk b => ROk (with_block s b, b_seq_num b =? seq)
  end.
(* a data block, found or not: src/decode_core.rs:1102-1134,1397-1434 *)
Definition emit_data (c : cfg) (seq : N) (count last : option N) (st : dstats) (s : slot) (ok : bool)
  : result (dstats * slot * bool) :=
  let st' := add_data ok st in
  do! s' <- (if ok then ROk s else blank_slot c seq s);
  if last_reached count st' then ROk (st', with_clen s' last, true) else ROk (st', s', false).

(* src/decode_core.rs:1073-1141: burst error resistant pattern. u32 sequence numbers. *)
Definition burst_step (c : cfg) (f : file) (ref : block) (data parity : N) (count last : option N)
    (st : ostate) (s : slot) : result (ostate * action * bool) :=
  let seq := ot_cur st in
  let pos := calc_data_block_write_pos (c_ver c) seq None (c_dpb c) in
  let d := file_read f pos (slot_view_len c) in
  let s1 := fill_view c s d in
  do! (s2, ok) <- (if lenN d <? slot_view_len c then ROk (s1, false) else expect_block ref seq s1);
  let is_last := seq =? SBX_LAST_SEQ_NUM in
  let next st' := mkOstate (if is_last then seq else seq + 1) (ot_pos st) (ot_bytes st) st' in
  if seq_num_is_parity seq data parity then
    ROk (next (add_parity ok (ot_stats st)), Cancel s2, is_last)
  else
    do! (st', s3, stop) <- emit_data c seq count last (ot_stats st) s2 ok;
    if stop : bool then ROk (mkOstate seq (ot_pos st) (ot_bytes st) st', Keep s3, true)
    else ROk (next st', Keep s3, is_last).
(* src/decode_core.rs:1319-1447: sequential pattern. Failed metadata blocks are counted as failed parity
   blocks (1453-1455). On end of file the slot just taken is not cancelled. *)
Definition seq_pre (required_len : N) (st : ostate) : bool := required_len <=? ot_bytes st.
Definition seq_step (c : cfg) (f : file) (ref : block) (count last : option N)
    (st : ostate) (s : slot) : result (ostate * action * bool) :=
  let d := file_read f (ot_pos st) (slot_view_len c) in
  let s1 := fill_view c s d in
  let index := ot_cur st in
  let st1 := mkOstate index (ot_pos st + lenN d) (ot_bytes st + lenN d) in
  if lenN d <? slot_view_len c then ROk (st1 (ot_stats st), Keep s1, true)
  else
    let seq := calc_seq_num_at_index index (Some true) (c_dpb c) in
    do! (s2, ok) <- expect_block ref seq s1;
    let is_last := index =? U64_MAX in
    let next := mkOstate (if is_last then index else index + 1) (ot_pos st + lenN d) (ot_bytes st + lenN d) in
    if seq_num_is_meta seq then
      ROk (next (if ok then add_meta true (ot_stats st) else add_parity false (ot_stats st)), Cancel s2, is_last)
    else if seq_num_is_parity_w_data_par_burst seq (c_dpb c) then
      ROk (next (add_parity ok (ot_stats st)), Cancel s2, is_last)
    else
      do! (st', s3, stop) <- emit_data c seq count last (ot_stats st) s2 ok;
      if stop : bool then ROk (st1 st', Keep s3, true) else ROk (next st', Keep s3, is_last).

(* src/decode_core.rs:1078-1087,1275-1284 *)
Definition out_cfg (v : version) (uid : list N) (o : dpb) (cpus : N) : cfg :=
  mkCfg v uid (InBlock OrderedButSomeMayBeMissing) OutData o true false (cpus * LOT_COUNT_PER_CPU) DEC_BUFFERS.
(* src/decode_core.rs:1049-1072: metadata blocks read for the statistics *)
Definition read_metas (f : file) (ref : block) (o : dpb) : result dstats :=
  rfold (fun st pos =>
           let buf := file_read f pos (ver_to_block_size (b_version ref)) in
           if lenN buf <? ver_to_block_size (b_version ref) then ROk (add_meta false st)
           else match sync_from_buffer block_dummy buf (header_pred_same_ver_uid ref) no_pred with
                | RPanic => RPanic
                | ROk _ => ROk (add_meta true st)
                | RErr _ => ROk (add_meta false st)
                end)
        (calc_meta_block_all_write_pos_s (b_version ref) o) no_dstats.
(* Counters, what is written, and what is fed to the hash. [limit] bounds the number of blocks the burst
   pattern visits; the code itself stops only at the recorded number of data blocks or at the last
   sequence number. *)
Definition decode_to_stdout (order : list N -> list N) (cpus : N) (limit : nat) (p : dparam) (f : file)
    (ref : block) (o : dpb) : result (dstats * list N * list N) :=
  let v := b_version ref in
  let '(required_len, seek_to) :=
    calc_required_len_and_seek_to_from_byte_range (dc_from p) (dc_to p) (dc_misalign p) 0
      (Len (lenN f)) (Some (ver_to_block_size v)) in
  let c := out_cfg v (b_uid ref) o cpus in
  let fsz := get_FSZ ref in
  let count := option_map (calc_data_chunk_count v) fsz in
  let last := last_chunk_size v fsz in
  let hashing := match get_HSH ref with Some (t, _) => hash_supported t | None => false end in
  match read_pattern_new (dc_from p) (dc_to p) o with
  | BurstErrorResistant data parity =>
      do! st0 <- read_metas f ref o;
      do! (st, w) <- buf_loop c (fun _ => false) (burst_step c f ref data parity count last)
                       (consume_stdout c hashing) limit limit
                       (dbuf_new_multi c) (mkOstate 1 0 0 st0) ([], []);
      ROk (ot_stats st, snd w, fst w)
  | Sequential o' =>
      do! index <- guess_starting_block_index order f (dc_from p) (dc_misalign p) ref o';
      let fuel := S (S (length f)) in
      do! (st, w) <- buf_loop c (seq_pre required_len) (seq_step c f ref count last)
                       (consume_stdout c hashing) fuel fuel
                       (dbuf_new_multi c) (mkOstate index seek_to 0 no_dstats) ([], []);
      ROk (ot_stats st, snd w, fst w)
  end.

(* ---- src/decode_core.rs:1550-1776 ---- *)
(* Where the output goes, after resolving names: standard output, or a file whose previous content is
   given if it exists. *)
Inductive dtarget := ToStdout | ToFile (old : option file).
(* Result: counters, output bytes (file content or bytes written to standard output), recorded hash,
   computed hash, reported output size *)
Record doutcome := mkDoutcome {
  do_stats : dstats; do_out : list N; do_recorded : option hash_bytes; do_computed : option hash_bytes;
  do_size : N }.
(* src/decode_core.rs:1550-1676: the hash of the output file, if one is recorded and supported *)
Definition hash_output (H : hash_fn) (ref : block) (out : file) : option hash_bytes :=
  match get_HSH ref with
  | Some (t, _) => if hash_supported t then Some (finish_hash H t out) else None
  | None => None
  end.
(* src/decode_core.rs:725-1548,1763-1773 *)
Definition decode (H : hash_fn) (order : list N -> list N) (cpus : N) (limit : nat) (p : dparam)
    (f : file) (ref : block) (target : dtarget) : result doutcome :=
  do! o <- get_data_par_burst f (dc_burst p) (guess_from_param (dc_guess p) (dc_from p)) (dc_misalign p) ref;
  if ver_uses_rs (b_version ref) && is_data ref then RErr IncorrectBlockType
  else match target with
  | ToFile old =>
      let start := match dc_multi p with
                   | None => []
                   | Some _ => match old with Some x => x | None => [] end
                   end in
      do! (st, out) <- decode_to_file cpus p f ref o start;
      ROk (mkDoutcome st out (get_HSH ref) (hash_output H ref out) (lenN out))
  | ToStdout =>
      do! (st, out, hashed) <- decode_to_stdout order cpus limit p f ref o;
      ROk (mkDoutcome st out (get_HSH ref) (hash_output H ref hashed)
             (match get_FSZ ref with Some n => n | None => ds_data st * ver_to_data_size (b_version ref) end))
  end.
(* src/decode_core.rs:1678-1776. Output name resolution is not modelled: the target is given. *)
Definition decode_file (H : hash_fn) (order : list N -> list N) (cpus : N) (limit : nat) (p : dparam)
    (f : file) (target : dtarget) : result doutcome :=
  do! r <- get_ref_block f (ref_from_pos (dc_ref_from p) (dc_from p)) (dc_ref_to p) (dc_misalign p) (dc_choice p);
  match r with
  | None => RErr OtherError
  | Some (_, ref) =>
      let exists_already := match target with ToFile (Some _) => true | _ => false end in
      if negb (dc_force_write p) && match dc_multi p with None => true | _ => false end && exists_already
      then RErr OtherError
      else decode H order cpus limit p f ref target
  end.
