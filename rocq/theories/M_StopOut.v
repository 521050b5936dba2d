(* Decoding to standard output, stopped with Ctrl-C. The flag is as in M_Stop. *)
From Verif Require Import M_Base M_Specs M_Header M_Multihash M_Metadata M_Block M_Index M_FileUtils M_Buffer M_Ranges M_Encode M_Scan M_Loop M_Decode M_Content M_Check M_Hex M_Rescue M_Json M_Show M_Stop.

(* src/decode_core.rs:1049-1072, as read_metas; the loop over the metadata blocks is left in line 1057 *)
Definition read_metas_stop (stop : flag) (f : file) (ref : block) (o : dpb) : result dstats :=
  let ps := calc_meta_block_all_write_pos_s (b_version ref) o in
  rfold (fun st pos =>
           let buf := file_read f pos (ver_to_block_size (b_version ref)) in
           if lenN buf <? ver_to_block_size (b_version ref) then ROk (add_meta false st)
           else match sync_from_buffer block_dummy buf (header_pred_same_ver_uid ref) no_pred with
                | RPanic => RPanic
                | ROk _ => ROk (add_meta true st)
                | RErr _ => ROk (add_meta false st)
                end)
        (match stop with Some k => takeN k ps | None => ps end) no_dstats.
(* src/decode_core.rs:991-1500, as decode_to_stdout: [mstop] while the metadata blocks are read, [stop] in the reader, which looks at the flag
   before each block (lines 1117 and 1319) *)
Definition decode_to_stdout_stop (mstop stop : flag) (order : list N -> list N) (cpus : N) (limit : nat) (p : dparam) (f : file)
    (ref : block) (o : dpb) : result (dstats * list N * list N) :=
  let v := b_version ref in
  let '(required_len, seek_to) :=
    calc_required_len_and_seek_to_from_byte_range (dc_from p) (dc_to p) (dc_misalign p) 0
      (Len (lenN f)) (Some (ver_to_block_size v)) in
  let c := out_cfg v (b_uid ref) o cpus in
  let fsz := get_FSZ ref in
  let count := option_map (calc_data_chunk_count v) fsz in
  let last := last_chunk_size v fsz in
  let hashing := match get_HSH ref with Some (t, _) => hash_supported t | None => false end in
  match read_pattern_new (dc_from p) (dc_to p) o with
  | BurstErrorResistant data parity =>
      do! st0 <- read_metas_stop mstop f ref o;
      do! (st, w) <- buf_loop c (stop_pre stop (fun _ => false)) (stop_step (burst_step c f ref data parity count last))
                       (consume_stdout c hashing) limit limit
                       (dbuf_new_multi c) (0, mkOstate 1 0 0 st0) ([], []);
      ROk (ot_stats (snd st), snd w, fst w)
  | Sequential o' =>
      do! index <- guess_starting_block_index order f (dc_from p) (dc_misalign p) ref o';
      let fuel := S (S (length f)) in
      do! (st, w) <- buf_loop c (stop_pre stop (seq_pre required_len)) (stop_step (seq_step c f ref count last))
                       (consume_stdout c hashing) fuel fuel
                       (dbuf_new_multi c) (0, mkOstate index seek_to 0 no_dstats) ([], []);
      ROk (ot_stats (snd st), snd w, fst w)
  end.
(* src/decode_core.rs:1502-1548,1678-1776 to standard output: what comes after the reading does not look at the flag. The size told is the
   recorded one, if there is one *)
Definition decode_stdout_stop (mstop stop : flag) (H : hash_fn) (order : list N -> list N) (cpus : N) (limit : nat) (p : dparam) (f : file) : result doutcome :=
  do! r <- get_ref_block f (ref_from_pos (dc_ref_from p) (dc_from p)) (dc_ref_to p) (dc_misalign p) (dc_choice p);
  match r with
  | None => RErr OtherError
  | Some (_, ref) =>
      do! o <- get_data_par_burst f (dc_burst p) (guess_from_param (dc_guess p) (dc_from p)) (dc_misalign p) ref;
      if ver_uses_rs (b_version ref) && is_data ref then RErr IncorrectBlockType
      else
        do! (st, out, hashed) <- decode_to_stdout_stop mstop stop order cpus limit p f ref o;
        ROk (mkDoutcome st out (get_HSH ref) (hash_output H ref hashed)
               (match get_FSZ ref with Some n => n | None => ds_data st * ver_to_data_size (b_version ref) end))
  end.
