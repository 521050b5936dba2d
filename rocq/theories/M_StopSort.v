(* Ctrl-C during sort (see M_Stop). *)
From Verif Require Import M_Base M_Specs M_Header M_Multihash M_Metadata M_Block M_Index M_FileUtils
  M_Buffer M_Ranges M_Encode M_Scan M_Loop M_Decode M_Stop M_Sort.

(* src/sort_core.rs:366-709 with the look at the flag at src/sort_core.rs:491, before the one at the number of bytes; otherwise as
   M_Sort.sort_file. Looking for the reference block is not interrupted here. *)
Definition sort_file_stop (stop : flag) (cpus : N) (p : sparam) (f : file) (old : option (option file))
  : result (sstats * ostats * option file) :=
  let q := sp_scan p in
  do! r <- get_ref_block f (ref_from_pos (dc_ref_from q) (dc_from q)) (dc_ref_to q) (dc_misalign q) (dc_choice q);
  match r with
  | None => RErr OtherError
  | Some (_, ref) =>
      do! o <- get_data_par_burst f (dc_burst q) (guess_from_param (dc_guess q) (dc_from q)) (dc_misalign q) ref;
      let v := b_version ref in
      let start := match old with
                   | None => None
                   | Some x => Some (match dc_multi q, x with Some _, Some y => y | _, _ => [] end)
                   end in
      let '(required_len, seek_to) :=
        calc_required_len_and_seek_to_from_byte_range (dc_from q) (dc_to q) (dc_misalign q) 0
          (Len (lenN f)) (Some (ver_to_block_size v)) in
      let c := sort_cfg v (b_uid ref) o (is_skip_good (dc_multi q)) cpus in
      let fuel := S (S (length f)) in
      do! (st, w) <- buf_loop_msg c (stop_pre stop (sort_pre required_len)) (stop_step (sort_step c f ref seek_to (sp_report_blank p)))
                       (fun st st1 => sort_consume c (dc_multi q) ref (seek_to mod ver_to_block_size v) (snd st) (snd st1)) fuel fuel
                       (dbuf_new_multi c) (0, mkSstate seek_to 0 None no_sstats) (start, no_ostats);
      ROk (so_stats (snd st), snd w, fst w)
  end.
