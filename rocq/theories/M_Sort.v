(* Model of src/sort_core.rs: sort_file. Threads are modelled as one loop (M_Loop). I/O errors, progress
   reports and text output are not modelled; the stop flag (Ctrl-C) is, in M_StopSort. *)
From Verif Require Import M_Base M_Specs M_Header M_Multihash M_Metadata M_Block M_Index M_FileUtils
  M_Buffer M_Ranges M_Encode M_Scan M_Loop M_Decode.

(* src/sort_core.rs:37-53: the options shared with decode (dc_force_write is looked at by the command line only,
   before sort_file), and report_blank *)
Record sparam := mkSparam { sp_scan : dparam; sp_report_blank : bool }.
(* src/sort_core.rs:97-116 *)
Record sstats := mkSstats {
  ss_meta : N; ss_data : N; ss_parity : N; ss_failed : N; ss_blank : N; ss_meta_same : N; ss_meta_diff : N }.
(* the counters of the third thread *)
Record ostats := mkOstats { os_data_same : N; os_data_diff : N; os_parity_same : N; os_parity_diff : N }.
Definition no_sstats : sstats := mkSstats 0 0 0 0 0 0 0.
Definition no_ostats : ostats := mkOstats 0 0 0 0.

(* src/sort_core.rs:271-307: metadata positions of the input holding exactly this block; the positions are
   taken from [offset] on *)
Definition check_meta_blocks (f : file) (v : version) (o : dpb) (offset : N) (meta : list N) : N * N :=
  let ps := calc_meta_block_all_write_pos_s v o in
  let same p := eqbl (file_read f (p + offset) (ver_to_block_size v)) meta in
  (countN same ps, countN (fun p => negb (same p)) ps).

(* src/sort_core.rs:334-352: whether to write the metadata block at p *)
Definition meta_do_write (m : option multi_pass) (ref : block) (out : file) (p : N) : bool :=
  match m with
  | None | Some OverwriteAll => true
  | Some SkipGood =>
      let rd := file_read out p (ver_to_block_size (b_version ref)) in
      (lenN rd <? ver_to_block_size (b_version ref)) ||
      match sync_from_buffer block_dummy rd (header_pred_same_ver_uid ref) no_pred with
      | ROk b => negb (b_seq_num b =? 0)
      | _ => true
      end
  end.
(* src/sort_core.rs:309-364 *)
Definition write_meta_blocks (m : option multi_pass) (ref : block) (o : dpb) (meta : list N) (out : file) : file :=
  fold_left (fun w p => if meta_do_write m ref w p then file_write w p meta else w)
            (calc_meta_block_all_write_pos_s (b_version ref) o) out.

(* State of the reader: position, bytes_processed, the metadata block sent to the writer if any, counters *)
Record sstate := mkSstate { so_pos : N; so_bytes : N; so_meta : option (list N); so_stats : sstats }.
(* src/sort_core.rs:501 *)
Definition sort_pre (required_len : N) (st : sstate) : bool := required_len <=? so_bytes st.
(* src/sort_core.rs:503-582 *)
Definition sort_step (c : cfg) (f : file) (ref : block) (seek_to : N) (report_blank : bool) (st : sstate) (s : slot)
  : result (sstate * action * bool) :=
  let read_pos := seek_to + so_bytes st in
  let d := file_read f (so_pos st) (slot_view_len c) in
  let s1 := fill_view c s d in
  let st1 := mkSstate (so_pos st + lenN d) (so_bytes st + lenN d) in
  let t := so_stats st in
  if lenN d <? slot_view_len c then ROk (st1 (so_meta st) t, Cancel s1, true)
  else match sync_from_buffer (s_block s1) (s_buf s1) (header_pred_same_ver_uid ref) no_pred with
       | RPanic => RPanic
       | RErr _ =>
           let blank := buffer_is_blank (s_buf s1) && negb report_blank in
           ROk (st1 (so_meta st)
                  (if blank then mkSstats (ss_meta t) (ss_data t) (ss_parity t) (ss_failed t) (ss_blank t + 1) (ss_meta_same t) (ss_meta_diff t)
                   else mkSstats (ss_meta t) (ss_data t) (ss_parity t) (ss_failed t + 1) (ss_blank t) (ss_meta_same t) (ss_meta_diff t)),
                Cancel s1, false)
       | ROk b =>
           if is_meta b then
             match so_meta st with
             | Some _ => ROk (st1 (so_meta st) (mkSstats (ss_meta t + 1) (ss_data t) (ss_parity t) (ss_failed t) (ss_blank t) (ss_meta_same t) (ss_meta_diff t)),
                              Cancel (with_block s1 b), false)
             | None =>
                 let '(same, diff) := check_meta_blocks f (c_ver c) (c_dpb c) seek_to (s_buf s1) in
                 ROk (st1 (Some (s_buf s1)) (mkSstats (ss_meta t + 1) (ss_data t) (ss_parity t) (ss_failed t) (ss_blank t) same diff),
                      Cancel (with_block s1 b), false)
             end
           else
             let s2 := mkSlot b (s_buf s1) (Some read_pos) (s_wpos s1) (s_clen s1) (s_pad s1) in
             ROk (st1 (so_meta st)
                    (if is_parity_w_dpb b (c_dpb c)
                     then mkSstats (ss_meta t) (ss_data t) (ss_parity t + 1) (ss_failed t) (ss_blank t) (ss_meta_same t) (ss_meta_diff t)
                     else mkSstats (ss_meta t) (ss_data t + 1) (ss_parity t) (ss_failed t) (ss_blank t) (ss_meta_same t) (ss_meta_diff t)),
                  Keep s2, false)
       end.

(* src/sort_core.rs:652-681: one slot; both positions are unwrapped *)
Definition count_order (o : dpb) (read_offset : N) (t : ostats) (s : slot) : result ostats :=
  match s_rpos s, s_wpos s with
  | Some r, Some w =>
      let same := sub64 r read_offset =? w in
      ROk (if is_parity_w_dpb (s_block s) o
           then if same then mkOstats (os_data_same t) (os_data_diff t) (os_parity_same t + 1) (os_parity_diff t)
                else mkOstats (os_data_same t) (os_data_diff t) (os_parity_same t) (os_parity_diff t + 1)
           else if same then mkOstats (os_data_same t + 1) (os_data_diff t) (os_parity_same t) (os_parity_diff t)
                else mkOstats (os_data_same t) (os_data_diff t + 1) (os_parity_same t) (os_parity_diff t))
  | _, _ => RPanic
  end.
(* src/data_block_buffer/mod.rs:262-276,739-749 *)
Definition used_slots (b : dbuf) : list slot :=
  concat (map (fun l => takeN (l_used l) (l_slots l)) (d_lots b)).
(* src/sort_core.rs:606-702: the writer (nothing is written when there is no output file) and the counter *)
Definition sort_consume (c : cfg) (m : option multi_pass) (ref : block) (read_offset : N) (st0 st1 : sstate)
    (w : option file * ostats) (b : dbuf) : result (dbuf * (option file * ostats)) :=
  let out := match so_meta st0, so_meta st1, fst w with
             | None, Some meta, Some out => Some (write_meta_blocks m ref (c_dpb c) meta out)
             | _, _, _ => fst w
             end in
  do! (b', out') <- match out with
                    | Some x => do! (b', x') <- dbuf_write c x b; ROk (b', Some x')
                    | None => do! ls <- rmap (lot_calc_write_pos c) (d_lots b);
                              ROk (mkDbuf ls (d_used b) (d_start b), None)
                    end;
  do! t <- rfold (count_order (c_dpb c) read_offset) (used_slots b') (snd w);
  ROk (b', (out', t)).

(* The reader / writer / counter loop. As M_Loop.buf_loop, but the reader also sends messages to the writer while
   filling a buffer (src/sort_core.rs:502-604). What was sent while filling is read off the reader's states before
   and after; channels are FIFO, so it is dealt with after the earlier buffers and before this one. *)
Fixpoint buf_loop_msg {St W : Type} (c : cfg) (pre : St -> bool) (step : St -> slot -> result (St * action * bool))
    (consume : St -> St -> W -> dbuf -> result (dbuf * W)) (ffuel fuel : nat) (q : list dbuf) (st : St) (w : W)
    : result (St * W) :=
  match fuel with
  | O => RErr OtherError
  | S fuel' =>
      match q with
      | [] => RPanic
      | b :: q' =>
          do! (st1, b1, run) <- fill c pre step ffuel st b;
          do! (b2, w1) <- consume st st1 w b1;
          if run : bool then buf_loop_msg c pre step consume ffuel fuel' (q' ++ [dbuf_reset c b2]) st1 w1
          else ROk (st1, w1)
      end
  end.

(* src/sort_core.rs:468-477 *)
Definition sort_cfg (v : version) (uid : list N) (o : dpb) (skip_good : bool) (cpus : N) : cfg :=
  mkCfg v uid (InBlock Unordered) OutBlock o true skip_good (cpus * LOT_COUNT_PER_CPU) DEC_BUFFERS.
(* src/sort_core.rs:366-709. [old]: None without output file (dry run); else the content of the output file before
   (None if it does not exist), dropped unless in multi-pass mode. Result: counters and output file. *)
Definition sort_file (cpus : N) (p : sparam) (f : file) (old : option (option file))
  : result (sstats * ostats * option file) :=
  let q := sp_scan p in
  do! r <- get_ref_block f (ref_from_pos (dc_ref_from q) (dc_from q)) (dc_ref_to q) (dc_misalign q) (dc_choice q);
  match r with
  | None => RErr OtherError
  | Some (_, ref) =>
      do! o <- get_data_par_burst f (dc_burst q) (guess_from_param (dc_guess q) (dc_from q)) (dc_misalign q) ref;
      let v := b_version ref in
      let start := match old with
                   | None => None
                   | Some x => Some (match dc_multi q, x with Some _, Some y => y | _, _ => [] end)
                   end in
      let '(required_len, seek_to) :=
        calc_required_len_and_seek_to_from_byte_range (dc_from q) (dc_to q) (dc_misalign q) 0
          (Len (lenN f)) (Some (ver_to_block_size v)) in
      let c := sort_cfg v (b_uid ref) o (is_skip_good (dc_multi q)) cpus in
      let fuel := S (S (length f)) in
      do! (st, w) <- buf_loop_msg c (sort_pre required_len) (sort_step c f ref seek_to (sp_report_blank p))
                       (sort_consume c (dc_multi q) ref (seek_to mod ver_to_block_size v)) fuel fuel
                       (dbuf_new_multi c) (mkSstate seek_to 0 None no_sstats) (start, no_ostats);
      ROk (so_stats st, snd w, fst w)
  end.
