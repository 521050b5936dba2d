(* Ctrl-C, src/cli_utils.rs:328-345: the handler sets a flag, which is never cleared and at which encode, decode, check and show look before
   each step. [Some k]: from the look number k on (from 0) the flag is seen set; [None]: it never is. The number of a look counts within
   one loop; a loop that starts after the flag was set has [Some 0]. Looking for the reference block is not interrupted here (see M_StopRef.v). *)
From Verif Require Import M_Base M_Specs M_Header M_Multihash M_Metadata M_Block M_Index M_FileUtils M_Buffer M_Ranges M_Encode M_Scan M_Loop M_Decode M_Content M_Check M_Hex M_Rescue M_Json M_Show.

Definition flag := option N.
Definition raised (stop : flag) (i : N) : bool := match stop with Some k => k <=? i | None => false end.

(* stop_run_if_atomic_bool!, src/misc_macros.rs:509-519: looked at before each slot. The state is extended by the number of looks. *)
Definition stop_pre {St : Type} (stop : flag) (pre : St -> bool) (x : N * St) : bool := raised stop (fst x) || pre (snd x).
Definition stop_step {St : Type} (step : St -> slot -> result (St * action * bool)) (x : N * St) (s : slot) : result (N * St * action * bool) :=
  do! (st, a, b) <- step (snd x) s; ROk ((fst x + 1, st), a, b).

(* src/encode_core.rs:636-762, as enc_loop; the flag is looked at in line 643 *)
Fixpoint enc_loop_stop (stop : flag) (c : cfg) (rs : codec) (required_len : option N) (last_seq : N) (ffuel fuel : nat)
    (q : list dbuf) (st : N * estate) (stats : estats) (f : file) : result (estate * estats * file) :=
  match fuel with
  | O => RErr OtherError
  | S fuel' =>
      match q with
      | [] => RPanic
      | b :: q' =>
          do! (st1, b1, run) <- fill c (stop_pre stop (enc_pre required_len)) (stop_step (enc_step c last_seq)) ffuel st b;
          do! (b2, stats1) <- enc_encode c rs stats b1;
          do! (b3, f1) <- dbuf_write c f b2;
          if run : bool then
            enc_loop_stop stop c rs required_len last_seq ffuel fuel' (q' ++ [dbuf_reset c b3]) st1 stats1 f1
          else ROk (snd st1, stats1, f1)
      end
  end.
(* src/encode_core.rs:477-814, as encode_file: what comes after the loop does not look at the flag *)
Definition encode_file_stop (stop : flag) (H : hash_fn) (rs : codec) (cpus : N) (p : eparam) (input : source) : result eoutcome :=
  let '(required_len, src) :=
    match input with
    | SrcFile content =>
        let '(len, seek_to) :=
          calc_required_len_and_seek_to_from_byte_range (e_from p) (e_to p) true 0
            (Len (lenN content)) None in
        (Some len, SrcFile (dropN seek_to content))
    | SrcStdin _ => (None, input)
    end in
  do! max <- ver_to_max_data_file_size (e_ver p) (e_dpb p);
  let no_stats := mkEstats 0 0 0 0 in
  if match required_len with Some r => max <? r | None => false end
  then ROk (mkEoutcome [] true no_stats None 0)
  else
    if negb (hash_supported (e_hash p)) then RPanic else
    match (if meta_on p then write_meta_blocks H p required_len None [] else ROk []) with
    | RPanic => RPanic
    | RErr _ => ROk (mkEoutcome [] true no_stats None 0)
    | ROk f0 =>
        let stats0 := if meta_on p
                      then mkEstats (lenN (calc_meta_block_all_write_pos_s (e_ver p) (e_dpb p))) 0 0 0
                      else no_stats in
        do! last_seq <- ver_to_last_data_seq_num_exc_parity (e_ver p) (e_dpb p);
        let c := enc_cfg p cpus in
        let fuel := S (S (source_size src)) in
        do! (st, stats, f1) <- enc_loop_stop stop c rs required_len last_seq fuel fuel (dbuf_new_multi c)
                                 (0, mkEstate src 0 0 false [] false) stats0 f0;
        if es_err st then ROk (mkEoutcome f1 true stats None 0)
        else
          let n := data_bytes_encoded (e_ver p) stats in
          let size := calc_container_size (e_ver p) (Some (meta_on p)) (e_dpb p) n in
          if meta_on p then
            let h := finish_hash H (e_hash p) (es_hashed st) in
            match write_meta_blocks H p (Some n) (Some h) f1 with
            | RPanic => RPanic
            | RErr _ => ROk (mkEoutcome f1 true stats None 0)
            | ROk f2 => do! size <- size; ROk (mkEoutcome f2 false stats (Some h) size)
            end
          else do! size <- size; ROk (mkEoutcome f1 false stats None size)
    end.

(* src/decode_core.rs:822-990,1502-1511, as decode_to_file; the flag is looked at in line 890 *)
Definition decode_to_file_stop (stop : flag) (cpus : N) (p : dparam) (f : file) (ref : block) (o : dpb) (old : file) : result (dstats * file) :=
  let v := b_version ref in
  let '(required_len, seek_to) :=
    calc_required_len_and_seek_to_from_byte_range (dc_from p) (dc_to p) (dc_misalign p) 0
      (Len (lenN f)) (Some (ver_to_block_size v)) in
  let c := dec_cfg v (b_uid ref) o (is_skip_good (dc_multi p)) cpus in
  let fuel := S (S (length f)) in
  do! (st, out) <- buf_loop c (stop_pre stop (dec_pre required_len)) (stop_step (dec_step c f ref)) (consume_write c) fuel fuel
                     (dbuf_new_multi c) (0, mkDstate seek_to 0 no_dstats) old;
  ROk (dt_stats (snd st), match get_FSZ ref with Some n => file_set_len out n | None => out end).
(* src/decode_core.rs:37,1618-1642: the output is hashed in pieces; the flag is looked at before each *)
Definition HASH_FILE_BUFFER_SIZE : N := 204800.
Definition hash_output_stop (stop : flag) (H : hash_fn) (ref : block) (out : file) : option hash_bytes :=
  hash_output H ref (match stop with Some k => takeN (k * HASH_FILE_BUFFER_SIZE) out | None => out end).
(* src/decode_core.rs:1678-1776 to a file: [stop] while decoding, [hstop] while hashing the output *)
Definition decode_file_stop (stop hstop : flag) (H : hash_fn) (cpus : N) (p : dparam) (f : file) (old : option file) : result doutcome :=
  do! r <- get_ref_block f (ref_from_pos (dc_ref_from p) (dc_from p)) (dc_ref_to p) (dc_misalign p) (dc_choice p);
  match r with
  | None => RErr OtherError
  | Some (_, ref) =>
      if negb (dc_force_write p) && match dc_multi p with None => true | _ => false end && match old with Some _ => true | None => false end
      then RErr OtherError
      else
        do! o <- get_data_par_burst f (dc_burst p) (guess_from_param (dc_guess p) (dc_from p)) (dc_misalign p) ref;
        if ver_uses_rs (b_version ref) && is_data ref then RErr IncorrectBlockType
        else
          let start := match dc_multi p with
                       | None => []
                       | Some _ => match old with Some x => x | None => [] end
                       end in
          do! (st, out) <- decode_to_file_stop stop cpus p f ref o start;
          ROk (mkDoutcome st out (get_HSH ref) (hash_output_stop hstop H ref out) (lenN out))
  end.

(* src/check_core.rs:350-411, as check_loop; the flag is looked at in line 367. [i]: number of the look *)
Fixpoint check_loop_stop (stop : flag) (i : N) (n : nat) (p : cparam) (ref : block) (f : file) (required_len seek_to bytes : N) (s : cstats) (ps : list N)
  : result (cstats * list N) :=
  match n with
  | O => RPanic
  | S n' =>
      if raised stop i then ROk (s, ps)
      else if required_len <=? bytes then ROk (s, ps)
      else
        let bs := ver_to_block_size (b_version ref) in
        let d := file_read f (seek_to + bytes) bs in
        let bytes' := bytes + lenN d in
        if lenN d <? bs then ROk (s, ps)
        else match sync_from_buffer block_dummy d (header_pred_same_ver_uid ref) no_pred with
             | RPanic => RPanic
             | ROk b =>
                 check_loop_stop stop (i + 1) n' p ref f required_len seek_to bytes'
                   (if is_meta b then mkCstats (ck_meta s + 1) (ck_data s) (ck_failed s) (ck_blank s)
                    else mkCstats (ck_meta s) (ck_data s + 1) (ck_failed s) (ck_blank s)) ps
             | RErr _ =>
                 if buffer_is_blank d then
                   if cp_report_blank p then
                     check_loop_stop stop (i + 1) n' p ref f required_len seek_to bytes' (mkCstats (ck_meta s) (ck_data s) (ck_failed s + 1) (ck_blank s))
                       (if cp_verbose p then ps ++ [bytes] else ps)
                   else
                     check_loop_stop stop (i + 1) n' p ref f required_len seek_to bytes' (mkCstats (ck_meta s) (ck_data s) (ck_failed s) (ck_blank s + 1)) ps
                 else
                   check_loop_stop stop (i + 1) n' p ref f required_len seek_to bytes' (mkCstats (ck_meta s) (ck_data s) (ck_failed s + 1) (ck_blank s)) ps
             end
  end.
(* src/sbx_container_content.rs:21-203, as content_bytes; the flag is looked at in line 98 *)
Definition content_bytes_stop (stop : flag) (cpus : N) (f : file) (o : dpb) (total : N) (ref : block) : result (list N) :=
  let c := hash_cfg (b_version ref) o cpus in
  let fuel := hash_fuel (b_version ref) o total in
  do! (st, w) <- buf_loop c (stop_pre stop (fun _ => false)) (stop_step (hash_step c f ref total)) (consume_hash c) fuel fuel (dbuf_new_multi c) (0, mkHstate 1 0 false) [];
  if hs_err (snd st) then RErr OtherError else ROk w.
(* src/check_core.rs:430-547, as check_file: [stop] while the blocks are checked, [hstop] while the content is hashed *)
Definition check_file_stop (stop hstop : flag) (H : hash_fn) (cpus : N) (p : cparam) (f : file) : result coutcome :=
  do! r <- get_ref_block f (ref_from_pos (cp_ref_from p) (cp_from p)) (cp_ref_to p) (cp_misalign p) (cp_choice p);
  match r with
  | None => RErr OtherError
  | Some (_, ref) =>
      let '(required_len, seek_to) :=
        calc_required_len_and_seek_to_from_byte_range (cp_from p) (cp_to p) (cp_misalign p) 0 (Len (lenN f))
          (Some (ver_to_block_size (b_version ref))) in
      let do_check := match cp_hash p with HashOnly => false | _ => true end in
      let do_hash := match cp_hash p with NoHash => false | _ => true end in
      do! hs <- (if do_hash then do! x <- check_hash_setup ref; ROk (Some x) else ROk None);
      do! ck <- (if do_check then do! x <- check_loop_stop stop 0 (S (S (length f))) p ref f required_len seek_to 0 no_cstats []; ROk (Some x) else ROk None);
      match hs with
      | None => ROk (mkCoutcome ck None)
      | Some (total, h) =>
          match (do! o <- get_data_par_burst f (cp_burst p) (guess_from_param (cp_guess p) (cp_from p)) (cp_misalign p) ref;
                 do! w <- content_bytes_stop hstop cpus f o total ref; ROk (finish_hash H (fst h) w)) with
          | RPanic => RPanic
          | x => ROk (mkCoutcome ck (Some (h, x)))
          end
      end
  end.

(* src/show_core.rs:239-408, as show_loop without read errors; the flag is looked at in line 240 *)
Fixpoint show_loop_stop (stop : flag) (i : N) (fuel : nat) (cal : calendar) (p : sparam) (f : file) (seek_to required_len bytes count : N) : result (list call) :=
  match fuel with
  | O => RErr OtherError
  | S fuel' =>
      if raised stop i then ROk []
      else if required_len <=? bytes then ROk []
      else
        do! r <- read_block_lazily f (seek_to + bytes);
        let bytes' := bytes + lz_len r in
        if lz_eof r then ROk []
        else match lz_block r with
             | None => show_loop_stop stop (i + 1) fuel' cal p f seek_to required_len bytes' count
             | Some b =>
                 if is_meta b && uid_wanted p b then
                   if sp_all p then
                     do! cs <- show_loop_stop stop (i + 1) fuel' cal p f seek_to required_len bytes' (count + 1);
                     ROk (show_block cal count (bytes + seek_to) b ++ cs)
                   else ROk (show_block cal count (bytes + seek_to) b)
                 else show_loop_stop stop (i + 1) fuel' cal p f seek_to required_len bytes' count
             end
  end.
