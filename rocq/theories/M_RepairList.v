(* Model of what repair tells with --verbose: src/repair_core.rs:240-270,351-463 and src/rs_codec/repairer.rs:26-95,262-354.
   The functions are those of M_Repair with, in addition, the list of the messages; with --json the messages are the entries of two
   arrays (src/repair_core.rs:374-384, src/rs_codec/repairer.rs:45-94). *)
From Coq Require Import String.
From Verif Require Import M_Base M_Specs M_Header M_Metadata M_Block M_Index M_FileUtils M_Buffer M_Ranges M_Scan M_Decode M_Repair M_Rescue M_Json M_Show M_Report.

(* src/rs_codec/repairer.rs:26-35: a message about a set: whether it could be repaired, first and last number, number and position of every
   missing block *)
Record set_msg := mkSetMsg { sm_ok : bool; sm_first : N; sm_last : N; sm_blocks : list (N * N) }.

(* src/repair_core.rs:360-400, with the messages: positions of metadata blocks replaced *)
Definition repair_meta_told (dry : bool) (hp : header -> bool) (x : file * block * list N * pstats * list N) (p : N)
  : result (file * block * list N * pstats * list N) :=
  let '(w, ref, buffer, t, told) := x in
  let bs := ver_to_block_size (b_version ref) in
  let d := file_read w p bs in
  let buffer1 := put_at buffer 0 d in
  do! broken <- (if lenN d <? bs then ROk true
                 else match sync_from_buffer block_dummy buffer1 hp no_pred with
                      | ROk _ => ROk false
                      | RErr _ => ROk true
                      | RPanic => RPanic
                      end);
  if broken : bool then
    do! (ref1, buffer2) <- unwrap (sync_to_buffer ref None buffer1);
    ROk (if dry then w else file_write w p (takeN bs buffer2), ref1, buffer2,
         mkPstats (ps_meta t) (ps_data t) (ps_failed t + 1) (ps_meta_rep t + 1) (ps_data_rep t) (ps_data_fail t), told ++ [p])
  else ROk (w, ref, buffer1,
            mkPstats (ps_meta t + 1) (ps_data t) (ps_failed t) (ps_meta_rep t) (ps_data_rep t) (ps_data_fail t), told).

(* src/rs_codec/repairer.rs:63-84: i is the place in the set *)
Fixpoint missing_list (v : version) (o : dpb) (first i : N) (present : list bool) : list (N * N) :=
  match present with
  | [] => []
  | pr :: present' =>
      (if pr : bool then [] else [(first + i, calc_data_block_write_index (first + i) None o * ver_to_block_size v)]) ++
      missing_list v o first (i + 1) present'
  end.
(* src/repair_core.rs:240-270, with the messages (src/rs_codec/repairer.rs:43,341-353) *)
Definition repair_set_told (rc : recon) (dry : bool) (d p B seq : N) (x : file * repairer * pstats * list set_msg)
  : result (file * repairer * pstats * list set_msg) :=
  let '(w, R, t, told) := x in
  do! (r, R') <- repair_with_block_sync rc d p B seq R;
  let '(ok, missing, blocks) := r in
  let t' := if ok : bool
            then mkPstats (ps_meta t) (ps_data t) (ps_failed t) (ps_meta_rep t) (ps_data_rep t + missing) (ps_data_fail t)
            else mkPstats (ps_meta t) (ps_data t) (ps_failed t) (ps_meta_rep t) (ps_data_rep t) (ps_data_fail t + missing) in
  let first := (seq - SBX_FIRST_DATA_SEQ_NUM) / (d + p) * (d + p) + 1 in
  let msg := mkSetMsg ok first (first + lenN (rr_present R') - 1)
               (missing_list (b_version (rr_ref R')) (Some (d, p, B)) first 0 (rr_present R')) in
  ROk (if dry then w else fold_left (fun w b => file_write w (fst b) (snd b)) blocks w, R', t',
       if 0 <? missing then told ++ [msg] else told).
(* src/repair_core.rs:411-451, one iteration after the test at its head *)
Definition repair_step_told (rc : recon) (dry : bool) (v : version) (hp : header -> bool) (d p B seq : N)
    (x : file * repairer * pstats * list set_msg) : result (file * repairer * pstats * list set_msg) :=
  let '(w, R, t, told) := x in
  do! _ <- rassert (negb (rr_index R =? d + p));
  let dt := file_read w (calc_data_block_write_pos v seq None (Some (d, p, B))) (ver_to_block_size v) in
  do! (R1, t1) <- update_codec v hp seq dt R t;
  if rr_index R1 =? d + p then repair_set_told rc dry d p B seq (w, R1, t1, told) else ROk (w, R1, t1, told).
Fixpoint repair_loop_told (fuel : nat) (rc : recon) (dry : bool) (v : version) (hp : header -> bool) (d p B total seq : N)
    (x : file * repairer * pstats * list set_msg) : result (file * repairer * pstats * list set_msg) :=
  match fuel with
  | O => RErr OtherError
  | S fuel' =>
      if total <=? ps_so_far (snd (fst x)) then ROk x
      else do! x' <- repair_step_told rc dry v hp d p B seq x;
           if seq =? SBX_LAST_SEQ_NUM then ROk x' else repair_loop_told fuel' rc dry v hp d p B total (seq + 1) x'
  end.

(* src/repair_core.rs:272-463. Result: counters, the file afterwards, the positions of replaced metadata blocks, the messages about sets. *)
Definition repair_told (rc : recon) (dry : bool) (burst : option N) (f : file) : result (option (pstats * file * list N * list set_msg)) :=
  do! r <- get_ref_block f None None false (MustBe TMeta);
  match r with
  | None => RErr OtherError
  | Some (_, ref) =>
      let v := b_version ref in
      if negb (ver_uses_rs v) then ROk None
      else
        do! o <- get_data_par_burst f burst None false ref;
        match o with
        | None => RPanic
        | Some (d, p, B) =>
            let total := match get_FSZ ref with
                         | Some x => calc_total_block_count_exc_burst_gaps v None o x
                         | None => lenN f / ver_to_block_size v
                         end in
            let hp := header_pred_same_ver_uid ref in
            let R := repairer_new ref d p in
            do! (ref1, buffer) <- unwrap (sync_to_buffer ref None (repN SBX_LARGEST_BLOCK_SIZE 0));
            do! x <- rfold (repair_meta_told dry hp) (calc_meta_block_all_write_pos_s v o) (f, ref1, buffer, no_pstats, []);
            let '(w, _, _, t, metas) := x in
            do! x <- repair_loop_told (S (N.to_nat (total - ps_so_far t))) rc dry v hp d p B total SBX_FIRST_DATA_SEQ_NUM (w, R, t, []);
            let '(w', _, t', sets) := x in
            ROk (Some (t', w', metas, sets))
        end
  end.

(* src/repair_core.rs:374-384 *)
Definition meta_msg_calls (p : N) : list call :=
  [Open None Curly; Field false (str "seq num : 0"); Field false (str "pos : " ++ dec p); Close].
(* src/rs_codec/repairer.rs:45-94; a message is printed only if blocks are missing (src/repair_core.rs:256-259) *)
Definition block_msg_calls (x : N * N) : list call :=
  [Open None Curly; Field false (str "seq num : " ++ dec (fst x)); Field false (str "pos : " ++ dec (snd x)); Close].
Definition set_msg_calls (x : set_msg) : list call :=
  [Open None Curly; Field false (str "success : " ++ if sm_ok x then str "true" else str "false");
   Field false (str "block set start : " ++ dec (sm_first x)); Field false (str "block set end inclusive : " ++ dec (sm_last x));
   Open (Some (str "blocks")) Square] ++ flat_map block_msg_calls (sm_blocks x) ++ [Close; Close].
(* src/cli_repair.rs:37-88, src/repair_core.rs:272-463, src/misc_macros.rs:74-106, with --json --verbose: calls, exit code *)
Definition repair_report_verbose (rc : recon) (dry : bool) (burst : option N) (f : file) (t : Z) (etext : list N) : result (list call * N) :=
  do! r <- get_ref_block f None None false (MustBe TMeta);
  match r with
  | None => ROk (command_calls [] (Some (str "Error : Failed to find reference block")), 2)
  | Some (pos, ref) =>
      let info := report_ref_block_info pos ref ++ level_calls (get_data_par_burst f burst None false ref) in
      match repair_told rc dry burst f with
      | RPanic => RPanic
      | RErr _ => ROk (command_calls info (Some etext), 2)
      | ROk None => ROk (command_calls info None, 0)
      | ROk (Some (s, _, metas, sets)) =>
          ROk (command_calls (info ++ [Open (Some (str "metadata repairs")) Square] ++ flat_map meta_msg_calls metas ++ [Close] ++
                              [Open (Some (str "data repairs")) Square] ++ flat_map set_msg_calls sets ++ [Close] ++
                              repair_stats_calls (b_version ref) s t) None, 0)
      end
  end.
