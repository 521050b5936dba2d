(* Model of a run of repair that is cut short: the writes of src/repair_core.rs in their order, and what is on the disk when the machine stops.
   The functions are those of M_Repair with the writes noted down; L_RepairCut shows that nothing else is different. *)
From Coq Require Import String Ascii.
From Verif Require Import M_Base M_Specs M_Header M_Metadata M_Block M_Index M_FileUtils M_Buffer M_Ranges M_Scan M_Decode M_Repair M_Path M_Cli.

(* the file as the process sees it, and the writes made so far: position and bytes *)
Definition journal := list (N * list N).
Definition noted := (file * journal)%type.
Definition note_write (j : noted) (pos : N) (d : list N) : noted := (file_write (fst j) pos d, snd j ++ [(pos, d)]).
(* The file on the disk if the machine stops when [k] bytes have been written. *)
Fixpoint disk_after (k : N) (f : file) (js : journal) : file :=
  match js with
  | [] => f
  | (pos, d) :: js' => disk_after (k - lenN d) (file_write f pos (takeN k d)) js'
  end.

(* src/repair_core.rs:360-400 *)
Definition repair_meta_step_noted (dry : bool) (hp : header -> bool) (x : noted * block * list N * pstats) (p : N)
  : result (noted * block * list N * pstats) :=
  let '(j, ref, buffer, t) := x in
  let bs := ver_to_block_size (b_version ref) in
  let d := file_read (fst j) p bs in
  let buffer1 := put_at buffer 0 d in
  do! broken <- (if lenN d <? bs then ROk true
                 else match sync_from_buffer block_dummy buffer1 hp no_pred with
                      | ROk _ => ROk false
                      | RErr _ => ROk true
                      | RPanic => RPanic
                      end);
  if broken : bool then
    do! (ref1, buffer2) <- unwrap (sync_to_buffer ref None buffer1);
    ROk (if dry then j else note_write j p (takeN bs buffer2), ref1, buffer2,
         mkPstats (ps_meta t) (ps_data t) (ps_failed t + 1) (ps_meta_rep t + 1) (ps_data_rep t) (ps_data_fail t))
  else ROk (j, ref, buffer1,
            mkPstats (ps_meta t + 1) (ps_data t) (ps_failed t) (ps_meta_rep t) (ps_data_rep t) (ps_data_fail t)).
(* src/repair_core.rs:240-270 *)
Definition repair_set_noted (rc : recon) (dry : bool) (d p B seq : N) (x : noted * repairer * pstats)
  : result (noted * repairer * pstats) :=
  let '(j, R, t) := x in
  do! (r, R') <- repair_with_block_sync rc d p B seq R;
  let '(ok, missing, blocks) := r in
  let t' := if ok : bool
            then mkPstats (ps_meta t) (ps_data t) (ps_failed t) (ps_meta_rep t) (ps_data_rep t + missing) (ps_data_fail t)
            else mkPstats (ps_meta t) (ps_data t) (ps_failed t) (ps_meta_rep t) (ps_data_rep t) (ps_data_fail t + missing) in
  ROk (if dry then j else fold_left (fun j b => note_write j (fst b) (snd b)) blocks j, R', t').
(* src/repair_core.rs:411-451 *)
Definition repair_step_noted (rc : recon) (dry : bool) (v : version) (hp : header -> bool) (d p B seq : N)
    (x : noted * repairer * pstats) : result (noted * repairer * pstats) :=
  let '(j, R, t) := x in
  do! _ <- rassert (negb (rr_index R =? d + p));
  let dt := file_read (fst j) (calc_data_block_write_pos v seq None (Some (d, p, B))) (ver_to_block_size v) in
  do! (R1, t1) <- update_codec v hp seq dt R t;
  if rr_index R1 =? d + p then repair_set_noted rc dry d p B seq (j, R1, t1) else ROk (j, R1, t1).
Fixpoint repair_loop_noted (fuel : nat) (rc : recon) (dry : bool) (v : version) (hp : header -> bool) (d p B total seq : N)
    (x : noted * repairer * pstats) : result (noted * repairer * pstats) :=
  match fuel with
  | O => RErr OtherError
  | S fuel' =>
      if total <=? ps_so_far (snd x) then ROk x
      else do! x' <- repair_step_noted rc dry v hp d p B seq x;
           if seq =? SBX_LAST_SEQ_NUM then ROk x' else repair_loop_noted fuel' rc dry v hp d p B total (seq + 1) x'
  end.
(* src/repair_core.rs:272-463 *)
Definition repair_file_noted (rc : recon) (dry : bool) (burst : option N) (f : file) : result (option (pstats * noted)) :=
  do! r <- get_ref_block f None None false (MustBe TMeta);
  match r with
  | None => RErr OtherError
  | Some (_, ref) =>
      let v := b_version ref in
      if negb (ver_uses_rs v) then ROk None
      else
        do! o <- get_data_par_burst f burst None false ref;
        match o with
        | None => RPanic
        | Some (d, p, B) =>
            let total := match get_FSZ ref with
                         | Some x => calc_total_block_count_exc_burst_gaps v None o x
                         | None => lenN f / ver_to_block_size v
                         end in
            let hp := header_pred_same_ver_uid ref in
            let R := repairer_new ref d p in
            do! (ref1, buffer) <- unwrap (sync_to_buffer ref None (repN SBX_LARGEST_BLOCK_SIZE 0));
            do! x <- rfold (repair_meta_step_noted dry hp) (calc_meta_block_all_write_pos_s v o) ((f, []), ref1, buffer, no_pstats);
            let '(j, _, _, t) := x in
            do! x <- repair_loop_noted (S (N.to_nat (total - ps_so_far t))) rc dry v hp d p B total SBX_FIRST_DATA_SEQ_NUM (j, R, t);
            let '(j', _, t') := x in
            ROk (Some (t', j'))
        end
  end.

(* src/cli_repair.rs:35-88, the machine stopping when [k] bytes have been written: what is left of the file system *)
Definition repair_cmd_cut (E : env) (k : N) (m : matches) (s : fs) : fs :=
  rn_fs (run s (get! inf <- get_in_file E s m; get! _ <- get_pr_verbosity_level m; get! burst <- get_number m A_burst; Go (inf, burst)) (fun '(inf, burst) =>
  if asked_and_refused E m then mkRan s (Exit 0) []
  else match open_read s (v_cwd E) (v_can E) inf with
       | None => mkRan s (Exit 2) []
       | Some (li, f) =>
           match repair_file_noted (v_rc E) (is_present m A_dry_run) burst f with
           | ROk (Some (_, (_, js))) => mkRan (upd s li (NFile (disk_after k f js))) (Exit 0) []
           | ROk None => mkRan s (Exit 0) []
           | RErr _ => mkRan (if is_present m A_dry_run then s else upd s li (NFile (v_left E))) (Exit 2) []
           | RPanic => mkRan (if is_present m A_dry_run then s else upd s li (NFile (v_left E))) Panicked []
           end
       end)).
