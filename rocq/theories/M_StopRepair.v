(* Ctrl-C during repair (see M_Stop). *)
From Coq Require Import String Ascii.
From Verif Require Import M_Base M_Specs M_Header M_Multihash M_Metadata M_Block M_Index M_FileUtils
  M_Buffer M_Ranges M_Encode M_Scan M_Loop M_Decode M_Repair M_Path M_Cli M_Stop.

(* src/repair_core.rs:408-451 with the look at the flag at src/repair_core.rs:414, before the one at the number of blocks. [i] is the number of
   looks made before. *)
Fixpoint repair_loop_stop (stop : flag) (i : N) (fuel : nat) (rc : recon) (dry : bool) (v : version) (hp : header -> bool) (d p B total seq : N)
    (x : file * repairer * pstats) : result (file * repairer * pstats) :=
  match fuel with
  | O => RErr OtherError
  | S fuel' =>
      if raised stop i || (total <=? ps_so_far (snd x)) then ROk x
      else do! x' <- repair_step rc dry v hp d p B seq x;
           if seq =? SBX_LAST_SEQ_NUM then ROk x' else repair_loop_stop stop (i + 1) fuel' rc dry v hp d p B total (seq + 1) x'
  end.
(* src/repair_core.rs:272-463 with the looks at the flag, of src/repair_core.rs:361 before each place of the metadata block and those above. The
   flag stays set once it is: a run that leaves the first loop leaves the second at once. Otherwise as M_Repair.repair_file. Looking for the
   reference block is not interrupted here (M_StopRef). *)
Definition repair_file_stop (stop : flag) (rc : recon) (dry : bool) (burst : option N) (f : file) : result (option (pstats * file)) :=
  do! r <- get_ref_block f None None false (MustBe TMeta);
  match r with
  | None => RErr OtherError
  | Some (_, ref) =>
      let v := b_version ref in
      if negb (ver_uses_rs v) then ROk None
      else
        do! o <- get_data_par_burst f burst None false ref;
        match o with
        | None => RPanic
        | Some (d, p, B) =>
            let total := match get_FSZ ref with
                         | Some x => calc_total_block_count_exc_burst_gaps v None o x
                         | None => lenN f / ver_to_block_size v
                         end in
            let hp := header_pred_same_ver_uid ref in
            let R := repairer_new ref d p in
            let places := calc_meta_block_all_write_pos_s v o in
            do! (ref1, buffer) <- unwrap (sync_to_buffer ref None (repN SBX_LARGEST_BLOCK_SIZE 0));
            do! x <- rfold (repair_meta_step dry hp) (match stop with Some k => takeN k places | None => places end) (f, ref1, buffer, no_pstats);
            let '(w, _, _, t) := x in
            do! x <- repair_loop_stop stop (lenN places) (S (N.to_nat (total - ps_so_far t))) rc dry v hp d p B total SBX_FIRST_DATA_SEQ_NUM (w, R, t);
            let '(w', _, t') := x in
            ROk (Some (t', w'))
        end
  end.
(* src/cli_repair.rs:35-88: stopped or not, the run ends in the same way *)
Definition repair_cmd_stop (E : env) (stop : flag) (m : matches) (s : fs) : ran :=
  run s (get! inf <- get_in_file E s m; get! _ <- get_pr_verbosity_level m; get! burst <- get_number m A_burst; Go (inf, burst)) (fun '(inf, burst) =>
  if asked_and_refused E m then mkRan s (Exit 0) []
  else match open_read s (v_cwd E) (v_can E) inf with
       | None => mkRan s (Exit 2) []
       | Some (li, f) =>
           match repair_file_stop stop (v_rc E) (is_present m A_dry_run) burst f with
           | ROk (Some (_, f')) => mkRan (upd s li (NFile f')) (Exit 0) []
           | ROk None => mkRan s (Exit 0) []
           | RErr _ => mkRan (if is_present m A_dry_run then s else upd s li (NFile (v_left E))) (Exit 2) []
           | RPanic => mkRan (if is_present m A_dry_run then s else upd s li (NFile (v_left E))) Panicked []
           end
       end).
