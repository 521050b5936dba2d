(* Model of src/repair_core.rs and src/rs_codec/repairer.rs. *)
From Verif Require Import M_Base M_Specs M_Header M_Metadata M_Block M_Index M_FileUtils M_Buffer M_Ranges M_Scan M_Decode.

(* Reconstruction by crate reed_solomon_erasure (external): from the numbers of data and parity shards and all shards,
   each with a flag telling whether it is there; None is Err. *)
Definition recon := N -> N -> list (list N * bool) -> option (list (list N)).

(* src/repair_core.rs:24-37 *)
Record pstats := mkPstats {
  ps_meta : N; ps_data : N; ps_failed : N; ps_meta_rep : N; ps_data_rep : N; ps_data_fail : N }.
Definition no_pstats : pstats := mkPstats 0 0 0 0 0 0.
(* src/repair_core.rs:58-60 *)
Definition ps_so_far (t : pstats) : N := ps_meta t + ps_data t + ps_failed t.

(* `x.unwrap()` *)
Definition unwrap {A} (r : result A) : result A := match r with ROk x => ROk x | _ => RPanic end.

(* src/repair_core.rs:360-400: one metadata position. State: the file, the reference block, the 4096 byte buffer,
   the counters. The block read into is reused by the code; what is read does not depend on it (C09). *)
Definition repair_meta_step (dry : bool) (hp : header -> bool) (x : file * block * list N * pstats) (p : N)
  : result (file * block * list N * pstats) :=
  let '(w, ref, buffer, t) := x in
  let bs := ver_to_block_size (b_version ref) in
  let d := file_read w p bs in
  let buffer1 := put_at buffer 0 d in
  do! broken <- (if lenN d <? bs then ROk true
                 else match sync_from_buffer block_dummy buffer1 hp no_pred with
                      | ROk _ => ROk false
                      | RErr _ => ROk true
                      | RPanic => RPanic
                      end);
  if broken : bool then
    do! (ref1, buffer2) <- unwrap (sync_to_buffer ref None buffer1);
    ROk (if dry then w else file_write w p (takeN bs buffer2), ref1, buffer2,
         mkPstats (ps_meta t) (ps_data t) (ps_failed t + 1) (ps_meta_rep t + 1) (ps_data_rep t) (ps_data_fail t))
  else ROk (w, ref, buffer1,
            mkPstats (ps_meta t + 1) (ps_data t) (ps_failed t) (ps_meta_rep t) (ps_data_rep t) (ps_data_fail t)).

(* src/rs_codec/repairer.rs:14-24 *)
Record repairer := mkRepairer { rr_index : N; rr_buf : list (list N); rr_present : list bool; rr_ref : block }.
(* src/rs_codec/repairer.rs:185-210 *)
Definition repairer_new (ref : block) (d p : N) : repairer :=
  mkRepairer 0 (repN (d + p) (repN (ver_to_block_size (b_version ref)) 0)) (repN (d + p) false) ref.

(* src/rs_codec/repairer.rs:314-322: headers of the missing blocks; i is the place in the set *)
Fixpoint seal_missing (first i : N) (ref : block) (bufs : list (list N)) (present : list bool)
  : result (block * list (list N)) :=
  match bufs, present with
  | b :: bufs', pr :: present' =>
      if pr then do! (ref', r) <- seal_missing first (i + 1) ref bufs' present'; ROk (ref', b :: r)
      else do! (ref1, b') <- unwrap (sync_to_buffer (set_seq_num ref (first + i)) None b);
           do! (ref', r) <- seal_missing first (i + 1) ref1 bufs' present'; ROk (ref', b' :: r)
  | _, _ => ROk (ref, bufs)
  end.
(* src/rs_codec/repairer.rs:323-334: the blocks to write, with their positions *)
Fixpoint repaired_blocks (v : version) (o : dpb) (first i : N) (bufs : list (list N)) (present : list bool)
  : list (N * list N) :=
  match bufs, present with
  | b :: bufs', pr :: present' =>
      (if pr : bool then [] else [(calc_data_block_write_pos v (first + i) None o, takeN (ver_to_block_size v) b)])
      ++ repaired_blocks v o first (i + 1) bufs' present'
  | _, _ => []
  end.
(* src/rs_codec/repairer.rs:262-354: success, number of missing blocks, blocks to write *)
Definition repair_with_block_sync (rc : recon) (d p B seq : N) (R : repairer)
  : result (bool * N * list (N * list N) * repairer) :=
  let v := b_version (rr_ref R) in
  do! _ <- rassert (rr_index R =? d + p);
  do! _ <- rassert (SBX_FIRST_DATA_SEQ_NUM <=? seq);
  let missing := (d + p) - countN (fun x => x) (rr_present R) in
  let first := (seq - SBX_FIRST_DATA_SEQ_NUM) / (d + p) * (d + p) + 1 in
  match rc d p (combine (map (slice_data_buf v) (rr_buf R)) (rr_present R)) with
  | None => ROk (false, missing, [], mkRepairer 0 (rr_buf R) (rr_present R) (rr_ref R))
  | Some out =>
      let bufs := map (fun x => put_at (fst x) SBX_HEADER_SIZE (snd x)) (combine (rr_buf R) out) in
      do! (ref', bufs') <- seal_missing first 0 (rr_ref R) bufs (rr_present R);
      ROk (true, missing, repaired_blocks v (Some (d, p, B)) first 0 bufs' (rr_present R),
           mkRepairer 0 bufs' (rr_present R) ref')
  end.

(* src/repair_core.rs:204-238; src/rs_codec/repairer.rs:212-260: counters and the flag of the block just read *)
Definition update_codec (v : version) (hp : header -> bool) (seq : N) (d : list N) (R : repairer) (t : pstats)
  : result (repairer * pstats) :=
  match getN (rr_buf R) (rr_index R) with
  | None => RPanic
  | Some b0 =>
      let b1 := put_at b0 0 d in
      let R1 present := mkRepairer (rr_index R + 1) (setN (rr_buf R) (rr_index R) b1)
                          (setN (rr_present R) (rr_index R) present) (rr_ref R) in
      let missing := (R1 false, mkPstats (ps_meta t) (ps_data t) (ps_failed t + 1) (ps_meta_rep t) (ps_data_rep t) (ps_data_fail t)) in
      if lenN d <? ver_to_block_size v then ROk missing
      else match sync_from_buffer block_dummy b1 hp no_pred with
           | RPanic => RPanic
           | RErr _ => ROk missing
           | ROk b =>
               if negb (b_seq_num b =? seq) then ROk missing
               else ROk (R1 true,
                         if is_meta b
                         then mkPstats (ps_meta t + 1) (ps_data t) (ps_failed t) (ps_meta_rep t) (ps_data_rep t) (ps_data_fail t)
                         else mkPstats (ps_meta t) (ps_data t + 1) (ps_failed t) (ps_meta_rep t) (ps_data_rep t) (ps_data_fail t))
           end
  end.
(* src/repair_core.rs:240-270 *)
Definition repair_set (rc : recon) (dry : bool) (d p B seq : N) (x : file * repairer * pstats)
  : result (file * repairer * pstats) :=
  let '(w, R, t) := x in
  do! (r, R') <- repair_with_block_sync rc d p B seq R;
  let '(ok, missing, blocks) := r in
  let t' := if ok : bool
            then mkPstats (ps_meta t) (ps_data t) (ps_failed t) (ps_meta_rep t) (ps_data_rep t + missing) (ps_data_fail t)
            else mkPstats (ps_meta t) (ps_data t) (ps_failed t) (ps_meta_rep t) (ps_data_rep t) (ps_data_fail t + missing) in
  ROk (if dry then w else fold_left (fun w b => file_write w (fst b) (snd b)) blocks w, R', t').
(* src/repair_core.rs:411-451, one iteration after the test at its head *)
Definition repair_step (rc : recon) (dry : bool) (v : version) (hp : header -> bool) (d p B seq : N)
    (x : file * repairer * pstats) : result (file * repairer * pstats) :=
  let '(w, R, t) := x in
  do! _ <- rassert (negb (rr_index R =? d + p));
  let dt := file_read w (calc_data_block_write_pos v seq None (Some (d, p, B))) (ver_to_block_size v) in
  do! (R1, t1) <- update_codec v hp seq dt R t;
  if rr_index R1 =? d + p then repair_set rc dry d p B seq (w, R1, t1) else ROk (w, R1, t1).
Fixpoint repair_loop (fuel : nat) (rc : recon) (dry : bool) (v : version) (hp : header -> bool) (d p B total seq : N)
    (x : file * repairer * pstats) : result (file * repairer * pstats) :=
  match fuel with
  | O => RErr OtherError
  | S fuel' =>
      if total <=? ps_so_far (snd x) then ROk x
      else do! x' <- repair_step rc dry v hp d p B seq x;
           if seq =? SBX_LAST_SEQ_NUM then ROk x' else repair_loop fuel' rc dry v hp d p B total (seq + 1) x'
  end.

(* src/repair_core.rs:272-463. Result: counters and the file afterwards; None if the version has no Reed-Solomon code. *)
Definition repair_file (rc : recon) (dry : bool) (burst : option N) (f : file) : result (option (pstats * file)) :=
  do! r <- get_ref_block f None None false (MustBe TMeta);
  match r with
  | None => RErr OtherError
  | Some (_, ref) =>
      let v := b_version ref in
      if negb (ver_uses_rs v) then ROk None
      else
        do! o <- get_data_par_burst f burst None false ref;
        match o with
        | None => RPanic
        | Some (d, p, B) =>
            let total := match get_FSZ ref with
                         | Some x => calc_total_block_count_exc_burst_gaps v None o x
                         | None => lenN f / ver_to_block_size v
                         end in
            let hp := header_pred_same_ver_uid ref in
            let R := repairer_new ref d p in
            do! (ref1, buffer) <- unwrap (sync_to_buffer ref None (repN SBX_LARGEST_BLOCK_SIZE 0));
            do! x <- rfold (repair_meta_step dry hp) (calc_meta_block_all_write_pos_s v o) (f, ref1, buffer, no_pstats);
            let '(w, _, _, t) := x in
            do! x <- repair_loop (S (N.to_nat (total - ps_so_far t))) rc dry v hp d p B total SBX_FIRST_DATA_SEQ_NUM (w, R, t);
            let '(w', _, t') := x in
            ROk (Some (t', w'))
        end
  end.
