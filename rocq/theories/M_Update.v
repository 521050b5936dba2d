(* Model of src/update_core.rs and of the options of src/cli_update.rs: changing the metadata of a container in place. Progress
   reports and I/O errors are not modelled, the printing of changes is in M_UpdateList. *)
From Verif Require Import M_Base M_Specs M_Header M_Multihash M_Metadata M_Block M_Index M_FileUtils
  M_Buffer M_Ranges M_Encode M_Scan M_Loop M_Decode M_Content M_Repair.

(* src/update_core.rs:61-67, the two counters *)
Record ustats := mkUstats { us_updated : N; us_failed : N }.
(* src/update_core.rs:21-31 *)
Record uparam := mkUparam {
  up_dry : bool; up_set : list metadata; up_remove : list metadata_id; up_hash : option hash_type; up_burst : option N }.

(* src/cli_update.rs:107-143: the options. The dummy hash is the hash of nothing. *)
Record uopts := mkUopts {
  uo_dry : bool; uo_fnm : option (list N); uo_snm : option (list N); uo_no_fnm : bool; uo_no_snm : bool; uo_no_hsh : bool;
  uo_hash : option hash_type; uo_burst : option N }.
Definition opt_list {A B} (f : A -> B) (x : option A) : list B := match x with Some a => [f a] | None => [] end.
Definition update_param (H : hash_fn) (q : uopts) : uparam :=
  mkUparam (uo_dry q)
    (opt_list FNM (uo_fnm q) ++ opt_list SNM (uo_snm q) ++ opt_list (fun t => HSH (finish_hash H t [])) (uo_hash q))
    ((if uo_no_fnm q then [IFNM] else []) ++ (if uo_no_snm q then [ISNM] else []) ++ (if uo_no_hsh q then [IHSH] else []))
    (uo_hash q) (uo_burst q).

(* src/update_core.rs:308-319,334-343: what becomes of a block read from a metadata place: None if it is not a metadata
   block of the container, otherwise the block to write. unwrap and unreachable! panic. The block object is used again in
   the code; everything looked at is overwritten by reading. *)
Definition update_block (ref : block) (p : uparam) (d : list N) : result (option (list N)) :=
  match sync_from_buffer block_dummy d (header_pred_same_ver_uid ref) no_pred with
  | RPanic => RPanic
  | RErr _ => ROk None
  | ROk b =>
      if is_meta b then
        do! b1 <- unwrap (update_metas b (up_set p));
        do! b2 <- unwrap (remove_metas b1 (up_remove p));
        match sync_to_buffer b2 None d with
        | ROk (_, d') => ROk (Some d')
        | RErr TooMuchMetadata => RErr TooMuchMetadata
        | _ => RPanic
        end
      else ROk None
  end.
(* src/update_core.rs:294-354; the file afterwards, and the counters or the error *)
Fixpoint update_blocks (ref : block) (p : uparam) (write : bool) (ps : list N) (f : file) (s : ustats)
  : file * result ustats :=
  match ps with
  | [] => (f, ROk s)
  | pos :: ps' =>
      let bs := ver_to_block_size (b_version ref) in
      let d := file_read f pos bs in
      if lenN d <? bs then (f, ROk s)
      else match update_block ref p d with
           | ROk (Some d') =>
               update_blocks ref p write ps' (if write then file_write f pos d' else f) (mkUstats (us_updated s + 1) (us_failed s))
           | ROk None => update_blocks ref p write ps' f (mkUstats (us_updated s) (us_failed s + 1))
           | RErr e => (f, RErr e)
           | RPanic => (f, RPanic)
           end
  end.
(* src/update_core.rs:244-365. [cut] is the number of metadata places after which the run is stopped, if it is (Ctrl-C, or a
   kill between two writes). *)
Definition update_metadata_blocks (ref : block) (p : uparam) (o : dpb) (test_run : bool) (cut : option N) (f : file)
  : file * result ustats :=
  let ps := calc_meta_block_all_write_pos_s (b_version ref) o in
  update_blocks ref p (negb (up_dry p) && negb test_run) (match cut with Some k => takeN k ps | None => ps end) f (mkUstats 0 0).
(* src/update_core.rs:380-408: size of the stored data, needed for hashing *)
Definition update_size (ref : block) (p : uparam) : result (option (hash_type * N)) :=
  match up_hash p with
  | None => ROk None
  | Some t =>
      if is_data ref then RErr OtherError
      else if negb (hash_supported t) then RPanic
      else match get_FSZ ref with
           | None => RErr OtherError
           | Some x => ROk (Some (t, x))
           end
  end.
(* src/update_core.rs:435-439 *)
Definition set_hash (h : hash_bytes) (m : metadata) : metadata := match m with HSH _ => HSH h | _ => m end.
(* src/update_core.rs:367-450. A run stopped before the second pass starts writes nothing, so [cut] concerns the second
   pass only. *)
Definition update_file (H : hash_fn) (cpus : N) (p : uparam) (cut : option N) (f : file) : file * result ustats :=
  let fail {A} (r : result A) (k : A -> file * result ustats) : file * result ustats :=
    match r with ROk a => k a | RErr e => (f, RErr e) | RPanic => (f, RPanic) end in
  fail (get_ref_block f None None false (MustBe TMeta)) (fun r =>
  match r with
  | None => (f, RErr OtherError)
  | Some (_, ref) =>
      fail (update_size ref p) (fun size =>
      fail (get_data_par_burst f (up_burst p) None false ref) (fun o =>
      fail (snd (update_metadata_blocks ref p o true None f)) (fun _ =>
      fail (match size with
            | None => ROk (up_set p)
            | Some (t, n) => do! h <- content_hash H cpus f o n ref t; ROk (map (set_hash h) (up_set p))
            end) (fun ms =>
      update_metadata_blocks ref (mkUparam (up_dry p) ms (up_remove p) (up_hash p) (up_burst p)) o false cut f))))
  end).
