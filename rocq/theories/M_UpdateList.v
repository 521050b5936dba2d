(* Model of what update tells: src/update_core.rs:110-160,174-243,291-357 and src/cli_update.rs. The functions are those of M_Update with,
   in addition, the list of the messages of --verbose; with --json the messages are the entries of an array. *)
From Coq Require Import String.
From Verif Require Import M_Base M_Specs M_Header M_Multihash M_Metadata M_Block M_Index M_FileUtils M_Buffer M_Ranges M_Encode M_Scan M_Loop M_Decode
  M_Content M_Repair M_Update M_Hex M_Rescue M_Json M_Show M_Report.

(* src/multihash.rs:4-16, derived comparison *)
Definition hash_type_eqb (a b : hash_type) : bool :=
  match a, b with
  | SHA1, SHA1 | SHA2_256, SHA2_256 | SHA256, SHA256 | SHA2_512_256, SHA2_512_256 | SHA2_512_512, SHA2_512_512 | SHA512, SHA512
  | BLAKE2B_256, BLAKE2B_256 | BLAKE2B_512, BLAKE2B_512 | BLAKE2S_128, BLAKE2S_128 | BLAKE2S_256, BLAKE2S_256 => true
  | _, _ => false
  end.
(* src/sbx_block/metadata.rs:9-19, derived comparison *)
Definition metadata_eqb (a b : metadata) : bool :=
  match a, b with
  | FNM x, FNM y | SNM x, SNM y => eqbl x y
  | FSZ x, FSZ y | RSD x, RSD y | RSP x, RSP y => x =? y
  | FDT x, FDT y | SDT x, SDT y => (x =? y)%Z
  | HSH (t, x), HSH (u, y) => hash_type_eqb t u && eqbl x y
  | _, _ => false
  end.

(* src/update_core.rs:174-243: one change: field, value before and value after, if there is one *)
Record change := mkChange { ch_id : metadata_id; ch_from : option metadata; ch_to : option metadata }.
(* one metadata block: number, position, changes *)
Record block_msg := mkBlockMsg { bm_no : N; bm_pos : N; bm_changes : list change }.
(* src/update_core.rs:197-224: fields to set *)
Definition set_change (old : list metadata) (m : metadata) : list change :=
  let id := meta_to_id m in
  match get_meta_by_id old id with
  | None => [mkChange id None (Some m)]
  | Some x => if metadata_eqb x m then [] else [mkChange id (Some x) (Some m)]
  end.
(* src/update_core.rs:225-238: fields to remove *)
Definition remove_change (old : list metadata) (id : metadata_id) : list change :=
  match get_meta_by_id old id with None => [] | Some x => [mkChange id (Some x) None] end.
Definition block_changes (p : uparam) (old : list metadata) : list change :=
  flat_map (set_change old) (up_set p) ++ flat_map (remove_change old) (up_remove p).

(* src/update_core.rs:308-319,334-343: update_block with, in addition, the fields before *)
Definition update_block_told (ref : block) (p : uparam) (d : list N) : result (option (list N * list metadata)) :=
  match sync_from_buffer block_dummy d (header_pred_same_ver_uid ref) no_pred with
  | RPanic => RPanic
  | RErr _ => ROk None
  | ROk b =>
      if is_meta b then
        do! old <- match b_data b with DMeta ms => ROk ms | DData => RPanic end;
        do! b1 <- unwrap (update_metas b (up_set p));
        do! b2 <- unwrap (remove_metas b1 (up_remove p));
        match sync_to_buffer b2 None d with
        | ROk (_, d') => ROk (Some (d', old))
        | RErr TooMuchMetadata => RErr TooMuchMetadata
        | _ => RPanic
        end
      else ROk None
  end.
(* src/update_core.rs:294-354, not in a test run. [n] is the number of places read so far. *)
Fixpoint update_blocks_told (ref : block) (p : uparam) (write : bool) (ps : list N) (n : N) (f : file) (s : ustats) (told : list block_msg)
  : file * result ustats * list block_msg :=
  match ps with
  | [] => (f, ROk s, told)
  | pos :: ps' =>
      let bs := ver_to_block_size (b_version ref) in
      let d := file_read f pos bs in
      if lenN d <? bs then (f, ROk s, told)
      else match update_block_told ref p d with
           | ROk (Some (d', old)) =>
               update_blocks_told ref p write ps' (n + 1) (if write then file_write f pos d' else f) (mkUstats (us_updated s + 1) (us_failed s))
                 (told ++ [mkBlockMsg n pos (block_changes p old)])
           | ROk None => update_blocks_told ref p write ps' (n + 1) f (mkUstats (us_updated s) (us_failed s + 1)) told
           | RErr e => (f, RErr e, told)
           | RPanic => (f, RPanic, told)
           end
  end.
(* src/update_core.rs:367-450: the file afterwards, the counters or the error, and the messages, if the second pass was begun *)
Definition update_told (H : hash_fn) (cpus : N) (p : uparam) (cut : option N) (f : file) : file * result ustats * option (list block_msg) :=
  let fail {A} (r : result A) (k : A -> file * result ustats * option (list block_msg)) : file * result ustats * option (list block_msg) :=
    match r with ROk a => k a | RErr e => (f, RErr e, None) | RPanic => (f, RPanic, None) end in
  fail (get_ref_block f None None false (MustBe TMeta)) (fun r =>
  match r with
  | None => (f, RErr OtherError, None)
  | Some (_, ref) =>
      fail (update_size ref p) (fun size =>
      fail (get_data_par_burst f (up_burst p) None false ref) (fun o =>
      fail (snd (update_metadata_blocks ref p o true None f)) (fun _ =>
      fail (match size with
            | None => ROk (up_set p)
            | Some (t, n) => do! h <- content_hash H cpus f o n ref t; ROk (map (set_hash h) (up_set p))
            end) (fun ms =>
      let ps := calc_meta_block_all_write_pos_s (b_version ref) o in
      let '(w, r, told) := update_blocks_told ref (mkUparam (up_dry p) ms (up_remove p) (up_hash p) (up_burst p)) (negb (up_dry p))
                             (match cut with Some k => takeN k ps | None => ps end) 0 f (mkUstats 0 0) [] in
      (w, r, Some told)))))
  end).

(* src/sbx_block/metadata.rs:104-116 *)
Definition id_to_str (i : metadata_id) : list N :=
  match i with
  | IFNM => str "FNM" | ISNM => str "SNM" | IFSZ => str "FSZ" | IFDT => str "FDT" | ISDT => str "SDT" | IHSH => str "HSH" | IRSD => str "RSD" | IRSP => str "RSP"
  end.
(* src/sbx_block/metadata.rs:21-48 *)
Definition fmt_metadata (cal : calendar) (m : metadata) : list N :=
  match m with
  | FNM s | SNM s => s
  | FSZ x | RSD x | RSP x => dec x
  | FDT x | SDT x => show_time cal x
  | HSH h => fmt_hash h
  end.
(* src/update_core.rs:207-219,229-236 *)
Definition change_calls (cal : calendar) (c : change) : list call :=
  [Open None Curly;
   Field false (str "Field         : " ++ id_to_str (ch_id c));
   Field false (str "From          : " ++ or_null (fmt_metadata cal) (ch_from c));
   Field false (str "To            : " ++ or_null (fmt_metadata cal) (ch_to c));
   Close].
(* src/update_core.rs:182-195,240-242 *)
Definition block_msg_calls (cal : calendar) (x : block_msg) : list call :=
  [Open None Curly;
   Field false (str "Metadata block number : " ++ dec (bm_no x));
   Field false (str "Found at byte : " ++ dec (bm_pos x));
   Open (Some (str "changes")) Square] ++ flat_map (change_calls cal) (bm_changes x) ++ [Close; Close].
(* src/update_core.rs:110-160 *)
Definition update_stats_calls (v : version) (s : ustats) (t : Z) : list call :=
  [Open (Some (str "stats")) Curly;
   Field false (str "SBX version                                : " ++ dec (ver_to_usize v));
   Field false (str "Block size used in updating                : " ++ dec (ver_to_block_size v));
   Field false (str "Number of metadata blocks processed        : " ++ dec (us_updated s + us_failed s));
   Field false (str "Number of metadata blocks updated          : " ++ dec (us_updated s));
   Field false (str "Number of metadata blocks failed to decode : " ++ dec (us_failed s));
   Field false (str "Time elapsed                               : " ++ fmt_hms t); Close].
(* src/cli_update.rs:91-191, src/update_core.rs:291-293,355-357,367-450, src/misc_macros.rs:74-106, with --json: calls, exit code.
   [etext] is the text of the error, if there is one. *)
Definition update_report (H : hash_fn) (cal : calendar) (cpus : N) (verbose : bool) (p : uparam) (cut : option N) (f : file) (t : Z) (etext : list N) : result (list call * N) :=
  do! r <- get_ref_block f None None false (MustBe TMeta);
  match r with
  | None => ROk (command_calls [] (Some (str "Error : Failed to find reference block")), 2)
  | Some (pos, ref) =>
      let '(_, r, told) := update_told H cpus p cut f in
      let level := match update_size ref p with ROk _ => level_calls (get_data_par_burst f (up_burst p) None false ref) | _ => [] end in
      let head := (if verbose then report_ref_block_info pos ref else []) ++ level ++
                  match told with
                  | Some l => if verbose then [Open (Some (str "metadata changes")) Square] ++ flat_map (block_msg_calls cal) l ++ [Close] else []
                  | None => []
                  end in
      match r with
      | RPanic => RPanic
      | RErr _ => ROk (command_calls head (Some etext), 2)
      | ROk s => ROk (command_calls (head ++ update_stats_calls (b_version ref) s t) None, 0)
      end
  end.
