(* Model of the reports the commands print with --json when they are done: src/check_core.rs, src/repair_core.rs, src/sort_core.rs,
   src/decode_core.rs, src/encode_core.rs (the implementations of Display for Stats), src/time_utils.rs:27-33, and the exit of the commands
   (src/cli_macros.rs:1-33). The calls made to the JSON printer (M_Json) are listed. The seconds a step took are parameters: they come from
   the clock. Of repair only the report without --verbose is modelled. *)
From Coq Require Import String.
From Verif Require Import M_Base M_Specs M_Header M_Multihash M_Metadata M_Block M_Index M_FileUtils M_Buffer M_Ranges M_Encode M_Scan M_Loop M_Decode
  M_Content M_Check M_Repair M_Sort M_Hex M_Rescue M_Json M_Show.

(* src/time_utils.rs:27-33: division of i64 rounds towards zero *)
Definition seconds_to_hms (total : Z) : Z * Z * Z :=
  let hour := Z.quot total (60 * 60) in
  let minute := Z.quot (total - hour * 60 * 60) 60 in
  (hour, minute, total - hour * 60 * 60 - minute * 60)%Z.
(* {:02} of a signed number: at least two characters, the sign being one *)
Definition fmt_02i (z : Z) : list N := if (z <? 0)%Z then str "-" ++ dec (Z.abs_N z) else fmt_02 (Z.to_N z).
(* {:02}:{:02}:{:02} *)
Definition fmt_hms (total : Z) : list N :=
  let '(h, m, s) := seconds_to_hms total in fmt_02i h ++ str ":" ++ fmt_02i m ++ str ":" ++ fmt_02i s.
Definition fmt_hash (h : hash_bytes) : list N := hash_type_to_string (fst h) ++ str " - " ++ bytes_to_lower_hex_string (snd h).

(* src/cli_macros.rs:2-10,22-32: the outermost bracket, and the end; [e] is the error text, if the command fails *)
Definition command_calls (cs : list call) (e : option (list N)) : list call :=
  [Open None Curly] ++ cs ++ [match e with None => Field false (str "error : null") | Some e => Error e end; Close].

(* src/misc_macros.rs:196-224,315: what get_data_par_burst! prints if it gets to its end: the burst error resistance level given or guessed *)
Definition level_calls (r : result dpb) : list call :=
  match r with ROk (Some (_, _, B)) => [Field false (str "burst error resistance level : " ++ dec B)] | _ => [] end.

(* ---- check ---- *)
(* src/check_core.rs:160-303: version, what was found, seconds of checking and of hashing; [etext] is the text of the error met when hashing *)
Definition check_stats_calls (v : version) (x : coutcome) (t_check t_hash : Z) (etext : list N) : list call :=
  let t_check := match ko_check x with None => 0%Z | Some _ => t_check end in
  let t_hash := match ko_hash x with Some (_, ROk _) => t_hash | _ => 0%Z end in
  [Open (Some (str "stats")) Curly;
   Field false (str "SBX version                              : " ++ dec (ver_to_usize v))] ++
  match ko_check x with
  | None => []
  | Some (s, _) =>
      [Field false (str "Block size used in checking              : " ++ dec (ver_to_block_size v));
       Field false (str "Number of blocks processed               : " ++ dec (ck_meta s + ck_data s + ck_failed s + ck_blank s));
       Field false (str "Number of blocks passed check (metadata) : " ++ dec (ck_meta s));
       Field false (str "Number of blocks passed check (data)     : " ++ dec (ck_data s));
       Field false (str "Number of blocks failed check            : " ++ dec (ck_failed s));
       Field false (str "Time elapsed for block check             : " ++ fmt_hms t_check)]
  end ++
  match ko_hash x with
  | None => []
  | Some (h, r) =>
      [Field false (str "Recorded hash                            : " ++ fmt_hash h);
       Field false (str "Hash of stored data                      : " ++ match r with ROk h' => fmt_hash h' | _ => etext end);
       Field false (str "Time elapsed for hashing                 : " ++ fmt_hms t_hash)]
  end ++
  [Field false (str "Time elapsed                             : " ++ fmt_hms (t_check + t_hash)); Close].
(* src/check_core.rs:345-347,369-378,413-415, with --verbose: the list of the messages *)
Definition check_failed_calls (p : cparam) (x : coutcome) : list call :=
  match ko_check x with
  | Some (_, ps) =>
      if cp_verbose p then
        [Open (Some (str "blocks failed")) Square] ++
        flat_map (fun pos => [Open None Curly; Field false (str "pos : " ++ dec pos); Close]) ps ++ [Close]
      else []
  | None => []
  end.
(* src/check_core.rs:443: the level is printed only if the contents are hashed *)
Definition check_level_calls (p : cparam) (f : file) (ref : block) : list call :=
  match cp_hash p with
  | NoHash => []
  | _ => level_calls (get_data_par_burst f (cp_burst p) (guess_from_param (cp_guess p) (cp_from p)) (cp_misalign p) ref)
  end.
(* src/cli_check.rs:62-110, src/check_core.rs:454-547, src/misc_macros.rs:74-106: the calls and the exit code *)
Definition check_report (H : hash_fn) (cpus : N) (p : cparam) (f : file) (t_check t_hash : Z) (etext : list N) : result (list call * N) :=
  do! r <- get_ref_block f (ref_from_pos (cp_ref_from p) (cp_from p)) (cp_ref_to p) (cp_misalign p) (cp_choice p);
  match r with
  | None => ROk (command_calls [] (Some (str "Error : Failed to find reference block")), 2)
  | Some (pos, ref) =>
      let info := if cp_verbose p then report_ref_block_info pos ref else [] in
      match check_file H cpus p f with
      | RPanic => RPanic
      | RErr _ => ROk (command_calls info (Some etext), 2)
      | ROk x => ROk (command_calls (info ++ check_failed_calls p x ++ check_level_calls p f ref ++ check_stats_calls (b_version ref) x t_check t_hash etext) None, 0)
      end
  end.

(* ---- repair ---- *)
(* src/repair_core.rs:81-172 *)
Definition repair_stats_calls (v : version) (s : pstats) (t : Z) : list call :=
  [Open (Some (str "stats")) Curly;
   Field false (str "SBX version                              : " ++ dec (ver_to_usize v));
   Field false (str "Block size used in checking              : " ++ dec (ver_to_block_size v));
   Field false (str "Number of blocks processed               : " ++ dec (ps_so_far s));
   Field false (str "Number of blocks passed check (metadata) : " ++ dec (ps_meta s));
   Field false (str "Number of blocks passed check (data)     : " ++ dec (ps_data s));
   Field false (str "Number of blocks failed check            : " ++ dec (ps_failed s));
   Field false (str "Number of blocks repaired (metadata)     : " ++ dec (ps_meta_rep s));
   Field false (str "Number of blocks repaired (data)         : " ++ dec (ps_data_rep s));
   Field false (str "Number of blocks failed to repair (data) : " ++ dec (ps_data_fail s));
   Field false (str "Time elapsed                             : " ++ fmt_hms t); Close].
(* src/cli_repair.rs:37-88, src/repair_core.rs:272-463 without --verbose: calls, exit code *)
Definition repair_report (rc : recon) (dry : bool) (burst : option N) (f : file) (t : Z) (etext : list N) : result (list call * N) :=
  do! r <- get_ref_block f None None false (MustBe TMeta);
  match r with
  | None => ROk (command_calls [] (Some (str "Error : Failed to find reference block")), 2)
  | Some (_, ref) =>
      let level := level_calls (get_data_par_burst f burst None false ref) in
      match repair_file rc dry burst f with
      | RPanic => RPanic
      | RErr _ => ROk (command_calls level (Some etext), 2)
      | ROk None => ROk (command_calls [] None, 0)
      | ROk (Some (s, _)) =>
          ROk (command_calls (level ++ [Open (Some (str "metadata repairs")) Square; Close; Open (Some (str "data repairs")) Square; Close] ++
                              repair_stats_calls (b_version ref) s t) None, 0)
      end
  end.

(* ---- sort ---- *)
(* src/sort_core.rs:171-276, 144-150 *)
Definition sort_stats_calls (v : version) (s : sstats) (u : ostats) (t : Z) : list call :=
  let rs := ver_uses_rs v in
  [Open (Some (str "stats")) Curly;
   Field false (str "SBX version                               : " ++ dec (ver_to_usize v));
   Field false (str "Block size used in checking               : " ++ dec (ver_to_block_size v));
   Field false (str "Number of blocks processed                : " ++ dec (ss_meta s + ss_data s + ss_parity s + ss_failed s + ss_blank s));
   Field false (str "Number of blocks sorted (metadata)        : " ++ dec (ss_meta s));
   Field false (str "Number of blocks sorted (data)            : " ++ dec (ss_data s))] ++
  (if rs then [Field false (str "Number of blocks sorted (parity)          : " ++ dec (ss_parity s))] else []) ++
  [Field false (str "Number of blocks in same order (metadata) : " ++ dec (ss_meta_same s));
   Field false (str "Number of blocks in diff order (metadata) : " ++ dec (ss_meta_diff s));
   Field false (str "Number of blocks in same order (data)     : " ++ dec (os_data_same u));
   Field false (str "Number of blocks in diff order (data)     : " ++ dec (os_data_diff u))] ++
  (if rs then [Field false (str "Number of blocks in same order (parity)   : " ++ dec (os_parity_same u));
               Field false (str "Number of blocks in diff order (parity)   : " ++ dec (os_parity_diff u))] else []) ++
  [Field false (str "Number of blocks failed to sort           : " ++ dec (ss_failed s));
   Field false (str "Time elapsed                              : " ++ fmt_hms t); Close].
(* src/cli_sort.rs, the end, src/sort_core.rs:371-379, src/misc_macros.rs:74-106: calls, exit code *)
Definition sort_report (cpus : N) (verbose : bool) (p : M_Sort.sparam) (f : file) (old : option (option file)) (t : Z) (etext : list N) : result (list call * N) :=
  let q := M_Sort.sp_scan p in
  do! r <- get_ref_block f (ref_from_pos (dc_ref_from q) (dc_from q)) (dc_ref_to q) (dc_misalign q) (dc_choice q);
  match r with
  | None => ROk (command_calls [] (Some (str "Error : Failed to find reference block")), 2)
  | Some (pos, ref) =>
      let info := (if verbose then report_ref_block_info pos ref else []) ++
                  level_calls (get_data_par_burst f (dc_burst q) (guess_from_param (dc_guess q) (dc_from q)) (dc_misalign q) ref) in
      match sort_file cpus p f old with
      | RPanic => RPanic
      | RErr _ => ROk (command_calls info (Some etext), 2)
      | ROk (s, u, _) => ROk (command_calls (info ++ sort_stats_calls (b_version ref) s u t) None, 0)
      end
  end.

(* ---- decode ---- *)
(* src/decode_core.rs:103-464; [to_file]: whether the output is a file, then failures are counted as a whole, and the hash is computed in a step of its
   own (src/decode_core.rs:1763-1773), which the two times tell; the key is padded with more spaces otherwise *)
Definition decode_stats_calls (ref : block) (f : file) (x : doutcome) (to_file : bool) (t_decode t_hash : Z) : list call :=
  let v := b_version ref in let s := do_stats x in let rs := ver_uses_rs v in
  let pad := if to_file then [] else str "         " in
  let key (k : list N) := k ++ (if rs then str "   " else []) ++ pad ++ str ": " in
  let hashed := to_file && match do_computed x with Some _ => true | None => false end in
  let t_hash := if hashed then t_hash else 0%Z in
  [Open (Some (str "stats")) Curly;
   Field true (key (str "File UID                            ") ++ bytes_to_upper_hex_string (b_uid ref));
   Field false (key (str "SBX version                         ") ++ dec (ver_to_usize v));
   Field false (key (str "Block size used in decoding         ") ++ dec (ver_to_block_size v));
   Field false (key (str "Number of blocks processed          ") ++
     dec (ds_meta s + ds_data s + ds_parity s + if to_file then ds_failed s else ds_meta_failed s + ds_data_failed s + ds_parity_failed s));
   Field false (key (str "Number of blocks decoded (metadata) ") ++ dec (ds_meta s));
   Field false (key (str "Number of blocks decoded (data)     ") ++ dec (ds_data s))] ++
  (if rs then [Field false (key (str "Number of blocks decoded (parity)   ") ++ dec (ds_parity s))] else []) ++
  (if to_file then [Field false (key (str "Number of blocks failed to decode   ") ++ dec (ds_failed s))]
   else if rs then
     [Field false (str "Number of blocks failed to decode (metadata)    : " ++ dec (ds_meta_failed s));
      Field false (str "Number of blocks failed to decode (data)        : " ++ dec (ds_data_failed s));
      Field false (str "Number of blocks failed to decode (parity)      : " ++ dec (ds_parity_failed s))]
   else
     [Field false (str "Number of blocks failed to decode (metadata) : " ++ dec (ds_meta_failed s));
      Field false (str "Number of blocks failed to decode (data)     : " ++ dec (ds_data_failed s))]) ++
  [Field false (key (str "File size                           ") ++ dec (do_size x));
   Field false (key (str "SBX container size                  ") ++ dec (lenN f))] ++
  (if hashed then [Field false (key (str "Time elapsed for decoding           ") ++ fmt_hms t_decode)] else []) ++
  [Field false (key (str "Recorded hash                       ") ++ or_null fmt_hash (do_recorded x));
   Field false (key (str "Hash of output file                 ") ++ or_null fmt_hash (do_computed x))] ++
  (if hashed then [Field false (key (str "Time elapsed for hashing            ") ++ fmt_hms t_hash)] else []) ++
  [Field false (key (str "Time elapsed                        ") ++ fmt_hms (t_decode + t_hash)); Close].
(* src/cli_decode.rs, the end, src/decode_core.rs:1678-1776, src/misc_macros.rs:74-106: calls, exit code *)
Definition decode_report (H : hash_fn) (order : list N -> list N) (cpus : N) (limit : nat) (verbose : bool) (p : dparam) (f : file) (target : dtarget)
    (t_decode t_hash : Z) (etext : list N) : result (list call * N) :=
  do! r <- get_ref_block f (ref_from_pos (dc_ref_from p) (dc_from p)) (dc_ref_to p) (dc_misalign p) (dc_choice p);
  match r with
  | None => ROk (command_calls [] (Some (str "Error : Failed to find reference block")), 2)
  | Some (pos, ref) =>
      let refused := negb (dc_force_write p) && match dc_multi p with None => true | _ => false end && match target with ToFile (Some _) => true | _ => false end in
      let info := (if verbose then report_ref_block_info pos ref else []) ++
                  (if refused then []
                   else level_calls (get_data_par_burst f (dc_burst p) (guess_from_param (dc_guess p) (dc_from p)) (dc_misalign p) ref)) in
      match decode_file H order cpus limit p f target with
      | RPanic => RPanic
      | RErr _ => ROk (command_calls info (Some etext), 2)
      | ROk x => ROk (command_calls (info ++ decode_stats_calls ref f x (match target with ToFile _ => true | ToStdout => false end) t_decode t_hash) None, 0)
      end
  end.

(* ---- encode ---- *)
(* src/encode_core.rs:56-252; the input size is the number of bytes encoded (src/encode_core.rs:803) *)
Definition encode_stats_calls (p : eparam) (x : eoutcome) (t : Z) : list call :=
  let v := e_ver p in let s := eo_stats x in
  [Open (Some (str "stats")) Curly;
   Field true (str "File UID                            : " ++ bytes_to_upper_hex_string (e_uid p));
   Field false (str "SBX version                         : " ++ dec (ver_to_usize v));
   Field false (str "Block size used in encoding         : " ++ dec (ver_to_block_size v));
   Field false (str "Data  size used in encoding         : " ++ dec (ver_to_data_size v));
   Field false (str "Number of blocks written            : " ++ dec (st_meta s + st_data s + st_parity s));
   Field false (str "Number of blocks written (metadata) : " ++ dec (st_meta s));
   Field false (str "Number of blocks written (data)     : " ++ dec (st_data s))] ++
  (if ver_uses_rs v then [Field false (str "Number of blocks written (parity)   : " ++ dec (st_parity s))] else []) ++
  [Field false (str "Amount of data encoded (bytes)      : " ++ dec (data_bytes_encoded v s));
   Field false (str "File size                           : " ++ dec (data_bytes_encoded v s));
   Field false (str "SBX container size                  : " ++ dec (eo_size x));
   Field false (str "Hash                                : " ++ or_null fmt_hash (eo_hash x));
   Field false (str "Time elapsed                        : " ++ fmt_hms t); Close].
(* src/cli_encode.rs, the end: calls, exit code *)
Definition encode_report (H : hash_fn) (rs : codec) (cpus : N) (p : eparam) (src : source) (t : Z) (etext : list N) : result (list call * N) :=
  match encode_file H rs cpus p src with
  | RPanic => RPanic
  | RErr _ => ROk (command_calls [] (Some etext), 2)
  | ROk x => if eo_err x then ROk (command_calls [] (Some etext), 2) else ROk (command_calls (encode_stats_calls p x t) None, 0)
  end.
