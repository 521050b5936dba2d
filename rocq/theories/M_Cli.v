(* Model of src/cli_macros.rs and of the commands encode, decode, sort, repair and update (src/cli_*.rs) as programs on a
   file system. The texts printed are not modelled, nor is the parsing of the command line by clap: what clap hands over is given
   by [matches]. *)
From Coq Require Import String Ascii.
From Verif Require Import M_Base M_Specs M_Header M_Multihash M_Metadata M_Block M_Index M_FileUtils M_Buffer M_Ranges M_Encode
  M_Scan M_Loop M_Decode M_Sort M_Repair M_Content M_Update M_Rescue M_Hex M_Json M_Path.

(* The names of the options; clap::ArgMatches *)
Inductive arg :=
| A_uid | A_sbx_version | A_rs_data | A_rs_parity | A_burst | A_in_file | A_out | A_hash_type | A_pr_verbosity_level | A_no_meta
| A_from_pos | A_to_pos_inc | A_to_pos_exc | A_info_only | A_force | A_ref_from_pos | A_ref_to_pos_inc | A_ref_to_pos_exc
| A_guess_burst_from_pos | A_multi_pass | A_multi_pass_no_skip | A_force_misalign | A_dry_run | A_report_blank | A_skip_warning | A_json
| A_fnm | A_snm | A_no_fnm | A_no_snm | A_no_hsh | A_out_dir | A_log_file | A_block_type | A_in_file_size
| A_hash | A_hash_only | A_verbose | A_show_all | A_guess_burst.
Record matches := mkMatches { value_of : arg -> option (list N); is_present : arg -> bool }.

(* How a command ends: with an exit code, or by a panic *)
Inductive exit := Exit (code : N) | Panicked.
(* either a value or an early exit *)
Inductive got (A : Type) := Go (a : A) | Stop (e : exit).
Arguments Go {A} a.
Arguments Stop {A} e.
(* what a command leaves: the file system, how it ended, the data written to standard output *)
Record ran := mkRan { rn_fs : fs; rn_exit : exit; rn_stdout : list N }.
Definition gbind {A B} (x : got A) (k : A -> got B) : got B := match x with Go a => k a | Stop e => Stop e end.
Notation "'get!' x <- e ; k" := (gbind e (fun x => k)) (at level 60, x pattern, e at next level, right associativity).

(* What the commands depend on besides options and files: hash function, Reed-Solomon encoder and reconstruction, CPUs, the order
   a HashMap is visited in, the working directory, what may be opened, random bytes, time, file times, standard input.
   [v_left], [v_exit]: what is left in the output, and how a run ends, where the models of the commands do not say (panics, input and
   output the same file). *)
Record env := mkEnv {
  v_H : hash_fn; v_rs : codec; v_rc : recon; v_cpus : N; v_order : list N -> list N; v_limit : nat;
  v_cwd : loc; v_can : loc -> bool; v_random : list N; v_now : Z; v_mtime : loc -> option Z; v_stdin : list (list N);
  v_left : file; v_exit : exit }.

(* ---- src/cli_macros.rs ---- *)
(* u64::from_str and usize::from_str (64 bits): an optional plus sign and digits *)
Definition parse_unsigned (s : list N) : option N :=
  let d := match s with 43 :: t => t | _ => s end in
  match d with [] => None | _ => if forallb is_digit d then parse_u64 d else None end.
(* src/cli_macros.rs:96-111,137-168,359-376,396-415: options with a number *)
Definition get_number (m : matches) (a : arg) : got (option N) :=
  match value_of m a with
  | None => Go None
  | Some x => match parse_unsigned x with Some n => Go (Some n) | None => Stop (Exit 1) end
  end.
(* src/cli_macros.rs:112-136,169-193; clap excludes both *)
Definition get_range_end (m : matches) (inc exc : arg) : got (option range_end) :=
  match value_of m inc, value_of m exc with
  | None, None => Go None
  | Some x, None => match parse_unsigned x with Some n => Go (Some (Inc n)) | None => Stop (Exit 1) end
  | None, Some x => match parse_unsigned x with Some n => Go (Some (Exc n)) | None => Stop (Exit 1) end
  | Some _, Some _ => Stop Panicked
  end.
(* src/cli_macros.rs:79-95, src/progress_report.rs:351-358; the level itself is not used here *)
Definition get_pr_verbosity_level (m : matches) : got unit :=
  match value_of m A_pr_verbosity_level with
  | None => Go tt
  | Some x => if eqbl x [48] || eqbl x [49] || eqbl x [50] then Go tt else Stop (Exit 1)
  end.
(* src/cli_macros.rs:194-235 *)
Definition check_in_file (E : env) (s : fs) (x : list N) : got (list N) :=
  if negb (path_exists s (v_cwd E) x) then Stop (Exit 1)
  else match get_file_name_part_of_path x with
       | None => Stop (Exit 1)
       | Some _ => if path_is_dir s (v_cwd E) x then Stop (Exit 1) else Go x
       end.
Definition get_in_file (E : env) (s : fs) (m : matches) : got (list N) :=
  match value_of m A_in_file with None => Stop Panicked | Some x => check_in_file E s x end.
(* src/file_utils.rs:48-54 *)
Definition is_dash (x : list N) : bool := eqbl x [45].
Definition get_in_file_accept_stdin (E : env) (s : fs) (m : matches) : got (list N) :=
  match value_of m A_in_file with
  | None => Stop Panicked
  | Some x => if is_dash x then Go x else check_in_file E s x
  end.
(* src/cli_macros.rs:416-445 *)
Definition parse_uid (x : list N) : got (list N) :=
  match hex_string_to_bytes x with
  | ROk (HexOk b) => if lenN b =? SBX_FILE_UID_LEN then Go b else Stop (Exit 1)
  | ROk _ => Stop (Exit 1)
  | _ => Stop Panicked
  end.
(* src/sbx_specs.rs:95-106 *)
Definition string_to_ver (x : list N) : option version :=
  if eqbl x (str "1") then Some V1 else if eqbl x (str "2") then Some V2 else if eqbl x (str "3") then Some V3
  else if eqbl x (str "17") then Some V17 else if eqbl x (str "18") then Some V18 else if eqbl x (str "19") then Some V19
  else None.
(* src/cli_macros.rs:236-285 *)
Definition get_shards (m : matches) (a : arg) : got N :=
  match value_of m a with
  | None => Stop (Exit 1)
  | Some x => match parse_unsigned x with Some n => Go n | None => Stop (Exit 1) end
  end.
(* src/cli_macros.rs:336-358; the checks of ReedSolomon::new. An overflowing sum is taken as a panic. *)
Definition check_data_parity_shards (d p : N) : got unit :=
  if d =? 0 then Stop (Exit 1) else if p =? 0 then Stop (Exit 1)
  else if U64_MAX <? d + p then Stop Panicked else if 256 <? d + p then Stop (Exit 1) else Go tt.
(* src/encode_defaults.rs *)
Definition DEFAULT_VERSION : version := V17.
Definition DEFAULT_DPB : dpb := Some (10, 2, 12).
(* src/cli_macros.rs:286-335,359-376 *)
Definition get_ver_and_data_par_burst_w_defaults (m : matches) : got (version * dpb) :=
  match value_of m A_sbx_version with
  | None =>
      match value_of m A_rs_data, value_of m A_rs_parity, value_of m A_burst with
      | None, None, None => Go (DEFAULT_VERSION, DEFAULT_DPB)
      | _, _, _ => Stop (Exit 1)
      end
  | Some x =>
      match string_to_ver x with
      | None => Stop (Exit 1)
      | Some v =>
          if ver_uses_rs v then
            get! d <- get_shards m A_rs_data;
            get! p <- get_shards m A_rs_parity;
            get! _ <- check_data_parity_shards d p;
            get! b <- get_number m A_burst;
            Go (v, Some (d, p, match b with Some b => b | None => 0 end))
          else Go (v, None)
      end
  end.
(* src/multihash.rs:35-62. str::to_lowercase for ASCII letters: that the Kelvin sign also becomes a k is left out. *)
Definition string_to_hash_type (x : list N) : option hash_type :=
  let x := map lower x in
  if eqbl x (str "sha1") then Some SHA1
  else if eqbl x (str "sha2-256") || eqbl x (str "sha256") then Some SHA256
  else if eqbl x (str "sha2-512-512") || eqbl x (str "sha512") then Some SHA512
  else if eqbl x (str "blake2b-256") then Some BLAKE2B_256
  else if eqbl x (str "blake2b-512") then Some BLAKE2B_512
  else if eqbl x (str "blake2s-128") then Some BLAKE2S_128
  else if eqbl x (str "blake2s-256") then Some BLAKE2S_256
  else None.
(* src/cli_macros.rs:534-551 *)
Definition get_multi_pass (m : matches) : got (option multi_pass) :=
  match is_present m A_multi_pass, is_present m A_multi_pass_no_skip with
  | false, false => Go None
  | true, false => Go (Some SkipGood)
  | false, true => Go (Some OverwriteAll)
  | true, true => Stop Panicked
  end.
(* src/cli_macros.rs:460-474 *)
Definition get_ref_block_choice (m : matches) : ref_choice := if is_present m A_no_meta then Any else Prefer TMeta.

(* an early exit changes nothing *)
Definition run {A} (s : fs) (x : got A) (k : A -> ran) : ran := match x with Go a => k a | Stop e => mkRan s e [] end.

(* ---- encode ---- *)
Record enc_request := mkEncRequest { eq_uid : list N; eq_ver : version; eq_dpb : dpb; eq_in : list N; eq_out : list N; eq_hash : hash_type;
  eq_meta : bool; eq_from : option N; eq_to : option range_end }.
(* src/cli_encode.rs:97-125 *)
Definition encode_out_name (E : env) (s : fs) (m : matches) (v : version) (inf : list N) : got (list N) :=
  let ext := if ver_uses_rs v then str ".ecsbx" else str ".sbx" in
  match value_of m A_out with
  | None => if is_dash inf then Stop (Exit 1) else Go (inf ++ ext)
  | Some x =>
      if path_is_dir s (v_cwd E) x then
        if is_dash inf then Stop (Exit 1)
        else match get_file_name_part_of_path inf with
             | None => Stop Panicked
             | Some n => Go (make_path [x; n ++ ext])
             end
      else Go x
  end.
(* src/cli_encode.rs:78-140 *)
Definition encode_request (E : env) (s : fs) (m : matches) : got enc_request :=
  get! uid <- match value_of m A_uid with None => Go (v_random E) | Some x => parse_uid x end;
  get! (v, o) <- get_ver_and_data_par_burst_w_defaults m;
  get! inf <- get_in_file_accept_stdin E s m;
  get! out <- encode_out_name E s m v inf;
  get! h <- match value_of m A_hash_type with
            | None => Go SHA256
            | Some x => match string_to_hash_type x with Some h => Go h | None => Stop (Exit 1) end
            end;
  get! _ <- get_pr_verbosity_level m;
  get! from <- get_number m A_from_pos;
  get! to <- get_range_end m A_to_pos_inc A_to_pos_exc;
  Go (mkEncRequest uid v o inf out h (negb (is_present m A_no_meta)) from to).
(* src/encode_core.rs:478-510, 371-384: opening the files, then M_Encode. Output names are looked at only if metadata is written. *)
Definition encode_run (E : env) (s : fs) (q : enc_request) : ran :=
  let input := if is_dash (eq_in q) then Some None
               else match open_read s (v_cwd E) (v_can E) (eq_in q) with Some (l, c) => Some (Some (l, c)) | None => None end in
  match input with
  | None => mkRan s (Exit 2) []
  | Some inp =>
      match open_write s (v_cwd E) (v_can E) true (eq_out q) with
      | None => mkRan s (Exit 2) []
      | Some (lo, s1) =>
          let same := match inp with Some (li, _) => loc_eqb li lo | None => false end in
          if same then mkRan (upd s1 lo (NFile (v_left E))) (v_exit E) []
          else
            let in_name := match inp with None => Some None
                           | Some _ => match get_file_name_part_of_path (eq_in q) with Some n => Some (Some n) | None => None end end in
            let meta := ver_forces_meta_enabled (eq_ver q) || eq_meta q in
            match in_name, get_file_name_part_of_path (eq_out q) with
            | Some i, Some o =>
                let p := mkEparam (eq_ver q) (eq_uid q) (eq_dpb q) (eq_meta q) (eq_hash q) (eq_from q) (eq_to q) i o
                           (match inp with Some (li, _) => v_mtime E li | None => None end) (v_now E) in
                match encode_file (v_H E) (v_rs E) (v_cpus E) p (match inp with Some (_, c) => SrcFile c | None => SrcStdin (v_stdin E) end) with
                | ROk out => mkRan (upd s1 lo (NFile (eo_file out))) (Exit (if eo_err out then 2 else 0)) []
                | RErr _ => mkRan (upd s1 lo (NFile (v_left E))) (Exit 2) []
                | RPanic => mkRan (upd s1 lo (NFile (v_left E))) Panicked []
                end
            | _, _ =>
                if meta then mkRan (upd s1 lo (NFile (v_left E))) Panicked []
                else mkRan (upd s1 lo (NFile (v_left E))) (v_exit E) []
            end
      end
  end.
(* src/cli_encode.rs:141-186, with --info-only: what is found out about the file and its container. Sums and products of 64 bits that
   overflow are not modelled. *)
Record enc_info := mkEncInfo { ei_in : list N; ei_out : list N; ei_ver : version; ei_dpb : dpb; ei_size : N; ei_container : N; ei_mtime : option Z }.
Definition encode_info (E : env) (s : fs) (q : enc_request) : got enc_info :=
  if is_dash (eq_in q) then Stop (Exit 1)
  else match open_read s (v_cwd E) (v_can E) (eq_in q) with
       | None => Stop (Exit 1)
       | Some (li, c) =>
           match calc_container_size (eq_ver q) (Some (eq_meta q)) (eq_dpb q) (lenN c) with
           | ROk size => Go (mkEncInfo (eq_in q) (eq_out q) (eq_ver q) (eq_dpb q) (lenN c) size (v_mtime E li))
           | _ => Stop Panicked
           end
       end.
(* src/cli_encode.rs:78-292 *)
Definition encode_cmd (E : env) (m : matches) (s : fs) : ran :=
  run s (encode_request E s m) (fun q =>
  if is_present m A_info_only then mkRan s (match encode_info E s q with Go _ => Exit 0 | Stop e => e end) []
  else if path_exists s (v_cwd E) (eq_out q) && negb (is_present m A_force) then mkRan s (Exit 1) []
  else encode_run E s q).

(* ---- decode ---- *)
(* src/cli_decode.rs:99-129 *)
Definition decode_param (m : matches) (mp : option multi_pass) (from : option N) (to : option range_end) (rfrom : option N)
    (rto : option range_end) (guess burst : option N) : dparam :=
  mkDparam (get_ref_block_choice m) rfrom rto guess (is_present m A_force) mp from to (is_present m A_force_misalign) burst.
Definition decode_request (E : env) (s : fs) (m : matches) : got (list N * dparam) :=
  get! _ <- get_pr_verbosity_level m;
  get! burst <- get_number m A_burst;
  get! inf <- get_in_file E s m;
  get! from <- get_number m A_from_pos;
  get! to <- get_range_end m A_to_pos_inc A_to_pos_exc;
  get! rfrom <- get_number m A_ref_from_pos;
  get! rto <- get_range_end m A_ref_to_pos_inc A_ref_to_pos_exc;
  get! guess <- get_number m A_guess_burst_from_pos;
  get! mp <- get_multi_pass m;
  Go (inf, decode_param m mp from to rfrom rto guess burst).
(* src/decode_core.rs:1685-1723: where the output goes; None is standard output *)
Definition decode_out_path (E : env) (s : fs) (out : option (list N)) (ref : block) : got (option (list N)) :=
  get! name <- match get_FNM ref with
               | None => Go None
               | Some x => match get_file_name_part_of_path x with None => Stop (Exit 2) | Some n => Go (Some n) end
               end;
  match out with
  | None => match name with None => Stop (Exit 2) | Some n => Go (Some n) end
  | Some o =>
      if is_dash o then Go None
      else if path_is_dir s (v_cwd E) o then match name with None => Stop (Exit 2) | Some n => Go (Some (make_path [o; n])) end
      else Go (Some o)
  end.
(* src/decode_core.rs:725-773, then M_Decode. The layout is found before the output is opened. Opening the output without --multi-pass
   empties it: if it is the container itself, nothing is left to read. *)
Definition with_burst (q : dparam) (o : dpb) : dparam :=
  mkDparam (dc_choice q) (dc_ref_from q) (dc_ref_to q) (dc_guess q) (dc_force_write q) (dc_multi q) (dc_from q) (dc_to q) (dc_misalign q)
    (match o with Some (_, _, B) => Some B | None => dc_burst q end).
Definition truncating (q : dparam) : bool := match dc_multi q with None => true | Some _ => false end.
Definition decode_run (E : env) (s : fs) (li : loc) (f : file) (q : dparam) (ref : block) (path : option (list N)) : ran :=
  match get_data_par_burst f (dc_burst q) (guess_from_param (dc_guess q) (dc_from q)) (dc_misalign q) ref with
  | RPanic => mkRan s Panicked []
  | RErr _ => mkRan s (Exit 2) []
  | ROk o =>
      match path with
      | None =>
          match decode (v_H E) (v_order E) (v_cpus E) (v_limit E) q f ref ToStdout with
          | ROk d => mkRan s (Exit 0) (do_out d)
          | RErr _ => mkRan s (Exit 2) (v_left E)
          | RPanic => mkRan s Panicked (v_left E)
          end
      | Some out =>
          match open_write s (v_cwd E) (v_can E) (truncating q) out with
          | None => mkRan s (Exit 2) []
          | Some (lo, s1) =>
              let same := loc_eqb li lo in
              if same && negb (truncating q) then mkRan (upd s1 lo (NFile (v_left E))) (v_exit E) []
              else
                let old := match s lo with Some (NFile c) => Some c | _ => None end in
                match decode (v_H E) (v_order E) (v_cpus E) (v_limit E) (with_burst q o) (if same then [] else f) ref (ToFile old) with
                | ROk d => mkRan (upd s1 lo (NFile (do_out d))) (Exit 0) []
                | RErr _ => mkRan (upd s1 lo (NFile (v_left E))) (Exit 2) []
                | RPanic => mkRan (upd s1 lo (NFile (v_left E))) Panicked []
                end
          end
      end
  end.
(* src/cli_decode.rs:54-135, src/decode_core.rs:1678-1735 *)
Definition decode_cmd (E : env) (m : matches) (s : fs) : ran :=
  run s (decode_request E s m) (fun '(inf, q) =>
  match open_read s (v_cwd E) (v_can E) inf with
  | None => mkRan s (Exit 2) []
  | Some (li, f) =>
      match get_ref_block f (ref_from_pos (dc_ref_from q) (dc_from q)) (dc_ref_to q) (dc_misalign q) (dc_choice q) with
      | RPanic => mkRan s Panicked []
      | ROk (Some (_, ref)) =>
          run s (decode_out_path E s (value_of m A_out) ref) (fun path =>
          if negb (dc_force_write q) && truncating q && match path with Some o => path_exists s (v_cwd E) o | None => false end
          then mkRan s (Exit 2) []
          else decode_run E s li f q ref path)
      | _ => mkRan s (Exit 2) []
      end
  end).

(* ---- sort ---- *)
(* src/cli_sort.rs:43-92 *)
Definition sort_out_name (E : env) (s : fs) (m : matches) (inf : list N) : got (list N) :=
  match value_of m A_out with
  | None => Go (inf ++ str ".sorted")
  | Some x =>
      if path_is_dir s (v_cwd E) x then
        match get_file_name_part_of_path inf with None => Stop Panicked | Some n => Go (make_path [x; n ++ str ".sorted"]) end
      else Go x
  end.
Definition sort_request (E : env) (s : fs) (m : matches) : got (list N * list N * dparam) :=
  get! inf <- get_in_file E s m;
  get! out <- sort_out_name E s m inf;
  get! mp <- get_multi_pass m;
  get! burst <- get_number m A_burst;
  get! _ <- (if path_exists s (v_cwd E) out &&
                negb (is_present m A_force || match mp with None => false | Some _ => true end || is_present m A_dry_run)
             then Stop (Exit 1) else Go tt);
  get! _ <- get_pr_verbosity_level m;
  get! from <- get_number m A_from_pos;
  get! to <- get_range_end m A_to_pos_inc A_to_pos_exc;
  get! rfrom <- get_number m A_ref_from_pos;
  get! rto <- get_range_end m A_ref_to_pos_inc A_ref_to_pos_exc;
  get! guess <- get_number m A_guess_burst_from_pos;
  Go (inf, out, decode_param m mp from to rfrom rto guess burst).
(* src/cli_sort.rs:36-108, src/sort_core.rs:370-406. The output is opened after the reference block and the burst level are found. *)
Definition sort_cmd (E : env) (m : matches) (s : fs) : ran :=
  run s (sort_request E s m) (fun '(inf, out, q) =>
  match open_read s (v_cwd E) (v_can E) inf with
  | None => mkRan s (Exit 2) []
  | Some (li, f) =>
      let p := mkSparam q (is_present m A_report_blank) in
      match (do! r <- get_ref_block f (ref_from_pos (dc_ref_from q) (dc_from q)) (dc_ref_to q) (dc_misalign q) (dc_choice q);
             match r with
             | None => RErr OtherError
             | Some (_, ref) => get_data_par_burst f (dc_burst q) (guess_from_param (dc_guess q) (dc_from q)) (dc_misalign q) ref
             end) with
      | RPanic => mkRan s Panicked []
      | RErr _ => mkRan s (Exit 2) []
      | ROk _ =>
          if is_present m A_dry_run then
            match sort_file (v_cpus E) p f None with
            | ROk _ => mkRan s (Exit 0) []
            | RErr _ => mkRan s (Exit 2) []
            | RPanic => mkRan s Panicked []
            end
          else
            match open_write s (v_cwd E) (v_can E) (truncating q) out with
            | None => mkRan s (Exit 2) []
            | Some (lo, s1) =>
                if loc_eqb li lo then mkRan (upd s1 lo (NFile (v_left E))) (v_exit E) []
                else
                  let old := match s lo with Some (NFile c) => Some c | _ => None end in
                  match sort_file (v_cpus E) p f (Some old) with
                  | ROk (_, _, Some g) => mkRan (upd s1 lo (NFile g)) (Exit 0) []
                  | ROk (_, _, None) => mkRan s1 (Exit 0) []
                  | RErr _ => mkRan (upd s1 lo (NFile (v_left E))) (Exit 2) []
                  | RPanic => mkRan (upd s1 lo (NFile (v_left E))) Panicked []
                  end
            end
      end
  end).

(* ---- repair and update ---- *)
(* src/cli_macros.rs:377-395: the answer to the question whether to go on is the first byte of standard input *)
Definition wish_to_continue (E : env) : bool := match concat (v_stdin E) with 121 :: _ => true | _ => false end.
Definition asked_and_refused (E : env) (m : matches) : bool :=
  negb (is_present m A_skip_warning) && negb (is_present m A_dry_run) && negb (is_present m A_json) && negb (wish_to_continue E).
(* src/cli_repair.rs:35-88. A dry run opens the file for reading only (src/repair_core.rs:321-327). *)
Definition repair_cmd (E : env) (m : matches) (s : fs) : ran :=
  run s (get! inf <- get_in_file E s m; get! _ <- get_pr_verbosity_level m; get! burst <- get_number m A_burst; Go (inf, burst)) (fun '(inf, burst) =>
  if asked_and_refused E m then mkRan s (Exit 0) []
  else match open_read s (v_cwd E) (v_can E) inf with
       | None => mkRan s (Exit 2) []
       | Some (li, f) =>
           match repair_file (v_rc E) (is_present m A_dry_run) burst f with
           | ROk (Some (_, f')) => mkRan (upd s li (NFile f')) (Exit 0) []
           | ROk None => mkRan s (Exit 0) []
           | RErr _ => mkRan (if is_present m A_dry_run then s else upd s li (NFile (v_left E))) (Exit 2) []
           | RPanic => mkRan (if is_present m A_dry_run then s else upd s li (NFile (v_left E))) Panicked []
           end
       end).
(* src/cli_update.rs:83-188 *)
Definition update_cmd (E : env) (cut : option N) (m : matches) (s : fs) : ran :=
  run s (get! inf <- get_in_file E s m; get! _ <- get_pr_verbosity_level m; get! burst <- get_number m A_burst;
         get! h <- match value_of m A_hash_type with
                   | None => Go None
                   | Some x => match string_to_hash_type x with Some h => Go (Some h) | None => Stop (Exit 1) end
                   end;
         Go (inf, burst, h)) (fun '(inf, burst, h) =>
  if asked_and_refused E m then mkRan s (Exit 0) []
  else match open_read s (v_cwd E) (v_can E) inf with
       | None => mkRan s (Exit 2) []
       | Some (li, f) =>
           let q := mkUopts (is_present m A_dry_run) (value_of m A_fnm) (value_of m A_snm) (is_present m A_no_fnm) (is_present m A_no_snm)
                      (is_present m A_no_hsh) h burst in
           let (f', r) := update_file (v_H E) (v_cpus E) (update_param (v_H E) q) cut f in
           mkRan (upd s li (NFile f')) (match r with ROk _ => Exit 0 | RErr _ => Exit 2 | RPanic => Panicked end) []
       end).
