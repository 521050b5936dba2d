(* Model of src/show_core.rs and of the show command (src/cli_show.rs) with json enabled: the calls made to the JSON printer.
   Parsing of the command line and progress reports are not modelled; the stop flag (Ctrl-C) is, in M_Stop. Converting seconds to a date and time is done by an
   external library (chrono): it is a parameter. Errors in opening the file are not modelled, errors in reading it are. *)
From Coq Require Import String.
From Verif Require Import M_Base M_Specs M_Header M_Multihash M_Metadata M_Block M_Index M_Buffer M_Ranges M_Scan M_Decode M_Hex M_Rescue M_Json.

(* src/sbx_block/mod.rs:664-695 *)
Definition get_SNM (b : block) : option (list N) := match block_get_meta b ISNM with Some (SNM s) => Some s | _ => None end.
Definition get_FDT (b : block) : option Z := match block_get_meta b IFDT with Some (FDT x) => Some x | _ => None end.
Definition get_SDT (b : block) : option Z := match block_get_meta b ISDT with Some (SDT x) => Some x | _ => None end.
Definition opt_RSD (b : block) : option N := match block_get_meta b IRSD with Some (RSD x) => Some x | _ => None end.
Definition opt_RSP (b : block) : option N := match block_get_meta b IRSP with Some (RSP x) => Some x | _ => None end.

(* src/multihash.rs:20-33 *)
Definition hash_type_to_string (t : hash_type) : list N :=
  match t with
  | SHA1 => str "SHA1"
  | SHA2_256 | SHA256 => str "SHA256"
  | SHA2_512_256 => str "SHA2-512-256"
  | SHA2_512_512 | SHA512 => str "SHA512"
  | BLAKE2B_256 => str "BLAKE2b-256"
  | BLAKE2B_512 => str "BLAKE2b-512"
  | BLAKE2S_128 => str "BLAKE2s-128"
  | BLAKE2S_256 => str "BLAKE2s-256"
  end.
(* src/time_utils.rs:34-75: year, month, day, hour, minute, second *)
Inductive time_mode := UTC | Local.
Definition calendar := time_mode -> Z -> option (Z * N * N * N * N * N).
Definition fmt_02 (n : N) : list N := (if n <? 10 then str "0" else []) ++ dec n.
Definition fmt_int (z : Z) : list N := (if (z <? 0)%Z then str "-" else []) ++ dec (Z.abs_N z).
Definition i64_secs_to_date_time_string (cal : calendar) (secs : Z) (m : time_mode) : option (list N) :=
  match cal m secs with
  | None => None
  | Some (year, month, day, hour, minute, second) =>
      Some (fmt_int year ++ str "-" ++ fmt_02 month ++ str "-" ++ fmt_02 day ++ str " " ++ fmt_02 hour ++ str ":" ++ fmt_02 minute ++ str ":" ++ fmt_02 second)
  end.

(* src/show_core.rs:72-84 *)
Record sparam := mkSparam {
  sp_all : bool; sp_guess : bool; sp_guess_from : option N; sp_misalign : bool;
  sp_from : option N; sp_to : option range_end; sp_uid : option (list N) }.

(* null_if_json_else_NA!, src/json_macros.rs:112-129 *)
Definition or_null {A} (f : A -> list N) (o : option A) : list N := match o with Some x => f x | None => str "null" end.
(* src/show_core.rs:353-386 *)
Definition show_time (cal : calendar) (x : Z) : list N :=
  match i64_secs_to_date_time_string cal x UTC, i64_secs_to_date_time_string cal x Local with
  | Some u, Some l => u ++ str " (UTC)  " ++ l ++ str " (Local)"
  | _, _ => str "Invalid recorded date time"
  end.
(* src/show_core.rs:267-402: the calls for one metadata block *)
Definition show_block (cal : calendar) (count pos : N) (b : block) : list call :=
  [Open None Curly;
   Field false (str "Metadata block number : " ++ dec count);
   Field false (str "Found at byte          : " ++ dec pos);
   Field true (str "File UID               : " ++ bytes_to_upper_hex_string (b_uid b));
   Field false (str "File name              : " ++ or_null (fun x => x) (get_FNM b));
   Field false (str "SBX container name     : " ++ or_null (fun x => x) (get_SNM b));
   Field false (str "SBX container version  : " ++ dec (ver_to_usize (b_version b)));
   Field false (str "RS data shard count    : " ++ if ver_uses_rs (b_version b) then or_null dec (opt_RSD b) else str "null");
   Field false (str "RS parity shard count  : " ++ if ver_uses_rs (b_version b) then or_null dec (opt_RSP b) else str "null");
   Field false (str "File size              : " ++ or_null dec (get_FSZ b));
   Field false (str "File modification time : " ++ or_null (show_time cal) (get_FDT b));
   Field false (str "SBX encoding time      : " ++ or_null (show_time cal) (get_SDT b));
   Field false (str "Hash                   : " ++ or_null (fun h => hash_type_to_string (fst h) ++ str " - " ++ bytes_to_lower_hex_string (snd h)) (get_HSH b));
   Close].
Definition uid_wanted (p : sparam) (b : block) : bool := match sp_uid p with Some u => eqbl (b_uid b) u | None => true end.
(* src/show_core.rs:239-408: the loop. [fails] gives the text of the error reading at a position, if it fails. Returns the calls and the error. *)
Fixpoint show_loop (fuel : nat) (cal : calendar) (fails : N -> option (list N)) (p : sparam) (f : file) (seek_to required_len bytes count : N)
  : result (list call * option (list N)) :=
  match fuel with
  | O => RErr OtherError
  | S fuel' =>
      if required_len <=? bytes then ROk ([], None)
      else match fails (seek_to + bytes) with
      | Some e => ROk ([], Some e)
      | None =>
        do! r <- read_block_lazily f (seek_to + bytes);
        let bytes' := bytes + lz_len r in
        if lz_eof r then ROk ([], None)
        else match lz_block r with
             | None => show_loop fuel' cal fails p f seek_to required_len bytes' count
             | Some b =>
                 if is_meta b && uid_wanted p b then
                   if sp_all p then
                     do! (cs, e) <- show_loop fuel' cal fails p f seek_to required_len bytes' (count + 1);
                     ROk (show_block cal count (bytes + seek_to) b ++ cs, e)
                   else ROk (show_block cal count (bytes + seek_to) b, None)
                 else show_loop fuel' cal fails p f seek_to required_len bytes' count
             end
      end
  end.
(* src/cli_utils.rs:270-295 *)
Definition report_ref_block_info (pos : N) (b : block) : list call :=
  [Open (Some (str "ref block info")) Curly;
   Field false (str "type : " ++ if is_meta b then str "metadata" else str "data");
   Field false (str "ver : " ++ dec (ver_to_usize (b_version b)));
   Field false (str "pos : " ++ dec pos);
   Close].
(* src/show_core.rs:122-203, src/general_error.rs:34-45: guessing the burst level; etext is the text of an error met *)
Definition show_guess (etext : list N) (p : sparam) (f : file) : result (list call * option (list N)) :=
  if negb (sp_guess p) then ROk ([], None)
  else
    do! r <- get_ref_block f (sp_from p) (sp_to p) (sp_misalign p) (MustBe TMeta);
    match r with
    | None => ROk ([], Some (str "Error : Failed to find reference block"))
    | Some (pos, b) =>
        let key := str "Best guess for burst error resistance level : " in
        if ver_uses_rs (b_version b) then
          match guess_burst f (guess_from_param (sp_guess_from p) (sp_from p)) (sp_misalign p) b with
          | RPanic => RPanic
          | RErr _ => ROk (report_ref_block_info pos b, Some (str "Error : Error encountered when guessing : " ++ etext))
          | ROk o => ROk (report_ref_block_info pos b ++ [Field false (key ++ or_null dec o)], None)
          end
        else ROk (report_ref_block_info pos b ++ [Field false (key ++ str "null")], None)
    end.
(* src/show_core.rs:119-419: on an error the bracket opened for the blocks is not closed *)
Definition show_file (cal : calendar) (fails : N -> option (list N)) (etext : list N) (p : sparam) (f : file) : result (list call * option (list N)) :=
  do! (g, e) <- show_guess etext p f;
  match e with
  | Some e => ROk (g, Some e)
  | None =>
      let '(required_len, seek_to) := calc_required_len_and_seek_to_from_byte_range (sp_from p) (sp_to p) (sp_misalign p) 0 (Len (lenN f)) None in
      do! (cs, e) <- show_loop (S (length f)) cal fails p f seek_to required_len 0 0;
      ROk (g ++ [Open (Some (str "blocks")) Square] ++ cs ++ match e with None => [Close] | Some _ => [] end, e)
  end.
(* src/cli_show.rs:28-66, src/cli_macros.rs:1-33 *)
Definition show (cal : calendar) (fails : N -> option (list N)) (etext : list N) (p : sparam) (f : file) : result (list call) :=
  do! (cs, e) <- show_file cal fails etext p f;
  ROk ([Open None Curly] ++ cs ++ [match e with None => Field false (str "error : null") | Some e => Error e end; Close]).
