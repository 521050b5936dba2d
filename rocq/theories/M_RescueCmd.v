(* Model of src/cli_rescue.rs: the command rescue as a program on a file system. *)
From Coq Require Import String Ascii.
From Verif Require Import M_Base M_Specs M_Header M_Multihash M_Metadata M_Block M_Index M_FileUtils M_Buffer M_Ranges M_Encode
  M_Scan M_Loop M_Decode M_Sort M_Repair M_Content M_Update M_Rescue M_Hex M_Json M_Path M_Cli.

(* What a run depends on besides [env]: the order in which the map of the k-th buffer is visited (k counts the buffers still to come), a stop
   signal or read error, and when the log thread writes: before the k-th buffer, after the i-th file written for it, and
   at the end. *)
Record rescue_env := mkRescueEnv {
  re_order : nat -> list (list N * list (list N)) -> list (list N * list (list N)); re_event : option (N * event);
  re_tick : nat -> nat -> bool; re_last : bool }.

(* src/cli_rescue.rs:57-86 and src/cli_macros.rs:447-459 (the UID): what is asked for, and the paths of the input, the directory and the log *)
Definition get_block_type (m : matches) : got (option block_type) :=
  match value_of m A_block_type with
  | None => Go None
  | Some x =>
      if eqbl x (str "any") then Go None
      else if eqbl x (str "meta") then Go (Some TMeta)
      else if eqbl x (str "data") then Go (Some TData)
      else Stop (Exit 1)
  end.
Definition rescue_request (E : env) (s : fs) (m : matches) : got (rparam * list N * list N * option (list N)) :=
  get! uid <- match value_of m A_uid with None => Go None | Some x => get! u <- parse_uid x; Go (Some u) end;
  get! ty <- get_block_type m;
  get! from <- get_number m A_from_pos;
  get! to <- get_range_end m A_to_pos_inc A_to_pos_exc;
  get! _ <- get_pr_verbosity_level m;
  match value_of m A_in_file, value_of m A_out_dir with
  | Some inf, Some out =>
      if negb (path_exists s (v_cwd E) inf) then Stop (Exit 1)
      else if negb (path_exists s (v_cwd E) out) then Stop (Exit 1)
      else if negb (path_is_dir s (v_cwd E) out) then Stop (Exit 1)
      else Go (mkRparam from to (is_present m A_force_misalign) ty uid, inf, out, value_of m A_log_file)
  | _, _ => Stop Panicked
  end.

(* The log at the start, src/log.rs:175-194 and 67-82. There is none if the path names nothing; it is an error if the path leads through
   a file, or if what it names cannot be read. *)
Fixpoint through_file (s : fs) (l : loc) (ps : list (list N)) : bool :=
  match ps with
  | [] => false
  | p :: ps' => match s l with Some (NFile _) => true | Some NDir => through_file s (step_loc l p) ps' | None => false end
  end.
Definition open_log (E : env) (s : fs) (log : option (list N)) : got (option (list N)) :=
  match log with
  | None => Go None
  | Some path =>
      match lookup s (v_cwd E) path with
      | Some (NFile _) => match open_read s (v_cwd E) (v_can E) path with Some (_, c) => Go (Some c) | None => Stop (Exit 2) end
      | Some NDir => Stop (Exit 2)
      | None =>
          if existsb (N.eqb 0) path || through_file s (match path with 47 :: _ => [] | _ => v_cwd E end) (split_slash path)
          then Stop (Exit 2) else Go None
      end
  end.
(* src/log.rs:84-99,125-132: the log thread; whether there was an error *)
Definition write_log (E : env) (log : option (list N)) (st : rstats) (s : fs) : fs * bool :=
  match log with
  | None => (s, false)
  | Some path =>
      match open_write s (v_cwd E) (v_can E) true path with
      | Some (l, s1) => (upd s1 l (NFile (serialize st)), false)
      | None => (s, true)
      end
  end.
Definition maybe_log (E : env) (tick : bool) (log : option (list N)) (st : rstats) (s : fs) (err : bool) : fs * bool :=
  if tick then let '(s', e) := write_log E log st s in (s', err || e) else (s, err).
(* src/rescue_buffer/mod.rs:116-131: one file; append mode *)
Definition append_file (E : env) (out n d : list N) (s : fs) : option fs :=
  match open_write s (v_cwd E) (v_can E) false (make_path [out; n]) with
  | Some (l, s1) => Some (upd s1 l (NFile (match s1 l with Some (NFile c) => c | _ => [] end ++ d)))
  | None => None
  end.
(* src/rescue_buffer/mod.rs:114-137; [i] counts the files still to be written. The last component: all were written. *)
Fixpoint append_files (E : env) (R : nat -> bool) (out : list N) (log : option (list N)) (st : rstats) (l : list (list N * list N)) (s : fs) (err : bool) : fs * bool * bool :=
  match l with
  | [] => (s, err, true)
  | (n, d) :: l' =>
      match append_file E out n d s with
      | None => (s, err, false)
      | Some s1 => let '(s2, err') := maybe_log E (R (length l')) log st s1 err in append_files E R out log st l' s2 err'
      end
  end.
(* src/rescue_core.rs:408-447: the writer thread. The counters published at the end, and whether it came to the end. *)
Fixpoint rescue_writer (E : env) (R : rescue_env) (out : list N) (log : option (list N)) (l : list (list rblock * rstats)) (st : rstats) (s : fs) (err : bool)
  : fs * rstats * bool :=
  match l with
  | [] => (s, st, true)
  | (bs, st') :: l' =>
      let k := length l' in
      let fs := appends (re_order R k) bs in
      let '(s1, err1) := maybe_log E (re_tick R k (S (length fs))) log st s err in
      if err1 then (s1, st, false)
      else match append_files E (re_tick R k) out log st fs s1 false with
           | (s2, _, false) => (s2, st, false)
           | (s2, err2, true) => rescue_writer E R out log l' st' s2 err2
           end
  end.
(* src/cli_rescue.rs:50-107, src/rescue_core.rs:237-463. What is read is the input as it was at the start (an input that is also
   an output is not modelled, nor is a directory as input). The fuel is never used up. *)
Definition rescue_cmd (E : env) (R : rescue_env) (m : matches) (s : fs) : ran :=
  run s (rescue_request E s m) (fun '(p, inf, out, log) =>
  match open_read s (v_cwd E) (v_can E) inf with
  | None => mkRan s (Exit 2) []
  | Some (_, f) =>
      run s (open_log E s log) (fun text =>
      match rescue_start p f text with
      | RErr _ => mkRan s (Exit 2) []
      | RPanic => mkRan s Panicked []
      | ROk (required_len, st, at_) =>
          let fuel := S (length f) in
          match read_buffers fuel fuel BLOCK_COUNT_IN_BUFFER p f required_len at_ (re_event R) st with
          | Some (ROk (l, failed)) =>
              let '(s1, st1, done) := rescue_writer E R out log l st s false in
              let '(s2, _) := maybe_log E (re_last R) log st1 s1 false in
              mkRan s2 (if failed || negb done then Exit 2 else Exit 0) []
          | Some (RErr _) => mkRan s (Exit 2) []
          | Some RPanic | None => mkRan s Panicked []
          end
      end)
  end).
