(* Model of the commands that only read: src/cli_check.rs and src/cli_show.rs, their options, exit codes and what they print with --json.
   The text printed if an option is refused or the input cannot be opened is not modelled, nor is what is printed without --json. *)
From Coq Require Import String.
From Verif Require Import M_Base M_Specs M_Header M_Multihash M_Metadata M_Block M_Index M_FileUtils M_Buffer M_Ranges M_Encode M_Scan M_Loop M_Decode
  M_Content M_Check M_Repair M_Sort M_Hex M_Rescue M_Json M_Show M_Report M_Path M_Cli.

(* what is left: the file system, how the command ended, and the calls made to the JSON printer, if modelled *)
Record seen := mkSeen { sn_fs : fs; sn_exit : exit; sn_calls : option (list call) }.
(* seconds it takes to check and to hash; the text of an error, if one is met *)
Record timing := mkTiming { k_check : Z; k_hash : Z; k_text : list N }.

(* src/cli_check.rs:62-104 *)
Definition check_request (E : env) (s : fs) (m : matches) : got (list N * cparam) :=
  get! _ <- get_pr_verbosity_level m;
  get! inf <- get_in_file E s m;
  get! from <- get_number m A_from_pos;
  get! to <- get_range_end m A_to_pos_inc A_to_pos_exc;
  get! ref_from <- get_number m A_ref_from_pos;
  get! ref_to <- get_range_end m A_ref_to_pos_inc A_ref_to_pos_exc;
  get! guess <- get_number m A_guess_burst_from_pos;
  let h := if is_present m A_hash then HashAfterCheck else if is_present m A_hash_only then HashOnly else NoHash in
  get! burst <- get_number m A_burst;
  Go (inf, mkCparam (get_ref_block_choice m) ref_from ref_to guess (is_present m A_report_blank) from to (is_present m A_force_misalign) h burst (is_present m A_verbose)).
(* src/cli_check.rs:62-110 *)
Definition check_cmd (E : env) (K : timing) (m : matches) (s : fs) : seen :=
  match check_request E s m with
  | Stop e => mkSeen s e None
  | Go (inf, p) =>
      match open_read s (v_cwd E) (v_can E) inf with
      | None => mkSeen s (Exit 2) None
      | Some (_, f) =>
          match check_report (v_H E) (v_cpus E) p f (k_check K) (k_hash K) (k_text K) with
          | ROk (cs, x) => mkSeen s (Exit x) (Some cs)
          | RErr _ => mkSeen s (Exit 2) None
          | RPanic => mkSeen s Panicked None
          end
      end
  end.

(* src/cli_show.rs:28-56 *)
Definition show_request (E : env) (s : fs) (m : matches) : got (list N * sparam) :=
  get! inf <- get_in_file E s m;
  get! _ <- get_pr_verbosity_level m;
  get! from <- get_number m A_from_pos;
  get! to <- get_range_end m A_to_pos_inc A_to_pos_exc;
  get! guess_from <- get_number m A_guess_burst_from_pos;
  get! uid <- match value_of m A_uid with None => Go None | Some x => get! u <- parse_uid x; Go (Some u) end;
  Go (inf, mkSparam (is_present m A_show_all) (is_present m A_guess_burst) guess_from (is_present m A_force_misalign) from to uid).
(* src/cli_show.rs:28-61; [fails]: the errors met when reading *)
Definition show_cmd (E : env) (K : timing) (cal : calendar) (fails : N -> option (list N)) (m : matches) (s : fs) : seen :=
  match show_request E s m with
  | Stop e => mkSeen s e None
  | Go (inf, p) =>
      match open_read s (v_cwd E) (v_can E) inf with
      | None => mkSeen s (Exit 2) None
      | Some (_, f) =>
          match show_file cal fails (k_text K) p f with
          | ROk (cs, e) => mkSeen s (Exit match e with None => 0 | Some _ => 2 end) (Some (command_calls cs e))
          | RErr _ => mkSeen s (Exit 2) None
          | RPanic => mkSeen s Panicked None
          end
      end
  end.
