(* Model of what encode --info-only prints with --json (src/cli_encode.rs:141-258, src/cli_macros.rs:1-20): the calls made to the JSON printer.
   What is found out is encode_info of M_Cli. *)
From Coq Require Import String.
From Verif Require Import M_Base M_Specs M_Header M_Index M_FileUtils M_Rescue M_Json M_Path M_Cli M_Show M_Report.

(* src/cli_encode.rs:168-178, null_if_json_else_NA! *)
Definition info_time (cal : calendar) (o : option Z) : list N :=
  or_null (fun x => match i64_secs_to_date_time_string cal x UTC, i64_secs_to_date_time_string cal x Local with
                    | Some u, Some l => u ++ str " (UTC)  " ++ l ++ str " (Local)"
                    | _, _ => str "Invalid file modification time"
                    end) o.
(* src/cli_encode.rs:187-254; the unwraps of data_par_burst do not fail: get_ver_and_data_par_burst_w_defaults gives shards for these versions *)
Definition info_stats_calls (cal : calendar) (i : enc_info) : list call :=
  let v := ei_ver i in
  [Open (Some (str "stats")) Curly] ++
  (if ver_uses_rs v then
     let '(d, p, b) := match ei_dpb i with Some x => x | None => (0, 0, 0) end in
     [Field false (str "File name                    : " ++ ei_in i);
      Field false (str "SBX container name           : " ++ ei_out i);
      Field false (str "SBX container version        : " ++ dec (ver_to_usize v));
      Field false (str "SBX container block size     : " ++ dec (ver_to_block_size v));
      Field false (str "SBX container data  size     : " ++ dec (ver_to_data_size v));
      Field false (str "RS data   shard count        : " ++ dec d);
      Field false (str "RS parity shard count        : " ++ dec p);
      Field false (str "Burst error resistance level : " ++ dec b);
      Field false (str "File size                    : " ++ dec (ei_size i));
      Field false (str "SBX container size           : " ++ dec (ei_container i));
      Field false (str "File modification time       : " ++ info_time cal (ei_mtime i))]
   else
     [Field false (str "File name                : " ++ ei_in i);
      Field false (str "SBX container name       : " ++ ei_out i);
      Field false (str "SBX container version    : " ++ dec (ver_to_usize v));
      Field false (str "SBX container block size : " ++ dec (ver_to_block_size v));
      Field false (str "SBX container data  size : " ++ dec (ver_to_data_size v));
      Field false (str "File size                : " ++ dec (ei_size i));
      Field false (str "SBX container size       : " ++ dec (ei_container i));
      Field false (str "File modification time   : " ++ info_time cal (ei_mtime i))]) ++
  [Close].
(* src/cli_encode.rs:142-158,256-258: the group stats is open already when standard input is refused or the file cannot be read. A panic prints no more. *)
Definition info_calls (E : env) (cal : calendar) (s : fs) (q : enc_request) : list call :=
  match encode_info E s q with
  | Go i => command_calls (info_stats_calls cal i) None
  | Stop _ =>
      [Open None Curly; Open (Some (str "stats")) Curly;
       Error (if is_dash (eq_in q) then str "No information is available for stdin input" else str "Failed to get metadata of """ ++ eq_in q ++ str """"); Close]
  end.
