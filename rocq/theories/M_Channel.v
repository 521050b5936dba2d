(* Model of where decode prints: src/output_channel.rs, src/cli_decode.rs:54-135, src/decode_core.rs:1515-1531,1676-1776, src/cli_utils.rs:270-307,
   src/misc_macros.rs:74-123, src/cli_macros.rs:1-33,508-533. Of what is printed only the line about the reference block without --json is spelled out;
   all other texts are parameters. *)
From Coq Require Import String.
From Verif Require Import M_Base M_Specs M_Header M_Multihash M_Metadata M_Block M_Index M_FileUtils M_Buffer M_Ranges M_Encode M_Scan M_Loop M_Decode
  M_Content M_Hex M_Rescue M_Json M_Path M_Cli.

(* src/output_channel.rs:1-5 *)
Inductive channel := Stdout | Stderr.
(* what is printed, in order *)
Definition trace := list (channel * list N).

(* the texts printed: the warning of cli_decode.rs:66-87, the brackets and "error : null" of the JSON printer, the errors of options and of the run,
   the reference block as JSON, the warning of decode_core.rs:1520-1526, the statistics, the message of a panic *)
Record words := mkWords { w_warning : list N; w_open : list N; w_option : list N; w_error : list N; w_info : list N; w_padding : list N; w_stats : list N;
  w_end : list N; w_panic : list N }.

(* {:X} of a u64 *)
Fixpoint hex_digits (fuel : nat) (n : N) : list N :=
  match fuel with
  | O => []
  | S k => (if n <? 16 then [] else hex_digits k (n / 16)) ++ [hex_digit true (n mod 16)]
  end.
Definition fmt_X (n : N) : list N := hex_digits 16 n.
(* src/cli_utils.rs:296-306 *)
Definition ref_block_line (pos : N) (ref : block) : list N :=
  str "Using " ++ (if is_meta ref then str "metadata" else str "data") ++ str " block as reference block, SBX version " ++ dec (ver_to_usize (b_version ref)) ++
  str ", located at byte " ++ dec pos ++ str " (0x" ++ fmt_X pos ++ str ")" ++ [10].

(* src/cli_decode.rs:61-95, src/cli_macros.rs:491-505 *)
Definition to_stdout (m : matches) : bool := match value_of m A_out with Some o => is_dash o | None => false end.
Definition decode_channel (m : matches) : channel := if to_stdout m then Stderr else Stdout.
(* src/misc_macros.rs:97-101, src/cli_utils.rs:270-307: without JSON the line is printed with println!, whatever the channel of the printer is *)
Definition ref_block_said (W : words) (m : matches) (pos : N) (ref : block) : trace :=
  let ch := decode_channel m in
  if is_present m A_verbose then
    if is_present m A_json then [(ch, w_info W)]
    else [(ch, [10]); (Stdout, ref_block_line pos ref); (ch, [10])]
  else [].
(* src/cli_macros.rs:1-33, and a panic *)
Definition ending (W : words) (ch : channel) (x : exit) : trace :=
  match x with
  | Exit 0 => [(ch, w_stats W); (ch, w_end W)]
  | Exit 1 => [(ch, w_option W); (ch, w_end W)]
  | Exit _ => [(ch, w_error W); (ch, w_end W)]
  | Panicked => [(Stderr, w_panic W)]
  end.
(* src/decode_core.rs:1515-1527: after the data *)
Definition padding_said (W : words) (m : matches) (ref : block) (x : exit) : trace :=
  match x with
  | Exit 0 => if is_data ref && negb (is_present m A_json) then [(decode_channel m, w_padding W)] else []
  | _ => []
  end.
(* src/cli_decode.rs:54-135, src/decode_core.rs:1676-1776: what is printed and, if the output is standard output, written. The steps are those of
   decode_cmd. *)
Definition decode_said (E : env) (W : words) (m : matches) (s : fs) : trace :=
  let ch := decode_channel m in
  let stop (e : exit) := ending W ch e in
  (if to_stdout m && negb (is_present m A_json) then [(Stderr, w_warning W)] else []) ++
  (if is_present m A_json then [(ch, w_open W)] else []) ++
  match decode_request E s m with
  | Stop e => stop e
  | Go (inf, q) =>
      (if is_present m A_json then [] else [(Stderr, str "Press Ctrl-C to interrupt" ++ [10])]) ++
      match open_read s (v_cwd E) (v_can E) inf with
      | None => stop (Exit 2)
      | Some (li, f) =>
          match get_ref_block f (ref_from_pos (dc_ref_from q) (dc_from q)) (dc_ref_to q) (dc_misalign q) (dc_choice q) with
          | RPanic => stop Panicked
          | ROk (Some (pos, ref)) =>
              ref_block_said W m pos ref ++
              match decode_out_path E s (value_of m A_out) ref with
              | Stop e => stop e
              | Go path =>
                  if negb (dc_force_write q) && truncating q && match path with Some o => path_exists s (v_cwd E) o | None => false end
                  then stop (Exit 2)
                  else
                    let r := decode_run E s li f q ref path in
                    [(Stdout, rn_stdout r)] ++ padding_said W m ref (rn_exit r) ++ stop (rn_exit r)
              end
          | _ => stop (Exit 2)
          end
      end
  end.
