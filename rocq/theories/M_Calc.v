(* Model of the calc command (src/cli_calc.rs): what it computes, and the calls it makes to the JSON printer. The headings printed without
   --json are not modelled. Numbers are unbounded here: sums and products of 64 bits overflow only for sizes encode refuses or for
   burst levels of 2^24 and more. *)
From Coq Require Import String Ascii.
From Verif Require Import M_Base M_Specs M_Header M_Index M_FileUtils M_Buffer M_Rescue M_Json M_Path M_Cli.

(* the numbers printed *)
Record calc_report := mkCalc {
  cr_ver : version; cr_dpb : dpb; cr_meta : N; cr_data : N; cr_parity : N; cr_total : N; cr_file_size : N; cr_size : N }.
(* src/cli_calc.rs:31-65 *)
Definition calc_cmd (m : matches) : got calc_report :=
  get! (v, o) <- get_ver_and_data_par_burst_w_defaults m;
  let meta_enabled := Some (negb (is_present m A_no_meta)) in
  match value_of m A_in_file_size with
  | None => Stop Panicked
  | Some x =>
      match parse_unsigned x with
      | None => Stop (Exit 1)
      | Some size =>
          match calc_container_size v meta_enabled o size with
          | ROk out_file_size =>
              let '(data, parity) := calc_data_only_and_parity_block_count_exc_burst_gaps v o size in
              Go (mkCalc v o (calc_meta_block_count_exc_burst_gaps meta_enabled o) data parity
                    (calc_total_block_count_exc_burst_gaps v meta_enabled o size) size out_file_size)
          | _ => Stop Panicked
          end
      end
  end.
(* how the command ends *)
Definition calc_exit (m : matches) : exit := match calc_cmd m with Go _ => Exit 0 | Stop e => e end.

(* src/cli_calc.rs:67-272 with --json, src/cli_macros.rs:1-20 *)
Definition calc_calls (r : calc_report) : list call :=
  let v := cr_ver r in
  [Open None Curly; Open (Some (str "stats")) Curly;
   Field false (str "    SBX container version        : " ++ dec (ver_to_usize v));
   Field false (str "    SBX container block size     : " ++ dec (ver_to_block_size v));
   Field false (str "    SBX container data  size     : " ++ dec (ver_to_data_size v))] ++
  (if ver_uses_rs v then
     [Field false (str "    Metadata    block count      : " ++ dec (cr_meta r));
      Field false (str "    Data only   block count      : " ++ dec (cr_data r));
      Field false (str "    Data parity block count      : " ++ dec (cr_parity r));
      Field false (str "    Total       block count      : " ++ dec (cr_total r))]
   else
     [Field false (str "    Metadata block count         : " ++ dec (cr_meta r));
      Field false (str "    Data     block count         : " ++ dec (cr_data r));
      Field false (str "    Total    block count         : " ++ dec (cr_total r))]) ++
  (let '(d, p, b) := match cr_dpb r with Some (d, p, b) => (dec d, dec p, dec b) | None => (str "null", str "null", str "null") end in
   [Field false (str "    RS data   shard count        : " ++ d);
    Field false (str "    RS parity shard count        : " ++ p);
    Field false (str "    Burst error resistance level : " ++ b)]) ++
  [Field false (str "    File size                    : " ++ dec (cr_file_size r));
   Field false (str "    SBX container size           : " ++ dec (cr_size r));
   Close; Field false (str "error : null"); Close].

(* The numbers in the interpretation printed without --json for versions with error correction, src/cli_calc.rs:193-253: blocks in a block set,
   blocks in a super block set (burst level 1 and up), number of bursts (without burst level: of blocks) that may be corrupted in each,
   blocks in a burst, blocks in the longest single burst. Each is followed by the bytes: so many blocks times the block size. *)
Record tolerance := mkTolerance { tl_set : N; tl_super : N; tl_count : N; tl_burst : N; tl_longest : N }.
Definition calc_tolerance (data par burst : N) : tolerance :=
  if burst =? 0 then mkTolerance (data + par) (data + par) par 1 par
  else mkTolerance (data + par) ((data + par) * burst) par burst (par * burst).
