(* Model of src/encode_core.rs: encode_file. The reader, encoder and writer threads are modelled as one
   loop passing the buffers through the three stages in turn (see M_Pipeline for the threads).
   Progress reporting and the clock are not modelled: times are parameters. The stop flag (Ctrl-C) is in M_Stop. *)
From Verif Require Import M_Base M_Specs M_Header M_Multihash M_Metadata M_Block M_Index M_FileUtils
  M_Buffer M_Ranges.

(* A data source. A regular file gives all the bytes asked for up to its end. Standard input is a
   script: the k-th OS read returns at most the k-th piece (the rest of a piece stays for the next
   read); an empty script is end of file. *)
Inductive source := SrcFile (rest : list N) | SrcStdin (script : list (list N)).

(* src/reader.rs:9, src/file_reader.rs:15 *)
Definition READ_RETRIES : nat := 5.
(* one OS read of at most n bytes from standard input *)
Definition os_read (script : list (list N)) (n : N) : list N * list (list N) :=
  match script with
  | [] => ([], [])
  | p :: ps => if lenN p <=? n then (p, ps) else (takeN n p, dropN n p :: ps)
  end.
(* src/reader.rs:30-46: at most READ_RETRIES OS reads *)
Fixpoint read_tries (tries : nat) (script : list (list N)) (n : N) : list N * list (list N) :=
  match tries with
  | O => ([], script)
  | S t =>
      if n =? 0 then ([], script)
      else
        let '(d, script1) := os_read script n in
        let '(d', script2) := read_tries t script1 (n - lenN d) in
        (d ++ d', script2)
  end.
(* src/reader.rs:27-55, src/file_reader.rs:98-118: the bytes read; eof_seen is "fewer than n". For a
   regular file the retry loop always gets everything available. *)
Definition src_read (s : source) (n : N) : list N * source :=
  match s with
  | SrcFile rest => (takeN n rest, SrcFile (dropN n rest))
  | SrcStdin script => let '(d, script') := read_tries READ_RETRIES script n in (d, SrcStdin script')
  end.

(* The hash functions (external crates): digest of a byte string. *)
Definition hash_fn := hash_type -> list N -> list N.
(* src/multihash.rs:172-225: Ctx::new fails for this type *)
Definition hash_supported (t : hash_type) : bool := match t with SHA2_512_256 => false | _ => true end.
(* src/multihash.rs:227-237: Ctx::hash_type *)
Definition ctx_hash_type (t : hash_type) : hash_type :=
  match t with SHA2_256 => SHA256 | SHA2_512_512 => SHA512 | t => t end.
(* src/multihash.rs:272-311: finish_into_hash_bytes of a context that was fed [data] *)
Definition finish_hash (H : hash_fn) (t : hash_type) (data : list N) : hash_bytes :=
  (ctx_hash_type t, H (ctx_hash_type t) data).

(* src/encode_core.rs:255-303. in_name: file name part of the input path, if not standard input;
   fdt: modification time if available; sdt: start time. *)
Record eparam := mkEparam {
  e_ver : version; e_uid : list N; e_dpb : dpb; e_meta : bool; e_hash : hash_type;
  e_from : option N; e_to : option range_end;
  e_in_name : option (list N); e_out_name : list N; e_fdt : option Z; e_sdt : Z }.
(* src/encode_core.rs:290 *)
Definition meta_on (p : eparam) : bool := ver_forces_meta_enabled (e_ver p) || e_meta p.

(* src/encode_core.rs:305-334 *)
Record estats := mkEstats { st_meta : N; st_data : N; st_parity : N; st_padbytes : N }.
Definition data_bytes_encoded (v : version) (s : estats) : N :=
  st_data s * ver_to_data_size v - st_padbytes s.

(* src/encode_core.rs:357-426; `as u8` truncates *)
Definition pack_metadata (H : hash_fn) (p : eparam) (file_size : option N) (hash : option hash_bytes)
  : list metadata :=
  (match e_in_name p with Some n => [FNM n] | None => [] end)
  ++ [SNM (e_out_name p)]
  ++ (match file_size with Some n => [FSZ n] | None => [] end)
  ++ (match e_fdt p with Some t => [FDT t] | None => [] end)
  ++ [SDT (e_sdt p)]
  ++ [HSH (match hash with Some h => h | None => finish_hash H (e_hash p) [] end)]
  ++ (if ver_uses_rs (e_ver p) then
        match e_dpb p with Some (d, par, _) => [RSD (u8 d); RSP (u8 par)] | None => [] end
      else []).

(* src/encode_core.rs:428-475 *)
Definition write_meta_blocks (H : hash_fn) (p : eparam) (file_size : option N) (hash : option hash_bytes)
    (f : file) : result file :=
  let b := mkBlock (header_new (e_ver p) (e_uid p) 0) (DMeta (pack_metadata H p file_size hash)) in
  do! (_, buf) <- sync_to_buffer b None (repN SBX_LARGEST_BLOCK_SIZE 0);
  ROk (fold_left (fun f pos => file_write f pos (takeN (ver_to_block_size (e_ver p)) buf))
         (calc_meta_block_all_write_pos_s (e_ver p) (e_dpb p)) f).

(* State of the reader thread, src/encode_core.rs:577-579,631-634: source, bytes_processed, sequence
   number of block_for_seq_num_check, last_data_block_exc_parity_seen, bytes fed to the hash, and
   whether an error was sent. *)
Record estate := mkEstate {
  es_src : source; es_bytes : N; es_seq : N; es_last : bool; es_hashed : list N; es_err : bool }.

(* src/encode_core.rs:645-650 *)
Definition enc_pre (required_len : option N) (st : estate) : bool :=
  match required_len with Some r => r <=? es_bytes st | None => false end.

(* src/encode_core.rs:653-704, with the slot handed out; adding 1 [parity] times with unwrap panics on
   overflow *)
Definition enc_step (c : cfg) (last_seq : N) (st : estate) (s : slot)
  : result (estate * action * bool) :=
  let ds := ver_to_data_size (c_ver c) in
  let '(d, src') := src_read (es_src st) (slot_view_len c) in
  let s1 := fill_view c s d in
  let bytes := es_bytes st + lenN d in
  if lenN d =? 0 then
    ROk (mkEstate src' bytes (es_seq st) (es_last st) (es_hashed st) (es_err st), Cancel s1, true)
  else if es_last st || (es_seq st =? U32_MAX) then
    ROk (mkEstate src' bytes (es_seq st) (es_last st) (es_hashed st) true, Cancel s1, true)
  else
    let seq := es_seq st + 1 in
    let hashed := es_hashed st ++ d in
    if lenN d <? ds then
      ROk (mkEstate src' bytes seq (es_last st) hashed (es_err st),
           Keep (mkSlot (s_block s1) (s_buf s1) (s_rpos s1) (s_wpos s1) (Some (lenN d)) (s_pad s1)), true)
    else
      let last := es_last st || (seq =? last_seq) in
      match c_dpb c with
      | Some (data, parity, _) =>
          if (seq - 1) mod (data + parity) =? data - 1 then
            if U32_MAX <? seq + parity then RPanic
            else ROk (mkEstate src' bytes (seq + parity) last hashed (es_err st), Keep s1, false)
          else ROk (mkEstate src' bytes seq last hashed (es_err st), Keep s1, false)
      | None => ROk (mkEstate src' bytes seq last hashed (es_err st), Keep s1, false)
      end.

(* src/encode_core.rs:720-744: encoder thread on one buffer *)
Definition enc_encode (c : cfg) (rs : codec) (stats : estats) (b : dbuf) : result (dbuf * estats) :=
  do! b1 <- dbuf_encode c rs b;
  let '(data, padding, parity) := dbuf_counts c b1 in
  let padbytes := dbuf_padbytes b1 in
  ROk (b1, mkEstats (st_meta stats) (st_data stats + data) (st_parity stats + parity)
             (st_padbytes stats + (padbytes + padding * ver_to_data_size (c_ver c)))).

(* src/encode_core.rs:636-708,720-740,753-762: the buffers in rotation *)
Fixpoint enc_loop (c : cfg) (rs : codec) (required_len : option N) (last_seq : N) (ffuel fuel : nat)
    (q : list dbuf) (st : estate) (stats : estats) (f : file) : result (estate * estats * file) :=
  match fuel with
  | O => RErr OtherError
  | S fuel' =>
      match q with
      | [] => RPanic
      | b :: q' =>
          do! (st1, b1, run) <- fill c (enc_pre required_len) (enc_step c last_seq) ffuel st b;
          do! (b2, stats1) <- enc_encode c rs stats b1;
          do! (b3, f1) <- dbuf_write c f b2;
          if run : bool then
            enc_loop c rs required_len last_seq ffuel fuel' (q' ++ [dbuf_reset c b3]) st1 stats1 f1
          else ROk (st1, stats1, f1)
      end
  end.

(* src/encode_core.rs:34 *)
Definition ENC_BUFFERS : N := 9.
(* the buffers of encode_file, src/encode_core.rs:604-613; lot_count is 50 per CPU
   (src/data_block_buffer/mod.rs:620) *)
Definition enc_cfg (p : eparam) (cpus : N) : cfg :=
  mkCfg (e_ver p) (e_uid p) InData OutBlock (e_dpb p) (meta_on p) false
        (cpus * LOT_COUNT_PER_CPU) ENC_BUFFERS.

(* Outcome of encode_file: the output file, whether an error is returned, the statistics, the hash and
   the output size reported *)
Record eoutcome := mkEoutcome {
  eo_file : file; eo_err : bool; eo_stats : estats; eo_hash : option hash_bytes; eo_size : N }.

Definition source_size (s : source) : nat :=
  match s with SrcFile r => length r | SrcStdin ps => length (concat ps) end.

(* src/encode_core.rs:477-814. [input] is the whole input file, or the script of standard input. The
   output file is truncated first. *)
Definition encode_file (H : hash_fn) (rs : codec) (cpus : N) (p : eparam) (input : source)
  : result eoutcome :=
  let '(required_len, src) :=
    match input with
    | SrcFile content =>
        let '(len, seek_to) :=
          calc_required_len_and_seek_to_from_byte_range (e_from p) (e_to p) true 0
            (Len (lenN content)) None in
        (Some len, SrcFile (dropN seek_to content))
    | SrcStdin _ => (None, input)
    end in
  do! max <- ver_to_max_data_file_size (e_ver p) (e_dpb p);
  let no_stats := mkEstats 0 0 0 0 in
  if match required_len with Some r => max <? r | None => false end
  then ROk (mkEoutcome [] true no_stats None 0)
  else
    if negb (hash_supported (e_hash p)) then RPanic else
    match (if meta_on p then write_meta_blocks H p required_len None [] else ROk []) with
    | RPanic => RPanic
    | RErr _ => ROk (mkEoutcome [] true no_stats None 0)
    | ROk f0 =>
        let stats0 := if meta_on p
                      then mkEstats (lenN (calc_meta_block_all_write_pos_s (e_ver p) (e_dpb p))) 0 0 0
                      else no_stats in
        do! last_seq <- ver_to_last_data_seq_num_exc_parity (e_ver p) (e_dpb p);
        let c := enc_cfg p cpus in
        let fuel := S (S (source_size src)) in
        do! (st, stats, f1) <- enc_loop c rs required_len last_seq fuel fuel (dbuf_new_multi c)
                                 (mkEstate src 0 0 false [] false) stats0 f0;
        if es_err st then ROk (mkEoutcome f1 true stats None 0)
        else
          let n := data_bytes_encoded (e_ver p) stats in
          let size := calc_container_size (e_ver p) (Some (meta_on p)) (e_dpb p) n in
          if meta_on p then
            let h := finish_hash H (e_hash p) (es_hashed st) in
            match write_meta_blocks H p (Some n) (Some h) f1 with
            | RPanic => RPanic
            | RErr _ => ROk (mkEoutcome f1 true stats None 0)
            | ROk f2 => do! size <- size; ROk (mkEoutcome f2 false stats (Some h) size)
            end
          else do! size <- size; ROk (mkEoutcome f1 false stats None size)
    end.
