(* Model of the size computations of src/file_utils.rs. *)
From Verif Require Import M_Base M_Specs M_Index.

(* src/file_utils.rs:52-75; the assertions tying version and data_par_burst are preconditions *)
Definition calc_meta_block_count_exc_burst_gaps (meta_enabled : option bool) (o : dpb) : N :=
  match o with
  | None => if match meta_enabled with Some b => b | None => true end then 1 else 0
  | Some (_, parity, _) => 1 + parity
  end.

(* src/file_utils.rs:79-82 *)
Definition container_calc_total_block_count (v : version) (size : N) : N :=
  (size + (ver_to_block_size v - 1)) / ver_to_block_size v.

(* src/file_utils.rs:88-91 *)
Definition calc_data_chunk_count (v : version) (size : N) : N :=
  (size + (ver_to_data_size v - 1)) / ver_to_data_size v.

(* src/file_utils.rs:93-127 *)
Definition calc_data_only_and_parity_block_count_exc_burst_gaps (v : version) (o : dpb) (size : N)
  : N * N :=
  let chunk_size := ver_to_data_size v in
  let data_chunks := (size + (chunk_size - 1)) / chunk_size in
  match o with
  | None => (data_chunks, 0)
  | Some (data_shards, parity_shards, _) =>
      let data_block_set_count := (data_chunks + (data_shards - 1)) / data_shards in
      (data_block_set_count * data_shards, data_block_set_count * parity_shards)
  end.

(* src/file_utils.rs:129-138 *)
Definition calc_data_block_count_exc_burst_gaps (v : version) (o : dpb) (size : N) : N :=
  let '(data, parity) := calc_data_only_and_parity_block_count_exc_burst_gaps v o size in
  data + parity.

(* src/file_utils.rs:140-152 *)
Definition calc_total_block_count_exc_burst_gaps (v : version) (me : option bool) (o : dpb) (size : N) : N :=
  calc_meta_block_count_exc_burst_gaps me o + calc_data_block_count_exc_burst_gaps v o size.

(* src/file_utils.rs:208-222: largest write index over a list of sequence numbers *)
Definition max_write_index (me : option bool) (o : dpb) (seqs : list N) : N :=
  fold_left (fun last_index seq_num =>
               let index := calc_data_block_write_index seq_num me o in
               if last_index <? index then index else last_index) seqs 0.

(* src/file_utils.rs:154-227. The u32 loop counter overflows (panic) when the last sequence
   number is u32::MAX; `as u32` casts truncate; division by zero panics. *)
Definition calc_container_size (v : version) (me : option bool) (o : dpb) (size : N) : result N :=
  let block_size := ver_to_block_size v in
  match o with
  | None => ROk (block_size * calc_total_block_count_exc_burst_gaps v me o size)
  | Some (data, parity, burst) =>
      if burst =? 0 then ROk (block_size * calc_total_block_count_exc_burst_gaps v me o size)
      else
        let data_block_count := calc_data_block_count_exc_burst_gaps v o size in
        if data_block_count =? 0 then
          ROk (last (calc_meta_block_all_write_pos_s v o) 0 + block_size)
        else
          let last_seq_num := u32 data_block_count in
          let super_block_set_size := u32 ((data + parity) * burst) in
          if (last_seq_num =? 0) || (super_block_set_size =? 0) || (last_seq_num =? U32_MAX)
          then RPanic
          else
            let last_data_index := last_seq_num - 1 in
            let first_data_index_in_last_block_set :=
              (last_data_index / super_block_set_size) * super_block_set_size in
            let first_seq_num_in_last_block_set := first_data_index_in_last_block_set + 1 in
            let last_index :=
              max_write_index me o (rangeN first_seq_num_in_last_block_set (last_seq_num + 1)) in
            ROk (block_size * (last_index + 1))
  end.
