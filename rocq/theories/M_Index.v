(* Model of the position arithmetic of src/sbx_block/mod.rs and src/file_utils.rs. *)
From Verif Require Import M_Base M_Specs.

(* src/sbx_block/mod.rs:218-220 *)
Definition seq_num_is_meta (seq_num : N) : bool := seq_num =? 0.

(* src/sbx_block/mod.rs:222-232; `(data + parity) as u32` *)
Definition seq_num_is_parity (seq_num data_shards parity_shards : N) : bool :=
  if seq_num =? 0 then false
  else
    let index := seq_num - SBX_FIRST_DATA_SEQ_NUM in
    let index_in_set := index mod (data_shards + parity_shards) in
    data_shards <=? index_in_set.

(* src/sbx_block/mod.rs:234-242 *)
Definition seq_num_is_parity_w_data_par_burst (seq_num : N) (o : dpb) : bool :=
  match o with
  | Some (d, p, _) => seq_num_is_parity seq_num d p
  | None => false
  end.

(* src/sbx_block/mod.rs:261-276 *)
Definition calc_meta_block_dup_write_indices (o : dpb) : list N :=
  match o with
  | Some (_, parity, burst) => map (fun i => i * (1 + burst)) (rangeN 1 (1 + parity))
  | None => []
  end.

(* src/sbx_block/mod.rs:244-259 *)
Definition calc_meta_block_dup_write_pos_s (v : version) (o : dpb) : list N :=
  map (fun i => i * ver_to_block_size v) (calc_meta_block_dup_write_indices o).

(* Vec::sort on u64 *)
Fixpoint insertN (x : N) (l : list N) : list N :=
  match l with
  | [] => [x]
  | y :: l' => if x <=? y then x :: l else y :: insertN x l'
  end.
Fixpoint sortN (l : list N) : list N :=
  match l with [] => [] | x :: l' => insertN x (sortN l') end.

(* src/sbx_block/mod.rs:278-289 *)
Definition calc_meta_block_all_write_pos_s (v : version) (o : dpb) : list N :=
  sortN (calc_meta_block_dup_write_pos_s v o ++ [0]).

(* src/sbx_block/mod.rs:291-301 *)
Definition calc_meta_block_all_write_indices (o : dpb) : list N :=
  sortN (calc_meta_block_dup_write_indices o ++ [0]).

(* src/sbx_block/mod.rs:316-415. The assertion seq_num >= 1 is a precondition (a panic in the
   code); all arithmetic is u64 on operands far below 2^64. *)
Definition calc_data_block_write_index (seq_num : N) (meta_enabled : option bool) (o : dpb) : N :=
  let index := seq_num - SBX_FIRST_DATA_SEQ_NUM in
  match o with
  | None =>
      let meta_enabled := match meta_enabled with Some b => b | None => true end in
      if meta_enabled then SBX_FIRST_DATA_SEQ_NUM + index else index
  | Some (data_shards, parity_shards, burst) =>
      if burst =? 0 then (1 + parity_shards) + index
      else
        let super_block_set_size := (data_shards + parity_shards) * burst in
        let sub_a_block_set_size := data_shards + parity_shards in
        let sub_b_block_set_size := burst in
        let super_block_set_index := index / super_block_set_size in
        let index_in_super_block_set := index mod super_block_set_size in
        let sub_a_block_set_index := index_in_super_block_set / sub_a_block_set_size in
        let index_in_sub_a_block_set := index_in_super_block_set mod sub_a_block_set_size in
        let sub_b_block_set_index := index_in_sub_a_block_set in
        let index_in_sub_b_block_set := sub_a_block_set_index in
        let new_index_in_super_block_set :=
          sub_b_block_set_index * sub_b_block_set_size + index_in_sub_b_block_set in
        let meta_block_count :=
          if super_block_set_index =? 0 then
            if sub_b_block_set_index <? 1 + parity_shards then 1 + sub_b_block_set_index
            else 1 + parity_shards
          else 1 + parity_shards in
        meta_block_count + super_block_set_size * super_block_set_index
        + new_index_in_super_block_set
  end.

(* src/sbx_block/mod.rs:303-314 *)
Definition calc_data_block_write_pos (v : version) (seq_num : N) (meta_enabled : option bool) (o : dpb) : N :=
  calc_data_block_write_index seq_num meta_enabled o * ver_to_block_size v.

(* src/sbx_block/mod.rs:417-437 *)
Definition calc_data_chunk_write_index (seq_num : N) (data_par : option (N * N)) : option N :=
  if seq_num <? SBX_FIRST_DATA_SEQ_NUM then None
  else
    let index := seq_num - SBX_FIRST_DATA_SEQ_NUM in
    match data_par with
    | None => Some index
    | Some (data, parity) =>
        if seq_num_is_parity seq_num data parity then None
        else
          let block_set_index := index / (data + parity) in
          let index_in_block_set := index mod (data + parity) in
          Some (block_set_index * data + index_in_block_set)
    end.

(* src/sbx_block/mod.rs:439-452 *)
Definition calc_data_chunk_write_pos (v : version) (seq_num : N) (data_par : option (N * N)) : option N :=
  match calc_data_chunk_write_index seq_num data_par with
  | None => None
  | Some x => Some (x * ver_to_data_size v)
  end.

(* src/sbx_block/mod.rs:454-543; `as u32` truncates (the final additions are u32) *)
Definition calc_seq_num_at_index (index : N) (meta_enabled : option bool) (o : dpb) : N :=
  match o with
  | None =>
      let meta_enabled := match meta_enabled with Some b => b | None => true end in
      if meta_enabled then u32 index else u32 (SBX_FIRST_DATA_SEQ_NUM + u32 index)
  | Some (data_shards, parity_shards, burst) =>
      if burst =? 0 then
        if index <? 1 + parity_shards then 0
        else u32 (index - (1 + parity_shards) + 1)
      else
        if (index <? (1 + parity_shards) * (1 + burst)) && (index mod (1 + burst) =? 0) then 0
        else
          let meta_block_count :=
            if index <? (1 + parity_shards) * (1 + burst) then 1 + index / (1 + burst)
            else 1 + parity_shards in
          let super_block_set_size := (data_shards + parity_shards) * burst in
          let sub_a_block_set_size := data_shards + parity_shards in
          let sub_b_block_set_size := burst in
          let index_without_meta := index - meta_block_count in
          let super_block_set_index := index_without_meta / super_block_set_size in
          let index_in_super_block_set := index_without_meta mod super_block_set_size in
          let sub_b_block_set_index := index_in_super_block_set / sub_b_block_set_size in
          let index_in_sub_b_block_set := index_in_super_block_set mod sub_b_block_set_size in
          let sub_a_block_set_index := index_in_sub_b_block_set in
          let index_in_sub_a_block_set := sub_b_block_set_index in
          let old_index_in_super_block_set :=
            sub_a_block_set_index * sub_a_block_set_size + index_in_sub_a_block_set in
          let old_index :=
            super_block_set_size * super_block_set_index + old_index_in_super_block_set in
          u32 (u32 old_index + SBX_FIRST_DATA_SEQ_NUM)
  end.
