(* C10-C13, C15, C34: block placement, burst tolerance, container size, limits. *)
From Verif Require Import M_Base L_Base M_Specs M_Index M_FileUtils S_Index L_Index L_Index2.

(* C10. Blocks never collide: different sequence numbers get byte ranges that do not overlap, and no
   data/parity block overlaps a metadata copy. *)
Theorem c10_no_two_blocks_overlap : forall v me o s1 s2,
  dpb_ok o -> 1 <= s1 -> 1 <= s2 -> s1 <> s2 ->
  let a := calc_data_block_write_pos v s1 me o in
  let b := calc_data_block_write_pos v s2 me o in
  a + ver_to_block_size v <= b \/ b + ver_to_block_size v <= a.
Proof. exact no_overlap. Qed.
Print Assumptions c10_no_two_blocks_overlap.

Theorem c10_data_and_metadata_do_not_overlap : forall v me o s m,
  dpb_ok o -> 1 <= s -> (o = None -> me <> Some false) -> In m (calc_meta_block_all_write_pos_s v o) ->
  let a := calc_data_block_write_pos v s me o in
  a + ver_to_block_size v <= m \/ m + ver_to_block_size v <= a.
Proof. exact no_overlap_meta. Qed.
Print Assumptions c10_data_and_metadata_do_not_overlap.

Theorem c10_metadata_positions : forall v o,
  lenN (calc_meta_block_all_write_pos_s v o) = match o with Some (_, p, _) => 1 + p | None => 1 end
  /\ NoDup (calc_meta_block_all_write_pos_s v o)
  /\ forall m, In m (calc_meta_block_all_write_pos_s v o) <->
       exists i, meta_index None o i /\ m = i * ver_to_block_size v.
Proof. exact meta_positions. Qed.
Print Assumptions c10_metadata_positions.

Example c10_ex : dpb_ok (Some (10, 2, 12)) /\ calc_data_block_write_pos V17 13 None (Some (10, 2, 12)) = 1024
  /\ calc_data_block_write_pos V17 2 None (Some (10, 2, 12)) = 7168
  /\ calc_meta_block_all_write_pos_s V17 (Some (10, 2, 12)) = [0; 6656; 13312].
Proof. split; [cbn; lia|]. split; [|split]; vm_compute; reflexivity. Qed.

(* C11 *)
Theorem c11_seq_num_at_index_is_inverse : forall me o, dpb_ok o ->
  (forall seq, 1 <= seq <= U32_MAX -> calc_seq_num_at_index (calc_data_block_write_index seq me o) me o = seq) /\
  (forall i, meta_index me o i -> calc_seq_num_at_index i me o = 0) /\
  (forall i, meta_index me o i \/ exists seq, 1 <= seq /\ calc_data_block_write_index seq me o = i).
Proof. exact index_inverse. Qed.
Print Assumptions c11_seq_num_at_index_is_inverse.

(* ... so 0 is returned only at metadata positions, among the positions of blocks 1..u32::MAX *)
Theorem c11_zero_only_at_metadata : forall me o i n, dpb_ok o -> n <= U32_MAX -> written me o n i ->
  (calc_seq_num_at_index i me o = 0 <-> meta_index me o i).
Proof. exact zero_iff_meta. Qed.
Print Assumptions c11_zero_only_at_metadata.

Example c11_ex : calc_seq_num_at_index 13 None (Some (10, 2, 12)) = 0
  /\ calc_seq_num_at_index 14 None (Some (10, 2, 12)) = 2 /\ calc_seq_num_at_index 200 None (Some (10, 2, 12)) = 209.
Proof. split; [|split]; vm_compute; reflexivity. Qed.

(* C12. [hit B bursts i]: block i lies in one of the bursts, each of B consecutive blocks. *)
Theorem c12_burst_hits_one_block_of_a_set : forall me d p B start s1 s2,
  1 <= d -> 1 <= s1 -> 1 <= s2 -> set_of d p s1 = set_of d p s2 ->
  hit B [start] (calc_data_block_write_index s1 me (Some (d, p, B))) ->
  hit B [start] (calc_data_block_write_index s2 me (Some (d, p, B))) -> s1 = s2.
Proof. exact burst_one. Qed.
Print Assumptions c12_burst_hits_one_block_of_a_set.

(* every set keeps at least d blocks after at most p bursts: [seqs_of_set d p j] are the blocks of set j *)
Theorem c12_every_set_keeps_enough_blocks : forall me d p B bursts j, 1 <= d -> lenN bursts <= p ->
  (forall s, 1 <= s -> (set_of d p s = j <-> In s (seqs_of_set d p j))) /\ NoDup (seqs_of_set d p j) /\
  d <= lenN (filter (fun s => negb (hitb B bursts (calc_data_block_write_index s me (Some (d, p, B)))))
                    (seqs_of_set d p j)).
Proof. exact burst_sets. Qed.
Print Assumptions c12_every_set_keeps_enough_blocks.

Theorem c12_some_metadata_survives : forall me d p B bursts, lenN bursts <= p ->
  exists i, meta_index me (Some (d, p, B)) i /\ ~ hit B bursts i.
Proof. exact burst_meta_survives. Qed.
Print Assumptions c12_some_metadata_survives.

Example c12_ex : (* two bursts of 12 blocks really hit two blocks of set 0 and spare the others *)
  map (hitb 12 [0; 30]) (map (fun s => calc_data_block_write_index s None (Some (10, 2, 12))) (seqs_of_set 10 2 0))
  = [true; false; false; true; false; false; false; false; false; false; false; false].
Proof. vm_compute. reflexivity. Qed.

(* C13 *)
Theorem c13_chunk_goes_to_its_rank : forall v d p s, 1 <= d -> 1 <= s ->
  (forall t, 1 <= t -> (seq_num_is_parity t d p = true <-> d <= (t - 1) mod (d + p))) /\
  calc_data_chunk_write_pos v s (Some (d, p)) =
    if seq_num_is_parity s d p then None
    else Some (lenN (filter (fun t => negb (seq_num_is_parity t d p)) (rangeN 1 s)) * ver_to_data_size v).
Proof. exact chunk_pos. Qed.
Print Assumptions c13_chunk_goes_to_its_rank.

Theorem c13_no_parity_chunk_position : forall v s,
  calc_data_chunk_write_pos v s None = (if s =? 0 then None else Some ((s - 1) * ver_to_data_size v)) /\
  forall d p, calc_data_chunk_write_pos v 0 (Some (d, p)) = None.
Proof. exact chunk_pos_none. Qed.
Print Assumptions c13_no_parity_chunk_position.

(* every chunk position is produced, and distinct data blocks never overlap *)
Theorem c13_chunks_tile_the_file : forall v dp, match dp with Some (d, _) => 1 <= d | None => True end ->
  (forall k, exists s, 1 <= s /\ calc_data_chunk_write_pos v s dp = Some (k * ver_to_data_size v)) /\
  (forall s1 s2 a b, s1 < s2 -> calc_data_chunk_write_pos v s1 dp = Some a -> calc_data_chunk_write_pos v s2 dp = Some b ->
     a + ver_to_data_size v <= b).
Proof. exact chunk_tile. Qed.
Print Assumptions c13_chunks_tile_the_file.

Example c13_ex : map (fun s => calc_data_chunk_write_pos V17 s (Some (2, 1))) [0; 1; 2; 3; 4; 5; 6; 7] =
  [None; Some 0; Some 496; None; Some 992; Some 1488; None; Some 1984].
Proof. vm_compute. reflexivity. Qed.

(* C15. [written me o n i]: the encoder writes a block at index i when the file gives n data/parity
   blocks. The computed size is the end of the last such block, unless the computation panics. *)
Theorem c15_container_size_partial : forall v me o size n,
  dpb_ok o -> block_count v o size n -> n <= U32_MAX ->
  (exists sz, calc_container_size v me o size = ROk sz /\ is_end (ver_to_block_size v) (written me o n) sz) \/
  (calc_container_size v me o size = RPanic /\
   exists d p B, o = Some (d, p, B) /\ 1 <= B /\ 1 <= n /\ (n = U32_MAX \/ ((d + p) * B) mod 4294967296 = 0)).
Proof. exact container_size_char. Qed.
Print Assumptions c15_container_size_partial.

Theorem c15_end_unique : forall bs W a b, is_end bs W a -> is_end bs W b -> a = b.
Proof. exact is_end_uniq. Qed.
Print Assumptions c15_end_unique.

Theorem c15_container_size : forall v me o size n,
  dpb_ok o -> block_count v o size n -> n < U32_MAX ->
  match o with Some (d, p, B) => (d + p) * B < 4294967296 | None => True end ->
  exists sz, calc_container_size v me o size = ROk sz /\ is_end (ver_to_block_size v) (written me o n) sz.
Proof. exact container_size_ok. Qed.
Print Assumptions c15_container_size.

(* The unrestricted statement is false: 128+128 shards with burst level 2^24 panic on every non-empty
   file, and so does 254+1 shards, any burst level >= 1, for the largest accepted file. *)
Theorem c15_container_size_refuted :
  (exists v me o size, dpb_ok o /\ calc_container_size v me o size = RPanic) /\
  (exists v me o size mx, dpb_ok o /\ ver_to_max_data_file_size v o = ROk mx /\ size <= mx
     /\ o = Some (254, 1, 1) /\ calc_container_size v me o size = RPanic).
Proof. exact container_size_panics. Qed.
Print Assumptions c15_container_size_refuted.

Example c15_ex : block_count V17 (Some (10, 2, 12)) 5000 24 /\
  calc_container_size V17 None (Some (10, 2, 12)) 5000 = ROk 70144.
Proof. split; [apply block_count_iff; [cbn; lia|vm_compute; reflexivity]|vm_compute; reflexivity]. Qed.

(* C34 *)
Theorem c34_size_limit_is_exact : forall v o mx size n, dpb_ok o -> ver_ok v o ->
  ver_to_max_data_file_size v o = ROk mx -> block_count v o size n -> (size <= mx <-> n <= U32_MAX).
Proof. exact size_limit_exact. Qed.
Print Assumptions c34_size_limit_is_exact.

Theorem c34_limit_defined : forall v o, dpb_ok o -> ver_ok v o ->
  exists mx last, ver_to_max_data_file_size v o = ROk mx /\ ver_to_last_data_seq_num_exc_parity v o = ROk last
    /\ mx < 18446744073709551616.
Proof. exact limit_defined. Qed.
Print Assumptions c34_limit_defined.

Theorem c34_last_data_seq_num : forall v o last mx, dpb_ok o -> ver_ok v o ->
  ver_to_last_data_seq_num_exc_parity v o = ROk last -> ver_to_max_data_file_size v o = ROk mx ->
  1 <= last <= U32_MAX /\
  let dp := match o with Some (d, p, _) => Some (d, p) | None => None end in
  calc_data_chunk_write_pos v last dp = Some (mx - ver_to_data_size v).
Proof. exact last_data_seq. Qed.
Print Assumptions c34_last_data_seq_num.

(* every byte position of a container with a burst level below 2^32 fits in u64 *)
Theorem c34_positions_fit_u64 : forall v me o n i, dpb_ok o -> n <= U32_MAX ->
  match o with Some (_, _, B) => B <= U32_MAX | None => True end ->
  written me o n i -> (i + 1) * ver_to_block_size v < 18446744073709551616.
Proof. exact positions_fit. Qed.
Print Assumptions c34_positions_fit_u64.

Example c34_ex : ver_ok V17 (Some (10, 2, 12)) /\ dpb_ok (Some (10, 2, 12)) /\
  ver_to_max_data_file_size V17 (Some (10, 2, 12)) = ROk 1775253147360 /\
  block_count V17 (Some (10, 2, 12)) 1775253147360 4294967292.
Proof. split; [reflexivity|]. split; [cbn; lia|]. split; [vm_compute; reflexivity|]. apply block_count_iff; [cbn; lia|vm_compute; reflexivity]. Qed.
