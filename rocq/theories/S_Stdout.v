(* Vocabulary for the statements about decoding to standard output. *)
From Coq Require Import Sorted.
From Verif Require Import M_Base M_Specs M_Header M_Metadata M_Block M_Index M_Buffer M_Ranges M_Scan M_Decode
  S_Crc S_Meta S_Block S_Index S_Container S_Decode S_Content.

(* x is the payload of chunk number j if that chunk is in its place in f, and zeros otherwise *)
Definition chunk_or_zeros (v : version) (uid : list N) (o : dpb) (f : file) (j : N) (x : list N) : Prop :=
  chunk_in_place v uid o f j x \/ ((forall pl, ~ chunk_in_place v uid o f j pl) /\ x = repN (ver_to_block_size v - 16) 0).
(* out consists of these chunks in order, the last one possibly cut *)
Definition chunks_or_zeros (v : version) (uid : list N) (o : dpb) (f out : file) : Prop :=
  let ds := ver_to_block_size v - 16 in
  forall j, j * ds < lenN out -> exists x, chunk_or_zeros v uid o f j x /\ sliceN (j * ds) ds out = takeN (lenN out - j * ds) x.
(* The blocks of f from byte lo on, the first one having index i0 in the container: x is the payload of block number k of
   them if it is the block that belongs there, and zeros otherwise. *)
Definition block_or_zeros (v : version) (uid : list N) (o : dpb) (f : file) (lo i0 k : N) (x : list N) : Prop :=
  let seq := calc_seq_num_at_index (i0 + k) (Some true) o in
  let pos := lo + k * ver_to_block_size v in
  block_at v uid f pos seq x \/ ((forall pl, ~ block_at v uid f pos seq pl) /\ x = repN (ver_to_block_size v - 16) 0).
(* ks lists, in increasing order, which of the blocks within the first len bytes belong to the data (not metadata, not parity) *)
Definition data_blocks (v : version) (o : dpb) (i0 len : N) (ks : list N) : Prop :=
  StronglySorted N.lt ks /\
  forall k, In k ks <-> k * ver_to_block_size v < len /\ exists j, is_chunk o (calc_seq_num_at_index (i0 + k) (Some true) o) j.
