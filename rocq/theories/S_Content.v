(* Vocabulary for the statements about the data stored in a container. *)
From Verif Require Import M_Base M_Specs M_Header M_Metadata M_Block M_Index M_Buffer M_Ranges M_Scan M_Decode
  S_Crc S_Meta S_Block S_Index S_Container S_Decode.

(* Chunk number j of the data is in the payload pl of a block of this version and UID that is at its place in f. *)
Definition chunk_in_place (v : version) (uid : list N) (o : dpb) (f : file) (j : N) (pl : list N) : Prop :=
  exists seq, is_chunk o seq j /\ block_at v uid f (calc_data_block_write_index seq (Some true) o * ver_to_block_size v) seq pl.
(* All of [data] is: chunk by chunk, the last one possibly shorter. *)
Definition data_in_place (v : version) (uid : list N) (o : dpb) (f : file) (data : list N) : Prop :=
  let ds := ver_to_block_size v - 16 in
  forall j, j * ds < lenN data -> exists pl, chunk_in_place v uid o f j pl /\ sliceN (j * ds) ds data = takeN (lenN data - j * ds) pl.
(* [size] bytes of data do not need more block numbers than there are *)
Definition numbered (v : version) (o : dpb) (size : N) : Prop :=
  exists n, block_count v o size n /\ n <= U32_MAX.
