(* Vocabulary for the statements about commands stopped with Ctrl-C. *)
From Verif Require Import M_Base M_Specs M_Header M_Index M_Buffer M_Ranges M_Scan M_Decode S_Crc S_Meta S_Block S_Index S_Container S_Decode S_Repair.

(* m is the number of chunks of [size] bytes of data that are in blocks numbered up to k *)
Definition chunks_up_to (v : version) (o : dpb) (size k m : N) : Prop :=
  exactly (fun j => j * (ver_to_block_size v - 16) < size /\ exists seq, is_chunk o seq j /\ seq <= k) m.
