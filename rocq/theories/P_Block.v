(* C09: blocks. *)
From Verif Require Import M_Base M_Specs M_Header M_Multihash M_Metadata M_Block S_Crc S_Meta S_Block L_Block L_Block2.

(* C09: a block written to a buffer reads back the same, by any reader; only the header (and for
   metadata blocks the payload) bytes of the buffer change. *)
Theorem c09_block_roundtrip : forall b upd buf b' buf',
  block_ok b -> bytes_ok buf = true -> (is_data b = true -> upd <> Some false) ->
  sync_to_buffer b upd buf = ROk (b', buf') ->
  lenN buf' = lenN buf /\
  (is_data b = true -> slice_data_buf (b_version b) buf' = slice_data_buf (b_version b) buf) /\
  (forall i, ver_to_block_size (b_version b) <= i -> nthN buf' i = nthN buf i) /\
  exists r, (forall b0, sync_from_buffer b0 buf' no_hpred no_pred = ROk r) /\
    b_version r = b_version b /\ b_uid r = b_uid b /\ b_seq_num r = b_seq_num b /\
    match b_data b with DData => b_data r = DData | DMeta ms => b_data r = DMeta (map canon_field ms) end.
Proof. exact block_roundtrip. Qed.
Print Assumptions c09_block_roundtrip.

(* C09: writing succeeds iff the buffer is large enough and the metadata fits *)
Theorem c09_block_write_succeeds : forall b upd buf,
  block_ok b -> bytes_ok buf = true -> ver_to_block_size (b_version b) <= lenN buf ->
  ((exists r, sync_to_buffer b upd buf = ROk r) <->
   match b_data b with DData => True | DMeta ms => fields_size ms <= ver_to_block_size (b_version b) - 16 end).
Proof. exact block_write_succeeds. Qed.
Print Assumptions c09_block_write_succeeds.

(* C09: the outcome of reading (block, error or panic) does not depend on the previous contents of
   the Block object. *)
Theorem c09_history_independence : forall b1 b2 buf hp p,
  sync_from_buffer b1 buf hp p = sync_from_buffer b2 buf hp p.
Proof. exact sync_history_free. Qed.
Print Assumptions c09_history_independence.

(* C09: what is accepted: exactly the well-formed blocks satisfying the predicates. *)
Theorem c09_acceptance : forall b0 buf hp p b, bytes_ok buf = true ->
  sync_from_buffer b0 buf hp p = ROk b <->
  (exists h pl, well_formed_block buf h pl /\ b_header b = h /\
     b_data b = (if h_seq_num h =? 0 then DMeta (metas_from_bytes pl) else DData)) /\
  hp (b_header b) = true /\ p b = true.
Proof. exact block_acceptance. Qed.
Print Assumptions c09_acceptance.

Definition c09_block : block :=
  mkBlock (mkHeader V18 0 [9;8;7;6;5;4] 0) (DMeta [FNM [97]; FSZ 300; RSD 3; RSP 2]).
Example c09_example :
  block_ok c09_block /\
  exists b' buf', sync_to_buffer c09_block None (repN 128 0) = ROk (b', buf') /\
    (exists r, sync_from_buffer block_dummy buf' no_hpred no_pred = ROk r /\ b_data r = b_data c09_block).
Proof.
  split.
  - split; [reflexivity|]. split; [reflexivity|]. split.
    + repeat constructor; vm_compute; congruence.
    + intros d p E1 E2. vm_compute in E1, E2. injection E1 as <-. injection E2 as <-. vm_compute. discriminate.
  - eexists. eexists. split; [vm_compute; reflexivity|]. eexists. split; vm_compute; reflexivity.
Qed.
