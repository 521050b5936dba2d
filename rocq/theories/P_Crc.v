(* C03, C04: check value. *)
From Verif Require Import M_Base M_Specs M_Crc M_Header M_Metadata M_Block S_Crc S_Block L_Crc L_Block L_Crc2.

(* C03: the table-driven code computes exactly the polynomial remainder. *)
Theorem c03_crc_is_polynomial_remainder : forall start msg,
  start < 65536 -> bytes_ok msg = true ->
  forall r, crc_ccitt_generic start msg = r <-> is_crc start msg r.
Proof. exact crc_exact. Qed.
Print Assumptions c03_crc_is_polynomial_remainder.

(* the build-time table: entry i is the CRC of the one byte message i from start value 0 *)
Theorem c03_table_entries : forall i, i < 256 -> is_crc 0 [i] (nthN CRCCCITT_TABLE i).
Proof. exact table_entries. Qed.
Print Assumptions c03_table_entries.

(* the block check value is the CRC of UID, sequence number, payload from the version number *)
Theorem c03_block_crc : forall b buf,
  header_ok (b_header b) = true -> bytes_ok buf = true -> ver_to_block_size (b_version b) <= lenN buf ->
  exists c, calc_crc b buf = ROk c /\
    is_crc (ver_to_usize (b_version b))
           (b_uid b ++ be_bytes 4 (b_seq_num b) ++ sliceN 16 (ver_to_block_size (b_version b) - 16) buf) c.
Proof. exact block_crc. Qed.
Print Assumptions c03_block_crc.

(* published check values of CRC-CCITT for "123456789": start 0xFFFF and start 0 (XMODEM) *)
Example c03_example :
  crc_ccitt_generic 65535 [49;50;51;52;53;54;55;56;57] = 10673 (* 0x29B1 *) /\
  crc_ccitt_generic 0 [49;50;51;52;53;54;55;56;57] = 12739 (* 0x31C3 *).
Proof. vm_compute. split; reflexivity. Qed.

(* C04: an accepted block, hit by an error burst of at most 16 bits after its CRC field, is
   rejected by every reader. *)
Theorem c04_burst_detected : forall buf buf' b0 hp p b k,
  bytes_ok buf = true -> bytes_ok buf' = true ->
  sync_from_buffer b0 buf hp p = ROk b ->
  same_outside 6 (ver_to_block_size (b_version b)) buf buf' -> buf <> buf' ->
  (forall i, bitN buf i <> bitN buf' i -> k <= i < k + 16) ->
  forall b0' hp' p' b', sync_from_buffer b0' buf' hp' p' <> ROk b'.
Proof. exact burst_detected. Qed.
Print Assumptions c04_burst_detected.

(* C04: any odd number of flipped bits in CRC, UID, sequence number and payload is rejected. *)
Theorem c04_odd_flips_detected : forall buf buf' b0 hp p b,
  bytes_ok buf = true -> bytes_ok buf' = true ->
  sync_from_buffer b0 buf hp p = ROk b ->
  same_outside 4 (ver_to_block_size (b_version b)) buf buf' ->
  N.odd (bit_distance buf buf') = true ->
  forall b0' hp' p' b', sync_from_buffer b0' buf' hp' p' <> ROk b'.
Proof. exact odd_flips_detected. Qed.
Print Assumptions c04_odd_flips_detected.

(* C04: any change confined to the CRC field is rejected. *)
Theorem c04_crc_field_change_detected : forall buf buf' b0 hp p b,
  bytes_ok buf = true -> bytes_ok buf' = true ->
  sync_from_buffer b0 buf hp p = ROk b ->
  same_outside 4 6 buf buf' -> buf <> buf' ->
  forall b0' hp' p' b', sync_from_buffer b0' buf' hp' p' <> ROk b'.
Proof. exact crc_field_change_detected. Qed.
Print Assumptions c04_crc_field_change_detected.

(* a version 2 (128 byte) block and a damaged copy meeting the hypotheses *)
Definition c04_buf : list N :=
  match sync_to_buffer (block_new V2 [1;2;3;4;5;6] TData) None (repN 128 7) with ROk (_, d) => d | _ => [] end.
Definition c04_bad : list N := put_at c04_buf 20 [251; 15].
Example c04_example :
  bytes_ok c04_buf = true /\ bytes_ok c04_bad = true /\
  (exists b, sync_from_buffer block_dummy c04_buf no_hpred no_pred = ROk b /\ b_version b = V2) /\
  eqbl c04_buf c04_bad = false /\ lenN c04_buf = lenN c04_bad /\
  takeN 20 c04_buf = takeN 20 c04_bad /\ dropN 22 c04_buf = dropN 22 c04_bad /\
  bit_distance c04_buf c04_bad = 7 /\
  sync_from_buffer block_dummy c04_bad no_hpred no_pred = RErr InvalidCRC.
Proof. vm_compute. repeat split. eexists; split; reflexivity. Qed.
