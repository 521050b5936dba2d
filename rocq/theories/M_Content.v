(* Model of src/sbx_container_content.rs: hashing the data stored in a container. The two threads are modelled as one
   loop (M_Loop). I/O errors and progress reports are not modelled; the stop flag (Ctrl-C) is, in M_Stop. *)
From Verif Require Import M_Base M_Specs M_Header M_Multihash M_Metadata M_Block M_Index M_FileUtils
  M_Buffer M_Ranges M_Encode M_Scan M_Loop M_Decode.

(* src/sbx_container_content.rs:19 *)
Definition HASH_BUFFERS : N := 2.
(* src/sbx_container_content.rs:61-70; without UID the slots get the UID of all zeros (src/data_block_buffer/mod.rs:193-196) *)
Definition hash_cfg (v : version) (o : dpb) (cpus : N) : cfg :=
  mkCfg v [0; 0; 0; 0; 0; 0] (InBlock OrderedButSomeMayBeMissing) OutDisabled o true false (cpus * LOT_COUNT_PER_CPU) HASH_BUFFERS.
(* sequence number, bytes_processed, whether an error was sent *)
Record hstate := mkHstate { hs_seq : N; hs_bytes : N; hs_err : bool }.
(* src/sbx_container_content.rs:93-155, one slot. On a block that cannot be read the code leaves the slot in the buffer, which
   is hashed as the last one; the result is thrown away because there is an error, so the slot is dropped here. *)
Definition hash_step (c : cfg) (f : file) (ref : block) (total : N) (st : hstate) (s : slot)
  : result (hstate * action * bool) :=
  let seq := hs_seq st in
  let pos := calc_data_block_write_pos (c_ver c) seq None (c_dpb c) in
  let d := file_read f pos (slot_view_len c) in
  let s1 := fill_view c s d in
  do! (s2, ok) <- (if lenN d <? slot_view_len c then ROk (s1, false) else expect_block ref seq s1);
  let remaining := total - hs_bytes st in
  let is_last := seq =? SBX_LAST_SEQ_NUM in
  let next b := mkHstate (if is_last then seq else seq + 1) b (hs_err st) in
  if seq_num_is_parity_w_data_par_burst seq (c_dpb c) then ROk (next (hs_bytes st), Cancel s2, is_last)
  else if ok : bool then
    if remaining <=? ver_to_data_size (c_ver c)
    then ROk (mkHstate seq (hs_bytes st + remaining) (hs_err st), Keep (with_clen s2 (Some remaining)), true)
    else ROk (next (hs_bytes st + ver_to_data_size (c_ver c)), Keep s2, is_last)
  else ROk (mkHstate seq (hs_bytes st) true, Cancel s2, true).
(* src/sbx_container_content.rs:172-178 *)
Definition consume_hash (c : cfg) (w : list N) (b : dbuf) : result (dbuf * list N) :=
  do! h <- dbuf_hash c b; ROk (b, w ++ h).
(* number of blocks up to the one holding the last chunk: bounds the loop *)
Definition hash_fuel (v : version) (o : dpb) (total : N) : nat :=
  let k := total / ver_to_data_size v + 1 in
  S (N.to_nat (match o with Some (_, p, _) => k * (1 + p) | None => k end)).
(* src/sbx_container_content.rs:21-203; [total] is orig_file_size. The bytes fed to the hash; the caller finishes it. *)
Definition content_bytes (cpus : N) (f : file) (o : dpb) (total : N) (ref : block) : result (list N) :=
  let c := hash_cfg (b_version ref) o cpus in
  let fuel := hash_fuel (b_version ref) o total in
  do! (st, w) <- buf_loop c (fun _ => false) (hash_step c f ref total) (consume_hash c) fuel fuel (dbuf_new_multi c) (mkHstate 1 0 false) [];
  if hs_err st then RErr OtherError else ROk w.
Definition content_hash (H : hash_fn) (cpus : N) (f : file) (o : dpb) (total : N) (ref : block) (t : hash_type) : result hash_bytes :=
  do! w <- content_bytes cpus f o total ref; ROk (finish_hash H t w).
