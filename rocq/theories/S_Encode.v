(* Vocabulary for the statements about encoding. *)
From Verif Require Import M_Base M_Specs M_Header M_Multihash M_Metadata M_Block M_Index M_FileUtils M_Buffer M_Ranges M_Encode
  S_Crc S_Meta S_Block S_Index S_Container.

(* Reading [bytes] (one block) gives a metadata block of this version and UID with these fields. *)
Definition meta_block (v : version) (uid : list N) (ms : list metadata) (bytes : list N) : Prop :=
  lenN bytes = ver_to_block_size v /\ bytes_ok bytes = true /\
  exists b, (forall b0, sync_from_buffer b0 bytes no_hpred no_pred = ROk b) /\
    b_version b = v /\ b_uid b = uid /\ b_seq_num b = 0 /\ b_data b = DMeta ms.

(* Block of these fields as the encoder writes it: the fields one after the other, then filler. *)
Definition meta_plain (v : version) (uid : list N) (ms : list metadata) (bytes : list N) : Prop :=
  exists pl, metas_to_bytes ms (ver_to_block_size v - 16) = ROk pl /\ is_block v uid 0 pl bytes.

(* A digest function: digests have the right length for their type. *)
Definition hash_fn_ok (H : hash_fn) : Prop :=
  forall t data, lenN (H t data) = hash_len t /\ bytes_ok (H t data) = true.

Definition name_ok (s : list N) : Prop := 1 <= lenN s <= 255 /\ utf8_valid s = true /\ bytes_ok s = true.
Definition time_ok (t : Z) : Prop := (- 2 ^ 63 <= t < 2 ^ 63)%Z.

(* What the command line ensures before encoding: a 6 byte UID, shard counts in range and given iff the
   version uses Reed-Solomon, a hash type that can be computed, names and times that can be stored; a
   codec and a hash function of the right shape; and a number of CPUs a machine has. *)
Definition enc_ok (H : hash_fn) (rs : codec) (cpus : N) (p : eparam) : Prop :=
  lenN (e_uid p) = 6 /\ bytes_ok (e_uid p) = true /\
  dpb_ok (e_dpb p) /\ ver_uses_rs (e_ver p) = (match e_dpb p with Some _ => true | None => false end) /\
  match e_dpb p with Some (d, par, B) => (d + par) * B < 4294967296 | None => True end /\
  hash_supported (e_hash p) = true /\
  match e_in_name p with Some n => name_ok n | None => True end /\ name_ok (e_out_name p) /\
  match e_fdt p with Some t => time_ok t | None => True end /\ time_ok (e_sdt p) /\
  codec_ok rs (e_dpb p) /\ hash_fn_ok H /\ 1 <= cpus <= 37000.

(* The metadata fields recorded for [data] *)
Definition recorded (H : hash_fn) (p : eparam) (data : list N) : list metadata :=
  (match e_in_name p with Some n => [FNM n] | None => [] end)
  ++ [SNM (e_out_name p); FSZ (lenN data)]
  ++ (match e_fdt p with Some t => [FDT t] | None => [] end)
  ++ [SDT (e_sdt p); HSH (canon_hash (e_hash p), H (canon_hash (e_hash p)) data)]
  ++ (match e_dpb p with Some (d, par, _) => [RSD d; RSP par] | None => [] end).

(* The metadata fits in a block of the chosen version (the size does not depend on the data). *)
Definition meta_fits (H : hash_fn) (p : eparam) : Prop :=
  meta_on p = true -> fields_size (recorded H p []) <= ver_to_block_size (e_ver p) - 16.

(* The outcome of encoding [data] successfully: no error; the output file is a container of exactly this
   data, every metadata block (if enabled) holding the recorded fields; the hash, the size, the block
   counts and the number of bytes reported are those of the container. *)
Definition encoded (H : hash_fn) (rs : codec) (p : eparam) (data : list N) (out : eoutcome) : Prop :=
  eo_err out = false /\
  (exists meta, is_container (e_ver p) (e_uid p) (meta_on p) (e_dpb p) rs meta data (eo_file out) /\
     (meta_on p = true -> meta_block (e_ver p) (e_uid p) (recorded H p data) meta /\
        meta_plain (e_ver p) (e_uid p) (recorded H p data) meta)) /\
  eo_hash out = (if meta_on p then Some (canon_hash (e_hash p), H (canon_hash (e_hash p)) data) else None) /\
  eo_size out = lenN (eo_file out) /\
  st_meta (eo_stats out) =
    (if meta_on p then match e_dpb p with Some (_, par, _) => 1 + par | None => 1 end else 0) /\
  data_bytes_encoded (e_ver p) (eo_stats out) = lenN data /\
  exists n, block_count (e_ver p) (e_dpb p) (lenN data) n /\
  match e_dpb p with
  | None => st_data (eo_stats out) = n /\ st_parity (eo_stats out) = 0
  | Some (d, par, _) => exists sets, n = sets * (d + par) /\
      st_data (eo_stats out) = sets * d /\ st_parity (eo_stats out) = sets * par
  end.

(* The input can be anything made of bytes and shorter than 2^64. *)
Definition input_ok (s : source) : Prop :=
  let all := match s with SrcFile r => r | SrcStdin ps => concat ps end in
  bytes_ok all = true /\ lenN all < 18446744073709551616.

(* the range of the input file asked for: length and start *)
Definition asked (p : eparam) (content : list N) : N * N :=
  calc_required_len_and_seek_to_from_byte_range (e_from p) (e_to p) true 0 (Len (lenN content)) None.

(* The pieces standard input arrives in are not too small: each but the last is at least a quarter of a
   payload. *)
Definition well_paced (ds : N) (script : list (list N)) : Prop :=
  forall pre x post, script = pre ++ x :: post -> post <> [] -> ds <= 4 * lenN x.

(* The bytes of the input between --from and --to (inclusive or exclusive); all of it without options. *)
Definition range_lo (p : eparam) : N := match e_from p with Some n => n | None => 0 end.
Definition range_hi (p : eparam) (content : list N) : N :=
  match e_to p with Some (Inc n) => n + 1 | Some (Exc n) => n | None => lenN content end.
Definition wanted (p : eparam) (content : list N) : list N :=
  dropN (range_lo p) (takeN (range_hi p content) content).
(* a sensible range: some byte of the file is in it *)
Definition range_ok (p : eparam) (content : list N) : Prop :=
  range_lo p < range_hi p content /\ range_lo p < lenN content /\
  match e_to p with Some (Inc n) | Some (Exc n) => n < 18446744073709551616 | None => True end.

(* f is an undamaged container of n data and parity blocks holding [data], with these metadata fields (when
   metadata is enabled) *)
Definition intact (v : version) (uid : list N) (me : bool) (o : dpb) (rs : codec) (ms : list metadata)
    (data f : list N) (n : N) : Prop :=
  lenN uid = 6 /\ bytes_ok uid = true /\ bytes_ok data = true /\ dpb_ok o /\ codec_ok rs o /\
  ver_uses_rs v = (match o with Some _ => true | None => false end) /\ (o <> None -> me = true) /\
  block_count v o (lenN data) n /\ n <= U32_MAX /\
  exists meta, is_container v uid me o rs meta data f /\ (me = true -> meta_block v uid ms meta).
