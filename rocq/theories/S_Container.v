(* What a container is, as a specification: which bytes an encoded file consists of. *)
From Verif Require Import M_Base M_Specs M_Header M_Index M_Buffer S_Crc S_Index.

(* the bytes of a data or parity block: header with the right check value, then the payload *)
Definition is_block (v : version) (uid : list N) (seq : N) (payload bytes : list N) : Prop :=
  exists crc, is_crc (ver_to_usize v) (uid ++ be_bytes 4 seq ++ payload) crc /\
  bytes = SBX_SIGNATURE ++ [ver_to_usize v] ++ be_bytes 2 crc ++ uid ++ be_bytes 4 seq ++ payload.

(* chunk number j of the data (from 0), filled up with 0x1A to the payload size ds *)
Definition chunk (ds : N) (data : list N) (j : N) : list N :=
  let x := sliceN (j * ds) ds data in x ++ repN (ds - lenN x) 26.

(* payload of the block with sequence number seq. Without Reed-Solomon the chunks in order; with d + p
   shards, each d chunks are followed by the p parity shards computed from them. *)
Definition payload_of (v : version) (o : dpb) (rs : codec) (data : list N) (seq : N) : list N :=
  let ds := ver_to_block_size v - 16 in
  match o with
  | None => chunk ds data (seq - 1)
  | Some (d, p, _) =>
      let set := (seq - 1) / (d + p) in
      let k := (seq - 1) mod (d + p) in
      if k <? d then chunk ds data (set * d + k)
      else nth (N.to_nat (k - d)) (rs d p (map (chunk ds data) (rangeN (set * d) (set * d + d)))) []
  end.

(* What the codec must satisfy for the container to be well-formed: from d payloads of equal length,
   p payloads of the same length, made of bytes. *)
Definition codec_ok (rs : codec) (o : dpb) : Prop :=
  match o with
  | None => True
  | Some (d, p, _) => forall n data, lenN data = d ->
      (forall x, In x data -> lenN x = n /\ bytes_ok x = true) ->
      lenN (rs d p data) = p /\ forall y, In y (rs d p data) -> lenN y = n /\ bytes_ok y = true
  end.

(* block indices used by a container of n data/parity blocks *)
Definition used_index (me : bool) (o : dpb) (n i : N) : Prop :=
  meta_index (Some me) o i \/ exists seq, 1 <= seq <= n /\ calc_data_block_write_index seq (Some me) o = i.

(* f is a container of [data]: the blocks at their places, the metadata block [meta] at every metadata
   index, zeros elsewhere, ending with the last block *)
Definition is_container (v : version) (uid : list N) (me : bool) (o : dpb) (rs : codec)
    (meta data f : list N) : Prop :=
  let bs := ver_to_block_size v in
  exists n, block_count v o (lenN data) n /\
  (forall seq, 1 <= seq <= n ->
     is_block v uid seq (payload_of v o rs data seq)
       (sliceN (calc_data_block_write_index seq (Some me) o * bs) bs f)) /\
  (forall i, meta_index (Some me) o i -> sliceN (i * bs) bs f = meta) /\
  (forall i, ~ used_index me o n (i / bs) -> nthN f i = 0) /\
  (forall i, used_index me o n i -> (i + 1) * bs <= lenN f) /\
  (lenN f = 0 \/ exists i, used_index me o n i /\ lenN f = (i + 1) * bs).
