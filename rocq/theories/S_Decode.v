(* Vocabulary for the statements about reading containers. *)
From Verif Require Import M_Base M_Specs M_Header M_Metadata M_Block M_Index M_Buffer M_Ranges M_Scan M_Decode S_Crc S_Meta S_Block S_Index.

(* A well-formed block of this version and UID, with this sequence number and payload, starts at byte pos
   of f. *)
Definition block_at (v : version) (uid : list N) (f : file) (pos seq : N) (payload : list N) : Prop :=
  exists h, well_formed_block (sliceN pos (ver_to_block_size v) f) h payload /\
    h_version h = v /\ h_uid h = uid /\ h_seq_num h = seq.

(* The block with sequence number seq holds chunk number j (from 0) of the original data: metadata and
   parity blocks hold none; each set of d + p blocks starts with d data blocks. *)
Definition is_chunk (o : dpb) (seq j : N) : Prop :=
  match o with
  | None => 1 <= seq /\ j = seq - 1
  | Some (d, p, _) => exists set k, k < d /\ seq = 1 + set * (d + p) + k /\ j = set * d + k
  end.

(* Number of blocks of size bs visited when reading from byte lo on until [len] bytes were read or
   the file ends; the last one visited must be complete. *)
Definition visited (bs : N) (f : file) (lo len k : N) : Prop :=
  k * bs < len /\ lo + (k + 1) * bs <= lenN f.

(* Byte i of the decoded file is x: the last block visited that holds chunk i / (payload size) decides; if
   there is none, what was in the output file before (zero if nothing). *)
Definition restored (v : version) (uid : list N) (o : dpb) (f : file) (lo len : N) (old : file) (i x : N) : Prop :=
  let bs := ver_to_block_size v in let ds := bs - 16 in
  (exists k seq pl, visited bs f lo len k /\ block_at v uid f (lo + k * bs) seq pl /\
     is_chunk o seq (i / ds) /\ x = nthN pl (i mod ds) /\
     forall k' seq' pl', k < k' -> visited bs f lo len k' -> block_at v uid f (lo + k' * bs) seq' pl' ->
       ~ is_chunk o seq' (i / ds)) \/
  ((forall k seq pl, visited bs f lo len k -> block_at v uid f (lo + k * bs) seq pl -> ~ is_chunk o seq (i / ds)) /\
   x = nthN old i).

(* What a block visited is, for the statistics *)
Inductive kind := KMeta | KData | KParity | KBad.
Definition kind_at (v : version) (uid : list N) (o : dpb) (f : file) (pos : N) (k : kind) : Prop :=
  match k with
  | KMeta => exists pl, block_at v uid f pos 0 pl
  | KData => exists seq pl j, block_at v uid f pos seq pl /\ is_chunk o seq j
  | KParity => exists seq pl, block_at v uid f pos seq pl /\ 1 <= seq /\ forall j, ~ is_chunk o seq j
  | KBad => forall seq pl, ~ block_at v uid f pos seq pl
  end.
Definition kind_eqb (a b : kind) : bool :=
  match a, b with KMeta, KMeta | KData, KData | KParity, KParity | KBad, KBad => true | _, _ => false end.

(* The part of the file read: length and start (C31). *)
Definition scan_range (p : dparam) (f : file) (ref : block) : N * N :=
  calc_required_len_and_seek_to_from_byte_range (dc_from p) (dc_to p) (dc_misalign p) 0 (Len (lenN f)) (Some (ver_to_block_size (b_version ref))).

(* The choices made before decoding starts: the reference block (C19), the shard counts and burst level (C29),
   the range of the file to read (C31). *)
Definition setup (p : dparam) (f : file) (ref : block) (o : dpb) (len lo : N) : Prop :=
  (exists pos, get_ref_block f (ref_from_pos (dc_ref_from p) (dc_from p)) (dc_ref_to p) (dc_misalign p) (dc_choice p) = ROk (Some (pos, ref))) /\
  get_data_par_burst f (dc_burst p) (guess_from_param (dc_guess p) (dc_from p)) (dc_misalign p) ref = ROk o /\
  scan_range p f ref = (len, lo).
(* content of the output file when decoding starts *)
Definition start_file (p : dparam) (old : option file) : file :=
  match dc_multi p, old with Some _, Some x => x | _, _ => [] end.


(* length of the output before it is set to the recorded size *)
Definition extent (v : version) (uid : list N) (o : dpb) (f : file) (lo len : N) (old : file) (n : N) : Prop :=
  let bs := ver_to_block_size v in let ds := bs - 16 in
  lenN old <= n /\
  (forall k seq pl j, visited bs f lo len k -> block_at v uid f (lo + k * bs) seq pl -> is_chunk o seq j -> (j + 1) * ds <= n) /\
  (n = lenN old \/ exists k seq pl j, visited bs f lo len k /\ block_at v uid f (lo + k * bs) seq pl /\ is_chunk o seq j /\ n = (j + 1) * ds).
(* The statistics printed after decoding to a file: how many of the blocks visited were of each kind *)
Definition counts (s : dstats) (ks : list kind) : Prop :=
  ds_meta s = countN (kind_eqb KMeta) ks /\ ds_data s = countN (kind_eqb KData) ks /\ ds_parity s = countN (kind_eqb KParity) ks /\
  ds_failed s = countN (kind_eqb KBad) ks /\ ds_meta_failed s = 0 /\ ds_data_failed s = 0 /\ ds_parity_failed s = 0.
(* the files hold the same blocks of this container in the parts read *)
Definition same_blocks (v : version) (uid : list N) (f1 : file) (lo1 len1 : N) (f2 : file) (lo2 len2 : N) : Prop :=
  let bs := ver_to_block_size v in forall seq pl,
  (exists k, visited bs f1 lo1 len1 k /\ block_at v uid f1 (lo1 + k * bs) seq pl) <->
  (exists k, visited bs f2 lo2 len2 k /\ block_at v uid f2 (lo2 + k * bs) seq pl).
(* no two blocks of this container in the part read have the same number and different payloads *)
Definition consistent (v : version) (uid : list N) (f : file) (lo len : N) : Prop :=
  let bs := ver_to_block_size v in forall k k' seq pl pl',
  visited bs f lo len k -> visited bs f lo len k' ->
  block_at v uid f (lo + k * bs) seq pl -> block_at v uid f (lo + k' * bs) seq pl' -> pl = pl'.
