(* Vocabulary for the statements about repairing a container. *)
From Verif Require Import M_Base M_Specs M_Header M_Metadata M_Block M_Index M_FileUtils M_Buffer M_Ranges M_Scan M_Decode M_Repair
  S_Crc S_Meta S_Block S_Index S_Container S_Scan S_Decode S_Encode.

(* What the Reed-Solomon library must satisfy: with d shards or more present it fills in the others with shards of the
   same length and leaves the present ones alone, with fewer it fails; and if the present ones belong to a
   code word (data shards followed by the parity computed from them) it completes exactly that code word. *)
Definition recon_ok (rs : codec) (rc : recon) (d p : N) : Prop :=
  forall n sh, lenN sh = d + p -> (forall x b, In (x, b) sh -> lenN x = n /\ bytes_ok x = true) ->
  if d <=? countN snd sh
  then exists out, rc d p sh = Some out /\ lenN out = d + p /\
         (forall y, In y out -> lenN y = n /\ bytes_ok y = true) /\
         (forall i x, getN sh i = Some (x, true) -> getN out i = Some x) /\
         (forall data, lenN data = d -> (forall x, In x data -> lenN x = n /\ bytes_ok x = true) ->
            (forall i x, getN sh i = Some (x, true) -> getN (data ++ rs d p data) i = Some x) ->
            out = data ++ rs d p data)
  else rc d p sh = None.

(* The choices made before the repair starts: the reference block (C19), the shard counts and burst level (C29), and
   m, the number of data and parity blocks to go through: all blocks of a file of the recorded size; without recorded size,
   as many blocks as the container file is long, less the metadata blocks. *)
Definition repair_setup (burst : option N) (f : file) (ref : block) (d p B m : N) : Prop :=
  (exists pos, get_ref_block f None None false (MustBe TMeta) = ROk (Some (pos, ref))) /\
  ver_uses_rs (b_version ref) = true /\
  get_data_par_burst f burst None false ref = ROk (Some (d, p, B)) /\
  match get_FSZ ref with
  | Some x => exists n, block_count (b_version ref) (Some (d, p, B)) x n /\ m = N.min U32_MAX n
  | None => m = N.min U32_MAX (lenN f / ver_to_block_size (b_version ref) - (1 + p))
  end.

(* Block number a of w is the same as in f (what lies behind the end of a file counts as zeros). *)
Definition same_block (v : version) (f w : file) (a : N) : Prop :=
  forall i, i / ver_to_block_size v = a -> nthN w i = nthN f i.
(* The block of number seq is at its place. *)
Definition in_place (v : version) (uid : list N) (d p B : N) (f : file) (seq : N) : Prop :=
  exists pl, block_at v uid f (calc_data_block_write_index seq (Some true) (Some (d, p, B)) * ver_to_block_size v) seq pl.
(* ... possibly after zeros are appended to the file (writing a block behind the end of the file does that; then
   a block cut short can turn out to be whole, if all that is missing are zeros). *)
Definition in_place0 (v : version) (uid : list N) (d p B : N) (f : file) (seq : N) : Prop :=
  exists z, in_place v uid d p B (f ++ repN z 0) seq.
(* some block of the container is at block number i, whatever its own number is *)
Definition some_block (v : version) (uid : list N) (f : file) (i : N) : Prop :=
  exists seq pl, block_at v uid f (i * ver_to_block_size v) seq pl.
(* at least c of the blocks of Reed-Solomon set k satisfy P *)
Definition at_least (d p c : N) (P : N -> Prop) (k : N) : Prop :=
  exists l, NoDup l /\ lenN l = c /\ forall s, In s l -> 1 <= s /\ set_of d p s = k /\ P s.

(* w is f repaired, m blocks being gone through (only complete sets are dealt with). *)
Definition no_harm (v : version) (uid : list N) (d p B m : N) (f w : file) : Prop :=
  let o := Some (d, p, B) in
  let widx seq := calc_data_block_write_index seq (Some true) o in
  (* a block of the container at a metadata place stays *)
  (forall i, meta_index (Some true) o i -> some_block v uid f i -> same_block v f w i) /\
  (* a data or parity block at its place stays *)
  (forall seq, 1 <= seq -> in_place v uid d p B f seq -> same_block v f w (widx seq)) /\
  (* a set with too few blocks stays *)
  (forall seq, 1 <= seq -> ~ at_least d p d (in_place0 v uid d p B f) (set_of d p seq) -> same_block v f w (widx seq)) /\
  (* everything else stays *)
  (forall seq, 1 <= seq -> m < (set_of d p seq + 1) * (d + p) -> same_block v f w (widx seq)) /\
  (* the file never gets shorter, and longer only up to the end of one of the container's blocks *)
  lenN f <= lenN w /\ (lenN w = lenN f \/ exists i, used_index true o m i /\ lenN w = (i + 1) * ver_to_block_size v).
Definition all_repaired (v : version) (uid : list N) (d p B m : N) (f w : file) : Prop :=
  let o := Some (d, p, B) in
  (forall i, meta_index (Some true) o i -> some_block v uid w i) /\
  (forall seq, 1 <= seq -> (set_of d p seq + 1) * (d + p) <= m ->
     at_least d p d (in_place v uid d p B f) (set_of d p seq) -> in_place v uid d p B w seq).

(* exactly c numbers have property P *)
Definition exactly (P : N -> Prop) (c : N) : Prop := exists l, NoDup l /\ (forall i, In i l <-> P i) /\ lenN l = c.

(* f is the container f0, of n data and parity blocks, after some damage: at the places of the container's blocks, whatever
   can still be read as a block of the container is what was there (zeros may have to be appended to f: see in_place0);
   the file has not grown. *)
Definition damaged (v : version) (uid : list N) (o : dpb) (n : N) (f0 f : file) : Prop :=
  lenN f <= lenN f0 /\
  (forall i z seq pl, used_index true o n i -> block_at v uid (f ++ repN z 0) (i * ver_to_block_size v) seq pl ->
     block_at v uid f0 (i * ver_to_block_size v) seq pl).
(* every block of the container f0 is back in w, and nothing else is changed (the gaps between the blocks, which a burst
   resistant layout may have, hold no information) *)
Definition restored (v : version) (o : dpb) (n : N) (f0 f w : file) : Prop :=
  lenN w = lenN f0 /\
  (forall i, used_index true o n (i / ver_to_block_size v) -> nthN w i = nthN f0 i) /\
  (forall i, ~ used_index true o n (i / ver_to_block_size v) -> nthN w i = nthN f i).
