(* A disk or partition whose file system is lost, as a sequence of pieces. *)
From Verif Require Import M_Base M_Specs M_Header M_Block M_Index M_Rescue S_Crc S_Block S_Index S_Decode S_Repair.

(* A piece of the disk: a block (its header can be read; its contents may be damaged), or 128 bytes of anything else. *)
Inductive piece := Blk (h : header) (pl : list N) | Other (x : list N).
Definition bytes_of (p : piece) : list N := match p with Blk h pl => header_to_bytes h ++ pl | Other x => x end.
(* "Anything else" does not start like a header. *)
Definition piece_ok (p : piece) : Prop :=
  match p with
  | Blk h pl => header_ok h = true /\ lenN pl = ver_to_block_size (h_version h) - 16
  | Other x => lenN x = 128 /\ forall h, header_ok h = true -> takeN 16 x <> header_to_bytes h
  end.
(* the check value in the header fits the contents *)
Definition sound (h : header) (pl : list N) : Prop :=
  is_crc (ver_to_usize (h_version h)) (h_uid h ++ be_bytes 4 (h_seq_num h) ++ pl) (h_crc h).
(* f is the disk: the pieces one after the other, and at the end fewer than 128 bytes *)
Definition disk_of (ps : list piece) (rest f : list N) : Prop :=
  f = concat (map bytes_of ps) ++ rest /\ lenN rest < 128 /\ Forall piece_ok ps.
(* the sound blocks with UID u, in the order in which they are on the disk *)
Inductive kept_blocks (u : list N) : list piece -> list piece -> Prop :=
| kb_nil : kept_blocks u [] []
| kb_block h pl ps l : h_uid h = u -> sound h pl -> kept_blocks u ps l -> kept_blocks u (Blk h pl :: ps) (Blk h pl :: l)
| kb_skip p ps l : (forall h pl, p = Blk h pl -> h_uid h = u -> ~ sound h pl) -> kept_blocks u ps l -> kept_blocks u (p :: ps) l.
(* the disk has a sound block with this sequence number and contents of the container of version v and UID uid *)
Definition on_disk (v : version) (uid : list N) (ps : list piece) (seq : N) (pl : list N) : Prop :=
  exists h, In (Blk h pl) ps /\ sound h pl /\ h_version h = v /\ h_uid h = uid /\ h_seq_num h = seq.
(* All sound blocks of this UID on the disk are blocks of the container f0: its version, and at some place of f0 there is a block
   with this number and contents. *)
Definition only_from (v : version) (uid : list N) (f0 : list N) (ps : list piece) : Prop :=
  forall h pl, In (Blk h pl) ps -> sound h pl -> h_uid h = uid ->
    h_version h = v /\ exists i, block_at v uid f0 (i * ver_to_block_size v) (h_seq_num h) pl.
(* the options of a rescue that leave nothing of this UID out *)
Definition rescues_all (p : rparam) (uid : list N) : Prop :=
  rp_from p = None /\ rp_to p = None /\ rp_type p = None /\ (rp_uid p = None \/ rp_uid p = Some uid).
(* the block with this number holds part of the content, which has this length *)
Definition holds_content (v : version) (o : dpb) (len seq : N) : Prop :=
  exists j, is_chunk o seq j /\ j * (ver_to_block_size v - 16) < len.
(* There is a metadata block on the disk, and every block of the container f0 that holds part of the content. *)
Definition nothing_lost (v : version) (uid : list N) (o : dpb) (len : N) (f0 : list N) (ps : list piece) : Prop :=
  (exists pl, on_disk v uid ps 0 pl) /\
  forall i seq pl, block_at v uid f0 (i * ver_to_block_size v) seq pl -> holds_content v o len seq -> on_disk v uid ps seq pl.
(* There is a metadata block on the disk, and of every set of d + p blocks of the n numbered blocks at least d. *)
Definition enough_left (v : version) (uid : list N) (d p n : N) (ps : list piece) : Prop :=
  (exists pl, on_disk v uid ps 0 pl) /\
  forall seq, 1 <= seq <= n -> at_least d p d (fun s => exists pl, on_disk v uid ps s pl) (set_of d p seq).
