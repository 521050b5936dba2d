(* Vocabulary for the statements about checking a container. *)
From Verif Require Import M_Base M_Specs M_Header M_Multihash M_Metadata M_Block M_Index M_FileUtils M_Buffer M_Ranges M_Encode M_Scan M_Loop M_Decode M_Content M_Check
  S_Crc S_Meta S_Block S_Index S_Container S_Decode S_Encode S_Content S_Repair.

(* The choices made before checking: the reference block (C19) and the range (C31): [len] bytes from byte [lo] on *)
Definition check_setup (p : cparam) (f : file) (ref : block) (len lo : N) : Prop :=
  (exists pos, get_ref_block f (ref_from_pos (cp_ref_from p) (cp_from p)) (cp_ref_to p) (cp_misalign p) (cp_choice p) = ROk (Some (pos, ref))) /\
  calc_required_len_and_seek_to_from_byte_range (cp_from p) (cp_to p) (cp_misalign p) 0 (Len (lenN f)) (Some (ver_to_block_size (b_version ref))) = (len, lo).

(* the bytes from pos on, as many as a block has, are zero *)
Definition blank_at (v : version) (f : file) (pos : N) : Prop := forall i, i < ver_to_block_size v -> nthN f (pos + i) = 0.
(* what can be at a place in a file, for the checker: each place is one of these *)
Inductive state := SMeta | SData | SBlank | SBroken.
Definition state_at (v : version) (uid : list N) (f : file) (pos : N) (s : state) : Prop :=
  match s with
  | SMeta => exists pl, block_at v uid f pos 0 pl
  | SData => exists seq pl, 1 <= seq /\ block_at v uid f pos seq pl
  | SBlank => (forall seq pl, ~ block_at v uid f pos seq pl) /\ blank_at v f pos
  | SBroken => (forall seq pl, ~ block_at v uid f pos seq pl) /\ ~ blank_at v f pos
  end.
(* the numbers reported: of the places visited, how many are metadata blocks of the container, how many data or parity blocks,
   how many failed, how many are blank without counting as failed *)
Definition check_counts (v : version) (uid : list N) (f : file) (lo len : N) (report_blank : bool) (s : cstats) : Prop :=
  let bs := ver_to_block_size v in
  let places st k := visited bs f lo len k /\ state_at v uid f (lo + k * bs) st in
  exactly (places SMeta) (ck_meta s) /\ exactly (places SData) (ck_data s) /\
  exactly (fun k => places SBroken k \/ (report_blank = true /\ places SBlank k)) (ck_failed s) /\
  exactly (fun k => report_blank = false /\ places SBlank k) (ck_blank s).
