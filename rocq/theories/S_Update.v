(* Vocabulary for the statements about updating metadata in place. *)
From Verif Require Import M_Base M_Specs M_Header M_Multihash M_Metadata M_Block M_Index M_Buffer M_Ranges M_Encode M_Scan M_Loop M_Decode M_Content M_Repair M_Update
  S_Crc S_Meta S_Block S_Index S_Container S_Decode S_Encode S_Content S_Repair.

(* Block number i of f is a metadata block of the container, with these fields. *)
Definition fields_at (v : version) (uid : list N) (f : file) (i : N) (ms : list metadata) : Prop :=
  exists pl, block_at v uid f (i * ver_to_block_size v) 0 pl /\ metas_from_bytes pl = ms.
(* the fields with this identifier, in order *)
Definition with_id (i : metadata_id) (ms : list metadata) : list metadata := filter (fun m => metadata_id_eqb (meta_to_id m) i) ms.
(* ms' is ms after setting the fields [sets] and removing those with the identifiers [gone]: a field set replaces the first one of its
   kind or is added; of a kind removed nothing is left; all the others are as before, in the same order *)
Definition changed (sets : list metadata) (gone : list metadata_id) (ms ms' : list metadata) : Prop :=
  (forall m, In m sets -> with_id (meta_to_id m) ms' = m :: tl (with_id (meta_to_id m) ms)) /\
  (forall i, In i gone -> with_id i ms' = []) /\
  (let other m := negb (existsb (metadata_id_eqb (meta_to_id m)) (gone ++ map meta_to_id sets)) in filter other ms' = filter other ms).

(* what the command line asks for, h being the new hash *)
Definition asked_fields (q : uopts) (h : hash_bytes) : list metadata :=
  (match uo_fnm q with Some s => [FNM s] | None => [] end) ++ (match uo_snm q with Some s => [SNM s] | None => [] end) ++
  (match uo_hash q with Some _ => [HSH h] | None => [] end).
Definition asked_gone (q : uopts) : list metadata_id :=
  (if uo_no_fnm q then [IFNM] else []) ++ (if uo_no_snm q then [ISNM] else []) ++ (if uo_no_hsh q then [IHSH] else []).
(* what the command line checks: no field both set and removed *)
Definition opts_ok (q : uopts) : Prop :=
  (uo_fnm q <> None -> uo_no_fnm q = false) /\ (uo_snm q <> None -> uo_no_snm q = false) /\ (uo_hash q <> None -> uo_no_hsh q = false) /\
  match uo_hash q with Some t => hash_supported t = true | None => True end.
(* what it does not check *)
Definition names_ok (q : uopts) : Prop :=
  match uo_fnm q with Some s => name_ok s | None => True end /\ match uo_snm q with Some s => name_ok s | None => True end.

(* The choices made before anything is changed: the reference block (C19), shard counts and burst level (C29). *)
Definition update_setup (q : uopts) (f : file) (ref : block) (o : dpb) : Prop :=
  (exists pos, get_ref_block f None None false (MustBe TMeta) = ROk (Some (pos, ref))) /\
  get_data_par_burst f (uo_burst q) None false ref = ROk o.
(* h is the hash asked for, of the data stored in the container; anything if none is asked for *)
Definition new_hash (H : hash_fn) (q : uopts) (f : file) (ref : block) (o : dpb) (cpus : N) (h : hash_bytes) : Prop :=
  match uo_hash q with
  | None => True
  | Some t => exists size, get_FSZ ref = Some size /\ content_hash H cpus f o size ref t = ROk h
  end.

(* place i is one of the metadata places and holds a metadata block of the container *)
Definition meta_held (v : version) (uid : list N) (o : dpb) (f : file) (i : N) : Prop :=
  meta_index (Some true) o i /\ exists ms, fields_at v uid f i ms.
(* w is f after changing the metadata blocks at the places for which [P] holds *)
Definition updated (v : version) (uid : list N) (o : dpb) (sets : list metadata) (gone : list metadata_id) (P : N -> Prop) (f w : file) : Prop :=
  lenN w = lenN f /\
  (forall i ms, meta_index (Some true) o i -> fields_at v uid f i ms -> P i -> exists ms', changed sets gone ms ms' /\ fields_at v uid w i ms') /\
  (forall i, ~ (meta_held v uid o f i /\ P i) -> same_block v f w i).
(* the metadata places in order: number of places before i *)
Definition rank (o : dpb) (i : N) : N := match o with Some (_, _, B) => i / (1 + B) | None => i end.
(* the places dealt with when the run is stopped after some of them *)
Definition reached (o : dpb) (cut : option N) (i : N) : Prop := match cut with Some k => rank o i < k | None => True end.
