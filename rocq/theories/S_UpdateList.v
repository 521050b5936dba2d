(* What update --verbose has to list. *)
From Coq Require Import String Sorted.
From Verif Require Import M_Base M_Specs M_Header M_Multihash M_Metadata M_Block M_Index M_FileUtils M_Buffer M_Ranges M_Encode M_Scan M_Decode M_Repair M_Update M_UpdateList M_Hex
  M_Rescue M_Json M_Show S_Crc S_Meta S_Block S_Index S_Container S_Decode S_Encode S_Repair S_Update S_Json S_Show S_Report.

(* the value of a field: the first one with this identifier *)
Definition value (i : metadata_id) (ms : list metadata) : option metadata := hd_error (with_id i ms).
(* l lists every field whose value is not the same in ms and ms', once, with both values, and no other *)
Definition changes_between (ms ms' : list metadata) (l : list change) : Prop :=
  NoDup (map ch_id l) /\
  forall i a b, In (mkChange i a b) l <-> a = value i ms /\ b = value i ms' /\ a <> b.
(* the metadata blocks of f that are rewritten, in order, each with its number among the metadata places, its position and the changes
   between f and w *)
Definition changes_listed (v : version) (uid : list N) (o : dpb) (P : N -> Prop) (f w : file) (l : list block_msg) : Prop :=
  StronglySorted N.lt (map bm_pos l) /\
  (forall x, In x l -> exists i ms ms', meta_index (Some true) o i /\ P i /\ fields_at v uid f i ms /\ fields_at v uid w i ms' /\
     bm_no x = rank o i /\ bm_pos x = i * ver_to_block_size v /\ changes_between ms ms' (bm_changes x)) /\
  (forall i, meta_held v uid o f i -> P i -> exists x, In x l /\ bm_pos x = i * ver_to_block_size v).

(* the output *)
Definition id_name (i : metadata_id) : list N :=
  match i with
  | IFNM => str "FNM" | ISNM => str "SNM" | IHSH => str "HSH" | IFSZ => str "FSZ" | IFDT => str "FDT" | ISDT => str "SDT" | IRSD => str "RSD" | IRSP => str "RSP"
  end.
Definition value_json (cal : calendar) (m : metadata) : json :=
  match m with
  | FNM s => JStr s | SNM s => JStr s | HSH h => hash_json h
  | FSZ x => num x | RSD x => num x | RSP x => num x
  | FDT x => time_json cal x | SDT x => time_json cal x
  end.
Definition change_json (cal : calendar) (c : change) : json :=
  JObj [(str "field", JStr (id_name (ch_id c))); (str "from", opt (value_json cal) (ch_from c)); (str "to", opt (value_json cal) (ch_to c))].
Definition block_changes_json (cal : calendar) (x : block_msg) : json :=
  JObj [(str "metadataBlockNumber", num (bm_no x)); (str "foundAtByte", num (bm_pos x)); (str "changes", JArr (map (change_json cal) (bm_changes x)))].
Definition update_json (v : version) (s : ustats) (t : Z) : json :=
  JObj [(str "sbxVersion", num (ver_to_usize v));
        (str "blockSizeUsedInUpdating", num (ver_to_block_size v));
        (str "numberOfMetadataBlocksProcessed", num (us_updated s + us_failed s));
        (str "numberOfMetadataBlocksUpdated", num (us_updated s));
        (str "numberOfMetadataBlocksFailedToDecode", num (us_failed s));
        (str "timeElapsed", clock_json t)].
Definition update_output (cal : calendar) (verbose : bool) (pos : N) (ref : block) (o : dpb) (l : list block_msg) (s : ustats) (t : Z) : json :=
  success_json ((if verbose then [ref_info pos ref] else []) ++ level_used o ++
                (if verbose then [(str "metadataChanges", JArr (map (block_changes_json cal) l))] else []) ++
                [(str "stats", update_json (b_version ref) s t)]).
(* names that print as they are: see S_Json *)
Definition plain_value (m : option metadata) : Prop :=
  match m with Some (FNM s) | Some (SNM s) => plain s /\ shown false s (JStr s) | _ => True end.
Definition plain_changes (l : list block_msg) : Prop :=
  Forall (fun x => Forall (fun c => plain_value (ch_from c) /\ plain_value (ch_to c)) (bm_changes x)) l.
