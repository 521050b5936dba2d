(* What repair --verbose has to list. *)
From Coq Require Import String Sorted.
From Verif Require Import M_Base M_Specs M_Header M_Metadata M_Block M_Index M_FileUtils M_Buffer M_Ranges M_Scan M_Decode M_Repair M_RepairList M_Rescue M_Json
  S_Crc S_Meta S_Block S_Index S_Container S_Scan S_Decode S_Encode S_Repair S_Json S_Show S_Report.

(* the entry for set k of a container f: it is about blocks k(d+p)+1 to (k+1)(d+p), has all the blocks that are not at their places, in order,
   each with the position of that place, and says "success" just if enough of the set are at their places *)
Definition set_entry (v : version) (uid : list N) (d p B : N) (f : file) (k : N) (x : set_msg) : Prop :=
  sm_first x = k * (d + p) + 1 /\ sm_last x = (k + 1) * (d + p) /\
  (sm_ok x = true <-> at_least d p d (in_place v uid d p B f) k) /\
  StronglySorted N.lt (map fst (sm_blocks x)) /\
  (forall s q, In (s, q) (sm_blocks x) <-> 1 <= s /\ set_of d p s = k /\ ~ in_place v uid d p B f s /\
     q = calc_data_block_write_index s (Some true) (Some (d, p, B)) * ver_to_block_size v).
(* the positions of all metadata places without a block of the container, in order; an entry for every complete set with a block missing, in order *)
Definition repairs_listed (v : version) (uid : list N) (d p B m : N) (f : file) (metas : list N) (sets : list set_msg) : Prop :=
  StronglySorted N.lt metas /\
  (forall q, In q metas <-> exists i, meta_index (Some true) (Some (d, p, B)) i /\ ~ some_block v uid f i /\ q = i * ver_to_block_size v) /\
  StronglySorted N.lt (map sm_first sets) /\
  (forall x, In x sets -> exists k, (k + 1) * (d + p) <= m /\ sm_blocks x <> [] /\ set_entry v uid d p B f k x) /\
  (forall s, 1 <= s -> (set_of d p s + 1) * (d + p) <= m -> ~ in_place v uid d p B f s -> exists x q, In x sets /\ In (s, q) (sm_blocks x)).

(* the output *)
Definition meta_entry_json (q : N) : json := JObj [(str "seqNum", num 0); (str "pos", num q)].
Definition block_entry_json (x : N * N) : json := JObj [(str "seqNum", num (fst x)); (str "pos", num (snd x))].
Definition set_entry_json (x : set_msg) : json :=
  JObj [(str "success", JBool (sm_ok x)); (str "blockSetStart", num (sm_first x)); (str "blockSetEndInclusive", num (sm_last x));
        (str "blocks", JArr (map block_entry_json (sm_blocks x)))].
Definition repair_verbose_output (pos : N) (ref : block) (o : dpb) (s : pstats) (metas : list N) (sets : list set_msg) (t : Z) : json :=
  success_json (ref_info pos ref :: level_used o ++ [(str "metadataRepairs", JArr (map meta_entry_json metas)); (str "dataRepairs", JArr (map set_entry_json sets));
                (str "stats", repair_json (b_version ref) s t)]).
