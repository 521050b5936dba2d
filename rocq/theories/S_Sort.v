(* Vocabulary for the statements about sorting. *)
From Verif Require Import M_Base M_Specs M_Header M_Metadata M_Block M_Index M_Buffer M_Ranges M_Scan M_Decode M_Sort S_Crc S_Meta S_Block S_Index S_Decode.

(* The block visited as number k belongs at block index i of the sorted container, and has sequence number seq: a
   data or parity block at the index of its sequence number, a metadata block at all metadata indices. *)
Definition belongs (v : version) (uid : list N) (o : dpb) (f : file) (lo len i seq k : N) : Prop :=
  let bs := ver_to_block_size v in
  visited bs f lo len k /\ (exists pl, block_at v uid f (lo + k * bs) seq pl) /\
  ((1 <= seq /\ i = calc_data_block_write_index seq (Some true) o) \/ (seq = 0 /\ meta_index (Some true) o i)).

(* Of the blocks belonging at the same index: the last data or parity block, the first metadata block *)
Definition chosen (v : version) (uid : list N) (o : dpb) (f : file) (lo len i k : N) : Prop :=
  exists seq, belongs v uid o f lo len i seq k /\
  forall k', belongs v uid o f lo len i seq k' -> if seq =? 0 then k <= k' else k' <= k.

(* The output file of sort, starting from the file [old]: each block index some visited block belongs at holds the
   chosen one verbatim; all other bytes are as in the file before (zero beyond its end); the file is not
   longer than needed. *)
Definition sort_result (v : version) (uid : list N) (o : dpb) (f : file) (lo len : N) (old out : file) : Prop :=
  let bs := ver_to_block_size v in
  (forall i k, chosen v uid o f lo len i k -> sliceN (i * bs) bs out = sliceN (lo + k * bs) bs f) /\
  (forall j, (forall seq k, ~ belongs v uid o f lo len (j / bs) seq k) -> nthN out j = nthN old j) /\
  lenN old <= lenN out /\
  (forall i seq k, belongs v uid o f lo len i seq k -> (i + 1) * bs <= lenN out) /\
  (lenN out = lenN old \/ exists i seq k, belongs v uid o f lo len i seq k /\ lenN out = (i + 1) * bs).

(* content of the output file when sorting starts *)
Definition sort_start (p : sparam) (old : option (option file)) : option file :=
  match old with None => None | Some x => Some (start_file (sp_scan p) x) end.

(* Skip-good mode (C23). A block index of the existing output file is good for a sequence number if a well-formed
   block of this container with that number is there; for a data or parity block, at least 4096 bytes of the file
   must follow its start (see finding F8). *)
Definition good_at (v : version) (uid : list N) (w : file) (i seq : N) : Prop :=
  let bs := ver_to_block_size v in
  (if seq =? 0 then (i + 1) * bs <= lenN w else i * bs + 4096 <= lenN w) /\
  exists pl, block_at v uid w (i * bs) seq pl.
Definition skip_result (v : version) (uid : list N) (o : dpb) (f : file) (lo len : N) (old out : file) : Prop :=
  let bs := ver_to_block_size v in
  (* good blocks are left as they are *)
  (forall i seq k, belongs v uid o f lo len i seq k -> good_at v uid old i seq -> sliceN (i * bs) bs out = sliceN (i * bs) bs old) /\
  (* every other index a visited block belongs at gets such a block (or held one already) *)
  (forall i seq k, belongs v uid o f lo len i seq k ->
     (exists k', belongs v uid o f lo len i seq k' /\ sliceN (i * bs) bs out = sliceN (lo + k' * bs) bs f) \/
     ((exists pl, block_at v uid out (i * bs) seq pl) /\ forall j, j / bs = i -> nthN out j = nthN old j)) /\
  (* nothing else is touched *)
  (forall j, (forall seq k, ~ belongs v uid o f lo len (j / bs) seq k) -> nthN out j = nthN old j) /\
  lenN old <= lenN out /\
  (forall i seq k, belongs v uid o f lo len i seq k -> (i + 1) * bs <= lenN out) /\
  (lenN out = lenN old \/ exists i seq k, belongs v uid o f lo len i seq k /\ lenN out = (i + 1) * bs).

(* The statistics. For each block visited: what it is, whether it is all zero, and whether it is a data or parity
   block already at its place (counting block indices from the start of the block grid the scan follows). *)
Definition report_at (v : version) (uid : list N) (o : dpb) (f : file) (lo k : N) (x : kind * bool * bool) : Prop :=
  let bs := ver_to_block_size v in let '(kd, zero, same) := x in
  kind_at v uid o f (lo + k * bs) kd /\
  (zero = true <-> forall i, i < bs -> nthN f (lo + k * bs + i) = 0) /\
  (same = true <-> exists seq pl, block_at v uid f (lo + k * bs) seq pl /\ 1 <= seq /\
                     calc_data_block_write_index seq (Some true) o = lo / bs + k).
Definition sort_counts (report_blank : bool) (t : sstats) (u : ostats) (xs : list (kind * bool * bool)) : Prop :=
  let number P := countN (fun x : kind * bool * bool => let '(kd, zero, same) := x in P kd zero same) xs in
  ss_meta t = number (fun kd _ _ => kind_eqb KMeta kd) /\
  ss_data t = number (fun kd _ _ => kind_eqb KData kd) /\
  ss_parity t = number (fun kd _ _ => kind_eqb KParity kd) /\
  ss_failed t = number (fun kd zero _ => kind_eqb KBad kd && (report_blank || negb zero)) /\
  ss_blank t = number (fun kd zero _ => kind_eqb KBad kd && negb report_blank && zero) /\
  os_data_same u = number (fun kd _ same => kind_eqb KData kd && same) /\
  os_data_diff u = number (fun kd _ same => kind_eqb KData kd && negb same) /\
  os_parity_same u = number (fun kd _ same => kind_eqb KParity kd && same) /\
  os_parity_diff u = number (fun kd _ same => kind_eqb KParity kd && negb same).
