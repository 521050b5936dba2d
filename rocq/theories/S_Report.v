(* What the reports of the commands have to say, as JSON values. *)
From Coq Require Import String.
From Verif Require Import M_Base M_Specs M_Header M_Multihash M_Metadata M_Block M_Index M_FileUtils M_Buffer M_Ranges M_Encode M_Scan M_Loop M_Decode
  M_Content M_Check M_Repair M_Sort M_Hex M_Rescue M_Json M_Show M_Report S_Json S_Show.

(* a duration, in hours, minutes and seconds, each of at least two digits *)
Definition clock (t : N) : list N := two (t / 3600) ++ str ":" ++ two (t / 60 mod 60) ++ str ":" ++ two (t mod 60).
Definition clock_json (t : Z) : json := JStr (clock (Z.to_N t)).
(* a successful command prints the report, then that there is no error *)
Definition success_json (ms : list (list N * json)) : json := JObj (ms ++ [(str "error", JNull)]).
Definition error_json (ms : list (list N * json)) (e : list N) : json := JObj (ms ++ [(str "error", JStr e)]).

Definition ref_info (pos : N) (b : block) : list N * json :=
  (str "refBlockInfo", JObj [(str "type", JStr (if is_meta b then str "metadata" else str "data")); (str "ver", num (ver_to_usize (b_version b))); (str "pos", num pos)]).
(* the burst error resistance level used, if the version has one; a level is a number below 2^64 on a 64 bit machine *)
Definition level_json (B : N) : json := if B <? 18446744073709551616 then num B else JStr (dec B).
Definition level_used (o : dpb) : list (list N * json) :=
  match o with Some (_, _, B) => [(str "burstErrorResistanceLevel", level_json B)] | None => [] end.
(* ... if it is known or could be guessed *)
Definition level_known (r : result dpb) : list (list N * json) := match r with ROk o => level_used o | _ => [] end.
(* check: the time for checking counts only if blocks are checked, the time for hashing only if a hash was obtained *)
Definition check_json (v : version) (x : coutcome) (t_check t_hash : Z) (etext : list N) : json :=
  let t_check := match ko_check x with None => 0%Z | Some _ => t_check end in
  let t_hash := match ko_hash x with Some (_, ROk _) => t_hash | _ => 0%Z end in
  JObj ([(str "sbxVersion", num (ver_to_usize v))] ++
        match ko_check x with
        | None => []
        | Some (s, _) =>
            [(str "blockSizeUsedInChecking", num (ver_to_block_size v));
             (str "numberOfBlocksProcessed", num (ck_meta s + ck_data s + ck_failed s + ck_blank s));
             (str "numberOfBlocksPassedCheckMetadata", num (ck_meta s));
             (str "numberOfBlocksPassedCheckData", num (ck_data s));
             (str "numberOfBlocksFailedCheck", num (ck_failed s));
             (str "timeElapsedForBlockCheck", clock_json t_check)]
        end ++
        match ko_hash x with
        | None => []
        | Some (h, r) =>
            [(str "recordedHash", hash_json h);
             (str "hashOfStoredData", match r with ROk h' => hash_json h' | _ => JStr etext end);
             (str "timeElapsedForHashing", clock_json t_hash)]
        end ++
        [(str "timeElapsed", clock_json (t_check + t_hash))]).
Definition failed_json (ps : list N) : json := JArr (map (fun pos => JObj [(str "pos", num pos)]) ps).
(* the whole output; the level is needed for hashing only *)
Definition check_output (p : cparam) (pos : N) (ref : block) (r : result dpb) (x : coutcome) (t_check t_hash : Z) (etext : list N) : json :=
  success_json ((if cp_verbose p then [ref_info pos ref] else []) ++
                match ko_check x with Some (_, ps) => if cp_verbose p then [(str "blocksFailed", failed_json ps)] else [] | None => [] end ++
                match cp_hash p with NoHash => [] | _ => level_known r end ++
                [(str "stats", check_json (b_version ref) x t_check t_hash etext)]).

Definition repair_json (v : version) (s : pstats) (t : Z) : json :=
  JObj [(str "sbxVersion", num (ver_to_usize v));
        (str "blockSizeUsedInChecking", num (ver_to_block_size v));
        (str "numberOfBlocksProcessed", num (ps_meta s + ps_data s + ps_failed s));
        (str "numberOfBlocksPassedCheckMetadata", num (ps_meta s));
        (str "numberOfBlocksPassedCheckData", num (ps_data s));
        (str "numberOfBlocksFailedCheck", num (ps_failed s));
        (str "numberOfBlocksRepairedMetadata", num (ps_meta_rep s));
        (str "numberOfBlocksRepairedData", num (ps_data_rep s));
        (str "numberOfBlocksFailedToRepairData", num (ps_data_fail s));
        (str "timeElapsed", clock_json t)].
Definition repair_output (v : version) (o : dpb) (s : pstats) (t : Z) : json :=
  success_json (level_used o ++ [(str "metadataRepairs", JArr []); (str "dataRepairs", JArr []); (str "stats", repair_json v s t)]).

Definition sort_json (v : version) (s : sstats) (u : ostats) (t : Z) : json :=
  let rs := ver_uses_rs v in
  JObj ([(str "sbxVersion", num (ver_to_usize v));
         (str "blockSizeUsedInChecking", num (ver_to_block_size v));
         (str "numberOfBlocksProcessed", num (ss_meta s + ss_data s + ss_parity s + ss_failed s + ss_blank s));
         (str "numberOfBlocksSortedMetadata", num (ss_meta s));
         (str "numberOfBlocksSortedData", num (ss_data s))] ++
        (if rs then [(str "numberOfBlocksSortedParity", num (ss_parity s))] else []) ++
        [(str "numberOfBlocksInSameOrderMetadata", num (ss_meta_same s));
         (str "numberOfBlocksInDiffOrderMetadata", num (ss_meta_diff s));
         (str "numberOfBlocksInSameOrderData", num (os_data_same u));
         (str "numberOfBlocksInDiffOrderData", num (os_data_diff u))] ++
        (if rs then [(str "numberOfBlocksInSameOrderParity", num (os_parity_same u));
                     (str "numberOfBlocksInDiffOrderParity", num (os_parity_diff u))] else []) ++
        [(str "numberOfBlocksFailedToSort", num (ss_failed s));
         (str "timeElapsed", clock_json t)]).

Definition decode_json (ref : block) (f : file) (x : doutcome) (to_file : bool) (t_decode t_hash : Z) : json :=
  let v := b_version ref in let s := do_stats x in let rs := ver_uses_rs v in
  let hashed := to_file && match do_computed x with Some _ => true | None => false end in
  let t_hash := if hashed then t_hash else 0%Z in
  JObj ([(str "fileUID", JStr (bytes_to_upper_hex_string (b_uid ref)));
         (str "sbxVersion", num (ver_to_usize v));
         (str "blockSizeUsedInDecoding", num (ver_to_block_size v));
         (str "numberOfBlocksProcessed",
            num (ds_meta s + ds_data s + ds_parity s + if to_file then ds_failed s else ds_meta_failed s + ds_data_failed s + ds_parity_failed s));
         (str "numberOfBlocksDecodedMetadata", num (ds_meta s));
         (str "numberOfBlocksDecodedData", num (ds_data s))] ++
        (if rs then [(str "numberOfBlocksDecodedParity", num (ds_parity s))] else []) ++
        (if to_file then [(str "numberOfBlocksFailedToDecode", num (ds_failed s))]
         else [(str "numberOfBlocksFailedToDecodeMetadata", num (ds_meta_failed s));
               (str "numberOfBlocksFailedToDecodeData", num (ds_data_failed s))] ++
              (if rs then [(str "numberOfBlocksFailedToDecodeParity", num (ds_parity_failed s))] else [])) ++
        [(str "fileSize", num (do_size x));
         (str "sbxContainerSize", num (lenN f))] ++
        (if hashed then [(str "timeElapsedForDecoding", clock_json t_decode)] else []) ++
        [(str "recordedHash", opt hash_json (do_recorded x));
         (str "hashOfOutputFile", opt hash_json (do_computed x))] ++
        (if hashed then [(str "timeElapsedForHashing", clock_json t_hash)] else []) ++
        [(str "timeElapsed", clock_json (t_decode + t_hash))]).

(* [n] bytes were encoded *)
Definition encode_json (p : eparam) (n : N) (x : eoutcome) (t : Z) : json :=
  let v := e_ver p in let s := eo_stats x in
  JObj ([(str "fileUID", JStr (bytes_to_upper_hex_string (e_uid p)));
         (str "sbxVersion", num (ver_to_usize v));
         (str "blockSizeUsedInEncoding", num (ver_to_block_size v));
         (str "dataSizeUsedInEncoding", num (ver_to_data_size v));
         (str "numberOfBlocksWritten", num (st_meta s + st_data s + st_parity s));
         (str "numberOfBlocksWrittenMetadata", num (st_meta s));
         (str "numberOfBlocksWrittenData", num (st_data s))] ++
        (if ver_uses_rs v then [(str "numberOfBlocksWrittenParity", num (st_parity s))] else []) ++
        [(str "amountOfDataEncodedBytes", num n);
         (str "fileSize", num n);
         (str "sbxContainerSize", num (eo_size x));
         (str "hash", opt hash_json (eo_hash x));
         (str "timeElapsed", clock_json t)]).

(* the information on the reference block comes first if asked for, then the level *)
Definition sort_output (verbose : bool) (pos : N) (ref : block) (o : dpb) (s : sstats) (u : ostats) (t : Z) : json :=
  success_json ((if verbose then [ref_info pos ref] else []) ++ level_used o ++ [(str "stats", sort_json (b_version ref) s u t)]).
Definition decode_output (verbose : bool) (pos : N) (ref : block) (o : dpb) (f : file) (x : doutcome) (to_file : bool) (t_decode t_hash : Z) : json :=
  success_json ((if verbose then [ref_info pos ref] else []) ++ level_used o ++ [(str "stats", decode_json ref f x to_file t_decode t_hash)]).

(* the calls print a JSON text, which stands for this value and no other *)
Definition stands_for (cs : list call) (j : json) : Prop := exists t, do_calls cs [] = ROk (t, []) /\ forall j', json_text t j' <-> j' = j.
(* the text of an error: a line with at least one space *)
Definition error_text (e : list N) : Prop := plain e /\ In 32 e.
