(* What check and show have to print of a container as encode has made it. *)
From Coq Require Import String.
From Verif Require Import M_Base M_Specs M_Header M_Multihash M_Metadata M_Block M_Index M_Scan M_Check M_Decode M_Ranges M_Json M_Hex M_Path M_Cli M_Show S_Index S_Json S_Show S_Report S_Cli.

(* the options of check *)
Definition check_options (m : matches) (p : cparam) : Prop :=
  verbosity_option m /\ number_option m A_burst (cp_burst p) /\ number_option m A_from_pos (cp_from p) /\
  range_option m A_to_pos_inc A_to_pos_exc (cp_to p) /\ number_option m A_ref_from_pos (cp_ref_from p) /\
  range_option m A_ref_to_pos_inc A_ref_to_pos_exc (cp_ref_to p) /\ number_option m A_guess_burst_from_pos (cp_guess p) /\
  cp_choice p = (if is_present m A_no_meta then Any else Prefer TMeta) /\ cp_misalign p = is_present m A_force_misalign /\
  cp_report_blank p = is_present m A_report_blank /\ cp_verbose p = is_present m A_verbose /\
  cp_hash p = (if is_present m A_hash then HashAfterCheck else if is_present m A_hash_only then HashOnly else NoHash).
(* the options of show *)
Definition show_options (m : matches) (p : sparam) : Prop :=
  verbosity_option m /\ number_option m A_from_pos (sp_from p) /\ range_option m A_to_pos_inc A_to_pos_exc (sp_to p) /\
  number_option m A_guess_burst_from_pos (sp_guess_from p) /\ sp_misalign p = is_present m A_force_misalign /\
  sp_all p = is_present m A_show_all /\ sp_guess p = is_present m A_guess_burst /\
  match value_of m A_uid, sp_uid p with None, None => True | Some x, Some u => lenN u = 6 /\ hex_bytes x u | _, _ => False end.

(* the number of metadata blocks of a container *)
Definition copies (o : dpb) : N := match o with Some (_, p, _) => p + 1 | None => 1 end.
(* what check says of a container of this version with n data and parity blocks, of this length, if all is well *)
Definition sound_json (v : version) (o : dpb) (n len : N) (h : hash_bytes) (blanks : bool) (a : hash_action) (t_check t_hash : Z) : json :=
  let t_check := match a with HashOnly => 0%Z | _ => t_check end in
  let t_hash := match a with NoHash => 0%Z | _ => t_hash end in
  let all := len / ver_to_block_size v in
  JObj ([(str "sbxVersion", num (ver_to_usize v))] ++
        match a with
        | HashOnly => []
        | _ =>
            [(str "blockSizeUsedInChecking", num (ver_to_block_size v));
             (str "numberOfBlocksProcessed", num all);
             (str "numberOfBlocksPassedCheckMetadata", num (copies o));
             (str "numberOfBlocksPassedCheckData", num n);
             (str "numberOfBlocksFailedCheck", num (if blanks then all - copies o - n else 0));
             (str "timeElapsedForBlockCheck", clock_json t_check)]
        end ++
        match a with
        | NoHash => []
        | _ => [(str "recordedHash", hash_json h); (str "hashOfStoredData", hash_json h); (str "timeElapsedForHashing", clock_json t_hash)]
        end ++
        [(str "timeElapsed", clock_json (t_check + t_hash))]).
(* the burst level is printed if the contents are hashed *)
Definition sound_level (a : hash_action) (o : dpb) : list (list N * json) := match a with NoHash => [] | _ => level_used o end.
(* what show says of its first block *)
Definition first_json (cal : calendar) (uid name called : list N) (v : version) (o : dpb) (size : N) (mtime : option Z) (now : Z) (h : hash_bytes) : json :=
  JObj [(str "metadataBlockNumber", num 0);
        (str "foundAtByte", num 0);
        (str "fileUID", JStr (hex_text (str "0123456789ABCDEF") uid));
        (str "fileName", JStr name);
        (str "sbxContainerName", JStr called);
        (str "sbxContainerVersion", num (ver_to_usize v));
        (str "rsDataShardCount", match o with Some (d, _, _) => num d | None => JNull end);
        (str "rsParityShardCount", match o with Some (_, p, _) => num p | None => JNull end);
        (str "fileSize", num size);
        (str "fileModificationTime", opt (time_json cal) mtime);
        (str "sbxEncodingTime", time_json cal now);
        (str "hash", hash_json h)].
(* check and show are told nothing about parts of the file *)
Definition whole_check (m : matches) : Prop :=
  verbosity_option m /\ value_of m A_from_pos = None /\ value_of m A_to_pos_inc = None /\ value_of m A_to_pos_exc = None /\
  value_of m A_ref_from_pos = None /\ value_of m A_ref_to_pos_inc = None /\ value_of m A_ref_to_pos_exc = None /\ value_of m A_guess_burst_from_pos = None.
(* the burst level is given, or left to be guessed if it is at most 1000 *)
Definition burst_known (m : matches) (o : dpb) : Prop :=
  match o with
  | Some (_, _, B) => number_option m A_burst (Some B) \/ (value_of m A_burst = None /\ B <= 1000)
  | None => exists b, number_option m A_burst b
  end.
Definition hash_wanted (m : matches) : hash_action := if is_present m A_hash then HashAfterCheck else if is_present m A_hash_only then HashOnly else NoHash.
