(* C71: show --show-all lists every copy of the metadata of a container, and --guess-burst tells its burst level. *)
From Coq Require Import String Ascii Sorted.
From Verif Require Import L_Update P_Update M_Base M_Specs M_Header M_Multihash M_Metadata M_Block M_Index M_FileUtils M_Buffer M_Ranges M_Encode
  M_Scan M_Loop M_Decode M_Content M_Check M_Sort M_Repair M_Rescue M_Hex M_Json M_Codec M_Path M_Cli M_Show M_Report M_Look
  S_Meta S_Block S_Index S_Container S_Encode S_Scan S_Decode S_Repair P_Update S_Check S_Cli S_Json S_Show S_Report S_Look
  L_Base L_Block L_File L_Scan L_Index2 L_Ranges L_Ref L_Intact L_Intact2 L_Path L_Cli L_Cli2 L_Cli3 L_Roundtrip L_Json2 L_Show L_Report L_Check P_Index P_Encode P_Decode P_Roundtrip P_Codec P_Cli P_Options P_Commands P_Json P_Check P_Show P_Report P_Look S_History S_Update M_Update L_LostCmd L_Renew L_History P_History S_Facts L_Facts P_Facts S_ShowAll L_ShowAll.

(* However often a container is updated, damaged within its tolerance and repaired: show prints, with --show-all, each copy of the metadata once, in order, at its
   place in the file and with what has been recorded last (so all copies agree); without it the first copy; and with --guess-burst, before that, its burst level if
   that is at most 1000. *)
Theorem c71_show_all E m s inp li content v o n uid h name :
  machine_ok E -> text_ok m -> value_of m A_in_file = Some inp -> file_at E s inp li content ->
  bytes_ok content = true -> lenN content < 18446744073709551616 -> content <> [] ->
  whole_file m -> with_metadata m o -> spares_input E m s li -> version_options m v o -> uid_option E m uid -> hash_option m h -> file_name_of inp name ->
  match o with Some (d, p, B) => (d + p) * B < 4294967296 | None => True end -> v_rs E = rs_encode ->
  block_count v o (lenN content) n -> n < U32_MAX ->
  rn_exit (encode_cmd E m s) = Exit 0 ->
  exists dir called container, derived_place E m s (container_ext m) (dir ++ [called]) /\ rn_fs (encode_cmd E m s) (dir ++ [called]) = Some (NFile container) /\
  forall g G, story (v_H E) content v uid o n container (mkFacts (Some name) (Some called) (Some (h, v_H E h content)) (v_mtime E li) (Some (v_now E))) g G ->
  forall E' K cal m' s' inp' l',
    clap_ok m' -> value_of m' A_in_file = Some inp' -> file_at E' s' inp' l' g -> (exists x, file_name_of inp' x) ->
    whole_check m' -> (is_present m' A_guess_burst = true -> match o with Some (_, _, B) => B <= 1000 | None => True end) ->
    match value_of m' A_uid with Some x => hex_bytes x uid | None => True end ->
    plain_name (fc_name G) -> plain_name (fc_called G) ->
    exists cs, show_cmd E' K cal (fun _ => None) m' s' = mkSeen s' (Exit 0) (Some cs) /\
      stands_for cs (success_json (level_json (is_present m' A_guess_burst) v o ++
        [(str "blocks", JArr (map (copy_json cal uid G v o (lenN content)) (copies_shown (is_present m' A_show_all) o)))])).
Proof.
  intros MO TX VI FA CB CL CN WF WM NF VO UO HO FNN OB CR BC HN X.
  destruct (encode_facts E m s inp li content v o n uid h name MO TX VI FA CB CL CN WF WM NF VO UO HO FNN OB CR BC HN X) as (dir & called & f0 & ms0 & DP & RC & HF & L1 & N1 & U6 & UB & K0 & FO & HL).
  exists dir, called, f0. split; [exact DP|]. split; [exact RC|]. intros g G ST.
  destruct (story_kept (v_H E) v uid o content n f0 (mkFacts (Some name) (Some called) (Some (h, v_H E h content)) (v_mtime E li) (Some (v_now E))) ms0 g G HF L1 N1 K0 FO) with (2 := ST) as (ms & K & FG & _).
  { intros t x Q. injection Q as <- <-. auto. }
  destruct K as [IT FL MP FZ SR NM _]. apply (show_all_told _ _ _ _ _ _ _ _ _ IT FL SR FZ FG U6 UB N1).
Qed.
Print Assumptions c71_show_all.

(* the history of C56: two copies of the metadata, three blocks apart, both renewed *)
Example c71_run :
  said (show_cmd mach a_timing (fun _ _ => None) (fun _ => None) (look_m [A_show_all; A_guess_burst]) (rn_fs his_3))
    = Some (Exit 0, success_json
        [(str "refBlockInfo", JObj [(str "type", JStr (str "metadata")); (str "ver", num 17); (str "pos", num 0)]);
         (str "bestGuessForBurstErrorResistanceLevel", num 2);
         (str "blocks", JArr [copy_json (fun _ _ => None) [1;2;3;4;5;6] fact_1 V17 (Some (2, 1, 2)) 300 0; copy_json (fun _ _ => None) [1;2;3;4;5;6] fact_1 V17 (Some (2, 1, 2)) 300 1])]) /\
  copy_at V17 (Some (2, 1, 2)) 1 = 1536.
Proof. split; vm_compute; reflexivity. Qed.
