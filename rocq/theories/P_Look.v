(* C62: the commands check and show. *)
From Coq Require Import String Ascii Sorted.
From Verif Require Import M_Base M_Specs M_Header M_Multihash M_Metadata M_Block M_Index M_FileUtils M_Buffer M_Ranges M_Encode
  M_Scan M_Loop M_Decode M_Content M_Check M_Sort M_Repair M_Rescue M_Hex M_Json M_Codec M_Path M_Cli M_Show M_Report M_Look
  S_Meta S_Block S_Index S_Container S_Encode S_Scan S_Decode S_Repair P_Update S_Check S_Cli S_Json S_Show S_Report S_Look
  S_Look L_Base L_Block L_Scan L_Index2 L_Ranges L_Ref L_Intact L_Intact2 L_Path L_Cli L_Cli2 L_Cli3 L_Roundtrip L_Json2 L_Show L_Report L_Check L_Guess P_Index P_Encode P_Decode P_Roundtrip P_Codec P_Cli P_Options P_Commands P_Json P_Check P_Show P_Report.

(* The options mean what the help says. *)
Theorem c62_check_options E s m p : clap_ok m -> ((exists inf, check_request E s m = Go (inf, p)) <-> check_options m p /\ input_file E m s).
Proof.
  intros _. unfold check_options. rewrite <- (verbosity_iff m tt), <- !number_iff, <- !range_iff, <- in_file_iff. unfold check_request. split.
  - intros (inf & H). apply gbind_go in H. destruct H as ([] & HP & H). apply gbind_go in H. destruct H as (i & HI & H).
    apply gbind_go in H. destruct H as (f & HF & H). apply gbind_go in H. destruct H as (t & HT & H). apply gbind_go in H. destruct H as (rf & HRF & H).
    apply gbind_go in H. destruct H as (rt & HRT & H). apply gbind_go in H. destruct H as (g & HG & H). cbv zeta in H. apply gbind_go in H. destruct H as (b & HB & H).
    injection H as -> <-. cbn. repeat split; auto. eauto.
  - intros ((HP & HB & HF & HT & HRF & HRT & HG & F1 & F2 & F3 & F4 & F5) & inf & HI). exists inf. destruct p as [ch rf rt g rb f t mi h b vb]. cbn in *.
    rewrite HP. cbn [gbind]. rewrite HI. cbn [gbind]. rewrite HF. cbn [gbind]. rewrite HT. cbn [gbind]. rewrite HRF. cbn [gbind].
    rewrite HRT. cbn [gbind]. rewrite HG. cbn [gbind]. rewrite HB. cbn [gbind]. subst. reflexivity.
Qed.
Print Assumptions c62_check_options.
Theorem c62_show_options E s m p : clap_ok m -> ((exists inf, show_request E s m = Go (inf, p)) <-> show_options m p /\ input_file E m s).
Proof.
  intros _. unfold show_options. rewrite <- (verbosity_iff m tt), <- !number_iff, <- !range_iff, <- in_file_iff. unfold show_request.
  assert (U : forall u, match value_of m A_uid with None => Go None | Some x => get! y <- parse_uid x; Go (Some y) end = Go u <->
    match value_of m A_uid, u with None, None => True | Some x, Some u => lenN u = 6 /\ hex_bytes x u | _, _ => False end).
  { intro u. destruct (value_of m A_uid) as [x|]; [|destruct u; split; (congruence || tauto)]. destruct u as [u|].
    - rewrite <- parse_uid_iff. destruct (parse_uid x); cbn [gbind]; split; congruence.
    - destruct (parse_uid x); cbn [gbind]; split; (congruence || tauto). }
  split.
  - intros (inf & H). apply gbind_go in H. destruct H as (i & HI & H). apply gbind_go in H. destruct H as ([] & HP & H).
    apply gbind_go in H. destruct H as (f & HF & H). apply gbind_go in H. destruct H as (t & HT & H). apply gbind_go in H. destruct H as (g & HG & H).
    apply gbind_go in H. destruct H as (u & HU & H). apply U in HU. injection H as -> <-. cbn. repeat split; auto. eauto.
  - intros ((HP & HF & HT & HG & F1 & F2 & F3 & HU) & inf & HI). exists inf. destruct p as [al gu g mi f t u]. cbn in *. apply U in HU.
    rewrite HI. cbn [gbind]. rewrite HP. cbn [gbind]. rewrite HF. cbn [gbind]. rewrite HT. cbn [gbind]. rewrite HG. cbn [gbind]. rewrite HU. cbn [gbind]. subst. reflexivity.
Qed.
Print Assumptions c62_show_options.

Lemma canon_ctx h : In h (map snd hashes) -> canon_hash h = h /\ ctx_hash_type h = h /\ hash_supported h = true.
Proof. cbn. intuition subst; auto. Qed.
Lemma hash_listed m h : hash_option m h -> In h (map snd hashes).
Proof. unfold hash_option. destruct (value_of m A_hash_type) as [x|]; [intro I; apply in_map_iff; exists (map lower x, h); auto|intros ->; cbn; tauto]. Qed.
Lemma recorded_hash H p data : get_meta_by_id (recorded H p data) IHSH = Some (HSH (canon_hash (e_hash p), H (canon_hash (e_hash p)) data)).
Proof. unfold recorded. destruct (e_in_name p), (e_fdt p); reflexivity. Qed.
Lemma recorded_size H p data : get_meta_by_id (recorded H p data) IFSZ = Some (FSZ (lenN data)).
Proof. unfold recorded. destruct (e_in_name p), (e_fdt p); reflexivity. Qed.
Lemma recorded_shards H p data : shards_recorded (e_dpb p) (recorded H p data).
Proof. unfold shards_recorded, recorded. destruct (e_dpb p) as [[[d q] B]|]; [|exact Logic.I]. destruct (e_in_name p), (e_fdt p); split; reflexivity. Qed.
Lemma copies_count o : exactly (meta_index (Some true) o) (copies o).
Proof.
  unfold exactly, meta_index, copies. destruct o as [[[d p] B]|].
  - exists (map (fun j => j * (1 + B)) (rangeN 0 (p + 1))). split; [apply NoDup_map_in; [apply NoDup_rangeN|]; intros a b _ _ E; nia|]. split.
    + intro i. rewrite in_map_iff. split; [intros (j & <- & I); apply In_rangeN in I; exists j; split; [lia|reflexivity]|].
      intros (j & J & ->). exists j. split; [reflexivity|]. apply In_rangeN. lia.
    + rewrite lenN_map, lenN_range. lia.
  - exists [0]. split; [constructor; [intros []|constructor]|]. split; [|reflexivity]. intro i. cbn. split; [intros [<-|[]]; split; [discriminate|reflexivity]|intros (_ & ->); auto].
Qed.

Lemma blocks_in k len bs : 1 <= bs -> (0 <= k < len / bs <-> k * bs < N.max 1 len /\ (k + 1) * bs <= len).
Proof. intro BP. pose proof (N.div_mod' len bs). pose proof (N.mod_lt len bs ltac:(lia)). split; [intros [_ Q]; nia|intros [_ Q]; nia]. Qed.

(* the level given or guessed is that of the container *)
Lemma told_level v uid o rs ms data f n p ref :
  intact v uid true o rs ms data f n -> lenN f < 18446744073709551616 -> shards_recorded o ms -> told_check p o n ->
  get_ref_block f None None (cp_misalign p) (cp_choice p) = ROk (Some (0, ref)) -> b_version ref = v -> b_uid ref = uid -> b_data ref = DMeta ms ->
  get_data_par_burst f (cp_burst p) None (cp_misalign p) ref = ROk o.
Proof.
  intros IT FL SR TO GR RV RU RD.
  unfold get_data_par_burst. rewrite RV. assert (RS : ver_uses_rs v = match o with Some _ => true | None => false end) by apply IT. rewrite RS. destruct o as [[[d q] B]|]; [|reflexivity]. destruct SR as [S1 S2].
  assert (GD : get_RSD ref = ROk d) by (unfold get_RSD; rewrite RD, S1; reflexivity). assert (GP : get_RSP ref = ROk q) by (unfold get_RSP; rewrite RD, S2; reflexivity).
  rewrite GD, GP. cbn [rbind]. unfold get_burst_or_guess. destruct TO as [->|(-> & LB & N1)]; [reflexivity|]. rewrite RV, RS. unfold is_data, block_type_of. rewrite RD.
  destruct (guess_intact _ _ _ _ _ _ _ _ _ IT d q B ref (cp_misalign p) eq_refl RV RU GD GP) as (g & G & _ & _ & EQ); [unfold L_Guess.LEVELS; lia|]. rewrite G. cbn [rbind]. rewrite (EQ N1). reflexivity.
Qed.
(* A container as encode has made it is found to be sound, wherever it has been moved to. *)
Theorem c62_check E m s inp li content v o n h :
  machine_ok E -> text_ok m -> value_of m A_in_file = Some inp -> file_at E s inp li content ->
  bytes_ok content = true -> lenN content < 18446744073709551616 -> content <> [] ->
  whole_file m -> with_metadata m o -> spares_input E m s li -> version_options m v o ->
  match o with Some (d, p, B) => (d + p) * B < 4294967296 | None => True end -> codec_ok (v_rs E) o ->
  block_count v o (lenN content) n -> n < U32_MAX -> hash_option m h ->
  rn_exit (encode_cmd E m s) = Exit 0 ->
  exists place container, derived_place E m s (container_ext m) place /\ rn_fs (encode_cmd E m s) place = Some (NFile container) /\
  forall E' K m' s' inp' l',
    v_H E' = v_H E -> 1 <= v_cpus E' -> (0 <= k_check K)%Z -> (0 <= k_hash K)%Z -> error_text (k_text K) ->
    clap_ok m' -> value_of m' A_in_file = Some inp' -> file_at E' s' inp' l' container -> (exists x, file_name_of inp' x) ->
    whole_check m' -> burst_known m' o -> is_present m' A_verbose = false ->
    exists cs, check_cmd E' K m' s' = mkSeen s' (Exit 0) (Some cs) /\
      stands_for cs (success_json (sound_level (hash_wanted m') o ++ [(str "stats", sound_json v o n (lenN container) (h, v_H E h content) (is_present m' A_report_blank) (hash_wanted m') (k_check K) (k_hash K))])).
Proof.
  intros MO TX VI FA CB CL NEM WF WM NF VO OB CO BC HN HO X.
  destruct (encode_exit0_full E m s inp li content v o n MO TX VI FA CB CL WF WM NF VO OB CO BC HN X)
    as (p & out & lc & name & (HP & _) & UI & FN & EV & EO & EI & EF & ET & ME & OK & MF & (mx & HMX & LM) & EN & EC & DP & SN & RC & SB).
  exists lc, (eo_file out). split; [exact DP|]. split; [exact RC|].
  intros E' K m' s' inp' l' VH CP TC TH ETX CK VI' (ND & FR & FS & FC) (fname & FNX) (VB & W1 & W2 & W3 & W4 & W5 & W6 & W7) BK NV.
  assert (h = e_hash p) as ->. { apply hash_opt_iff in HO, HP. congruence. } clear HO.
  destruct (canon_ctx _ (hash_listed _ _ HP)) as (CN & CT & SU).
  rewrite <- EV, <- EO in BC. destruct (encoded_intact (v_H E) (v_rs E) (v_cpus E) p content out n OK CB EC BC ltac:(lia)) as [IT FL]. rewrite ME, EV, EO in IT.
  set (f := eo_file out) in *. pose proof (file_bytes _ _ _ _ _ _ _ _ _ IT) as HB.
  set (b := match o with Some (_, _, B) => match value_of m' A_burst with None => None | Some _ => Some B end | None => match get_number m' A_burst with Go b => b | _ => None end end).
  assert (NB : number_option m' A_burst b).
  { unfold b, burst_known in *. destruct o as [[[d q] B]|].
    - destruct BK as [BK|(BK & _)]; [|rewrite BK; unfold number_option; rewrite BK; exact Logic.I]. unfold number_option in BK. destruct (value_of m' A_burst) eqn:VBU; [|contradiction]. unfold number_option. rewrite VBU. exact BK.
    - destruct BK as (y & BK). pose proof BK as BK'. apply number_iff in BK'. rewrite BK'. exact BK. }
  set (q := mkCparam (if is_present m' A_no_meta then Any else Prefer TMeta) None None None (is_present m' A_report_blank) None None (is_present m' A_force_misalign) (hash_wanted m') b (is_present m' A_verbose)).
  destruct (proj2 (c62_check_options E' s' m' q CK)) as (inf & RQ).
  { split; [|exists inp', l', f, fname; auto]. unfold check_options, q, number_option, range_option. cbn. rewrite W1, W2, W3, W4, W5, W6, W7. repeat split; auto. }
  assert (inf = inp') as ->.
  { pose proof RQ as RQ'. unfold check_request in RQ'. apply gbind_go in RQ'. destruct RQ' as ([] & _ & RQ'). apply gbind_go in RQ'. destruct RQ' as (i & HI & RQ').
    repeat (apply gbind_go in RQ'; destruct RQ' as (? & _ & RQ'); cbv zeta in RQ'). injection RQ' as <- _. unfold get_in_file in HI. rewrite VI' in HI. apply check_in_file_go in HI. destruct HI as (-> & _). reflexivity. }
  assert (TO : told_check q o n).
  { unfold told_check, q, cp_burst, b. unfold burst_known in BK. destruct o as [[[d r] B]|]; [|exact Logic.I]. destruct BK as [BK|(BK & LB)].
    - left. unfold number_option in BK. destruct (value_of m' A_burst); [reflexivity|contradiction].
    - right. rewrite BK. split; [reflexivity|]. split; [exact LB|]. rewrite EV, EO in BC. apply (block_count_pos _ _ _ _ NEM BC). destruct OK as (_ & _ & O & _). rewrite EO in O. apply O. }
  assert (PL : check_plain q) by (unfold check_plain, q; cbn; repeat split; auto; destruct (is_present m' A_no_meta); auto).
  assert (L1 : 1 <= lenN content) by (destruct content; [congruence|rewrite lenN_cons; lia]).
  pose proof (recorded_hash (v_H E) p content) as RH. rewrite CN in RH. pose proof (recorded_shards (v_H E) p content) as RS. rewrite EO in RS.
  destruct (c37_intact_container _ _ _ _ _ _ _ _ (v_H E) (v_cpus E') q (e_hash p) IT FL RS TO PL (recorded_size _ _ _) RH CT SU L1 CP) as (res & CF & CC & KH & _).
  assert (HF : hash_fn_ok (v_H E)) by apply MO.
  destruct (c59_check (v_H E) (v_cpus E') q f res (k_check K) (k_hash K) (k_text K) HB FL HF TC TH ETX CF) as (pos & ref & len & lo & cs & _ & ST & CR & SF & KN & KC).
  exists cs. split. { unfold check_cmd. rewrite RQ. unfold open_read. unfold S_Cli.named in FR. rewrite FR, FS, FC, VH, CR. reflexivity. }
  destruct PL as (P1 & P2 & P3 & P4 & P5 & CH).
  destruct (ref_meta _ _ _ _ _ _ _ _ _ IT (cp_choice q) (cp_misalign q) FL eq_refl CH) as (ref' & GR & RV & RU & RD).
  pose proof ST as [(pos' & GR') RG]. rewrite P1, P2, P4 in GR'. cbn [ref_from_pos] in GR'. rewrite GR in GR'. apply ROk_inj, Some_inj, pair_inj in GR' as [_ <-].
  assert (SJ : check_json v res (k_check K) (k_hash K) (k_text K) = sound_json v o n (lenN f) (e_hash p, v_H E (e_hash p) content) (is_present m' A_report_blank) (hash_wanted m') (k_check K) (k_hash K)).
  { unfold check_json, sound_json. rewrite KH. change (cp_hash q) with (hash_wanted m') in *. change (cp_report_blank q) with (is_present m' A_report_blank) in *.
    destruct (ko_check res) as [[st ps]|] eqn:KO.
    - assert (NHO : hash_wanted m' <> HashOnly) by (intro Z; apply KN in Z; discriminate).
      destruct (CC NHO) as (st' & ps' & Q & CD & CM & CF0). injection Q as <- <-.
      pose proof (exactly_fun _ _ _ CM (copies_count o)) as CM'.
      destruct (c37_every_block_counted _ _ _ _ _ HB FL CF NHO) as (ref2 & len2 & lo2 & st2 & ps2 & ST2 & KO2 & CT2 & TOT). rewrite KO in KO2. injection KO2 as <- <-.
      destruct ST2 as [(pos2 & G2) R2]. rewrite P1, P2, P4 in G2. cbn [ref_from_pos] in G2. rewrite GR in G2. apply ROk_inj, Some_inj, pair_inj in G2 as [_ <-]. rewrite P4, P5 in R2.
      rewrite range_whole in R2 by (exact FL || (cbn [mult_of]; pose proof (block_size_pos (b_version ref')); lia)). apply pair_inj in R2 as [<- <-]. rewrite RV in TOT, CT2.
      set (bs := ver_to_block_size v) in *. pose proof (block_size_pos v) as BP. fold bs in BP.
      assert (ALL : ck_meta st + ck_data st + ck_failed st + ck_blank st = lenN f / bs).
      { apply (exactly_fun _ _ _ TOT). exists (rangeN 0 (lenN f / bs)). split; [apply NoDup_rangeN|]. split; [|rewrite lenN_range; apply N.sub_0_r].
        intro k. rewrite In_rangeN. unfold visited. rewrite N.add_0_l. apply blocks_in. lia. }
      assert (QB : cp_report_blank q = is_present m' A_report_blank) by reflexivity.
      assert (FB : ck_failed st = if is_present m' A_report_blank then lenN f / bs - copies o - n else 0).
      { destruct (is_present m' A_report_blank) eqn:RB; [|apply CF0; reflexivity]. destruct CT2 as (_ & _ & _ & C4).
        assert (ck_blank st = 0). { apply (exactly_fun _ _ _ C4). exists []. split; [constructor|]. split; [|reflexivity]. intro i. split; [intros []|intros (Z & _); rewrite QB in Z; discriminate]. }
        lia. }
      rewrite ALL, CM', CD, FB. destruct (hash_wanted m'); [reflexivity|reflexivity|congruence].
    - rewrite (proj1 KN eq_refl). reflexivity. }
  unfold check_output in SF. change (cp_verbose q) with (is_present m' A_verbose) in SF. rewrite NV, RV, SJ in SF.
  rewrite P3, P4 in SF. cbn [guess_from_param] in SF. rewrite (told_level _ _ _ _ _ _ _ _ q ref' IT FL RS TO GR RV RU RD) in SF. cbn [level_known] in SF. change (cp_hash q) with (hash_wanted m') in SF.
  unfold sound_level. destruct (ko_check res) as [[? ?]|]; exact SF.
Qed.
Print Assumptions c62_check.

(* show prints what encode was given: the names, the identifier, the version and the shards, the size, the times and the hash. *)
Theorem c62_show E m s inp li content v o n h uid name :
  machine_ok E -> text_ok m -> value_of m A_in_file = Some inp -> file_at E s inp li content ->
  bytes_ok content = true -> lenN content < 18446744073709551616 ->
  whole_file m -> with_metadata m o -> spares_input E m s li -> version_options m v o ->
  match o with Some (d, p, B) => (d + p) * B < 4294967296 | None => True end -> codec_ok (v_rs E) o ->
  block_count v o (lenN content) n -> n < U32_MAX -> hash_option m h -> uid_option E m uid -> file_name_of inp name ->
  rn_exit (encode_cmd E m s) = Exit 0 ->
  exists dir called container, derived_place E m s (container_ext m) (dir ++ [called]) /\ rn_fs (encode_cmd E m s) (dir ++ [called]) = Some (NFile container) /\
  forall E' K cal m' s' inp' l',
    clap_ok m' -> value_of m' A_in_file = Some inp' -> file_at E' s' inp' l' container -> (exists x, file_name_of inp' x) ->
    whole_check m' -> is_present m' A_show_all = false -> is_present m' A_guess_burst = false ->
    match value_of m' A_uid with Some x => hex_bytes x uid | None => True end ->
    plain_name (Some name) -> plain_name (Some called) ->
    exists cs, show_cmd E' K cal (fun _ => None) m' s' = mkSeen s' (Exit 0) (Some cs) /\
      stands_for cs (success_json [(str "blocks", JArr [first_json cal uid name called v o (lenN content) (v_mtime E li) (v_now E) (h, v_H E h content)])]).
Proof.
  intros MO TX VI FA CB CL WF WM NF VO OB CO BC HN HO UO FNN X.
  destruct (encode_exit0_full E m s inp li content v o n MO TX VI FA CB CL WF WM NF VO OB CO BC HN X)
    as (p & out & lc & name' & (HP & EFD & ESD & (dir & ->)) & UI & FN & EV & EO & EI & EF & ET & ME & OK & MF & (mx & HMX & LM) & EN & EC & DP & SN & RC & SB).
  exists dir, (e_out_name p), (eo_file out). split; [exact DP|]. split; [exact RC|].
  assert (name' = name) as -> by (apply part_iff in FN, FNN; congruence). assert (uid = e_uid p) as -> by (apply uid_iff in UI, UO; congruence).
  assert (h = e_hash p) as -> by (apply hash_opt_iff in HO, HP; congruence). destruct (canon_ctx _ (hash_listed _ _ HP)) as (CN & CT & SU).
  intros E' K cal m' s' inp' l' CK VI' (ND & FR & FS & FC) (fname & FNX) (VB & W1 & W2 & W3 & W4 & W5 & W6 & W7) SA SG UM PN1 PN2.
  rewrite <- EV, <- EO in BC. destruct (encoded_intact (v_H E) (v_rs E) (v_cpus E) p content out n OK CB EC BC ltac:(lia)) as [IT FL]. rewrite ME, EV, EO in IT.
  set (f := eo_file out) in *. pose proof (file_bytes _ _ _ _ _ _ _ _ _ IT) as HB.
  set (q := mkSparam (is_present m' A_show_all) (is_present m' A_guess_burst) None (is_present m' A_force_misalign) None None (match value_of m' A_uid with Some _ => Some (e_uid p) | None => None end)).
  destruct (proj2 (c62_show_options E' s' m' q CK)) as (inf & RQ).
  { split; [|exists inp', l', f, fname; auto]. unfold show_options, q, number_option, range_option. cbn. rewrite W1, W2, W3, W7. repeat split; auto.
    destruct (value_of m' A_uid); [|exact Logic.I]. split; [apply OK|exact UM]. }
  assert (inf = inp') as ->.
  { pose proof RQ as RQ'. unfold show_request in RQ'. apply gbind_go in RQ'. destruct RQ' as (i & HI & RQ').
    repeat (apply gbind_go in RQ'; destruct RQ' as (? & _ & RQ'); cbv zeta in RQ'). injection RQ' as <- _. unfold get_in_file in HI. rewrite VI' in HI. apply check_in_file_go in HI. destruct HI as (-> & _). reflexivity. }
  assert (RNG : show_range q f 0 (N.max 1 (lenN f))).
  { exists (N.max 1 (lenN f)). split; [|reflexivity]. apply range_whole; [cbn [mult_of]; lia|exact FL]. }
  destruct (meta_blk _ _ _ _ _ _ _ _ _ IT 0 (meta_zero _ _ _ _ _ _ _ _ _ IT eq_refl)) as (_ & hd & pl & W & HV & HU & HS & HM). rewrite N.mul_0_l in W.
  assert (WA : any_block_at f 0 hd pl). { unfold any_block_at. unfold sliceN in W. apply wf_take in W; [exact W|]. rewrite HV. reflexivity. }
  set (b := mkBlock hd (DMeta (metas_from_bytes pl))).
  assert (TS : to_show q f 0 (N.max 1 (lenN f)) 0 b).
  { exists hd, pl. split; [constructor; lia|]. split; [exact WA|]. split; [exact HS|]. split; [cbn; destruct (value_of m' A_uid); [exact HU|exact Logic.I]|]. split; [reflexivity|]. rewrite HS. reflexivity. }
  destruct (c43_blocks_exist q f _ _ HB FL RNG) as (l & BS & _).
  assert (l = [(0, b)]) as ->.
  { destruct BS as (full & (SO & IN) & ->). change (sp_all q) with (is_present m' A_show_all). rewrite SA. apply IN in TS. destruct full as [|[pos b'] rest]; [destruct TS|].
    destruct TS as [Q|I]; [cbn; congruence|]. exfalso. cbn in SO. apply StronglySorted_inv in SO as [_ F]. rewrite Forall_forall in F. apply (in_map fst) in I. apply F in I. cbn in I. lia. }
  assert (GM : b_data b = DMeta (recorded (v_H E) p content)) by (cbn; rewrite HM; reflexivity).
  assert (NM : get_FNM b = Some name /\ get_SNM b = Some (e_out_name p)) by (unfold get_FNM, get_SNM, block_get_meta; rewrite GM; unfold recorded; rewrite EI; split; reflexivity).
  assert (PN : plain_names [(0, b)]) by (constructor; [cbn [snd]; rewrite (proj1 NM), (proj2 NM); split; assumption|constructor]).
  destruct (c43_show_blocks cal (k_text K) q f _ _ _ HB FL RNG BS PN SG) as (cs & t & SH & DC & J).
  unfold show in SH. apply rbind_ok in SH. destruct SH as ((cs' & e) & SF & SH). apply ROk_inj in SH.
  assert (e = None) as ->.
  { destruct e as [e|]; [|reflexivity]. exfalso. unfold show_file, show_guess in SF. change (sp_guess q) with (is_present m' A_guess_burst) in SF. rewrite SG in SF. cbn [negb rbind] in SF.
    destruct (show_list cal q f _ _ HB FL RNG) as (l2 & _ & _ & SL). destruct (calc_required_len_and_seek_to_from_byte_range _ _ _ _ _ _) as [req lo']. rewrite SL in SF. discriminate. }
  exists cs. split. { unfold show_cmd. rewrite RQ. unfold open_read. unfold S_Cli.named in FR. rewrite FR, FS, FC, SF. unfold command_calls. rewrite SH. reflexivity. }
  exists t. split; [exact DC|]. intro j. rewrite J. unfold success_json. cbn [app blocks_json].
  assert (BJ : block_json cal 0 (0, b) = first_json cal (e_uid p) name (e_out_name p) v o (lenN content) (v_mtime E li) (v_now E) (e_hash p, v_H E (e_hash p) content)).
  { unfold block_json, first_json. cbn [fst snd]. rewrite (proj1 NM), (proj2 NM). unfold b_version, b_uid. cbn [b_header b]. rewrite HV, HU.
    destruct (c43_hex_texts (e_uid p)) as [-> _]; [apply OK|].
    unfold opt_RSD, opt_RSP, get_FSZ, get_FDT, get_SDT, get_HSH, block_get_meta. rewrite GM, recorded_hash, recorded_size, CN.
    assert (RS : ver_uses_rs v = match o with Some _ => true | None => false end) by apply IT. rewrite RS.
    unfold recorded. rewrite EI, EFD, ESD, EO. destruct (v_mtime E li), o as [[[d r] B]|]; reflexivity. }
  rewrite BJ. reflexivity.
Qed.
Print Assumptions c62_show.

(* ---- a concrete case: the container of C49, moved ---- *)
Definition filed : fs := M_Path.upd toy_fs (w_ ++ [str "o"; str "x"]) (NFile cont).
Definition check_m (flags : list arg) : matches := cmd [(A_in_file, str "o/x"); (A_burst, str "2")] flags.
Definition a_timing : timing := mkTiming 3 1 (str "some error").
Example c62_hypotheses : clap_ok (check_m [A_hash]) /\ file_at mach filed (str "o/x") (w_ ++ [str "o"; str "x"]) cont /\ (exists x, file_name_of (str "o/x") x) /\
  whole_check (check_m [A_hash]) /\ burst_known (check_m [A_hash]) (Some (2, 1, 2)) /\ error_text (k_text a_timing) /\
  hash_option enc_m SHA256 /\ uid_option mach enc_m [1;2;3;4;5;6] /\ plain_name (Some (str "a")) /\ plain_name (Some (str "a.ecsbx")).
Proof.
  split; [split; [discriminate|]; cbn; auto|]. split; [split; [discriminate|]; split; [vm_compute; reflexivity|]; split; [apply upd_same|reflexivity]|].
  split; [exists (str "x"); split; [split; [discriminate|]; split; [cbn; intuition discriminate|split; discriminate]|]; exists []; split; [constructor|right; exists (str "o"); reflexivity]|].
  split; [repeat split; reflexivity|]. split; [left; apply number_iff; vm_compute; reflexivity|]. split; [split; [is_plain|cbn; tauto]|].
  split; [reflexivity|]. split; [reflexivity|].
  split; (split; [is_plain|apply sh_str; try discriminate; apply not_numeral; [reflexivity|discriminate]]).
Qed.
Definition said (x : seen) : option (exit * json) :=
  match sn_calls x with Some cs => match do_calls cs [] with ROk (t, []) => option_map (fun j => (sn_exit x, j)) (parse_json t) | _ => None end | None => None end.
Example c62_run :
  said (check_cmd mach a_timing (check_m [A_hash]) filed)
    = Some (Exit 0, success_json [(str "burstErrorResistanceLevel", num 2); (str "stats", sound_json V17 (Some (2, 1, 2)) 3 3584 (SHA256, toy_hash SHA256 toy_data) false HashAfterCheck 3 1)]) /\
  said (show_cmd mach a_timing (fun _ _ => None) (fun _ => None) (check_m []) filed)
    = Some (Exit 0, success_json [(str "blocks", JArr [first_json (fun _ _ => None) [1;2;3;4;5;6] (str "a") (str "a.ecsbx") V17 (Some (2, 1, 2)) 300 (Some 1500000000%Z) 1600000000%Z (SHA256, toy_hash SHA256 toy_data)])]).
Proof. split; vm_compute; reflexivity. Qed.
