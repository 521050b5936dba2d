(* Lemmas for C70: what show and check tell of a container with known fields; the fields after updates. *)
From Coq Require Import String Ascii Sorted.
From Verif Require Import L_Update P_Update M_Base M_Specs M_Header M_Multihash M_Metadata M_Block M_Index M_FileUtils M_Buffer M_Ranges M_Encode
  M_Scan M_Loop M_Decode M_Content M_Check M_Sort M_Repair M_Rescue M_Hex M_Json M_Codec M_Path M_Cli M_Show M_Report M_Look
  S_Meta S_Block S_Index S_Container S_Encode S_Scan S_Decode S_Repair P_Update S_Check S_Cli S_Json S_Show S_Report S_Look
  S_Look L_Base L_Block L_Scan L_Index2 L_Ranges L_Ref L_Intact L_Intact2 L_Path L_Cli L_Cli2 L_Cli3 L_Roundtrip L_Json2 L_Show L_Report L_Check P_Index P_Encode P_Decode P_Roundtrip P_Codec P_Cli P_Options P_Commands P_Json P_Check P_Show P_Report P_Look S_History S_Update M_Update L_LostCmd L_Renew L_History S_Facts.

Definition field {A} (f : A -> metadata) (x : option A) : option metadata := option_map f x.
(* the fields are these *)
Definition facts_of (ms : list metadata) (F : facts) : Prop :=
  get_meta_by_id ms IFNM = field FNM (fc_name F) /\ get_meta_by_id ms ISNM = field SNM (fc_called F) /\ get_meta_by_id ms IHSH = field HSH (fc_hash F) /\
  get_meta_by_id ms IFDT = field FDT (fc_mtime F) /\ get_meta_by_id ms ISDT = field SDT (fc_time F).
Lemma check_told v uid o rs ms content f n H h :
  intact v uid true o rs ms content f n -> lenN f < 18446744073709551616 -> shards_recorded o ms -> get_meta_by_id ms IFSZ = Some (FSZ (lenN content)) ->
  get_meta_by_id ms IHSH = Some (HSH (h, H h content)) -> In h (map snd hashes) -> 1 <= lenN content -> 1 <= n -> hash_fn_ok H ->
  forall E' K m' s' inp' l',
    v_H E' = H -> 1 <= v_cpus E' -> (0 <= k_check K)%Z -> (0 <= k_hash K)%Z -> error_text (k_text K) ->
    clap_ok m' -> value_of m' A_in_file = Some inp' -> file_at E' s' inp' l' f -> (exists x, file_name_of inp' x) ->
    whole_check m' -> burst_known m' o -> is_present m' A_verbose = false ->
    exists cs, check_cmd E' K m' s' = mkSeen s' (Exit 0) (Some cs) /\
      stands_for cs (success_json (sound_level (hash_wanted m') o ++ [(str "stats", sound_json v o n (lenN f) (h, H h content) (is_present m' A_report_blank) (hash_wanted m') (k_check K) (k_hash K))])).
Proof.
  intros IT FL RS FZ RH HL L1 N1 HF. destruct (canon_ctx _ HL) as (CN & CT & SU).
  intros E' K m' s' inp' l' VH CP TC TH ETX CK VI' (ND & FR & FS & FC) (fname & FNX) (VB & W1 & W2 & W3 & W4 & W5 & W6 & W7) BK NV.
  pose proof (file_bytes _ _ _ _ _ _ _ _ _ IT) as HB.
  set (b := match o with Some (_, _, B) => match value_of m' A_burst with None => None | Some _ => Some B end | None => match get_number m' A_burst with Go b => b | _ => None end end).
  assert (NB : number_option m' A_burst b).
  { unfold b, burst_known in *. destruct o as [[[d q] B]|].
    - destruct BK as [BK|(BK & _)]; [|rewrite BK; unfold number_option; rewrite BK; exact Logic.I]. unfold number_option in BK. destruct (value_of m' A_burst) eqn:VBU; [|contradiction]. unfold number_option. rewrite VBU. exact BK.
    - destruct BK as (y & BK). pose proof BK as BK'. apply number_iff in BK'. rewrite BK'. exact BK. }
  set (q := mkCparam (if is_present m' A_no_meta then Any else Prefer TMeta) None None None (is_present m' A_report_blank) None None (is_present m' A_force_misalign) (hash_wanted m') b (is_present m' A_verbose)).
  destruct (proj2 (c62_check_options E' s' m' q CK)) as (inf & RQ).
  { split; [|exists inp', l', f, fname; auto]. unfold check_options, q, number_option, range_option. cbn. rewrite W1, W2, W3, W4, W5, W6, W7. repeat split; auto. }
  assert (inf = inp') as ->.
  { pose proof RQ as RQ'. unfold check_request in RQ'. apply gbind_go in RQ'. destruct RQ' as ([] & _ & RQ'). apply gbind_go in RQ'. destruct RQ' as (i & HI & RQ').
    repeat (apply gbind_go in RQ'; destruct RQ' as (? & _ & RQ'); cbv zeta in RQ'). injection RQ' as <- _. unfold get_in_file in HI. rewrite VI' in HI. apply check_in_file_go in HI. destruct HI as (-> & _). reflexivity. }
  assert (TO : told_check q o n).
  { unfold told_check, q, cp_burst, b. unfold burst_known in BK. destruct o as [[[d r] B]|]; [|exact Logic.I]. destruct BK as [BK|(BK & LB)].
    - left. unfold number_option in BK. destruct (value_of m' A_burst); [reflexivity|contradiction].
    - right. rewrite BK. split; [reflexivity|]. split; [exact LB|exact N1]. }
  assert (PL : check_plain q) by (unfold check_plain, q; cbn; repeat split; auto; destruct (is_present m' A_no_meta); auto).
  destruct (c37_intact_container _ _ _ _ _ _ _ _ H (v_cpus E') q h IT FL RS TO PL FZ RH CT SU L1 CP) as (res & CF & CC & KH & _).
  destruct (c59_check H (v_cpus E') q f res (k_check K) (k_hash K) (k_text K) HB FL HF TC TH ETX CF) as (pos & ref & len & lo & cs & _ & ST & CR & SF & KN & KC).
  exists cs. split. { unfold check_cmd. rewrite RQ. unfold open_read. unfold S_Cli.named in FR. rewrite FR, FS, FC, VH, CR. reflexivity. }
  destruct PL as (P1 & P2 & P3 & P4 & P5 & CH).
  destruct (ref_meta _ _ _ _ _ _ _ _ _ IT (cp_choice q) (cp_misalign q) FL eq_refl CH) as (ref' & GR & RV & RU & RD).
  pose proof ST as [(pos' & GR') RG]. rewrite P1, P2, P4 in GR'. cbn [ref_from_pos] in GR'. rewrite GR in GR'. apply ROk_inj, Some_inj, pair_inj in GR' as [_ <-].
  assert (SJ : check_json v res (k_check K) (k_hash K) (k_text K) = sound_json v o n (lenN f) (h, H h content) (is_present m' A_report_blank) (hash_wanted m') (k_check K) (k_hash K)).
  { unfold check_json, sound_json. rewrite KH. change (cp_hash q) with (hash_wanted m') in *. change (cp_report_blank q) with (is_present m' A_report_blank) in *.
    destruct (ko_check res) as [[st ps]|] eqn:KO.
    - assert (NHO : hash_wanted m' <> HashOnly) by (intro Z; apply KN in Z; discriminate).
      destruct (CC NHO) as (st' & ps' & Q & CD & CM & CF0). injection Q as <- <-.
      pose proof (exactly_fun _ _ _ CM (copies_count o)) as CM'.
      destruct (c37_every_block_counted _ _ _ _ _ HB FL CF NHO) as (ref2 & len2 & lo2 & st2 & ps2 & ST2 & KO2 & CT2 & TOT). rewrite KO in KO2. injection KO2 as <- <-.
      destruct ST2 as [(pos2 & G2) R2]. rewrite P1, P2, P4 in G2. cbn [ref_from_pos] in G2. rewrite GR in G2. apply ROk_inj, Some_inj, pair_inj in G2 as [_ <-]. rewrite P4, P5 in R2.
      rewrite range_whole in R2 by (exact FL || (cbn [mult_of]; pose proof (block_size_pos (b_version ref')); lia)). apply pair_inj in R2 as [<- <-]. rewrite RV in TOT, CT2.
      set (bs := ver_to_block_size v) in *. pose proof (block_size_pos v) as BP. fold bs in BP.
      assert (ALL : ck_meta st + ck_data st + ck_failed st + ck_blank st = lenN f / bs).
      { apply (exactly_fun _ _ _ TOT). exists (rangeN 0 (lenN f / bs)). split; [apply NoDup_rangeN|]. split; [|rewrite lenN_range; apply N.sub_0_r].
        intro k. rewrite In_rangeN. unfold visited. rewrite N.add_0_l. apply blocks_in. lia. }
      assert (QB : cp_report_blank q = is_present m' A_report_blank) by reflexivity.
      assert (FB : ck_failed st = if is_present m' A_report_blank then lenN f / bs - copies o - n else 0).
      { destruct (is_present m' A_report_blank) eqn:RB; [|apply CF0; reflexivity]. destruct CT2 as (_ & _ & _ & C4).
        assert (ck_blank st = 0). { apply (exactly_fun _ _ _ C4). exists []. split; [constructor|]. split; [|reflexivity]. intro i. split; [intros []|intros (Z & _); rewrite QB in Z; discriminate]. }
        lia. }
      rewrite ALL, CM', CD, FB. destruct (hash_wanted m'); [reflexivity|reflexivity|congruence].
    - rewrite (proj1 KN eq_refl). reflexivity. }
  unfold check_output in SF. change (cp_verbose q) with (is_present m' A_verbose) in SF. rewrite NV, RV, SJ in SF.
  rewrite P3, P4 in SF. cbn [guess_from_param] in SF. rewrite (told_level _ _ _ _ _ _ _ _ q ref' IT FL RS TO GR RV RU RD) in SF. cbn [level_known] in SF. change (cp_hash q) with (hash_wanted m') in SF.
  unfold sound_level. destruct (ko_check res) as [[? ?]|]; exact SF.
Qed.
Lemma show_told v uid o rs ms content f n F :
  intact v uid true o rs ms content f n -> lenN f < 18446744073709551616 -> shards_recorded o ms -> get_meta_by_id ms IFSZ = Some (FSZ (lenN content)) -> facts_of ms F ->
  lenN uid = 6 -> bytes_ok uid = true ->
  forall E' K cal m' s' inp' l',
    clap_ok m' -> value_of m' A_in_file = Some inp' -> file_at E' s' inp' l' f -> (exists x, file_name_of inp' x) ->
    whole_check m' -> is_present m' A_show_all = false -> is_present m' A_guess_burst = false ->
    match value_of m' A_uid with Some x => hex_bytes x uid | None => True end ->
    plain_name (fc_name F) -> plain_name (fc_called F) ->
    exists cs, show_cmd E' K cal (fun _ => None) m' s' = mkSeen s' (Exit 0) (Some cs) /\
      stands_for cs (success_json [(str "blocks", JArr [now_json cal uid F v o (lenN content)])]).
Proof.
  intros IT FL SR FZ (F1 & F2 & F3 & F4 & F5) U6 UB.
  intros E' K cal m' s' inp' l' CK VI' (ND & FR & FS & FC) (fname & FNX) (VB & W1 & W2 & W3 & W4 & W5 & W6 & W7) SA SG UM PN1 PN2.
  pose proof (file_bytes _ _ _ _ _ _ _ _ _ IT) as HB.
  set (q := mkSparam (is_present m' A_show_all) (is_present m' A_guess_burst) None (is_present m' A_force_misalign) None None (match value_of m' A_uid with Some _ => Some uid | None => None end)).
  destruct (proj2 (c62_show_options E' s' m' q CK)) as (inf & RQ).
  { split; [|exists inp', l', f, fname; auto]. unfold show_options, q, number_option, range_option. cbn. rewrite W1, W2, W3, W7. repeat split; auto.
    destruct (value_of m' A_uid); [|exact Logic.I]. split; [exact U6|exact UM]. }
  assert (inf = inp') as ->.
  { pose proof RQ as RQ'. unfold show_request in RQ'. apply gbind_go in RQ'. destruct RQ' as (i & HI & RQ').
    repeat (apply gbind_go in RQ'; destruct RQ' as (? & _ & RQ'); cbv zeta in RQ'). injection RQ' as <- _. unfold get_in_file in HI. rewrite VI' in HI. apply check_in_file_go in HI. destruct HI as (-> & _). reflexivity. }
  assert (RNG : show_range q f 0 (N.max 1 (lenN f))).
  { exists (N.max 1 (lenN f)). split; [|reflexivity]. apply range_whole; [cbn [mult_of]; lia|exact FL]. }
  destruct (meta_blk _ _ _ _ _ _ _ _ _ IT 0 (meta_zero _ _ _ _ _ _ _ _ _ IT eq_refl)) as (_ & hd & pl & W & HV & HU & HS & HM). rewrite N.mul_0_l in W.
  assert (WA : any_block_at f 0 hd pl). { unfold any_block_at. unfold sliceN in W. apply wf_take in W; [exact W|]. rewrite HV. reflexivity. }
  set (b := mkBlock hd (DMeta (metas_from_bytes pl))).
  assert (TS : to_show q f 0 (N.max 1 (lenN f)) 0 b).
  { exists hd, pl. split; [constructor; lia|]. split; [exact WA|]. split; [exact HS|]. split; [cbn; destruct (value_of m' A_uid); [exact HU|exact Logic.I]|]. split; [reflexivity|]. rewrite HS. reflexivity. }
  destruct (c43_blocks_exist q f _ _ HB FL RNG) as (l & BS & _).
  assert (l = [(0, b)]) as ->.
  { destruct BS as (full & (SO & IN) & ->). change (sp_all q) with (is_present m' A_show_all). rewrite SA. apply IN in TS. destruct full as [|[pos b'] rest]; [destruct TS|].
    destruct TS as [Q|I]; [cbn; congruence|]. exfalso. cbn in SO. apply StronglySorted_inv in SO as [_ FF]. rewrite Forall_forall in FF. apply (in_map fst) in I. apply FF in I. cbn in I. lia. }
  assert (GM : b_data b = DMeta ms) by (cbn; rewrite HM; reflexivity).
  assert (NM : get_FNM b = fc_name F /\ get_SNM b = fc_called F) by (unfold get_FNM, get_SNM, block_get_meta; rewrite GM, F1, F2; destruct (fc_name F), (fc_called F); split; reflexivity).
  assert (PN : plain_names [(0, b)]) by (constructor; [cbn [snd]; rewrite (proj1 NM), (proj2 NM); split; assumption|constructor]).
  destruct (c43_show_blocks cal (k_text K) q f _ _ _ HB FL RNG BS PN SG) as (cs & t & SH & DC & J).
  unfold show in SH. apply rbind_ok in SH. destruct SH as ((cs' & e) & SF & SH). apply ROk_inj in SH.
  assert (e = None) as ->.
  { destruct e as [e|]; [|reflexivity]. exfalso. unfold show_file, show_guess in SF. change (sp_guess q) with (is_present m' A_guess_burst) in SF. rewrite SG in SF. cbn [negb rbind] in SF.
    destruct (show_list cal q f _ _ HB FL RNG) as (l2 & _ & _ & SL). destruct (calc_required_len_and_seek_to_from_byte_range _ _ _ _ _ _) as [req lo']. rewrite SL in SF. discriminate. }
  exists cs. split. { unfold show_cmd. rewrite RQ. unfold open_read. unfold S_Cli.named in FR. rewrite FR, FS, FC, SF. unfold command_calls. rewrite SH. reflexivity. }
  exists t. split; [exact DC|]. intro j. rewrite J. unfold success_json. cbn [app blocks_json].
  assert (BJ : block_json cal 0 (0, b) = now_json cal uid F v o (lenN content)).
  { unfold block_json, now_json. cbn [fst snd]. rewrite (proj1 NM), (proj2 NM). unfold b_version, b_uid. cbn [b_header b]. rewrite HV, HU.
    destruct (c43_hex_texts uid) as [-> _]; [exact UB|].
    unfold opt_RSD, opt_RSP, get_FSZ, get_FDT, get_SDT, get_HSH, block_get_meta. rewrite GM, F3, F4, F5, FZ.
    assert (RS : ver_uses_rs v = match o with Some _ => true | None => false end) by apply IT. rewrite RS.
    unfold shards_recorded in SR. destruct o as [[[d r] B]|]; [destruct SR as [-> ->]|]; destruct (fc_hash F), (fc_mtime F), (fc_time F); reflexivity. }
  rewrite BJ. reflexivity.
Qed.

(* ---- the fields after an update ---- *)
Lemma kept_update_changed v uid o rs data n first f nm ms H cpus q w s :
  kept_well v uid o rs data n first f nm ms -> told q o n -> (uo_hash q <> None -> 1 <= lenN data) -> 1 <= cpus -> hash_fn_ok H -> opts_ok q -> names_ok q -> uo_dry q = false ->
  update_file H cpus (update_param H q) None f = (w, ROk s) ->
  exists h ms', (forall t, uo_hash q = Some t -> h = finish_hash H t data) /\ changed (asked_fields q h) (asked_gone q) ms ms' /\ kept_well v uid o rs data n first w (new_name q nm) ms'.
Proof.
  intros [IT FL MP FZ SR NM [LS SM]] TO L1 CP HF OO NO DR E.
  destruct (update_intact _ _ _ _ _ _ _ _ _ _ _ _ _ IT FL SR TO FZ L1 CP HF OO NO DR E) as (h & ms' & HH & C & IT' & MP' & LW & SB).
  assert (K : forall i, i <> IFNM -> i <> ISNM -> i <> IHSH -> get_meta_by_id ms' i = get_meta_by_id ms i) by (intros i A1 A2 A3; rewrite !get_with_id, (changed_keeps q h ms ms' i C A1 A2 A3); reflexivity).
  exists h, ms'. split; [exact HH|]. split; [exact C|]. split; [exact IT'|lia|exact MP'|rewrite K by discriminate; exact FZ| |exact (changed_name _ _ _ _ _ C NM)|].
  - unfold shards_recorded in *. destruct o as [[[d p] B]|]; [|exact Logic.I]. rewrite !K by discriminate. exact SR.
  - split; [lia|]. intros i Hi k Ek. rewrite (SB i Hi k Ek). apply (SM i Hi k Ek).
Qed.
Lemma changed_set sets gone ms ms' x : changed sets gone ms ms' -> In x sets -> get_meta_by_id ms' (meta_to_id x) = Some x.
Proof. intros (C & _) I. rewrite get_with_id, (C x I). reflexivity. Qed.
Lemma changed_gone sets gone ms ms' i : changed sets gone ms ms' -> In i gone -> get_meta_by_id ms' i = None.
Proof. intros (_ & C & _) I. rewrite get_with_id, (C i I). reflexivity. Qed.
Lemma changed_rest sets gone ms ms' i : changed sets gone ms ms' -> ~ In i gone -> ~ In i (map meta_to_id sets) -> get_meta_by_id ms' i = get_meta_by_id ms i.
Proof. intros C N1 N2. rewrite !get_with_id, (changed_other _ _ _ _ i C N1 N2). reflexivity. Qed.
Lemma facts_update H content m ht b h ms ms' F G : hash_asked m ht -> (forall t, ht = Some t -> h = finish_hash H t content) ->
  changed (asked_fields (uopts_of m ht b) h) (asked_gone (uopts_of m ht b)) ms ms' -> facts_of ms F -> facts_after H content m F G -> facts_of ms' G.
Proof.
  intros HA HH C (F1 & F2 & F3 & F4 & F5) (G1 & G2 & G3 & G4 & G5). unfold asked_fields, asked_gone, uopts_of in C. cbn [uo_fnm uo_snm uo_hash uo_no_fnm uo_no_snm uo_no_hsh] in C.
  unfold facts_of, option_after in *. unfold hash_asked in HA.
  split; [|split; [|split; [|split]]].
  - destruct (value_of m A_fnm) as [x|]; rewrite G1; [apply (changed_set _ _ _ _ (FNM x) C); left; reflexivity|]. destruct (is_present m A_no_fnm).
    + apply (changed_gone _ _ _ _ _ C). left. reflexivity.
    + rewrite <- F1. apply (changed_rest _ _ _ _ _ C).
      * rewrite !in_app_iff. destruct (is_present m A_no_snm), (is_present m A_no_hsh); cbn [In]; intuition discriminate.
      * destruct (value_of m A_snm), ht; cbn; intuition discriminate.
  - destruct (value_of m A_snm) as [x|]; rewrite G2; [apply (changed_set _ _ _ _ (SNM x) C); rewrite !in_app_iff; right; left; left; reflexivity|]. destruct (is_present m A_no_snm).
    + apply (changed_gone _ _ _ _ _ C). rewrite !in_app_iff. right. left. left. reflexivity.
    + rewrite <- F2. apply (changed_rest _ _ _ _ _ C).
      * rewrite !in_app_iff. destruct (is_present m A_no_fnm), (is_present m A_no_hsh); cbn [In]; intuition discriminate.
      * destruct (value_of m A_fnm), ht; cbn; intuition discriminate.
  - destruct (value_of m A_hash_type) as [x|], ht as [t|]; try contradiction.
    + destruct G3 as (t' & I & ->). apply hash_iff in HA. assert (t' = t) as ->. { apply hash_iff in HA, I. congruence. }
      destruct (canon_ctx t) as (_ & CT & _); [apply in_map_iff; exists (map lower x, t); auto|]. specialize (HH t eq_refl). unfold finish_hash in HH. rewrite CT in HH. subst h.
      apply (changed_set _ _ _ _ (HSH (t, H t content)) C). rewrite !in_app_iff. right. right. left. reflexivity.
    + rewrite G3. destruct (is_present m A_no_hsh).
      * apply (changed_gone _ _ _ _ _ C). rewrite !in_app_iff. right. right. left. reflexivity.
      * rewrite <- F3. apply (changed_rest _ _ _ _ _ C).
        -- rewrite !in_app_iff. destruct (is_present m A_no_fnm), (is_present m A_no_snm); cbn [In]; intuition discriminate.
        -- destruct (value_of m A_fnm), (value_of m A_snm); cbn; intuition discriminate.
  - rewrite G4, <- F4. apply (changed_rest _ _ _ _ _ C).
    + rewrite !in_app_iff. destruct (is_present m A_no_fnm), (is_present m A_no_snm), (is_present m A_no_hsh); cbn [In]; intuition discriminate.
    + destruct (value_of m A_fnm), (value_of m A_snm), ht; cbn; intuition discriminate.
  - rewrite G5, <- F5. apply (changed_rest _ _ _ _ _ C).
    + rewrite !in_app_iff. destruct (is_present m A_no_fnm), (is_present m A_no_snm), (is_present m A_no_hsh); cbn [In]; intuition discriminate.
    + destruct (value_of m A_fnm), (value_of m A_snm), ht; cbn; intuition discriminate.
Qed.
(* the hash recorded, if there is one, is one of the content *)
Definition hash_sound (H : hash_fn) (content : list N) (F : facts) : Prop := forall t x, fc_hash F = Some (t, x) -> In t (map snd hashes) /\ x = H t content.
Lemma sound_after H content m F G : hash_sound H content F -> facts_after H content m F G -> hash_sound H content G.
Proof.
  intros S (_ & _ & G3 & _) t x Q. destruct (value_of m A_hash_type) as [y|].
  - destruct G3 as (t' & I & Q'). rewrite Q in Q'. injection Q' as -> ->. split; [|reflexivity]. apply in_map_iff. exists (map lower y, t'). auto.
  - rewrite G3 in Q. destruct (is_present m A_no_hsh); [discriminate Q|]. apply S, Q.
Qed.
Lemma story_kept H v uid o data n first F0 ms0 g G : hash_fn_ok H -> 1 <= lenN data -> 1 <= n ->
  kept_well v uid o rs_encode data n first first (fc_name F0) ms0 -> facts_of ms0 F0 -> hash_sound H data F0 -> story H data v uid o n first F0 g G ->
  exists ms, kept_well v uid o rs_encode data n first g (fc_name G) ms /\ facts_of ms G /\ hash_sound H data G.
Proof.
  intros HF L1 N1 K0 FO0 HS0 LF.
  induction LF as [|E m s inp l f F g G LF IH VH CP VI FA UO LK AG DR X GG AF|E m s inp l f F g LF IH VH VI FA WHY GG|E m s inp l f F g d par B bursts hurt LF IH EO BD RC VI FA NM VB NB DR AG GG].
  - exists ms0. auto.
  - destruct IH as (ms & K & FO & HS). destruct (update_done E m s inp l f g VI FA AG X GG) as (b & h & st & NB & HA & UF). destruct (asked_ok m h b UO HA) as [OO NO]. rewrite VH in UF.
    destruct (kept_update_changed _ _ _ _ _ _ _ _ _ _ _ _ _ _ _ K (level_told m o b n h LK NB N1) (fun _ => L1) CP HF OO NO DR UF) as (hh & ms' & HH & C & K').
    exists ms'. split; [|split; [exact (facts_update _ _ _ _ _ _ _ _ _ _ HA HH C FO AF)|exact (sound_after _ _ _ _ _ HS AF)]].
    destruct AF as (A1 & _). unfold option_after in A1. unfold new_name, uopts_of in K'. cbn [uo_fnm uo_no_fnm] in K'. destruct (value_of m A_fnm); rewrite A1; exact K'.
  - destruct IH as (ms & K & FO). rewrite <- VH in HF. pose proof (file_bytes _ _ _ _ _ _ _ _ _ (kw_intact _ _ _ _ _ _ _ _ _ _ K)) as HB.
    rewrite (update_undone E m s inp l f g HF HB VI FA WHY GG). exists ms. auto.
  - destruct IH as (ms & K & FO). subst o. destruct (kept_repair _ _ _ _ _ _ _ _ _ _ _ _ _ K BD) as (t & RF). destruct FA as (ND & FR & FS & FC). rewrite <- RC in RF.
    rewrite (repair_gives E m s inp l hurt t f (Some B) VI NM FR FS FC VB NB DR AG RF) in GG. cbn [rn_fs] in GG. rewrite L_Path.upd_same in GG. injection GG as <-. exists ms. auto.
Qed.
