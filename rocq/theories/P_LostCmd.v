(* C55: from encode to a lost file system and back, with the commands. *)
From Coq Require Import String Ascii Permutation.
From Verif Require Import M_Base M_Specs M_Header M_Multihash M_Metadata M_Block M_Index M_FileUtils M_Buffer M_Ranges M_Encode
  M_Scan M_Loop M_Decode M_Sort M_Repair M_Rescue M_Hex M_Json M_Codec M_Path M_Cli M_RescueCmd P_Cli
  S_Meta S_Block S_Index S_Container S_Encode S_Scan S_Decode S_Repair S_Sort S_Rescue S_Cli S_RescueCmd S_Lost
  L_Base L_Index2 L_Path L_Cli L_Cli2 L_Cli3 L_LostCmd L_RescueCmd L_Roundtrip L_Container L_Lost L_Lost2 L_Lost4 L_Codec P_Index P_Encode P_Decode P_Roundtrip P_Codec P_Options P_RescueCmd P_Lost.

(* A file was encoded. Later the container's blocks are on a disk in any order, among anything else. The image of the disk is in a file, which is rescued
   into a directory. Decoding the file that bears the container's UID gives the file back, under its name. *)
Theorem c55_lost_file_system E m s inp li content v o n :
  machine_ok E -> text_ok m -> value_of m A_in_file = Some inp -> file_at E s inp li content ->
  bytes_ok content = true -> lenN content < 18446744073709551616 ->
  whole_file m -> with_metadata m o -> spares_input E m s li -> version_options m v o ->
  match o with Some (d, p, B) => (d + p) * B < 4294967296 | None => True end -> codec_ok (v_rs E) o ->
  block_count v o (lenN content) n -> n < U32_MAX ->
  rn_exit (encode_cmd E m s) = Exit 0 ->
  exists place container name uid, derived_place E m s (container_ext m) place /\ rn_fs (encode_cmd E m s) place = Some (NFile container) /\
    file_name_of inp name /\ uid_option E m uid /\
  forall ps rest disk, disk_of ps rest disk -> 0 < lenN disk < 18446744073709551616 -> only_from v uid container ps -> nothing_lost v uid o (lenN content) container ps ->
  forall E2 R m2 s2 p2 ld d, orders R -> re_event R = None -> bytes_only s2 -> rescue_options m2 p2 -> rescues_all p2 uid ->
    input_place E2 m2 s2 ld -> s2 ld = Some (NFile disk) -> rescue_dir E2 m2 s2 d -> s2 (d ++ [name_of uid]) = None -> no_log E2 m2 s2 -> log_elsewhere E2 m2 s2 d ->
    rn_exit (rescue_cmd E2 R m2 s2) = Exit 0 ->
  exists heap, rn_fs (rescue_cmd E2 R m2 s2) (d ++ [name_of uid]) = Some (NFile heap) /\
  forall E3 m3 s3 inp3 l3 l, v_H E3 = v_H E -> 1 <= v_cpus E3 -> clap_ok m3 -> value_of m3 A_in_file = Some inp3 -> file_at E3 s3 inp3 l3 heap -> (exists x, file_name_of inp3 x) ->
    whole_container m3 -> is_present m3 A_no_meta = false -> (o = None \/ value_of m3 A_burst <> None) ->
    decode_target E3 m3 s3 name l -> l <> l3 -> writable E3 m3 s3 l ->
    let r := decode_cmd E3 m3 s3 in
    rn_exit r = Exit 0 /\ rn_fs r l = Some (NFile content) /\ same_but l s3 (rn_fs r).
Proof.
  intros MO TX VI FA CB CL WF WM NF VO OB CO BC HN X.
  destruct (encode_exit0 E m s inp li content v o n MO TX VI FA CB CL WF WM NF VO OB CO BC HN X)
    as (p & out & lc & name & UI & FN & EV & EO & EI & EF & ET & ME & OK & MF & (mx & HMX & LM) & EN & EC & DP & SN & RC & SB).
  exists lc, (eo_file out), name, (e_uid p). split; [exact DP|]. split; [exact RC|]. split; [exact FN|]. split; [exact UI|].
  rewrite <- EV, <- EO in HMX, BC. rewrite <- EV, <- EO. destruct (encoded_intact (v_H E) (v_rs E) (v_cpus E) p content out n OK CB EC BC ltac:(lia)) as [IT _]. rewrite ME in IT.
  intros ps rest disk DK DL OF NL E2 R m2 s2 p2 ld d OR EV2 FB RO RA IP FS RD W0 NG LE X2. pose proof NL as [MB ALL].
  assert (UB : bytes_ok (e_uid p) = true) by apply OK. assert (UL : lenN (e_uid p) = 6) by apply OK.
  destruct (c54_exit0 E2 R m2 s2 OR FB X2) as (p' & li' & f' & d' & text & w & st & RO' & (inp' & VI' & RI') & FS' & (out' & VO' & RD' & _) & TXT & RF & VW & _).
  destruct IP as (inp2 & VI2 & RI2), RD as (out2 & VO2 & RD2 & DD2).
  rewrite (options_unique m2 p' p2 RO' RO) in *. rewrite VI2 in VI'. injection VI' as <-. rewrite VO2 in VO'. injection VO' as <-. unfold named in *.
  rewrite RI2 in RI'. injection RI' as <-. rewrite RD2 in RD'. injection RD' as <-. rewrite FS in FS'. injection FS' as <-.
  assert (text = None).
  { destruct text as [c|]; [|reflexivity]. exfalso. destruct TXT as (k & (lg & VL & RL) & SL). destruct NG as [NG|(k' & (lg' & VL' & RL') & SL')]; [congruence|].
    unfold named in *. rewrite VL in VL'. injection VL' as <-. congruence. }
  subst text. rewrite EV2 in RF.
  assert (W00 : dir_of s2 d (name_of (e_uid p)) = None) by (unfold dir_of; rewrite W0; reflexivity).
  destruct (rescued_heap (e_ver p) (e_uid p) (eo_file out) ps rest disk p2 (re_order R) 1000 (S (length disk)) (dir_of s2 d) DK (FB _ _ FS) DL OR ltac:(lia) ltac:(unfold lenN; lia) RA UB W00 OF MB)
    as (w' & st' & hp & RF' & WG & HP & GB & GL & ON).
  pose proof (eq_trans (eq_sym RF) RF') as Q. injection Q as <- <-. exists (concat (map bytes_of hp)). split.
  { pose proof (VW LE (name_of (e_uid p)) (hex_named _ UB UL)) as V. rewrite WG in V. unfold dir_of in V. destruct (rn_fs (rescue_cmd E2 R m2 s2) (d ++ [name_of (e_uid p)])) as [[c|]|]; congruence. }
  intros E3 m3 s3 inp3 l3 l VH CP CK VI3 (ND & FR & FS3 & FC) NM WC NMETA BU TG NE WR. cbv zeta.
  assert (FZ : get_meta_by_id (recorded (v_H E) p content) IFSZ = Some (FSZ (lenN content))) by (unfold recorded; destruct (e_in_name p), (e_fdt p); reflexivity).
  assert (MD : match e_dpb p with Some (dd, par, _) => get_meta_by_id (recorded (v_H E) p content) IRSD = Some (RSD dd) /\ get_meta_by_id (recorded (v_H E) p content) IRSP = Some (RSP par) | None => True end).
  { destruct (e_dpb p) as [[[dd par] B]|] eqn:EO'; [|exact Logic.I]. unfold recorded. rewrite EO'. destruct (e_in_name p), (e_fdt p); split; reflexivity. }
  assert (MH : exists h pl, In (Blk h pl) hp /\ h_seq_num h = 0). { destruct MB as (pl & O). destruct (ON _ _ O) as (h & I & Q). exists h, pl. auto. }
  rewrite (decode_gives E3 m3 s3 inp3 l3 l (concat (map bytes_of hp)) name content CK VI3 NM FR FS3 FC WC).
  - cbn. split; [reflexivity|]. split; [apply upd_same|]. intros x D. rewrite !upd_other by exact D. reflexivity.
  - apply FN.
  - eapply no_zero; [apply FA|exact FN].
  - exact TG.
  - exact NE.
  - exact WR.
  - intros q PQ FL NB. assert (CH : dc_choice q = Prefer TMeta \/ dc_choice q = MustBe TMeta) by (destruct FL as (-> & _); rewrite NMETA; auto).
    assert (BQ : e_dpb p = None \/ dc_burst q <> None). { destruct BU as [|BU]; [left; assumption|]. right. intro Z. unfold number_option in NB. rewrite Z in NB. destruct (value_of m3 A_burst); [contradiction|congruence]. }
    assert (MD' : forall q, e_dpb p = None \/ dc_burst q <> None -> match e_dpb p with Some (dd, par, _) => get_meta_by_id (recorded (v_H E) p content) IRSD = Some (RSD dd) /\ get_meta_by_id (recorded (v_H E) p content) IRSP = Some (RSP par) /\ dc_burst q <> None | None => True end).
    { intros q0 BB. destruct (e_dpb p) as [[[dd par] B]|]; [|exact Logic.I]. destruct MD. split; [assumption|]. split; [assumption|]. destruct BB as [|]; [discriminate|assumption]. }
    destruct (heap_setup _ _ _ _ _ _ _ _ _ IT HP GB GL q PQ (MD' q BQ) CH MH) as (ref & o' & ((pos & GR) & GD & _) & RV & RU & RDA & OO).
    exists pos, ref, o'. split; [exact GR|]. split; [exact GD|]. split; [unfold get_FNM, block_get_meta; rewrite RDA; unfold recorded; rewrite EI; reflexivity|].
    intros old FW. assert (BQ' : e_dpb p = None \/ dc_burst (with_burst q o') <> None).
    { destruct (e_dpb p) as [[[dd par] B]|]; [|left; reflexivity]. right. destruct o' as [[[? ?] ?]|]; [cbn; discriminate|contradiction]. }
    destruct (heap_decodes _ _ _ _ _ _ _ _ _ IT HP GB GL (v_H E3) (v_order E3) (v_cpus E3) (v_limit E3) (with_burst q o') old CP PQ (MD' _ BQ') CH FW MH) as (dout & DE).
    exists dout. split; [exact DE|].
    apply (heap_right _ _ _ _ _ _ _ _ _ IT HP GB GL (v_H E3) (v_order E3) (v_cpus E3) (v_limit E3) (with_burst q o') old dout CP PQ MD FZ CH MH); [|exact DE].
    intros i seq pl BA HC. apply ON. exact (ALL i seq pl BA HC).
Qed.
Print Assumptions c55_lost_file_system.

(* If blocks are lost as well, but of every set of d + par blocks at least d are left, then rescue, sort with the burst level and repair give the
   container back, byte for byte, and decode gives the file back. *)
Theorem c55_lost_blocks E m s inp li content v d par B n :
  machine_ok E -> text_ok m -> value_of m A_in_file = Some inp -> file_at E s inp li content ->
  bytes_ok content = true -> lenN content < 18446744073709551616 ->
  whole_file m -> spares_input E m s li -> version_options m v (Some (d, par, B)) ->
  (d + par) * B < 4294967296 -> v_rs E = rs_encode ->
  block_count v (Some (d, par, B)) (lenN content) n -> n < U32_MAX ->
  rn_exit (encode_cmd E m s) = Exit 0 ->
  exists place container name uid, derived_place E m s (container_ext m) place /\ rn_fs (encode_cmd E m s) place = Some (NFile container) /\
    file_name_of inp name /\ uid_option E m uid /\
  forall ps rest disk, disk_of ps rest disk -> 0 < lenN disk < 18446744073709551616 -> only_from v uid container ps -> enough_left v uid d par n ps ->
  forall E2 R m2 s2 p2 ld dd, orders R -> re_event R = None -> bytes_only s2 -> rescue_options m2 p2 -> rescues_all p2 uid ->
    input_place E2 m2 s2 ld -> s2 ld = Some (NFile disk) -> rescue_dir E2 m2 s2 dd -> s2 (dd ++ [name_of uid]) = None -> no_log E2 m2 s2 -> log_elsewhere E2 m2 s2 dd ->
    rn_exit (rescue_cmd E2 R m2 s2) = Exit 0 ->
  exists heap, rn_fs (rescue_cmd E2 R m2 s2) (dd ++ [name_of uid]) = Some (NFile heap) /\
  forall E3 m3 s3 inp3 l3 l, 1 <= v_cpus E3 -> clap_ok m3 -> value_of m3 A_in_file = Some inp3 -> file_at E3 s3 inp3 l3 heap -> (exists x, file_name_of inp3 x) ->
    whole_container m3 -> is_present m3 A_no_meta = false -> number_option m3 A_burst (Some B) -> is_present m3 A_dry_run = false ->
    derived_place E3 m3 s3 (str ".sorted") l -> l <> l3 -> writable E3 m3 s3 l ->
    let r3 := sort_cmd E3 m3 s3 in
    rn_exit r3 = Exit 0 /\ same_but l s3 (rn_fs r3) /\
  exists sorted, rn_fs r3 l = Some (NFile sorted) /\
  forall E4 m4 s4 inp4 l4, v_rc E4 = rs_reconstruct -> value_of m4 A_in_file = Some inp4 -> file_at E4 s4 inp4 l4 sorted -> (exists x, file_name_of inp4 x) ->
    verbosity_option m4 -> number_option m4 A_burst (Some B) -> is_present m4 A_dry_run = false ->
    (is_present m4 A_skip_warning = true \/ is_present m4 A_json = true \/ exists rest, concat (v_stdin E4) = 121 :: rest) ->
    let r4 := repair_cmd E4 m4 s4 in
    rn_exit r4 = Exit 0 /\ rn_fs r4 l4 = Some (NFile container) /\ same_but l4 s4 (rn_fs r4) /\
  forall E5 m5 s5 inp5 l5 l', v_H E5 = v_H E -> 1 <= v_cpus E5 -> clap_ok m5 -> value_of m5 A_in_file = Some inp5 -> file_at E5 s5 inp5 l5 container -> (exists x, file_name_of inp5 x) ->
    whole_container m5 -> (value_of m5 A_burst = None -> B <= 1000 \/ content <> []) ->
    decode_target E5 m5 s5 name l' -> l' <> l5 -> writable E5 m5 s5 l' ->
    let r5 := decode_cmd E5 m5 s5 in
    rn_exit r5 = Exit 0 /\ rn_fs r5 l' = Some (NFile content) /\ same_but l' s5 (rn_fs r5).
Proof.
  intros MO TX VI FA CB CL WF NF VO OB CR BC HN X.
  assert (PB : 1 <= d /\ 1 <= par /\ d + par <= 256).
  { unfold version_options in VO. destruct (value_of m A_sbx_version); [destruct VO as (_ & _ & _ & _ & P1 & P2 & P3 & _); lia|].
    destruct VO as (_ & _ & _ & _ & Z). injection Z as -> -> ->. lia. }
  assert (CO : codec_ok (v_rs E) (Some (d, par, B))) by (rewrite CR; apply c44_codec; lia).
  assert (WM : with_metadata m (Some (d, par, B))) by (right; discriminate).
  destruct (encode_exit0 E m s inp li content v (Some (d, par, B)) n MO TX VI FA CB CL WF WM NF VO OB CO BC HN X)
    as (p & out & lc & name & UI & FN & EV & EO & EI & EF & ET & ME & OK & MF & (mx & HMX & LM) & EN & EC & DP & SN & RC & SB).
  exists lc, (eo_file out), name, (e_uid p). split; [exact DP|]. split; [exact RC|]. split; [exact FN|]. split; [exact UI|].
  rewrite <- EV, <- EO in HMX, BC. rewrite <- EV. destruct (encoded_intact (v_H E) (v_rs E) (v_cpus E) p content out n OK CB EC BC ltac:(lia)) as [IT FLN]. rewrite ME in IT.
  intros ps rest disk DK DL OF EL E2 R m2 s2 p2 ld dd OR EV2 FB RO RA IP FS RD W0 NG LE X2. pose proof EL as [MB ALL].
  assert (UB : bytes_ok (e_uid p) = true) by apply OK. assert (UL : lenN (e_uid p) = 6) by apply OK.
  destruct (c54_exit0 E2 R m2 s2 OR FB X2) as (p' & li' & f' & d' & text & w & st & RO' & (inp' & VI' & RI') & FS' & (out' & VO' & RD' & _) & TXT & RF & VW & _).
  destruct IP as (inp2 & VI2 & RI2), RD as (out2 & VO2 & RD2 & DD2).
  rewrite (options_unique m2 p' p2 RO' RO) in *. rewrite VI2 in VI'. injection VI' as <-. rewrite VO2 in VO'. injection VO' as <-. unfold named in *.
  rewrite RI2 in RI'. injection RI' as <-. rewrite RD2 in RD'. injection RD' as <-. rewrite FS in FS'. injection FS' as <-.
  assert (text = None).
  { destruct text as [c|]; [|reflexivity]. exfalso. destruct TXT as (k & (lg & VL & RL) & SL). destruct NG as [NG|(k' & (lg' & VL' & RL') & SL')]; [congruence|].
    unfold named in *. rewrite VL in VL'. injection VL' as <-. congruence. }
  subst text. rewrite EV2 in RF.
  assert (W00 : dir_of s2 dd (name_of (e_uid p)) = None) by (unfold dir_of; rewrite W0; reflexivity).
  destruct (rescued_heap (e_ver p) (e_uid p) (eo_file out) ps rest disk p2 (re_order R) 1000 (S (length disk)) (dir_of s2 dd) DK (FB _ _ FS) DL OR ltac:(lia) ltac:(unfold lenN; lia) RA UB W00 OF MB)
    as (w' & st' & hp & RF' & WG & HP & GB & GL & ON).
  pose proof (eq_trans (eq_sym RF) RF') as Q. injection Q as <- <-. exists (concat (map bytes_of hp)). split.
  { pose proof (VW LE (name_of (e_uid p)) (hex_named _ UB UL)) as V. rewrite WG in V. unfold dir_of in V. destruct (rn_fs (rescue_cmd E2 R m2 s2) (dd ++ [name_of (e_uid p)])) as [[c|]|]; congruence. }
  intros E3 m3 s3 inp3 l3 l CP CK VI3 (ND & FR & FS3 & FC) NM WC NMETA BU DR TG NE WR. cbv zeta.
  assert (MP : forall i, meta_index (Some true) (Some (d, par, B)) i -> meta_plain (e_ver p) (e_uid p) (recorded (v_H E) p content) (sliceN (i * ver_to_block_size (e_ver p)) (ver_to_block_size (e_ver p)) (eo_file out))).
  { destruct EC as (_ & (meta & C & M) & _). specialize (M ME). rewrite ME, EO in C. destruct C as (n' & _ & _ & C & _). intros i MI. rewrite (C i MI). apply M. }
  assert (FZ : get_meta_by_id (recorded (v_H E) p content) IFSZ = Some (FSZ (lenN content))) by (unfold recorded; destruct (e_in_name p), (e_fdt p); reflexivity).
  assert (RDD : get_meta_by_id (recorded (v_H E) p content) IRSD = Some (RSD d)) by (unfold recorded; rewrite EO; destruct (e_in_name p), (e_fdt p); reflexivity).
  assert (RPP : get_meta_by_id (recorded (v_H E) p content) IRSP = Some (RSP par)) by (unfold recorded; rewrite EO; destruct (e_in_name p), (e_fdt p); reflexivity).
  assert (MH : exists h pl, In (Blk h pl) hp /\ h_seq_num h = 0). { destruct MB as (pl & O). destruct (ON _ _ O) as (h & I & Q). exists h, pl. auto. }
  pose proof IT as IT'. rewrite EO, CR in IT. rewrite EO in BC.
  assert (RB : forall q rb, plain q -> flags_of m3 q -> number_option m3 A_burst (dc_burst q) -> forall old,
     exists t u srt, sort_file (v_cpus E3) (mkSparam q rb) (concat (map bytes_of hp)) (Some old) = ROk (t, u, Some srt) /\ exists t', repair_file rs_reconstruct false (Some B) srt = ROk (Some (t', eo_file out))).
  { intros q rb PQ FL NB old. assert (CH : dc_choice q = Prefer TMeta \/ dc_choice q = MustBe TMeta) by (destruct FL as (-> & _); rewrite NMETA; auto).
    assert (BQ : dc_burst q = Some B) by (apply number_iff in NB, BU; congruence).
    destruct (heap_rebuild (e_ver p) (e_uid p) d par B rs_encode rs_reconstruct (recorded (v_H E) p content) content (eo_file out) n hp (v_cpus E3) q rb old IT) as (t & u & srt & t' & ES & _ & ER); try assumption.
    - apply rs_reconstruct_ok; lia.
    - intros seq SQ. destruct (ALL seq SQ) as (l0 & ND0 & LL & HI). exists l0. split; [exact ND0|]. split; [exact LL|]. intros x I. destruct (HI x I) as (A1 & A2 & pl & O).
      split; [exact A1|]. split; [exact A2|]. destruct (ON _ _ O) as (h & J & Q). exists h, pl. auto.
    - exists t, u, srt. split; [exact ES|]. exists t'. exact ER. }
  destruct (sort_gives E3 m3 s3 inp3 l3 l _ _ CK VI3 NM FR FS3 FC WC TG NE WR DR RB) as (srt & SE & t' & RP).
  rewrite SE. cbn [rn_exit rn_fs]. split; [reflexivity|]. split; [intros x D; rewrite !upd_other by exact D; reflexivity|].
  exists srt. split; [apply upd_same|]. intros E4 m4 s4 inp4 l4 RC4 VI4 (ND4 & FR4 & FS4 & FC4) NM4 VB4 NB4 DR4 AN4.
  rewrite <- RC4 in RP. rewrite (repair_gives E4 m4 s4 inp4 l4 srt t' (eo_file out) (Some B) VI4 NM4 FR4 FS4 FC4 VB4 NB4 DR4 AN4 RP). cbn [rn_exit rn_fs].
  split; [reflexivity|]. split; [apply upd_same|]. split; [intros x D; rewrite upd_other by exact D; reflexivity|].
  intros E5 m5 s5 inp5 l5 l' VH CP5 CK5 VI5 (ND5 & FR5 & FS5 & FC5) NM5 WC5 BU5 TG5 NE5 WR5. rewrite <- EO in BC.
  apply (decode_restores (v_H E) (v_rs E) (v_cpus E) p content mx n out name OK MF (conj CB CL) EF ET ME HMX LM BC HN EN EI E5 m5 s5 inp5 l5 l' VH CP5 CK5 VI5 NM5 FR5 FS5 FC5 WC5); try assumption.
  - rewrite EO. exact BU5.
  - apply FN.
  - eapply no_zero; [apply FA|exact FN].
Qed.
Print Assumptions c55_lost_blocks.

(* ---- the hypotheses are met ---- *)
Definition lost_env : env := mkEnv toy_hash rs_encode rs_reconstruct 4 (fun l => l) 20%nat w_ (forallb (fun n => lenN n <=? 255)) lost_uid 7%Z (fun _ => Some 5%Z) [] [] (Exit 1).
Definition lost_fs : fs := upd (upd (upd (upd (fun _ => None) [] NDir) w_ NDir) (w_ ++ [str "a"]) (NFile lost_content)) (w_ ++ [str "o"]) NDir.
Definition lost_m : matches :=
  cmd [(A_sbx_version, str "18"); (A_rs_data, str "2"); (A_rs_parity, str "1"); (A_burst, str "1"); (A_in_file, str "a"); (A_out, str "b.sbx")] [].
Definition lost_e : ran := encode_cmd lost_env lost_m lost_fs.
Example c55_encoded : is_exit0 lost_e && eqbl (P_Cli.content (rn_fs lost_e) (w_ ++ [str "b.sbx"])) lost_f0 = true.
Proof. vm_compute. reflexivity. Qed.
Example c55_encoder : machine_ok lost_env /\ text_ok lost_m /\ file_at lost_env lost_fs (str "a") (w_ ++ [str "a"]) lost_content /\ bytes_ok lost_content = true /\
  whole_file lost_m /\ with_metadata lost_m (Some (2, 1, 1)) /\ version_options lost_m V18 (Some (2, 1, 1)) /\ codec_ok (v_rs lost_env) (Some (2, 1, 1)) /\
  block_count V18 (Some (2, 1, 1)) (lenN lost_content) 3 /\ uid_option lost_env lost_m lost_uid.
Proof.
  split.
  { split; [reflexivity|]. split; [reflexivity|]. split; [intros t data; split; [destruct t; reflexivity|apply bytes_ok_rep; apply N.mod_lt; lia]|]. split; [cbn; lia|].
    split; [split; vm_compute; congruence|]. split; [intros l t Q; cbn in Q; injection Q as <-; split; vm_compute; congruence|].
    intros l n C I. cbn in C. rewrite forallb_forall in C. apply N.leb_le. apply C. exact I. }
  split; [intros a x; destruct a; cbn; try discriminate; intro Q; injection Q as <-; split; reflexivity|].
  split; [split; [discriminate|]; split; [vm_compute; reflexivity|]; split; [vm_compute; reflexivity|reflexivity]|].
  split; [vm_compute; reflexivity|]. split; [repeat split; reflexivity|]. split; [left; reflexivity|].
  split; [apply version_options_iff; vm_compute; reflexivity|].
  split; [apply c44_codec; lia|]. split; [apply block_count_iff; [cbn; lia|vm_compute; reflexivity]|]. reflexivity.
Qed.
(* the image of the disk (c52_hypotheses, c53_hypotheses) in a file d, rescued into the directory o *)
Definition disk_fs (ps : list piece) : fs := upd (upd (upd (upd (fun _ => None) [] NDir) w_ NDir) (w_ ++ [str "d"]) (NFile (lost_bytes ps))) (w_ ++ [str "o"]) NDir.
Definition lost_r (ps : list piece) : ran := rescue_cmd lost_env (resc_R false true) resc_m (disk_fs ps).
Definition lost_l : loc := resc_o ++ [str "010203040506"].
Example c55_rescue : orders (resc_R false true) /\ bytes_only (disk_fs lost_disk) /\ bytes_only (disk_fs lost_disk2) /\ rescue_options resc_m lost_rp /\ rescues_all lost_rp lost_uid /\
  input_place lost_env resc_m (disk_fs lost_disk) (w_ ++ [str "d"]) /\ rescue_dir lost_env resc_m (disk_fs lost_disk) resc_o /\
  resc_o ++ [name_of lost_uid] = lost_l /\ disk_fs lost_disk lost_l = None /\ no_log lost_env resc_m (disk_fs lost_disk) /\ log_elsewhere lost_env resc_m (disk_fs lost_disk) resc_o.
Proof.
  assert (FB : forall ps, bytes_ok (lost_bytes ps) = true -> bytes_only (disk_fs ps)).
  { intros ps OK l c. unfold disk_fs, upd. repeat (destruct (loc_eqb l _); [intro Q; try discriminate Q; injection Q as <-; exact OK|]). discriminate. }
  split; [intros k x; apply Permutation_sym, Permutation_rev|]. split; [apply FB; vm_compute; reflexivity|]. split; [apply FB; vm_compute; reflexivity|].
  split; [repeat split|]. split; [split; [reflexivity|]; split; [reflexivity|]; split; [reflexivity|left; reflexivity]|].
  split; [exists (str "d"); split; reflexivity|]. split; [exists (str "o"); split; [reflexivity|split; reflexivity]|].
  split; [reflexivity|]. split; [reflexivity|]. split; [left; reflexivity|]. intros n _ (log & VL & _). discriminate VL.
Qed.
Definition lost_d : ran := decode_cmd lost_env (cmd [(A_in_file, str "o/010203040506"); (A_burst, str "1")] []) (rn_fs (lost_r lost_disk)).
Example c55_run : is_exit0 (lost_r lost_disk) && (lenN (P_Cli.content (rn_fs (lost_r lost_disk)) lost_l) =? 512)
  && is_exit0 lost_d && eqbl (P_Cli.content (rn_fs lost_d) (w_ ++ [str "a"])) lost_content = true.
Proof. vm_compute. reflexivity. Qed.
Definition lost_s : ran := sort_cmd lost_env (cmd [(A_in_file, str "o/010203040506"); (A_burst, str "1")] []) (rn_fs (lost_r lost_disk2)).
Definition lost_h : ran := repair_cmd lost_env (cmd [(A_in_file, str "o/010203040506.sorted"); (A_burst, str "1")] [A_skip_warning]) (rn_fs lost_s).
Definition lost_g : ran := decode_cmd lost_env (cmd [(A_in_file, str "o/010203040506.sorted")] []) (rn_fs lost_h).
Example c55_run_blocks : is_exit0 (lost_r lost_disk2) && is_exit0 lost_s && negb (eqbl (P_Cli.content (rn_fs lost_s) (resc_o ++ [str "010203040506.sorted"])) lost_f0)
  && is_exit0 lost_h && eqbl (P_Cli.content (rn_fs lost_h) (resc_o ++ [str "010203040506.sorted"])) lost_f0
  && is_exit0 lost_g && eqbl (P_Cli.content (rn_fs lost_g) (w_ ++ [str "a"])) lost_content = true.
Proof. vm_compute. reflexivity. Qed.
(* what decode and sort ask for *)
Example c55_decode_sort : let m := cmd [(A_in_file, str "o/010203040506"); (A_burst, str "1")] [] in let s := rn_fs (lost_r lost_disk) in
  clap_ok m /\ named lost_env s (str "o/010203040506") lost_l /\ file_name_of (str "o/010203040506") (str "010203040506") /\ whole_container m /\
  decode_target lost_env m s (str "a") (w_ ++ [str "a"]) /\ derived_place lost_env m s (str ".sorted") (resc_o ++ [str "010203040506.sorted"]).
Proof.
  cbv zeta. split; [split; [discriminate|]; cbn; auto|]. split; [vm_compute; reflexivity|].
  assert (FN : file_name_of (str "o/010203040506") (str "010203040506")) by (apply c47_file_name; vm_compute; reflexivity).
  split; [exact FN|].
  split; [split; [exact Logic.I|]; split; [exists (Some 1); apply number_iff; vm_compute; reflexivity|repeat split; reflexivity]|].
  split; [split; [vm_compute; reflexivity|reflexivity]|]. exists (str "o/010203040506"). split; [reflexivity|]. cbn [value_of].
  exists resc_o, (str "010203040506"). split; [vm_compute; reflexivity|]. split; [apply FN|reflexivity].
Qed.
