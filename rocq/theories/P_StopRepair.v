(* C73 for repair. *)
From Coq Require Import String Ascii.
From Verif Require Import L_Update P_Update M_Base M_Specs M_Crc M_Header M_Multihash M_Metadata M_Block M_Index M_FileUtils M_Buffer M_Ranges M_Encode M_Scan M_Loop M_Decode M_Repair M_Codec M_Json M_Path M_Cli M_RepairCut M_Stop M_StopRepair
  S_Crc S_Meta S_Block S_Index S_Container S_Scan S_Decode S_Encode S_Repair S_Cli S_History S_Cut S_StopRepair
  L_Base L_File L_Crc L_Index L_Index2 L_Block L_Scan L_Ranges L_Decode2 L_Ref L_Intact L_Intact2 L_Repair L_Repair2 L_Repair5 L_Path L_Cli L_Cli2 P_Options L_LostCmd L_History L_Halfway2 L_Repair9 L_RepairCut L_StopRepair L_StopRepair2 P_Cli P_Commands P_History P_RepairCut.
Ltac Zify.zify_post_hook ::= idtac.

(* The flag never set: the repair of M_Repair. *)
Theorem c73_repair_not_stopped rc dry burst f : repair_file_stop None rc dry burst f = repair_file rc dry burst f.
Proof.
  unfold repair_file_stop, repair_file. destruct (get_ref_block _ _ _ _ _) as [[[pos ref]|]| |]; cbn [rbind]; try reflexivity. destruct (negb _); [reflexivity|].
  destruct (get_data_par_burst _ _ _ _ _) as [[[[d p] B]|]| |]; cbn [rbind]; try reflexivity. destruct (unwrap _) as [[ref1 buf]| |]; cbn [rbind]; try reflexivity.
  destruct (rfold _ _ _) as [[[[w r] b] t]| |]; cbn [rbind]; try reflexivity. rewrite loop_never_stopped. reflexivity.
Qed.
Theorem c73_repair_cmd_not_stopped E m s : repair_cmd_stop E None m s = repair_cmd E m s.
Proof.
  unfold repair_cmd_stop, repair_cmd. destruct (gbind _ _) as [[inf burst]|e]; [|reflexivity]. cbn [run]. destruct (asked_and_refused E m); [reflexivity|].
  destruct (open_read _ _ _ _) as [[li f]|]; [|reflexivity]. rewrite c73_repair_not_stopped. reflexivity.
Qed.

(* The flag seen set at the look before block k (counting the copies of the metadata first), on whatever file: the run ends well; it has counted
   exactly the k blocks before, or all there are; no counter is more than that of the whole run; and each block of the file is untouched or as the
   whole run leaves it, none is torn. A flag set after the last block changes nothing. *)
Theorem c73_repair_stopped k rc burst f t w : bytes_ok f = true -> lenN f < 18446744073709551616 ->
  repair_file rc false burst f = ROk (Some (t, w)) ->
  exists t' h pos ref, repair_file_stop (Some k) rc false burst f = ROk (Some (t', h)) /\ get_ref_block f None None false (MustBe TMeta) = ROk (Some (pos, ref)) /\
    ps_so_far t' = N.min k (ps_so_far t) /\ counts_le t' t /\
    lenN f <= lenN h <= lenN w /\ (forall i, same_block (b_version ref) f h i \/ same_block (b_version ref) w h i) /\
    (k = 0 -> h = f) /\ (ps_so_far t <= k -> t' = t /\ h = w).
Proof.
  intros HB HL RF. rewrite <- file_same in RF. destruct (repair_file_noted rc false burst f) as [[[t0 [w0 js]]|]| |] eqn:N; cbn [rmap option_map fst snd] in RF; try discriminate.
  apply ROk_inj in RF. injection RF as -> ->. pose proof N as N0. unfold repair_file_noted in N0. unfold repair_file_stop.
  destruct (get_ref_block f None None false (MustBe TMeta)) as [[[pos ref]|]| |] eqn:G; cbn [rbind] in N0; try discriminate. cbn [rbind].
  destruct (negb _) eqn:NR in N0; [discriminate|]. rewrite NR.
  destruct (get_data_par_burst f burst None false ref) as [[[[d p] B]|]| |] eqn:D; cbn [rbind] in N0; try discriminate. cbn [rbind].
  destruct (file_journal rc burst f t w js pos ref d p B G D (chosen_dpb _ _ _ _ _ HB HL G D) N) as (EW & J1 & J2).
  destruct (unwrap _) as [[ref1 buf]| |]; cbn [rbind] in N0; try discriminate. cbn [rbind].
  set (t0 := match get_FSZ ref with Some _ => _ | None => _ end) in *. set (pl := calc_meta_block_all_write_pos_s _ _) in *. set (hp := header_pred_same_ver_uid ref) in *.
  rewrite <- (take_drop k pl), rfold_app in N0.
  assert (MS : rfold (repair_meta_step false hp) (takeN k pl) (f, ref1, buf, no_pstats) = rmap plain4 (rfold (repair_meta_step_noted false hp) (takeN k pl) ((f, []), ref1, buf, no_pstats))).
  { symmetry. apply (rfold_same plain4). intros. apply meta_step_same. }
  match goal with |- context [rfold (repair_meta_step false hp) (takeN k pl) ?x] => change (rfold (repair_meta_step false hp) (takeN k pl) x) with (rfold (repair_meta_step false hp) (takeN k pl) (f, ref1, buf, no_pstats)) end.
  rewrite MS. clear MS. destruct (rfold _ (takeN k pl) _) as [[[[ja ra] ba] ta]| |] eqn:FA in N0 |- *; cbn [rbind] in N0; try discriminate.
  cbn [rmap rbind plain4].
  destruct (rfold _ (dropN k pl) _) as [[[[jb rb] bb] tb]| |] eqn:FB in N0; cbn [rbind] in N0; try discriminate.
  assert (Z : k = 0 -> fst ja = f).
  { intro Q. rewrite Q, take_0 in FA. cbn [rfold] in FA. apply ROk_inj in FA. injection FA as <- _ _ _. reflexivity. }
  apply metas_grown in FA as ((ea & Ga) & NA & CA). rewrite lenN_take in NA. change (ps_so_far no_pstats) with 0 in NA.
  destruct (repair_loop_noted _ _ _ _ _ _ _ _ _ _ _) as [[[jc Rc] tc]| |] eqn:LP in N0; cbn [rbind] in N0; try discriminate. apply ROk_inj in N0. injection N0 as -> ->.
  destruct (N.lt_ge_cases k (lenN pl)) as [K|K].
  - (* stopped in the first loop *)
    assert (RA : repair_loop_stop (Some k) (lenN pl) (S (N.to_nat (t0 - ps_so_far ta))) rc false (b_version ref) hp d p B t0 SBX_FIRST_DATA_SEQ_NUM (fst ja, repairer_new ref d p, ta) = ROk (fst ja, repairer_new ref d p, ta)).
    { cbn [repair_loop_stop raised]. destruct (N.leb_spec k (lenN pl)); [reflexivity|lia]. }
    rewrite RA. cbn [rbind]. clear RA. exists ta, (fst ja), pos, ref. split; [reflexivity|]. split; [reflexivity|].
    apply metas_grown in FB as ((eb & Gb) & NB & CB). rewrite lenN_drop in NB. apply loop_grown in LP as ((ec & Gc) & NC & CC).
    pose proof (grown_app _ _ _ _ _ Gb Gc) as Gbc. pose proof (grown_app _ _ _ _ _ Ga Gbc) as (J & W). cbn [fst snd] in J, W. cbn [List.app] in J. 
    destruct Ga as (_ & Wa). cbn [fst] in Wa.
    split; [lia|]. split; [exact (counts_trans _ _ _ CB CC)|]. rewrite J in *. rewrite EW. rewrite Wa in *.
    destruct (writes_prefix (b_version ref) ea (eb ++ ec) f (conj J1 J2)) as (P1 & P2). split; [exact P1|]. split; [exact P2|]. split; [exact Z|]. intro Q. lia.
  - (* stopped in the second loop *)
    assert (DE : dropN k pl = []) by (apply lenN_0; rewrite lenN_drop; lia). rewrite DE in FB. cbn [rfold] in FB. apply ROk_inj in FB. injection FB as <- _ _ <-.
    assert (EI : lenN pl = ps_so_far ta) by lia. destruct (loop_stopped k _ _ _ _ _ _ _ _ (lenN pl) _ _ _ _ _ _ _ EI K LP) as (j1 & R1 & t1 & e1 & e2 & E & G1 & G2 & N2 & C2 & Q).
    assert (LS := loop_stop_same (Some k) (S (N.to_nat (t0 - ps_so_far ta))) rc false (b_version ref) hp d p B t0 (lenN pl) SBX_FIRST_DATA_SEQ_NUM (ja, repairer_new ref d p, ta)).
    rewrite E in LS. cbn [rmap plain3] in LS. rewrite <- LS. cbn [rbind]. clear LS.
    exists t1, (fst j1), pos, ref. split; [reflexivity|]. split; [reflexivity|]. split; [exact N2|]. split; [exact C2|].
    pose proof (grown_app _ _ _ _ _ Ga G1) as Ga1. pose proof (grown_app _ _ _ _ _ Ga1 G2) as (J & W). cbn [fst snd] in J, W. cbn [List.app] in J.
    destruct Ga1 as (_ & Wa). cbn [fst] in Wa. rewrite J in *. rewrite EW. rewrite Wa in *.
    destruct (writes_prefix (b_version ref) (ea ++ e1) e2 f (conj J1 J2)) as (P1 & P2). split; [exact P1|]. split; [exact P2|]. split.
    + intro K0. rewrite <- Wa. cbn [loop_stop_noted raised] in E. destruct (N.leb_spec k (lenN pl)) as [_|X]; [|lia]. cbn [orb] in E. apply ROk_inj in E. injection E as <- _ _. exact (Z K0).
    + intro L. destruct (Q L) as (Q1 & ->). split; [reflexivity|]. rewrite <- Wa, Q1. cbn [fst]. exact EW.
Qed.
Print Assumptions c73_repair_stopped.

(* Which blocks those are: the copies of the metadata before the k-th, and the blocks of the sets all of which have been read before the k-th look,
   the p + 1 copies of the metadata included. The others are as they were. *)
Theorem c73_repair_exact k rc burst f t w t' h pos ref d p B : bytes_ok f = true -> lenN f < 18446744073709551616 ->
  get_ref_block f None None false (MustBe TMeta) = ROk (Some (pos, ref)) -> get_data_par_burst f burst None false ref = ROk (Some (d, p, B)) ->
  repair_file rc false burst f = ROk (Some (t, w)) -> repair_file_stop (Some k) rc false burst f = ROk (Some (t', h)) ->
  let sets_done := (k - (1 + p)) / (d + p) in
  (forall j, j <= p -> same_block (b_version ref) (if j <? k then w else f) h (j * (1 + B))) /\
  (forall s, 1 <= s -> same_block (b_version ref) (if set_of d p s <? sets_done then w else f) h (calc_data_block_write_index s None (Some (d, p, B)))).
Proof.
  intros HB HL G D RF SF. pose proof (chosen_dpb _ _ _ _ _ HB HL G D) as HO. rewrite <- file_same in RF.
  destruct (repair_file_noted rc false burst f) as [[[t0 [w0 js]]|]| |] eqn:N; cbn [rmap option_map fst snd] in RF; try discriminate. apply ROk_inj in RF. injection RF as -> ->.
  destruct (file_journal rc burst f t w js pos ref d p B G D HO N) as (EW & _ & J2). destruct (stop_split k rc burst f t w js pos ref d p B G D HO N) as (t1 & a & b & SF' & EJ & IA & IB).
  rewrite SF' in SF. apply ROk_inj in SF. injection SF as _ <-. rewrite EJ, writes_app in EW. set (v := b_version ref) in *. cbv zeta in IA, IB |- *. set (n := (k - (1 + p)) / (d + p)) in *.
  assert (LA : forall q x, In (q, x) a -> lenN x <= ver_to_block_size v) by (intros q x I; apply (J2 q x); rewrite EJ; apply in_app_iff; left; exact I).
  assert (LB : forall q x, In (q, x) b -> lenN x <= ver_to_block_size v) by (intros q x I; apply (J2 q x); rewrite EJ; apply in_app_iff; right; exact I).
  assert (SY : forall x y i, same_block v x y i -> same_block v y x i) by (intros x y i S z Z; symmetry; exact (S z Z)).
  pose proof HO as (D1 & P1 & _). assert (NM : forall s j, 1 <= s -> j <= p -> calc_data_block_write_index s None (Some (d, p, B)) <> j * (1 + B)).
  { intros s j S1 J E. apply (write_index_not_meta None (Some (d, p, B)) s HO S1). rewrite E. exists j. auto. }
  assert (IS : forall s, 1 <= s -> (set_of d p s <? n) = (s <=? n * (d + p))).
  { intros s S1. unfold set_of. clearbody n. pose proof (N.div_mod' (s - 1) (d + p)) as DM. pose proof (N.mod_lt (s - 1) (d + p) ltac:(lia)) as ML. revert DM ML. generalize ((s - 1) / (d + p)) ((s - 1) mod (d + p)). intros x y DM ML.
    clear - S1 DM ML D1. destruct (N.ltb_spec x n), (N.leb_spec s (n * (d + p))); try reflexivity; exfalso; nia. }
  split.
  - intros j J. destruct (N.ltb_spec j k) as [L|L].
    + rewrite EW. apply SY, (writes_not v); [|exact LB]. intros q x I. destruct (IB q x I) as [(j' & K1 & K2 & ->)|(s & S1 & S2 & ->)]; eexists; (split; [reflexivity|]); [|exact (NM s j S1 J)].
      intro E. apply N.mul_cancel_r in E; lia.
    + apply (writes_not v); [|exact LA]. intros q x I. destruct (IA q x I) as [(j' & K1 & K2 & ->)|(s & S1 & ->)]; eexists; (split; [reflexivity|]); [|apply NM; [lia|exact J]].
      intro E. apply N.mul_cancel_r in E; lia.
  - intros s S0. rewrite (IS s S0). destruct (N.leb_spec s (n * (d + p))) as [L|L].
    + rewrite EW. apply SY, (writes_not v); [|exact LB]. intros q x I. destruct (IB q x I) as [(j' & K1 & K2 & ->)|(s' & S1 & S2 & ->)]; eexists; (split; [reflexivity|]); [exact (not_eq_sym (NM s j' S0 K2))|].
      intro E. apply write_index_inj in E; [|exact HO|exact S1|exact S0]. subst s'. clear - S2 L. lia.
    + apply (writes_not v); [|exact LA]. intros q x I. destruct (IA q x I) as [(j' & K1 & K2 & ->)|(s' & S1 & ->)]; eexists; (split; [reflexivity|]); [exact (not_eq_sym (NM s j' S0 K2))|].
      intro E. apply write_index_inj in E; [|exact HO|clear - S1; lia|exact S0]. subst s'. clear - S1 L. lia.
Qed.
Print Assumptions c73_repair_exact.

Lemma stop_gives E k m s inp li f t w B : value_of m A_in_file = Some inp -> (exists x, file_name_of inp x) -> named E s inp li -> s li = Some (NFile f) -> v_can E li = true ->
  verbosity_option m -> number_option m A_burst B -> is_present m A_dry_run = false -> agreed E m ->
  repair_file_stop k (v_rc E) false B f = ROk (Some (t, w)) -> repair_cmd_stop E k m s = mkRan (upd s li (NFile w)) (Exit 0) [].
Proof.
  intros VI (x & FNX) FR FS FC VB NB DR AN RF.
  assert (GI : get_in_file E s m = Go inp) by (unfold get_in_file; rewrite VI; apply check_in_file_iff; split; [reflexivity|]; exists li, f, x; auto).
  apply (verbosity_iff m tt) in VB. apply number_iff in NB.
  assert (AR : asked_and_refused E m = false).
  { unfold asked_and_refused. destruct AN as [->|[->|(rest & AN)]]; [reflexivity|apply andb_false_iff; left; apply andb_false_r|]. unfold wish_to_continue. rewrite AN. apply andb_false_r. }
  unfold repair_cmd_stop. rewrite GI. cbn [gbind]. rewrite VB. cbn [gbind]. rewrite NB. cbn [gbind run]. rewrite AR. unfold open_read. unfold named in FR. rewrite FR, FS, FC, DR, RF. reflexivity.
Qed.

(* A container after any history (C56) is damaged within the limits, and the command repair that would make it good is stopped with Ctrl-C, anywhere. It ends with
   exit code 0, whatever it has left undone, and has changed nothing but the container, each block of which is as it was or sound again. repair, run
   again and let finish, makes the sound container of it, byte for byte; nothing is lost by stopping. *)
Theorem c73_repair_resumed E m s inp li content v d par B n uid :
  machine_ok E -> text_ok m -> value_of m A_in_file = Some inp -> file_at E s inp li content ->
  bytes_ok content = true -> lenN content < 18446744073709551616 -> content <> [] ->
  whole_file m -> with_metadata m (Some (d, par, B)) -> spares_input E m s li -> version_options m v (Some (d, par, B)) -> uid_option E m uid ->
  (d + par) * B < 4294967296 -> v_rs E = rs_encode ->
  block_count v (Some (d, par, B)) (lenN content) n -> n < U32_MAX ->
  rn_exit (encode_cmd E m s) = Exit 0 ->
  exists place container name, derived_place E m s (container_ext m) place /\ rn_fs (encode_cmd E m s) place = Some (NFile container) /\ file_name_of inp name /\
  forall g nm, life (v_H E) v uid (Some (d, par, B)) n container (Some name) g nm ->
  forall bursts hurt, burst_damage v uid d par B n bursts g hurt ->
  forall E1 k m1 s1 inp1 l1, v_rc E1 = rs_reconstruct -> value_of m1 A_in_file = Some inp1 -> file_at E1 s1 inp1 l1 hurt -> (exists x, file_name_of inp1 x) ->
     verbosity_option m1 -> number_option m1 A_burst (Some B) -> is_present m1 A_dry_run = false -> agreed E1 m1 ->
     let stopped := repair_cmd_stop E1 (Some k) m1 s1 in
     rn_exit stopped = Exit 0 /\ same_but l1 s1 (rn_fs stopped) /\
     exists h t', rn_fs stopped l1 = Some (NFile h) /\ repair_file_stop (Some k) rs_reconstruct false (Some B) hurt = ROk (Some (t', h)) /\ lenN h = lenN g /\ (forall i, same_block v hurt h i \/ same_block v g h i) /\
     forall E2 m2 s2 inp2 l2, v_rc E2 = rs_reconstruct -> value_of m2 A_in_file = Some inp2 -> file_at E2 s2 inp2 l2 h -> (exists x, file_name_of inp2 x) ->
     verbosity_option m2 -> number_option m2 A_burst (Some B) -> is_present m2 A_dry_run = false -> agreed E2 m2 ->
     let again := repair_cmd E2 m2 s2 in
     rn_exit again = Exit 0 /\ rn_fs again l2 = Some (NFile g) /\ same_but l2 s2 (rn_fs again).
Proof.
  intros MO TX VI FA CB CL CN WF WM NF VO UO OB CR BC HN X.
  destruct (encode_kept E m s inp li content v (Some (d, par, B)) n uid MO TX VI FA CB CL CN WF WM NF VO UO OB CR BC HN X) as (lc & f0 & name & ms0 & DP & RC & FN & HF & L1 & N1 & K0).
  exists lc, f0, name. split; [exact DP|]. split; [exact RC|]. split; [exact FN|]. intros g nm LI bursts hurt BD.
  destruct (life_kept _ _ _ _ _ _ _ _ _ _ _ HF L1 N1 K0 LI) as (ms & K). assert (BG : bytes_ok g = true) by (destruct K as [IT _ _ _ _ _ _]; exact (file_bytes _ _ _ _ _ _ _ _ _ IT)).
  assert (LG : lenN g < 18446744073709551616) by (apply K).
  intros E1 k m1 s1 inp1 l1 RC1 VI1 (ND & FR & FS & FC) NM VB NB DR AG. destruct (kept_repair _ _ _ _ _ _ _ _ _ _ _ _ _ K BD) as (t & RF). pose proof BD as (HB & LF & _).
  destruct (c73_repair_stopped k _ _ _ _ _ HB ltac:(lia) RF) as (t' & h & pos & ref & SF & GR & _ & _ & LH & SB & _ & _).
  pose proof SF as SF0. rewrite <- RC1 in SF. cbv zeta. rewrite (stop_gives E1 (Some k) m1 s1 inp1 l1 hurt t' h (Some B) VI1 NM FR FS FC VB NB DR AG SF). cbn [rn_exit rn_fs].
  split; [reflexivity|]. split; [intros y D; apply upd_other; exact D|]. exists h, t'. split; [apply upd_same|]. split; [exact SF0|]. assert (EL : lenN h = lenN g) by lia. split; [exact EL|].
  assert (EV : b_version ref = v).
  { destruct K as [IT FL MP FZ [RD RP] _ _]. destruct (L_Intact.HO _ _ _ _ _ _ _ _ _ IT) as (D1 & D2 & D3). destruct BD as (_ & _ & LB & NH & OUT & HIT).
    destruct (first_spared v uid rs_encode g hurt d par B n ms (content) bursts) as (ref' & G & EV & _); try assumption. { intros; apply OUT; auto. }
    rewrite G in GR. apply ROk_inj in GR. injection GR as _ <-. exact EV. }
  rewrite EV in SB. split; [exact SB|].
  assert (MX : mixture hurt g h).
  { split; [lia|]. intro i. destruct (SB (i / ver_to_block_size v)) as [S|S]; [left|right]; apply S; reflexivity. }
  assert (BD2 : burst_damage v uid d par B n bursts g h).
  { apply (mixture_damage _ _ _ _ _ _ _ _ _ _ BG BD MX). intros i _ _. destruct (SB i) as [S|S]; [left|right; left]; exact S. }
  intros E2 m2 s2 inp2 l2 RC2 VI2 (ND2 & FR2 & FS2 & FC2) NM2 VB2 NB2 DR2 AG2.
  destruct (kept_repair _ _ _ _ _ _ _ _ _ _ _ _ _ K BD2) as (t2 & RF2). rewrite <- RC2 in RF2.
  rewrite (repair_gives E2 m2 s2 inp2 l2 h t2 g (Some B) VI2 NM2 FR2 FS2 FC2 VB2 NB2 DR2 AG2 RF2). cbn [rn_exit rn_fs].
  split; [reflexivity|]. split; [apply upd_same|]. intros y D. apply upd_other. exact D.
Qed.
Print Assumptions c73_repair_resumed.

(* ---- a concrete case, and the second part of C73 is false of repair: the container of P_History, one block of which is destroyed, and repair is stopped
   after the copies of the metadata. It ends with exit code 0, reports no block that could not be repaired, and has repaired nothing (F47). ---- *)
Definition so_left (k : N) (f : file) : list N := match repair_file_stop (Some k) rs_reconstruct false (Some 2) f with ROk (Some (_, w)) => w | _ => [] end.
Example c73_repair_run : map (fun k => eqbl (so_left k his_h) his_h) [0; 2; 4] = [true; true; true] /\ eqbl (so_left 5 his_h) his_c1 = true /\ eqbl his_h his_c1 = false.
Proof. vm_compute. auto. Qed.
Example c73_repair_meets : burst_damage V17 [1;2;3;4;5;6] 2 1 2 3 [1] his_c1 his_h /\ bytes_ok his_h = true /\ zero_exit (repair_cmd_stop mach (Some 4) his_m3 his_s3) = true /\
  rn_fs (repair_cmd_stop mach (Some 4) his_m3 his_s3) (w_ ++ [str "y"]) = Some (NFile his_h).
Proof. split; [exact his_damage|]. split; [vm_compute; reflexivity|]. split; vm_compute; reflexivity. Qed.
Theorem c73_repair_refuted : ~ forall k rc burst f t w t' h, bytes_ok f = true -> lenN f < 18446744073709551616 ->
  repair_file rc false burst f = ROk (Some (t, w)) -> repair_file_stop (Some k) rc false burst f = ROk (Some (t', h)) -> ps_data_fail t' = 0 -> h = w.
Proof.
  intro A. assert (HB : bytes_ok his_h = true) by (vm_compute; reflexivity). assert (HL : lenN his_h < 18446744073709551616) by (vm_compute; reflexivity).
  assert (X : match repair_file rs_reconstruct false (Some 2) his_h, repair_file_stop (Some 4) rs_reconstruct false (Some 2) his_h with
              | ROk (Some (_, w)), ROk (Some (t', h)) => (ps_data_fail t' =? 0) && negb (eqbl h w) | _, _ => false end = true) by (vm_compute; reflexivity).
  revert HB HL X. generalize his_h as f. intros f HB HL X. specialize (A 4 rs_reconstruct (Some 2) f).
  destruct (repair_file rs_reconstruct false (Some 2) f) as [[[t w]|]| |]; try discriminate X.
  destruct (repair_file_stop (Some 4) rs_reconstruct false (Some 2) f) as [[[t' h]|]| |]; try discriminate X. apply andb_true_iff in X as [X1 X2]. apply N.eqb_eq in X1.
  rewrite (A t w t' h HB HL eq_refl eq_refl X1), (proj2 (eqbl_eq w w) eq_refl) in X2. discriminate.
Qed.
Print Assumptions c73_repair_refuted.
