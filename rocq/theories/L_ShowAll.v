(* Lemmas for C71: the scan of an undamaged container stops at each of its blocks, and within unused places only. *)
From Coq Require Import String Ascii Sorted.
From Verif Require Import L_Update P_Update M_Base M_Specs M_Header M_Multihash M_Metadata M_Block M_Index M_FileUtils M_Buffer M_Ranges M_Encode
  M_Scan M_Loop M_Decode M_Content M_Check M_Sort M_Repair M_Rescue M_Hex M_Json M_Codec M_Path M_Cli M_Show M_Report M_Look
  S_Meta S_Block S_Index S_Container S_Encode S_Scan S_Decode S_Repair P_Update S_Check S_Cli S_Json S_Show S_Report S_Look
  L_Base L_Block L_File L_Scan L_Index2 L_Ranges L_Ref L_Intact L_Intact2 L_Path L_Cli L_Cli2 L_Cli3 L_Roundtrip L_Json2 L_Show L_Report L_Check P_Index P_Encode P_Decode P_Roundtrip P_Codec P_Cli P_Options P_Commands P_Json P_Check P_Show P_Report P_Look S_History S_Update M_Update L_LostCmd L_Renew L_History P_History S_Facts L_Facts S_ShowAll L_Guess S_Guess L_Guess2.

Lemma bs_128 v : exists c, ver_to_block_size v = c * 128 /\ 1 <= c.
Proof. destruct v; [exists 4|exists 1|exists 32|exists 4|exists 1|exists 32]; split; [reflexivity|lia| reflexivity|lia| reflexivity|lia| reflexivity|lia| reflexivity|lia| reflexivity|lia]. Qed.
Section Scan.
Variables (v : version) (uid : list N) (o : dpb) (rs : codec) (ms : list metadata) (data f : list N) (n : N).
Hypothesis IT : intact v uid true o rs ms data f n.
Set Default Proof Using "All".
Let bs := ver_to_block_size v.
Lemma used_header k : used_index true o n k -> exists h, header_at f (k * bs) h /\ h_version h = v.
Proof. intro U. destruct (used_block _ _ _ _ _ _ _ _ _ IT k U) as (seq & pl & (h & W & V & _) & _ & _). apply (wf_header_at _ _ _ _ _ _ _ _ _ IT) in W. exists h. auto. Qed.
Lemma skip_used k m : used_index true o n k -> skip f (k * bs) m -> m = bs.
Proof.
  intros U (_ & _ & [(h' & A & ->)|[A _]]); destruct (used_header k U) as (h & W & V); [|exfalso; exact (A _ W)].
  apply (header_at_parse _ _ _ (file_bytes _ _ _ _ _ _ _ _ _ IT)) in A, W. rewrite W in A. apply ROk_inj in A. subst h'. rewrite V. reflexivity.
Qed.
Lemma used_dec k : used_index true o n k \/ ~ used_index true o n k.
Proof. destruct (index_cases _ _ _ _ _ _ _ _ _ IT k) as [M|[M|M]]; [left; left; exact M|left; right; exact M|right; exact M]. Qed.
Lemma lands_slots hi pos : lands f 0 hi pos -> exists k j, pos = k * bs + j * 128 /\ (j = 0 \/ (~ used_index true o n k /\ (j + 1) * 128 <= bs)).
Proof.
  destruct (bs_128 v) as (c & EC & C1). fold bs in EC. induction 1 as [|pos m HL IH HS HLT]; [exists 0, 0; split; [reflexivity|left; reflexivity]|].
  destruct IH as (k & j & -> & D).
  assert (J : (j = 0 /\ used_index true o n k) \/ (~ used_index true o n k /\ (j + 1) * 128 <= bs)).
  { destruct D as [->|[U B]]; [|right; auto]. destruct (used_dec k) as [U|U]; [left; auto|right]. split; [exact U|]. lia. }
  destruct J as [[-> U]|[U B]].
  - rewrite N.mul_0_l, N.add_0_r in HS. apply (skip_used k m U) in HS. subst m. exists (k + 1), 0. split; [lia|left; reflexivity].
  - assert (m = 128) as ->.
    { destruct HS as (_ & _ & [(h & A & _)|[_ E]]); [|exact E]. exfalso. refine (blank_no_header _ _ _ _ _ _ _ _ _ IT k (j * 128) h U _ A). fold bs. lia. }
    destruct (N.eq_dec ((j + 1) * 128) bs) as [E|E].
    + exists (k + 1), 0. split; [lia|left; reflexivity].
    + exists k, (j + 1). split; [lia|]. right. split; [exact U|]. rewrite EC in *. clear - B E. nia.
Qed.
Lemma lands_all hi : lenN f <= hi -> forall k, k * bs < lenN f -> lands f 0 hi (k * bs).
Proof.
  intros HH. destruct (bs_128 v) as (c & EC & C1). fold bs in EC. destruct (whole_blocks _ _ _ _ _ _ _ _ _ IT) as (K & EK & _). fold bs in EK.
  induction k as [|k IH] using N.peano_ind; intro L; [rewrite N.mul_0_l in *; constructor; lia|].
  assert (LK : (k + 2) * bs <= lenN f). { rewrite EK in *. apply N.mul_le_mono_r. assert (N.succ k < K); [|lia]. apply (N.mul_lt_mono_pos_r bs); lia. }
  specialize (IH ltac:(lia)). destruct (used_dec k) as [U|U].
  - destruct (used_header k U) as (h & W & V). replace (N.succ k * bs) with (k * bs + bs) by lia. apply lands_next; [exact IH| |lia].
    split; [lia|]. split; [lia|]. left. exists h. split; [exact W|]. rewrite V. reflexivity.
  - assert (S : forall j, j <= c -> lands f 0 hi (k * bs + j * 128)).
    { induction j as [|j IHj] using N.peano_ind; intro LJ; [rewrite N.mul_0_l, N.add_0_r; exact IH|]. specialize (IHj ltac:(lia)).
      assert (LJ' : (j + 1) * 128 <= bs) by (rewrite EC; apply N.mul_le_mono_r; lia).
      replace (k * bs + N.succ j * 128) with (k * bs + j * 128 + 128) by lia. apply lands_next; [exact IHj| |lia].
      split; [lia|]. split; [lia|]. right. split; [|reflexivity]. intros h A. refine (blank_no_header _ _ _ _ _ _ _ _ _ IT k (j * 128) h U _ A). fold bs. lia. }
    replace (N.succ k * bs) with (k * bs + c * 128) by lia. apply S. lia.
Qed.
(* the metadata blocks the scan finds *)
Lemma scan_meta hi pos h pl : lenN f <= hi -> lands f 0 hi pos /\ any_block_at f pos h pl /\ h_seq_num h = 0 <-> exists i, meta_index (Some true) o i /\ pos = i * bs /\ any_block_at f (i * bs) h pl.
Proof.
  intro HH. split.
  - intros (HL & A & S). destruct (lands_slots hi pos HL) as (k & j & -> & D).
    assert (U : j = 0 /\ used_index true o n k).
    { destruct (wf_header _ _ _ _ A) as [WH LB]. pose proof WH as HA.
      destruct (used_dec k) as [U|U].
      - split; [|exact U]. destruct D as [D|[D _]]; [exact D|contradiction].
      - exfalso. refine (blank_no_header _ _ _ _ _ _ _ _ _ IT k (j * 128) h U _ HA). fold bs. destruct (bs_128 v) as (c & EC & C1). fold bs in EC. destruct D as [->|[_ D]]; lia. }
    destruct U as [-> U]. rewrite N.mul_0_l, N.add_0_r in *. destruct (any_is_block _ _ _ _ _ _ _ _ _ IT k h pl U A) as (_ & _ & B).
    destruct (block_inv _ _ _ _ _ _ _ _ _ IT _ _ _ B) as [[_ M]|[L _]]; [|lia]. exists k. auto.
  - intros (i & M & -> & A). pose proof (I4 _ _ _ _ _ _ _ _ _ IT i (or_introl M)) as L. fold bs in L. destruct (bs_128 v) as (c & EC & C1). fold bs in EC.
    split; [apply lands_all; [exact HH|lia]|]. split; [exact A|].
    destruct (any_is_block _ _ _ _ _ _ _ _ _ IT i h pl (or_introl M) A) as (_ & _ & B). destruct (meta_block_at _ _ _ _ _ _ _ _ _ IT i M) as (pl' & B'). destruct (block_at_unique _ _ _ _ _ _ _ _ B B') as [E _]. exact E.
Qed.
Lemma copy_blk : exists h pl, (forall i, meta_index (Some true) o i -> any_block_at f (i * bs) h pl) /\ h_version h = v /\ h_uid h = uid /\ h_seq_num h = 0 /\ metas_from_bytes pl = ms.
Proof.
  pose proof (meta_zero _ _ _ _ _ _ _ _ _ IT eq_refl) as M0.
  destruct (meta_blk _ _ _ _ _ _ _ _ _ IT 0 M0) as (_ & h & pl & W & V & U & S & P). exists h, pl. split; [|auto]. intros i M.
  destruct (parts _ _ _ _ _ _ _ _ _ IT) as (meta & _ & _ & I2 & _). rewrite (I2 0 M0), <- (I2 i M) in W.
  unfold any_block_at. unfold sliceN in W. apply wf_take in W; [exact W|]. rewrite V. reflexivity.
Qed.
End Scan.

Lemma copy_place v o j : j < copies o -> exists i, meta_index (Some true) o i /\ copy_at v o j = i * ver_to_block_size v.
Proof.
  unfold meta_index, copies, copy_at. destruct o as [[[d p] B]|]; intro J.
  - exists (j * (1 + B)). split; [|reflexivity]. exists j. split; [lia|reflexivity].
  - exists 0. split; [split; [discriminate|reflexivity]|reflexivity].
Qed.
Lemma place_copy v o i : meta_index (Some true) o i -> exists j, j < copies o /\ copy_at v o j = i * ver_to_block_size v.
Proof.
  unfold meta_index, copies, copy_at. destruct o as [[[d p] B]|].
  - intros (j & J & ->). exists j. split; [lia|reflexivity].
  - intros (_ & ->). exists 0. split; [lia|reflexivity].
Qed.
Lemma copies_sorted v o : StronglySorted N.lt (map (copy_at v o) (rangeN 0 (copies o))).
Proof.
  pose proof (block_size_pos v) as BP. unfold copies, copy_at. destruct o as [[[d p] B]|]; [|repeat constructor].
  generalize (p + 1), 0. intros hi lo. remember (N.to_nat (hi - lo)) as k eqn:EK. revert lo EK. induction k as [|k IH]; intros lo EK; [rewrite rangeN_nil by lia; constructor|].
  rewrite rangeN_cons by lia. cbn [map]. constructor; [apply IH; lia|]. apply Forall_forall. intros x I. apply in_map_iff in I as (j & <- & I). apply In_rangeN in I.
  apply N.mul_lt_mono_pos_r; [lia|]. apply N.mul_lt_mono_pos_r; lia.
Qed.
Lemma blocks_json_map cal (g : N -> N) b : forall k lo hi, N.to_nat (hi - lo) = k ->
  blocks_json cal lo (map (fun j => (g j, b)) (rangeN lo hi)) = map (fun j => block_json cal j (g j, b)) (rangeN lo hi).
Proof.
  induction k as [|k IH]; intros lo hi EK; [rewrite rangeN_nil by lia; reflexivity|]. rewrite rangeN_cons by lia. cbn [map blocks_json]. rewrite IH by lia. reflexivity.
Qed.
Lemma copies_range o : rangeN 0 (copies o) = 0 :: rangeN 1 (copies o).
Proof. apply rangeN_cons. unfold copies. destruct o as [[[d p] B]|]; lia. Qed.
Lemma copy_0 v o : copy_at v o 0 = 0. Proof. destruct o as [[[d p] B]|]; reflexivity. Qed.

Lemma show_all_told v uid o rs ms content f n F :
  intact v uid true o rs ms content f n -> lenN f < 18446744073709551616 -> shards_recorded o ms -> get_meta_by_id ms IFSZ = Some (FSZ (lenN content)) -> facts_of ms F ->
  lenN uid = 6 -> bytes_ok uid = true -> 1 <= n ->
  forall E' K cal m' s' inp' l',
    clap_ok m' -> value_of m' A_in_file = Some inp' -> file_at E' s' inp' l' f -> (exists x, file_name_of inp' x) ->
    whole_check m' -> (is_present m' A_guess_burst = true -> match o with Some (_, _, B) => B <= 1000 | None => True end) ->
    match value_of m' A_uid with Some x => hex_bytes x uid | None => True end ->
    plain_name (fc_name F) -> plain_name (fc_called F) ->
    exists cs, show_cmd E' K cal (fun _ => None) m' s' = mkSeen s' (Exit 0) (Some cs) /\
      stands_for cs (success_json (level_json (is_present m' A_guess_burst) v o ++
        [(str "blocks", JArr (map (copy_json cal uid F v o (lenN content)) (copies_shown (is_present m' A_show_all) o)))])).
Proof.
  intros IT FL SR FZ (F1 & F2 & F3 & F4 & F5) U6 UB N1.
  intros E' K cal m' s' inp' l' CK VI' (ND & FR & FS & FC) (fname & FNX) (VB & W1 & W2 & W3 & W4 & W5 & W6 & W7) GBL UM PN1 PN2.
  pose proof (file_bytes _ _ _ _ _ _ _ _ _ IT) as HB.
  set (q := mkSparam (is_present m' A_show_all) (is_present m' A_guess_burst) None (is_present m' A_force_misalign) None None (match value_of m' A_uid with Some _ => Some uid | None => None end)).
  destruct (proj2 (c62_show_options E' s' m' q CK)) as (inf & RQ).
  { split; [|exists inp', l', f, fname; auto]. unfold show_options, q, number_option, range_option. cbn. rewrite W1, W2, W3, W7. repeat split; auto.
    destruct (value_of m' A_uid); [|exact Logic.I]. split; [exact U6|exact UM]. }
  assert (inf = inp') as ->.
  { pose proof RQ as RQ'. unfold show_request in RQ'. apply gbind_go in RQ'. destruct RQ' as (i & HI & RQ').
    repeat (apply gbind_go in RQ'; destruct RQ' as (? & _ & RQ'); cbv zeta in RQ'). injection RQ' as <- _. unfold get_in_file in HI. rewrite VI' in HI. apply check_in_file_go in HI. destruct HI as (-> & _). reflexivity. }
  set (hi := N.max 1 (lenN f)).
  assert (RNG : show_range q f 0 hi).
  { exists hi. split; [|reflexivity]. apply range_whole; [cbn [mult_of]; lia|exact FL]. }
  assert (HH : lenN f <= hi) by (unfold hi; lia).
  destruct (copy_blk _ _ _ _ _ _ _ _ IT) as (hd & pl & WA & HV & HU & HS & HM).
  set (b := mkBlock hd (DMeta (metas_from_bytes pl))).
  assert (RB : reads_as hd pl b) by (split; [reflexivity|]; rewrite HS; reflexivity).
  set (full := map (fun j => (copy_at v o j, b)) (rangeN 0 (copies o))).
  assert (MF : map fst full = map (copy_at v o) (rangeN 0 (copies o))) by (unfold full; rewrite map_map; reflexivity).
  assert (TA : to_show_all q f 0 hi full).
  { split; [rewrite MF; apply copies_sorted|]. intros pos b'. unfold full. rewrite in_map_iff. split.
    - intros (j & Q & I). injection Q as <- <-. apply In_rangeN in I. destruct (copy_place v o j) as (i & M & E); [lia|]. rewrite E.
      destruct (proj2 (scan_meta _ _ _ _ _ _ _ _ IT hi (i * ver_to_block_size v) hd pl HH)) as (L & A & S); [exists i; auto|].
      exists hd, pl. split; [exact L|]. split; [exact A|]. split; [exact S|]. split; [cbn; destruct (value_of m' A_uid); [exact HU|exact Logic.I]|exact RB].
    - intros (h' & pl' & L & A & S & _ & R). destruct (proj1 (scan_meta _ _ _ _ _ _ _ _ IT hi pos h' pl' HH)) as (i & M & -> & A'); [auto|].
      destruct (any_block_fun f _ _ _ _ _ A' (WA i M)) as [-> ->]. destruct (place_copy v o i M) as (j & J & E). exists j. split; [|apply In_rangeN; lia].
      rewrite E. f_equal. apply reads_as_block in R. apply reads_as_block in RB. congruence. }
  set (l := map (fun j => (copy_at v o j, b)) (copies_shown (is_present m' A_show_all) o)).
  assert (BS : blocks_shown q f 0 hi l).
  { exists full. split; [exact TA|]. unfold l, copies_shown, full. change (sp_all q) with (is_present m' A_show_all). destruct (is_present m' A_show_all); [reflexivity|]. rewrite copies_range. reflexivity. }
  assert (GM : b_data b = DMeta ms) by (cbn; rewrite HM; reflexivity).
  assert (NM : get_FNM b = fc_name F /\ get_SNM b = fc_called F) by (unfold get_FNM, get_SNM, block_get_meta; rewrite GM, F1, F2; destruct (fc_name F), (fc_called F); split; reflexivity).
  assert (PN : plain_names l).
  { unfold l, plain_names. apply Forall_forall. intros x I. apply in_map_iff in I as (j & <- & _). cbn [snd]. rewrite (proj1 NM), (proj2 NM). split; assumption. }
  assert (BJ : blocks_json cal 0 l = map (copy_json cal uid F v o (lenN content)) (copies_shown (is_present m' A_show_all) o)).
  { assert (EJ : forall j, block_json cal j (copy_at v o j, b) = copy_json cal uid F v o (lenN content) j).
    { intro j. unfold block_json, copy_json. cbn [fst snd]. rewrite (proj1 NM), (proj2 NM). unfold b_version, b_uid. cbn [b_header b]. rewrite HV, HU.
      destruct (c43_hex_texts uid) as [-> _]; [exact UB|].
      unfold opt_RSD, opt_RSP, get_FSZ, get_FDT, get_SDT, get_HSH, block_get_meta. rewrite GM, F3, F4, F5, FZ.
      assert (RS : ver_uses_rs v = match o with Some _ => true | None => false end) by apply IT. rewrite RS.
      unfold shards_recorded in SR. destruct o as [[[d r] B]|]; [destruct SR as [-> ->]|]; destruct (fc_hash F), (fc_mtime F), (fc_time F); reflexivity. }
    unfold l, copies_shown. destruct (is_present m' A_show_all).
    - rewrite (blocks_json_map cal (copy_at v o) b _ 0 (copies o) eq_refl). apply map_ext. exact EJ.
    - cbn [map blocks_json]. rewrite EJ. reflexivity. }
  assert (BV : b_version b = v) by exact HV.
  assert (RS : ver_uses_rs v = match o with Some _ => true | None => false end) by apply IT.
  destruct (is_present m' A_guess_burst) eqn:SG.
  - specialize (GBL eq_refl).
    assert (FB : first_block f 0 hi (of_type TMeta) (0 + 0) hd pl).
    { split; [constructor; unfold hi; lia|]. split; [apply (WA 0), (meta_zero _ _ _ _ _ _ _ _ _ IT eq_refl)|]. split; [exact HS|]. intros pos' h' pl' _ LT. exfalso. revert LT. apply N.nlt_0_r. }
    assert (GB : guess_burst f (guess_from_param (sp_guess_from q) (sp_from q)) (sp_misalign q) b = ROk (match o with Some (_, _, B) => Some B | None => None end)).
    { cbn [sp_guess_from sp_from q guess_from_param]. destruct o as [[[d p] B]|] eqn:EO.
      - destruct SR as [S1 S2]. destruct (guess_intact _ _ _ _ _ _ _ _ _ IT d p B b (sp_misalign q) eq_refl BV HU) as (g & E & _ & _ & EB).
        + unfold get_RSD, block_get_meta. rewrite GM, S1. reflexivity.
        + unfold get_RSP, block_get_meta. rewrite GM, S2. reflexivity.
        + change LEVELS with 1001. lia.
        + rewrite <- (EB N1). exact E.
      - unfold guess_burst. rewrite BV, RS. reflexivity. }
    destruct (c43_show_guess cal (k_text K) q f 0 hi l 0 hd pl b _ HB FL RNG BS PN eq_refl FB RB GB) as (cs & t & SH & DC & J).
    unfold show in SH. apply rbind_ok in SH. destruct SH as ((cs' & e) & SF & SH). apply ROk_inj in SH.
    assert (e = None) as ->.
    { destruct e as [e|]; [|reflexivity]. exfalso. destruct (ref_found q f 0 hi 0 hd pl b HB FL RNG FB RB) as (RF & _). unfold show_file, show_guess in SF. change (sp_guess q) with true in SF. rewrite RF in SF. cbn [negb rbind] in SF. rewrite GB in SF.
      destruct (show_list cal q f _ _ HB FL RNG) as (l2 & _ & _ & SL). destruct (calc_required_len_and_seek_to_from_byte_range _ _ _ _ _ _) as [req lo']. destruct (ver_uses_rs (b_version b)); cbn [rbind] in SF; rewrite SL in SF; discriminate SF. }
    exists cs. split. { unfold show_cmd. rewrite RQ. unfold open_read. unfold S_Cli.named in FR. rewrite FR, FS, FC, SF. unfold command_calls. rewrite SH. reflexivity. }
    exists t. split; [exact DC|]. intro j. rewrite J, BJ. unfold success_json, level_json, ref_json, guess_json. rewrite BV. destruct o as [[[d p] B]|]; reflexivity.
  - destruct (c43_show_blocks cal (k_text K) q f _ _ _ HB FL RNG BS PN eq_refl) as (cs & t & SH & DC & J).
    unfold show in SH. apply rbind_ok in SH. destruct SH as ((cs' & e) & SF & SH). apply ROk_inj in SH.
    assert (e = None) as ->.
    { destruct e as [e|]; [|reflexivity]. exfalso. unfold show_file, show_guess in SF. change (sp_guess q) with false in SF. cbn [negb rbind] in SF.
      destruct (show_list cal q f _ _ HB FL RNG) as (l2 & _ & _ & SL). destruct (calc_required_len_and_seek_to_from_byte_range _ _ _ _ _ _) as [req lo']. rewrite SL in SF. discriminate. }
    exists cs. split. { unfold show_cmd. rewrite RQ. unfold open_read. unfold S_Cli.named in FR. rewrite FR, FS, FC, SF. unfold command_calls. rewrite SH. reflexivity. }
    exists t. split; [exact DC|]. intro j. rewrite J, BJ. reflexivity.
Qed.
