(* Blocks in any order, some missing: sort and repair rebuild the container. *)
From Verif Require Import M_Base M_Specs M_Header M_Multihash M_Metadata M_Block M_Index M_FileUtils M_Buffer M_Ranges M_Encode M_Scan M_Loop M_Decode M_Sort M_Repair
  S_Crc S_Meta S_Block S_Index S_Container S_Encode S_Scan S_Decode S_Sort S_Repair S_Lost
  L_Base L_Block L_Intact L_Intact2 L_Roundtrip L_Repair9 P_Repair P_Sort L_Lost L_Lost2 L_Lost3.

Theorem heap_rebuild v uid d p B rs rc ms data f0 n hp cpus q rb old :
  let o := Some (d, p, B) in let bs := ver_to_block_size v in let g := concat (map bytes_of hp) in
  intact v uid true o rs ms data f0 n -> recon_ok rs rc d p ->
  (forall i, meta_index (Some true) o i -> meta_plain v uid ms (sliceN (i * bs) bs f0)) -> lenN f0 < 18446744073709551616 ->
  Forall (fun q => exists h pl, q = Blk h pl /\ piece_ok q /\ sound h pl /\ h_version h = v /\ h_uid h = uid /\
    exists i, block_at v uid f0 (i * bs) (h_seq_num h) pl) hp ->
  bytes_ok g = true -> lenN g < 18446744073709551616 ->
  get_meta_by_id ms IRSD = Some (RSD d) -> get_meta_by_id ms IRSP = Some (RSP p) -> get_meta_by_id ms IFSZ = Some (FSZ (lenN data)) ->
  1 <= cpus -> plain q -> dc_burst q = Some B -> (dc_choice q = Prefer TMeta \/ dc_choice q = MustBe TMeta) ->
  (exists h pl, In (Blk h pl) hp /\ h_seq_num h = 0) ->
  (forall seq, 1 <= seq <= n -> at_least d p d (fun s => exists h pl, In (Blk h pl) hp /\ h_seq_num h = s) (set_of d p seq)) ->
  exists t u w t', sort_file cpus (mkSparam q rb) g (Some old) = ROk (t, u, Some w) /\ lenN w <= lenN f0 /\
    repair_file rc false (Some B) w = ROk (Some (t', f0)).
Proof.
  intros o bs g IT HR MP FL HP GB GL M1 M2 FZ CP PL BU CH MB AL.
  destruct (heap_setup v uid o rs ms data f0 n hp IT HP GB GL q PL) as (ref & o' & ST & RV & RU & RD & EO); [split; [exact M1|split; [exact M2|congruence]]|exact CH|exact MB|].
  fold g in ST. cbn [o] in EO. destruct o' as [[[d' p'] b]|]; [|contradiction]. destruct EO as (-> & -> & EB). rewrite BU in EB. injection EB as <-. fold o in ST.
  destruct (c22_sort_ends cpus (mkSparam q rb) g (Some old) ref o _ _ CP GB ST) as (t & u & out & ES & _ & ON).
  pose proof PL as (_ & _ & _ & _ & _ & P6).
  destruct (c22_sorted_file cpus (mkSparam q rb) g old t u out CP GB GL) as (ref' & o'' & len' & lo' & w & ST' & _ & EW & SR); [cbn [sp_scan]; rewrite P6; reflexivity|exact ES|].
  destruct (setup_unique _ _ _ _ _ _ _ _ _ _ ST ST') as (<- & <- & <- & <-). unfold start_file in SR. cbn [sp_scan] in SR. rewrite P6 in SR. subst out.
  assert (BP : 128 <= bs <= 4096) by apply block_size_pos.
  assert (VIS : forall h pl, In (Blk h pl) hp -> exists k, visited bs g 0 (N.max 1 (lenN g)) k /\ block_at v uid g (0 + k * bs) (h_seq_num h) pl).
  { intros h pl I. apply in_split in I as (a & b & EH). exists (lenN a). pose proof (heap_block v uid f0 hp HP a h pl b EH) as BK. split; [|rewrite N.add_0_l; exact BK].
    pose proof (heap_len v uid f0 hp HP) as HL. fold g bs in HL. rewrite EH, lenN_app, lenN_cons in HL. clear - HL BP. split; nia. }
  assert (SB : forall k seq pl, visited bs g 0 (N.max 1 (lenN g)) k -> block_at v uid g (0 + k * bs) seq pl -> exists i, block_at v uid f0 (i * bs) seq pl).
  { intros k seq pl [_ VK] BK. rewrite N.add_0_l in VK, BK. destruct (heap_read v uid f0 hp HP k seq pl VK BK) as (a & h & b & EH & <-).
    destruct (heap_in v uid f0 hp HP h pl) as (_ & _ & _ & X); [rewrite EH; apply in_elt|exact X]. }
  rewrite <- RV, <- RU in IT, SB, VIS. unfold bs in SB, VIS, MP. rewrite <- RV in SB, VIS, MP.
  pose proof (pl_len ref o rs ms data f0 n g _ _ w IT GB SB SR) as LW. pose proof (pl_bytes ref o rs ms data f0 n g _ _ w IT GB SB SR) as WB.
  pose proof (pl_damaged ref o rs ms data f0 n g _ _ w IT GB SB SR) as DM.
  destruct MB as (h0 & pl0 & I0 & S0). destruct (VIS h0 pl0 I0) as (k0 & V0 & B0). rewrite S0 in B0.
  destruct (pl_ref ref o rs ms data f0 n g _ _ w IT GB SB SR k0 pl0 FL V0 B0) as (r & G & E1 & E2 & E3).
  assert (SU : repair_setup (Some B) w r d p B n).
  { split; [exists 0; exact G|]. assert (RS : ver_uses_rs (b_version r) = true) by (rewrite E1; apply IT). split; [exact RS|]. split.
    - unfold get_data_par_burst. rewrite RS. unfold get_RSD, get_RSP. rewrite E3, M1, M2. cbn [rbind]. reflexivity.
    - unfold get_FSZ, block_get_meta. rewrite E3, FZ. exists n. rewrite E1. pose proof (BC _ _ _ _ _ _ _ _ _ IT) as BCx. split; [exact BCx|]. pose proof (HN _ _ _ _ _ _ _ _ _ IT). lia. }
  assert (EN : forall seq, 1 <= seq <= n -> at_least d p d (in_place (b_version r) (b_uid r) d p B w) (set_of d p seq)).
  { intros seq Hs. destruct (AL seq Hs) as (l & ND & LL & AX). exists l. split; [exact ND|]. split; [exact LL|]. intros s Is. destruct (AX s Is) as (A1 & A2 & h & pl & IH & A3).
    split; [exact A1|]. split; [exact A2|]. destruct (VIS h pl IH) as (k & V & Bk). rewrite A3 in Bk. rewrite E1, E2.
    exact (pl_place ref o rs ms data f0 n g _ _ w IT GB SB SR k s pl V Bk A1). }
  rewrite <- E1, <- E2 in IT, DM. rewrite <- RU, <- E1, <- E2 in MP.
  destruct (c20_repair_restores rs rc (Some B) w f0 r d p B n ms data HR IT MP WB ltac:(lia) SU E3 DM EN) as (t' & w' & RF & RS).
  assert (w' = f0) as ->.
  { apply (c20_restored_is_identical _ _ _ _ _ _ _ _ _ _ IT RS). intros i NU. rewrite E1 in NU. rewrite E1, E2 in IT. apply (pl_gap ref o rs ms data f0 n g _ _ w IT GB SB SR i NU). }
  exists t, u, w, t'. auto.
Qed.
