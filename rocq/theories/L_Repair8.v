(* Repairing, part 8: a damaged container gets back exactly the bytes it had. *)
From Verif Require Import M_Base M_Specs M_Crc M_Header M_Multihash M_Metadata M_Block M_Index M_FileUtils M_Buffer M_Ranges M_Encode M_Scan M_Loop M_Decode M_Repair
  S_Crc S_Meta S_Block S_Index S_Container S_Scan S_Decode S_Encode S_Repair
  L_Base L_Crc L_File L_Header L_Meta L_Block L_Block2 L_Index L_Index2 L_Buffer L_Encode L_Loop L_Scan L_Container L_Ranges L_Decode L_Decode2 L_Ref L_Lot L_Sort2 L_Intact L_Repair L_Repair2 L_Repair3 L_Repair4 L_Repair5 L_Repair6 L_Repair7.
Ltac Zify.zify_post_hook ::= idtac.

Lemma getN_app_r {A} (l1 l2 : list A) j : lenN l1 <= j -> getN (l1 ++ l2) j = getN l2 (j - lenN l1).
Proof. intro H. unfold getN, lenN in *. rewrite nth_error_app2 by lia. f_equal. lia. Qed.
Lemma getN_app_l {A} (l1 l2 : list A) j : j < lenN l1 -> getN (l1 ++ l2) j = getN l1 j.
Proof. intro H. unfold getN, lenN in *. apply nth_error_app1. lia. Qed.
Lemma getN_nth {A} (l : list A) j a : j < lenN l -> getN l j = Some (nth (N.to_nat j) l a).
Proof. intro H. unfold getN, lenN in *. apply nth_error_nth'. lia. Qed.

Section Restore.
Variables (rs : codec) (rc : recon) (burst : option N) (f f0 : file) (ref : block) (d p B n : N) (ms : list metadata) (data : list N).
Let v := b_version ref.
Let uid := b_uid ref.
Let bs := ver_to_block_size v.
Let o := Some (d, p, B).
Let widx seq := calc_data_block_write_index seq (Some true) o.
Hypothesis HR : recon_ok rs rc d p.
Hypothesis IT : intact v uid true o rs ms data f0 n.
Hypothesis MP : forall i, meta_index (Some true) o i -> meta_plain v uid ms (sliceN (i * bs) bs f0).
Hypothesis HB : bytes_ok f = true.
Hypothesis HL : lenN f < 18446744073709551616.
Hypothesis SU : repair_setup burst f ref d p B n.
Hypothesis RM : b_data ref = DMeta ms.
Hypothesis DM : damaged v uid o n f0 f.
Hypothesis EN : forall seq, 1 <= seq <= n -> at_least d p d (in_place v uid d p B f) (set_of d p seq).

Lemma n_sets : n = n / (d + p) * (d + p).
Proof.
  destruct (L_Intact.BC _ _ _ _ _ _ _ _ _ IT) as (c & _ & sets & _ & ->). destruct (L_Intact.HO _ _ _ _ _ _ _ _ _ IT) as (D1 & _). rewrite N.div_mul by lia. reflexivity.
Qed.
Lemma words k : codeword rs ref d p (payload_of v o rs data) k.
Proof.
  destruct (L_Intact.HO _ _ _ _ _ _ _ _ _ IT) as (D1 & D2 & D3). pose proof (L_Intact.HC _ _ _ _ _ _ _ _ _ IT) as HC. pose proof (L_Intact.HD _ _ _ _ _ _ _ _ _ IT) as HD.
  set (ds := bs - 16). exists (map (chunk ds data) (rangeN (k * d) (k * d + d))).
  assert (LD : lenN (map (chunk ds data) (rangeN (k * d) (k * d + d))) = d) by (rewrite lenN_map, lenN_range; lia).
  assert (GD : forall x, In x (map (chunk ds data) (rangeN (k * d) (k * d + d))) -> lenN x = ds /\ bytes_ok x = true).
  { intros x Hx. apply in_map_iff in Hx as (j & <- & _). split; [apply lenN_chunk|apply bytes_ok_chunk, HD]. }
  split; [exact LD|]. split; [exact GD|]. intros j Hj. unfold payload_of, o. fold bs ds.
  replace (1 + k * (d + p) + j - 1) with (k * (d + p) + j) by lia.
  destruct (dm_eq (k * (d + p) + j) (d + p) k j ltac:(lia) Hj) as [-> ->].
  destruct (N.ltb_spec j d) as [L|L].
  - rewrite getN_app_l by lia. rewrite getN_map, getN_range by lia. reflexivity.
  - rewrite getN_app_r by lia. rewrite LD. destruct (HC ds _ LD GD) as [LP _]. apply getN_nth. lia.
Qed.
Lemma plain_bytes bytes : Forall field_ok ms -> fields_size ms <= bs - 16 -> meta_plain v uid ms bytes -> bytes = meta_bytes ref ms.
Proof.
  intros HF HZ (pl & E & crc & C & ->). rewrite metas_to_bytes_eq in E by exact HF. fold bs in E. destruct (N.ltb_spec (bs - 16) (fields_size ms)); [lia|].
  apply ROk_inj in E. unfold meta_bytes. fold v bs. fold (meta_payload ref ms).
  assert (EP : pl = meta_payload ref ms) by (rewrite <- E; reflexivity). rewrite EP in *.
  destruct (L_Intact.UID _ _ _ _ _ _ _ _ _ IT) as [U1 U2].
  assert (EC : crc = crc_of v uid 0 (meta_payload ref ms)).
  { assert (PB : bytes_ok (meta_payload ref ms) = true).
    { unfold meta_payload. rewrite bytes_ok_app, fields_bytes_ok, bytes_ok_rep by (try exact HF; lia). reflexivity. }
    eapply is_crc_unique; [exact C|]. apply crc_is_remainder; [pose proof (ver_usize_lt v); lia|rewrite !bytes_ok_app, U2, bytes_ok_be, PB; reflexivity]. }
  rewrite EC. unfold header_to_bytes. cbn [h_version h_crc h_uid h_seq_num]. rewrite <- !app_assoc. unfold v. destruct (b_version ref); reflexivity.
Qed.
Lemma final_restored ms' w : Forall field_ok ms' -> fields_size ms' <= bs - 16 -> b_data ref = DMeta ms' -> Final rs f ref d p B n ms' w -> restored v o n f0 f w.
Proof.
  intros HF HZ RM' (F1 & F2 & F3 & F4 & F5 & F6 & F7 & F8). fold v uid bs o in F3, F4, F5, F6, F7.
  assert (ms' = ms) by congruence. subst ms'. pose proof (HO7 burst f ref d p B n HB HL SU) as HO. pose proof HO as (D1 & D2 & D3). pose proof n_sets as NS.
  destruct DM as (DL & DB). fold bs in DB. pose proof (BSR ref) as BZ. fold v bs in BZ.
  (* the blocks of the container *)
  assert (SLOT : forall i, used_index true o n i -> (i + 1) * bs <= lenN w /\ sliceN (i * bs) bs w = sliceN (i * bs) bs f0).
  { intros i [MI|(s & Hs & <-)].
    - destruct (F4 i MI) as (seq & pl & BA). fold bs in BA. pose proof (block_at_len _ _ _ _ _ _ BA) as LB. fold bs in LB. split; [lia|].
      destruct (F5 i MI) as [SB|E].
      + apply (block_at_ext v uid f w i seq pl SB F1) in BA as BA'. apply DB in BA'; [|left; exact MI]. apply (block_at_bytes v uid w f0 _ _ seq pl BA BA').
      + rewrite E. symmetry. apply plain_bytes; [exact HF|exact HZ|]. apply MP, MI.
    - assert (SK : set_of d p s < n / (d + p)).
      { unfold set_of. apply N.div_lt_upper_bound; [lia|]. rewrite N.mul_comm, <- NS. lia. }
      destruct (F7 _ SK) as (z & X). cbv zeta in X. set (g := f ++ repN z 0) in *.
      assert (BG : bytes_ok g = true) by (unfold g; rewrite bytes_ok_app, HB, bytes_ok_rep by lia; reflexivity).
      assert (G : d <= held ref d p B g (set_of d p s)).
      { apply (held_at_least_gen ref d p B g _ HO BG). generalize (EN s Hs). apply at_least_impl. intros s'. apply in_place_ext. }
      destruct (N.leb_spec d (held ref d p B g (set_of d p s))); [|lia]. destruct X as (_ & _ & X).
      assert (BA : block_at v uid w (widx s * bs) s (payload_of v o rs data s)).
      { apply (X (payload_of v o rs data) (words _)); [|apply seqs_in7; [exact D1|split; [lia|reflexivity]]].
        intros s' pl' Hs' BA'. apply seqs_in7 in Hs' as [S1 S2]; [|exact D1].
        assert (s' <= n).
        { rewrite NS. apply (complete_iff d p n s' D1) in S1 as CI. rewrite <- N.lt_succ_r, <- N.add_1_l. apply CI. rewrite S2. rewrite NS at 1. apply N.mul_le_mono_r. lia. }
        apply DB in BA'; [|right; exists s'; split; [lia|reflexivity]].
        destruct (block_inv _ _ _ _ _ _ _ _ _ IT _ _ _ BA') as [[-> _]|(_ & _ & E)]; [lia|exact E]. }
      pose proof (block_at_len _ _ _ _ _ _ BA) as LB. fold bs in LB. split; [unfold widx in LB; lia|].
      destruct (data_block _ _ _ _ _ _ _ _ _ IT s Hs) as [BA0 _]. apply (block_at_bytes v uid w f0 _ _ s _ BA BA0). }
  assert (LW : lenN w = lenN f0).
  { apply N.le_antisymm.
    - rewrite <- NS in F8. destruct F8 as [E|(i & U & E)]; [lia|]. rewrite E. apply (I4 _ _ _ _ _ _ _ _ _ IT i U).
    - destruct (I5 _ _ _ _ _ _ _ _ _ IT) as [E|(i & U & E)]; [lia|]. rewrite E. apply SLOT, U. }
  split; [exact LW|]. fold bs. split.
  - intros i U. pose proof (N.div_mod' i bs) as DI. pose proof (N.mod_lt i bs ltac:(lia)) as ML.
    destruct (SLOT _ U) as [_ E]. apply (f_equal (fun l => nthN l (i mod bs))) in E. rewrite !nthN_slice in E.
    destruct (N.ltb_spec (i mod bs) bs); [|lia]. replace (i / bs * bs + i mod bs) with i in E by lia. exact E.
  - intros i U. destruct (index_covered (Some true) o (i / bs) HO) as [M|(s & S1 & E)]; [exfalso; apply U; left; exact M|].
    apply (F6 s S1); [|symmetry; exact E]. destruct (N.le_gt_cases s n) as [L|L]; [exfalso; apply U; right; exists s; auto|].
    unfold set_of. apply N.div_le_lower_bound; [lia|]. rewrite N.mul_comm, <- NS. lia.
Qed.
Lemma repair_restores : exists t w, repair_file rc false burst f = ROk (Some (t, w)) /\ restored v o n f0 f w.
Proof.
  destruct (repair_result rs rc burst f ref d p B n HR HB HL SU) as (ms' & w & t & HF & HZ & HD & E & F). exists t, w. split; [exact E|].
  apply (final_restored ms' w HF HZ HD F).
Qed.
End Restore.
(* with the gaps as they were, the file is what it was *)
Lemma restored_same v uid o rs ms data n f0 f w : intact v uid true o rs ms data f0 n -> restored v o n f0 f w ->
  (forall i, ~ used_index true o n (i / ver_to_block_size v) -> nthN f i = nthN f0 i) -> w = f0.
Proof.
  intros IT (R1 & R2 & R3) G. apply list_ext_N; [exact R1|]. intros i _.
  destruct (index_cases _ _ _ _ _ _ _ _ _ IT (i / ver_to_block_size v)) as [U|[(s & Hs & E)|U]].
  - apply R2. left. exact U.
  - apply R2. right. exists s. auto.
  - rewrite R3, G by exact U. reflexivity.
Qed.
