(* Sorting and repairing blocks of a container that come in any order and of which some are missing. *)
From Verif Require Import M_Base M_Specs M_Header M_Multihash M_Metadata M_Block M_Index M_FileUtils M_Buffer M_Ranges M_Encode M_Scan M_Loop M_Decode M_Sort M_Repair
  S_Crc S_Meta S_Block S_Index S_Container S_Encode S_Scan S_Decode S_Sort S_Repair
  L_Base L_Crc L_File L_Header L_Index L_Index2 L_Block L_Ranges L_Ref L_Scan L_Container L_Decode L_Intact L_Intact2 L_Sort2 L_Sort4 L_Repair L_Repair9.

Section Partly.
Variables (ref : block) (o : dpb) (rs : codec) (ms : list metadata) (data f0 : list N) (n : N) (f : file) (lo len : N) (w : file).
Let v := b_version ref.
Let uid := b_uid ref.
Let bs := ver_to_block_size v.
Hypothesis IT : intact v uid true o rs ms data f0 n.
Hypothesis HB : bytes_ok f = true.
(* every block read is one of the container *)
Hypothesis SB : forall k seq pl, visited bs f lo len k -> block_at v uid f (lo + k * bs) seq pl -> exists i, block_at v uid f0 (i * bs) seq pl.
Hypothesis SR : sort_result v uid o f lo len [] w.

Lemma pl_used i seq k : belongs v uid o f lo len i seq k -> used_index true o n i /\
  exists pl, block_at v uid f0 (i * bs) seq pl /\ block_at v uid f (lo + k * bs) seq pl.
Proof using IT SB.
  intros (V & (pl & B) & C). destruct (SB k seq pl V B) as (k0 & B0). fold bs in B, B0.
  destruct (block_inv _ _ _ _ _ _ _ _ _ IT _ _ _ B0) as [[-> M]|(Hs & -> & E)].
  - destruct C as [[C _]|[_ M']]; [lia|]. split; [left; exact M'|]. exists pl. split; [|exact B].
    destruct (parts _ _ _ _ _ _ _ _ _ IT) as (meta & _ & _ & I2 & _). pose proof (I2 _ M) as E1. rewrite <- (I2 _ M') in E1.
    unfold block_at in *. fold bs. fold bs in E1, B0. rewrite <- E1. exact B0.
  - destruct C as [[_ ->]|[-> _]]; [|lia]. split; [right; exists seq; auto|]. exists pl. split; [exact B0|exact B].
Qed.
Lemma pl_same i seq k : belongs v uid o f lo len i seq k -> sliceN (i * bs) bs w = sliceN (i * bs) bs f0 /\ (i + 1) * bs <= lenN w.
Proof using IT SB SR HB.
  intro B0. destruct SR as (R1 & _ & _ & R4 & _). fold bs in R1, R4. split; [|exact (R4 _ _ _ B0)].
  destruct (chosen_exists f ref o lo len HB _ _ _ B0) as (k' & C & B). rewrite (R1 _ _ C).
  destruct (pl_used _ _ _ B) as (_ & pl & X0 & X). symmetry. exact (block_bytes_eq _ _ _ _ _ _ _ _ X0 X).
Qed.
Lemma pl_len : lenN w <= lenN f0.
Proof using IT SB SR HB.
  destruct (whole_blocks _ _ _ _ _ _ _ _ _ IT) as (K & EK & UK). fold bs in EK. destruct SR as (_ & _ & _ & _ & [E|(i & seq & k & B & E)]); [rewrite E; apply N.le_0_l|].
  fold bs in E. rewrite E, EK. apply N.mul_le_mono_r. destruct (pl_used _ _ _ B) as [U _]. apply UK in U. lia.
Qed.
Lemma belongs_dec i seq : (exists k, belongs v uid o f lo len i seq k) \/ (forall k, ~ belongs v uid o f lo len i seq k).
Proof using IT SB HB.
  pose proof (block_size_pos v) as BP. fold bs in BP.
  destruct (index_cases _ _ _ _ _ _ _ _ _ IT i) as [M|[(s & Hs & E)|U]].
  3: { right. intros k B. apply U. apply (pl_used _ _ _ B). }
  all: set (g := fun k => match accept ref (sliceN (lo + k * bs) bs f) with Some b => b_seq_num b =? seq | None => false end).
  all: assert (G : forall k, g k = true <-> exists pl, block_at v uid f (lo + k * bs) seq pl)
    by (intro k; unfold g; pose proof (accept_block_at ref f (lo + k * bs) HB) as A; fold v uid bs in A; destruct (accept ref _) as [b|];
        [destruct A as (A & _); rewrite N.eqb_eq; split; [intros <-; eauto|intros (pl & A'); destruct (block_at_unique _ _ _ _ _ _ _ _ A A') as [X _]; exact X]
        |split; [discriminate|intros (pl & A'); elim (A _ _ A')]]).
  - destruct (N.eq_dec seq 0) as [->|NZ].
    + destruct (existsb g (rangeN 0 (nvisit bs f lo len))) eqn:X.
      * left. apply existsb_exists in X as (k & Hk & Gk). apply In_rangeN in Hk. exists k. split; [apply visited_iff; [lia|apply Hk]|]. split; [apply G, Gk|right; auto].
      * right. intros k (V & B & _). assert (existsb g (rangeN 0 (nvisit bs f lo len)) = true); [|congruence]. apply existsb_exists. exists k. split; [apply In_rangeN; split; [lia|apply visited_iff; [lia|exact V]]|apply G, B].
    + right. intros k B. destruct (pl_used _ _ _ B) as (_ & pl & B0 & _). destruct (block_inv _ _ _ _ _ _ _ _ _ IT _ _ _ B0) as [[-> _]|(H1 & EI & _)]; [congruence|].
      destruct (meta_block_at _ _ _ _ _ _ _ _ _ IT i M) as (pl' & B'). destruct (block_at_unique _ _ _ _ _ _ _ _ B0 B') as [X _]. congruence.
  - destruct (N.eq_dec seq s) as [->|NZ].
    + destruct (existsb g (rangeN 0 (nvisit bs f lo len))) eqn:X.
      * left. apply existsb_exists in X as (k & Hk & Gk). apply In_rangeN in Hk. exists k. split; [apply visited_iff; [lia|apply Hk]|]. split; [apply G, Gk|left; split; [lia|symmetry; exact E]].
      * right. intros k (V & B & _). assert (existsb g (rangeN 0 (nvisit bs f lo len)) = true); [|congruence]. apply existsb_exists. exists k. split; [apply In_rangeN; split; [lia|apply visited_iff; [lia|exact V]]|apply G, B].
    + right. intros k B. destruct (pl_used _ _ _ B) as (_ & pl & B0 & _). destruct (data_block _ _ _ _ _ _ _ _ _ IT s Hs) as [B' _]. rewrite E in B'.
      destruct (block_at_unique _ _ _ _ _ _ _ _ B0 B') as [X _]. congruence.
Qed.
(* an index either holds the block of the container, or zeros *)
Lemma pl_index i : used_index true o n i ->
  (sliceN (i * bs) bs w = sliceN (i * bs) bs f0 /\ (i + 1) * bs <= lenN w) \/ (forall j, j / bs = i -> nthN w j = 0).
Proof using IT SB SR HB.
  intro U. assert (X : exists seq, forall seq' k, belongs v uid o f lo len i seq' k -> seq' = seq).
  { destruct (used_block _ _ _ _ _ _ _ _ _ IT i U) as (seq & pl & B & _). exists seq. intros seq' k B'. destruct (pl_used _ _ _ B') as (_ & pl' & B0 & _).
    destruct (block_at_unique _ _ _ _ _ _ _ _ B0 B) as [X _]. exact X. }
  destruct X as (seq & X). destruct (belongs_dec i seq) as [(k & B)|NB]; [left; exact (pl_same _ _ _ B)|]. right.
  destruct SR as (_ & R2 & _). fold bs in R2. intros j <-. rewrite R2; [unfold nthN; destruct (N.to_nat j); reflexivity|]. intros seq' k B. pose proof (X _ _ B) as ->. exact (NB k B).
Qed.
Lemma pl_gap j : ~ used_index true o n (j / bs) -> nthN w j = nthN f0 j.
Proof using IT SB SR HB.
  intro U. rewrite (I3 _ _ _ _ _ _ _ _ _ IT j U). destruct SR as (_ & R2 & _). fold bs in R2. rewrite R2; [unfold nthN; destruct (N.to_nat j); reflexivity|].
  intros seq k B. apply U. apply (pl_used _ _ _ B).
Qed.
Lemma pl_bytes : bytes_ok w = true.
Proof using IT SB SR HB.
  pose proof (block_size_pos v) as BP. fold bs in BP. apply bytes_ok_nth. intros j Hj.
  assert (F0 : nthN f0 j < 256) by (apply nthN_byte; exact (container_bytes _ _ _ _ _ _ _ _ _ IT)).
  assert (D : used_index true o n (j / bs) \/ ~ used_index true o n (j / bs)).
  { destruct (index_cases _ _ _ _ _ _ _ _ _ IT (j / bs)) as [M|[S|U]]; [left; left; exact M|left; right; exact S|right; exact U]. }
  destruct D as [U|U]; [|rewrite pl_gap by exact U; exact F0]. destruct (pl_index _ U) as [[E _]|Z]; [|rewrite Z by reflexivity; lia].
  pose proof (N.div_mod' j bs) as DM. pose proof (N.mod_lt j bs ltac:(lia)) as ML.
  apply (f_equal (fun l => nthN l (j mod bs))) in E. rewrite !nthN_slice in E. destruct (N.ltb_spec (j mod bs) bs); [|lia]. replace (j / bs * bs + j mod bs) with j in E by lia. rewrite E. exact F0.
Qed.
Lemma pl_damaged : damaged v uid o n f0 w.
Proof using IT SB SR HB.
  split; [exact pl_len|]. intros i z seq pl U B. fold bs in B |- *. destruct (pl_index i U) as [[E L]|Z].
  - unfold block_at in B |- *. fold bs in B |- *. rewrite slice_app_l in B by lia. rewrite E in B. exact B.
  - exfalso. destruct B as (h & (HO & _ & HT & _) & _). apply (f_equal (fun l => nthN l 0)) in HT. fold bs in HT. pose proof (block_size_pos v) as BP. fold bs in BP. pose proof (block_size_pos (h_version h)) as BH.
    assert (Z0 : nthN (takeN (ver_to_block_size (h_version h)) (sliceN (i * bs) bs (w ++ repN z 0))) 0 = 0).
    { rewrite nthN_take. destruct (N.ltb_spec 0 (ver_to_block_size (h_version h))); [|reflexivity]. rewrite nthN_slice. destruct (N.ltb_spec 0 bs); [|reflexivity]. rewrite N.add_0_r, nthN_app.
      destruct (N.ltb_spec (i * bs) (lenN w)); [apply Z, N.div_mul; lia|]. rewrite nthN_rep. destruct (_ <? _); reflexivity. }
    rewrite Z0 in HT. unfold header_to_bytes in HT. vm_compute in HT. discriminate.
Qed.
Lemma pl_place k seq pl : visited bs f lo len k -> block_at v uid f (lo + k * bs) seq pl -> 1 <= seq ->
  exists pl', block_at v uid w (calc_data_block_write_index seq (Some true) o * bs) seq pl'.
Proof using IT SB SR HB.
  intros V B H1. assert (BL : belongs v uid o f lo len (calc_data_block_write_index seq (Some true) o) seq k) by (split; [exact V|]; split; [eauto|left; auto]).
  destruct (pl_same _ _ _ BL) as [E _]. destruct (pl_used _ _ _ BL) as (_ & pl' & B0 & _). exists pl'. unfold block_at in *. fold bs in B0 |- *. rewrite E. exact B0.
Qed.
Lemma pl_ref k pl : lenN f0 < 18446744073709551616 -> visited bs f lo len k -> block_at v uid f (lo + k * bs) 0 pl ->
  exists r, get_ref_block w None None false (MustBe TMeta) = ROk (Some (0, r)) /\ b_version r = v /\ b_uid r = uid /\ b_data r = DMeta ms.
Proof using IT SB SR HB.
  intros FL V B. pose proof (meta_zero _ _ _ _ _ _ _ _ _ IT eq_refl) as M0. pose proof pl_len as WL.
  assert (BL : belongs v uid o f lo len 0 0 k) by (split; [exact V|]; split; [eauto|right; auto]).
  destruct (pl_same _ _ _ BL) as [EQ LW]. rewrite N.mul_0_l in EQ. rewrite N.add_0_l, N.mul_1_l in LW.
  destruct (meta_blk _ _ _ _ _ _ _ _ _ IT 0 M0) as (_ & h & pl' & W & VV & U & S & M). rewrite N.mul_0_l in W. fold bs in W. rewrite <- EQ in W.
  assert (WA : any_block_at w 0 h pl'). { unfold any_block_at. unfold sliceN in W. apply wf_take in W; [exact W|]. rewrite VV. reflexivity. }
  pose proof (block_size_pos v) as BP. fold bs in BP.
  destruct (ref_first w h pl' pl_bytes ltac:(lia) WA S) as (r & G & R1 & R2). exists r. split; [exact G|]. unfold b_version, b_uid. rewrite R1, R2, S. cbn [N.eqb]. rewrite M.
  split; [exact VV|]. split; [exact U|reflexivity].
Qed.
End Partly.
