(* Guessing and decoding an undamaged container. *)
From Verif Require Import M_Base M_Specs M_Crc M_Header M_Multihash M_Metadata M_Block M_Index M_FileUtils M_Buffer M_Ranges M_Encode M_Scan M_Loop M_Decode
  S_Crc S_Meta S_Block S_Index S_Container S_Encode S_Scan S_Decode
  L_Base L_Crc L_File L_Header L_Index L_Index2 L_Block L_Scan L_Container L_Ref L_Ranges L_Decode L_Decode2 L_Guess S_Guess L_Guess2 L_Intact.

Section Intact2.
Variables (v : version) (uid : list N) (me : bool) (o : dpb) (rs : codec) (ms : list metadata) (data f : list N) (n : N).
Hypothesis IT : intact v uid me o rs ms data f n.
Set Default Proof Using "All".
Let bs := ver_to_block_size v.
Let ds := ver_to_block_size v - 16.

Lemma file_bytes : bytes_ok f = true. Proof. exact (container_bytes _ _ _ _ _ _ _ _ _ IT). Qed.
Lemma used_block i : used_index me o n i -> exists seq pl, block_at v uid f (i * bs) seq pl /\ (i + 1) * bs <= lenN f /\ seq <= U32_MAX.
Proof.
  intro U. pose proof (I4 _ _ _ _ _ _ _ _ _ IT i U) as L. fold bs in L. destruct U as [M|(s & Hs & <-)].
  - destruct (meta_block_at _ _ _ _ _ _ _ _ _ IT i M) as (pl & B). exists 0, pl. split; [exact B|]. split; [exact L|apply N.le_0_l].
  - destruct (data_block _ _ _ _ _ _ _ _ _ IT s Hs) as [B _]. pose proof (HN _ _ _ _ _ _ _ _ _ IT). exists s, (payload_of v o rs data s). split; [exact B|]. split; [exact L|lia].
Qed.
Lemma file_len_bound : match o with Some (_, _, B) => B <= U32_MAX | None => True end -> lenN f < 18446744073709551616.
Proof.
  intro HB. destruct (I5 _ _ _ _ _ _ _ _ _ IT) as [E|(i & U & E)]; [lia|]. rewrite E.
  apply (positions_fit v (Some me) o n i); [exact (HO _ _ _ _ _ _ _ _ _ IT)|exact (HN _ _ _ _ _ _ _ _ _ IT)|exact HB|exact U].
Qed.

(* ---- the burst level ---- *)
Section Guess.
Variables (d p B : N) (ref : block) (mis : bool).
Hypothesis EO : o = Some (d, p, B).
Hypothesis RV : b_version ref = v.
Hypothesis RU : b_uid ref = uid.
Hypothesis RD : get_RSD ref = ROk d.
Hypothesis RP : get_RSP ref = ROk p.
Let count := 1 + p + LEVELS.
Let samples := map (option_map b_seq_num) (map (fun k => accept ref (sliceN (0 + k * bs) bs f)) (rangeN 0 (nsample bs f 0 count))).
Lemma guess_eq : guess_burst f None mis ref = ROk (pick_level d p samples).
Proof.
  pose proof (HO _ _ _ _ _ _ _ _ _ IT) as HO'. unfold guess_burst. rewrite RV.
  assert (RS : ver_uses_rs v = true) by (destruct IT as (_ & _ & _ & _ & _ & -> & _); rewrite EO; reflexivity).
  rewrite RS, RD, RP. cbn [negb rbind guess_from_pos]. rewrite (sample_ok ref f file_bytes). cbn [rbind]. rewrite RV. fold bs.
  unfold samples. rewrite Nnat.N2Nat.id. replace (1 + p + SBX_MAX_BURST_ERR_RESISTANCE + 1) with count; [reflexivity|]. unfold count, LEVELS. lia.
Qed.
Lemma sample_in k seq pl : k < count -> block_at v uid f (k * bs) seq pl -> nth_optN samples k = Some (Some seq).
Proof.
  intros HK HB. assert (KF : (k + 1) * bs <= lenN f).
  { destruct (block_inv _ _ _ _ _ _ _ _ _ IT k seq pl HB) as [[_ M]|(Hs & -> & _)]; apply (I4 _ _ _ _ _ _ _ _ _ IT); [left; exact M|right; exists seq; auto]. }
  pose proof (block_size_pos v) as BP. fold bs in BP.
  assert (KN : k < nsample bs f 0 count). { unfold nsample. rewrite N.sub_0_r. apply (mul_le_div _ bs) in KF; lia. }
  unfold samples. rewrite !nth_optN_map, nth_optN_range by lia. cbn [option_map]. rewrite !N.add_0_l.
  pose proof (accept_block_at ref f (k * bs) file_bytes) as A. rewrite RV, RU in A. fold bs in A.
  destruct (accept ref _) as [b|]; [|exfalso; exact (A _ _ HB)]. destruct A as (A & _).
  destruct (block_at_unique _ _ _ _ _ _ _ _ A HB) as [E _]. cbn [option_map]. congruence.
Qed.
Lemma sample_inv k s : nth_optN samples k = Some (Some s) -> exists pl, block_at v uid f (k * bs) s pl /\ s <= U32_MAX.
Proof.
  intro E. assert (KN : k < nsample bs f 0 count).
  { apply N.nle_gt. intro L. rewrite (proj2 (nth_optN_None samples k)) in E; [discriminate|]. unfold samples. rewrite !lenN_map, lenN_range. lia. }
  unfold samples in E. rewrite !nth_optN_map, nth_optN_range in E by lia. cbn [option_map] in E. rewrite !N.add_0_l in E. apply Some_inj in E.
  pose proof (accept_block_at ref f (k * bs) file_bytes) as A. rewrite RV, RU in A. fold bs in A.
  destruct (accept ref _) as [b|]; [|discriminate]. destruct A as (A & _). cbn [option_map] in E. apply Some_inj in E. subst s.
  eexists. split; [exact A|]. pose proof (HN _ _ _ _ _ _ _ _ _ IT). destruct (block_inv _ _ _ _ _ _ _ _ _ IT _ _ _ A) as [[-> _]|(H1 & _)]; [apply N.le_0_l|lia].
Qed.
Lemma at_own_level k s pl : block_at v uid f (k * bs) s pl -> s <= U32_MAX -> calc_seq_num_at_index k None (Some (d, p, B)) = s.
Proof.
  intros HB HS. rewrite calc_seq_num_at_index_eq. pose proof (block_num _ _ _ _ _ _ _ _ _ IT k s pl HB) as E. rewrite EO in E.
  change (seq_at k None (Some (d, p, B))) with (seq_at k (Some me) (Some (d, p, B))). rewrite E. unfold u32. apply N.mod_small. unfold U32_MAX in HS. lia.
Qed.
Lemma own_zero : mismatches d p samples B = 0.
Proof. apply mismatch_zero. intros k s E. destruct (sample_inv k s E) as (pl & HB & HS). symmetry. eapply at_own_level; eassumption. Qed.
Lemma other_level : B < LEVELS -> exists l, l < LEVELS /\ mismatches d p samples l <> 0.
Proof.
  intro HB. pose proof (HO _ _ _ _ _ _ _ _ _ IT) as HO'. rewrite EO in HO'. destruct HO' as (D1 & P1 & DP).
  assert (LV : LEVELS = 1001) by reflexivity.
  assert (MI : forall j, j <= p -> exists pl, block_at v uid f (j * (1 + B) * bs) 0 pl).
  { intros j Hj. apply (meta_block_at _ _ _ _ _ _ _ _ _ IT). rewrite EO. exists j. auto. }
  destruct (N.eq_dec B 0) as [Z|NZ].
  - exists 1. split; [lia|]. intro M. destruct (MI 1 P1) as (pl & HBk). rewrite Z in HBk. change (1 * (1 + 0)) with 1 in HBk.
    apply sample_in in HBk; [|unfold count; lia]. apply (proj1 (mismatch_zero _ _ _ _) M) in HBk.
    rewrite calc_seq_num_at_index_eq in HBk. unfold seq_at in HBk. cbn [N.eqb] in HBk.
    destruct (N.ltb_spec 1 ((1 + p) * (1 + 1))); [|lia]. change (1 mod (1 + 1) =? 0) with false in HBk. cbn [andb] in HBk.
    change (1 / (1 + 1)) with 0 in HBk. change (1 - (1 + 0)) with 0 in HBk. rewrite !N.mul_1_r in HBk.
    rewrite (N.div_0_l (d + p)), (N.mod_0_l (d + p)) in HBk by lia. change (0 / 1) with 0 in HBk. change (0 mod 1) with 0 in HBk.
    rewrite N.mul_0_r in HBk. vm_compute in HBk. discriminate.
  - exists 0. split; [lia|]. intro M. set (j := p / (1 + B) + 1).
    pose proof (N.div_mod' p (1 + B)) as DM. pose proof (N.mod_lt p (1 + B) ltac:(lia)) as ML.
    assert (JP : j <= p). { unfold j. assert (2 * (p / (1 + B)) <= p); [|lia]. transitivity ((1 + B) * (p / (1 + B))); [apply N.mul_le_mono_r; lia|lia]. }
    assert (JB : p < j * (1 + B) <= p + 1 + B) by (unfold j; lia).
    destruct (MI j JP) as (pl & HBk). apply sample_in in HBk; [|unfold count; lia]. apply (proj1 (mismatch_zero _ _ _ _) M) in HBk.
    revert HBk JB. generalize (j * (1 + B)). intros i HBk JB. rewrite calc_seq_num_at_index_eq in HBk. unfold seq_at in HBk. cbn [N.eqb] in HBk.
    destruct (N.ltb_spec i (1 + p)); [lia|]. unfold u32 in HBk. rewrite N.mod_small in HBk by lia. lia.
Qed.
Lemma guess_intact : B < LEVELS -> exists g, guess_burst f None mis ref = ROk (Some g) /\ g <= B /\
  (forall k seq pl, k < count -> block_at v uid f (k * bs) seq pl -> calc_seq_num_at_index k None (Some (d, p, g)) = seq) /\
  (1 <= n -> g = B).
Proof.
  intro HB. rewrite guess_eq. pose proof (pick_spec d p samples) as P. destruct (pick_level d p samples) as [g|].
  - destruct P as (P1 & P2 & P3). exists g. split; [reflexivity|].
    assert (GZ : mismatches d p samples g = 0) by (specialize (P2 B HB); rewrite own_zero in P2; lia).
    assert (GB : g <= B) by (apply N.nlt_ge; intro L; specialize (P3 B L); rewrite own_zero in P3; lia).
    split; [exact GB|]. split.
    + intros k seq pl HK HBk. apply sample_in in HBk; [|exact HK]. symmetry. apply (proj1 (mismatch_zero _ _ _ _) GZ). exact HBk.
    + intro N1. destruct (N.eq_dec g B) as [E|NE]; [exact E|]. exfalso.
      pose proof (HO _ _ _ _ _ _ _ _ _ IT) as HO'. rewrite EO in HO'. destruct HO' as (D1 & P1' & DP).
      assert (LV : LEVELS = 1001) by reflexivity.
      assert (N2 : 2 <= n).
      { destruct (BC _ _ _ _ _ _ _ _ _ IT) as (c & _ & C). rewrite EO in C. destruct C as (sets & _ & ->).
        destruct (N.eq_dec sets 0) as [Z|]; [rewrite Z in N1; lia|]. assert (1 * (d + p) <= sets * (d + p)) by (apply N.mul_le_mono_r; lia). lia. }
      assert (PL : forall s k, 1 <= s <= 2 -> k < count -> calc_data_block_write_index s (Some me) o = k -> calc_data_block_write_index s None (Some (d, p, g)) = k).
      { intros s k Hs HK W. destruct (data_block _ _ _ _ _ _ _ _ _ IT s ltac:(lia)) as [BA _]. rewrite W in BA.
        apply sample_in in BA; [|exact HK]. apply (proj1 (mismatch_zero _ _ _ _) GZ) in BA. symmetry in BA.
        apply placed_iff in BA; try assumption; [|unfold count in HK; lia|lia]. destruct BA as [[A _]|[_ A]]; [lia|exact A]. }
      assert (W1 : calc_data_block_write_index 1 (Some me) o = 1).
      { rewrite EO. change 1 with (1 + 0) at 1. replace 0 with ((d + p) * B * 0 + ((d + p) * 0 + 0)) at 1 by lia. rewrite write_index_eq by lia.
        unfold pos_of, mcount. cbn [N.eqb]. destruct (N.ltb_spec 0 (1 + p)); lia. }
      assert (W2 : forall me l, 1 <= l -> calc_data_block_write_index 2 me (Some (d, p, l)) = l + 2).
      { intros m l Hl. replace 2 with (1 + ((d + p) * l * 0 + ((d + p) * 0 + 1))) at 1 by lia. rewrite write_index_eq by lia.
        unfold pos_of, mcount. cbn [N.eqb]. destruct (N.ltb_spec 1 (1 + p)); lia. }
      destruct (N.eq_dec g 0) as [Z|NZ].
      * apply PL in W1; [|lia|unfold count; lia]. rewrite Z in W1. unfold calc_data_block_write_index, SBX_FIRST_DATA_SEQ_NUM in W1. cbn [N.eqb] in W1. lia.
      * specialize (W2 (Some me) B ltac:(lia)) as X. rewrite <- EO in X. apply PL in X; [|lia|unfold count; lia]. rewrite W2 in X by lia. lia.
  - exfalso. destruct (other_level HB) as (l & L1 & L2). apply L2. rewrite (P l B L1 HB). apply own_zero.
Qed.
(* levels above 1000 *)
Lemma of_nat_le a b : (a <= b)%nat -> N.of_nat a <= N.of_nat b.
Proof. clear. lia. Qed.
Lemma at_zero l : calc_seq_num_at_index 0 None (Some (d, p, l)) = 0.
Proof.
  rewrite calc_seq_num_at_index_eq. unfold seq_at. destruct (l =? 0); [destruct (N.ltb_spec 0 (1 + p)); [reflexivity|lia]|].
  destruct (N.ltb_spec 0 ((1 + p) * (1 + l))); [|lia]. rewrite N.mod_0_l by lia. reflexivity.
Qed.
Lemma at_level_0 k : k < 1000000 -> calc_seq_num_at_index k None (Some (d, p, 0)) = k - p.
Proof.
  intro H. rewrite calc_seq_num_at_index_eq. unfold seq_at. cbn [N.eqb]. unfold u32. destruct (N.ltb_spec k (1 + p)).
  - rewrite N.mod_small by lia. lia.
  - rewrite N.mod_small by lia. lia.
Qed.
(* an empty container with all but the first of the metadata blocks out of the range sampled *)
Lemma guess_empty : n = 0 -> p + 1001 <= B -> guess_burst f None mis ref = ROk None.
Proof.
  intros N0 HB. rewrite guess_eq. f_equal. apply pick_none. intros l Hl.
  assert (A : forall x, In x (found_samples samples) -> x = (0, 0)).
  { intros [k s] I. apply in_found in I. assert (HK : k < count).
    { apply N.nle_gt. intro L. rewrite (proj2 (nth_optN_None samples k)) in I; [discriminate|]. unfold samples. rewrite !lenN_map, lenN_range. unfold nsample. lia. }
    destruct (sample_inv k s I) as (pl & BA & _). destruct (block_inv _ _ _ _ _ _ _ _ _ IT _ _ _ BA) as [[-> M]|(H1 & _)]; [|lia].
    rewrite EO in M. destruct M as (j & Hj & ->). assert (LV : LEVELS = 1001) by reflexivity. unfold count in HK. destruct (N.eq_dec j 0) as [->|]; [reflexivity|]. exfalso.
    assert (1 * (1 + B) <= j * (1 + B)) by (apply N.mul_le_mono_r; lia). lia. }
  assert (K : forall l', countN (at_level d p l') (found_samples samples) = lenN (found_samples samples)).
  { intro l'. apply countN_all. intros x I. rewrite (A x I). unfold at_level. cbn [fst snd]. rewrite at_zero. reflexivity. }
  rewrite !K. reflexivity.
Qed.
Lemma in_row me' l c : c < l -> calc_data_block_write_index (1 + (d + p) * c) me' (Some (d, p, l)) = 1 + c.
Proof.
  intro H. pose proof (HO _ _ _ _ _ _ _ _ _ IT) as HO'. rewrite EO in HO'. destruct HO' as (D1 & P1' & DP).
  replace (1 + (d + p) * c) with (1 + ((d + p) * l * 0 + ((d + p) * c + 0))) by lia. rewrite write_index_eq by lia.
  unfold pos_of, mcount. cbn [N.eqb]. destruct (N.ltb_spec 0 (1 + p)); lia.
Qed.
Lemma guess_large : 1 <= n -> LEVELS <= B -> exists g, guess_burst f None mis ref = ROk (Some g).
Proof.
  intros N1 HB. rewrite guess_eq. destruct (pick_level d p samples) as [g|] eqn:E; [eauto|]. exfalso.
  pose proof (proj1 (pick_none d p samples) E) as PN. clear E.
  pose proof (HO _ _ _ _ _ _ _ _ _ IT) as HO'. rewrite EO in HO'. destruct HO' as (D1 & P1' & DP).
  assert (LV : LEVELS = 1001) by reflexivity. specialize (PN 1000 ltac:(lia)). set (F := found_samples samples) in *.
  (* what is found and fits at level 0 *)
  assert (Z : forall k s, In (k, s) F -> at_level d p 0 (k, s) = true -> (k = 0 /\ s = 0) \/
     exists c, 1 <= c /\ k = B + 2 + c /\ s = 2 + (d + p) * c /\ (d + p - 1) * c = B - p /\ s <= n).
  { intros k s I A. apply in_found in I. unfold at_level in A. cbn [fst snd] in A. apply N.eqb_eq in A.
    assert (HK : k < count).
    { apply N.nle_gt. intro L. rewrite (proj2 (nth_optN_None samples k)) in I; [discriminate|]. unfold samples. rewrite !lenN_map, lenN_range. unfold nsample. lia. }
    unfold count in HK. rewrite at_level_0 in A by lia. destruct (sample_inv k s I) as (pl & BA & _).
    destruct (block_inv _ _ _ _ _ _ _ _ _ IT _ _ _ BA) as [[-> M]|(H1 & W & _)].
    - left. rewrite EO in M. destruct M as (j & Hj & EK). split; [|reflexivity]. destruct (N.eq_dec j 0) as [->|]; [exact EK|]. exfalso.
      assert (1 * (1 + B) <= j * (1 + B)) by (apply N.mul_le_mono_r; lia). lia.
    - right. destruct (seq_decomp d p B (s - 1) D1 ltac:(lia)) as (q & a & r & Ha & Hr & ES & _).
      rewrite EO in W. replace s with (1 + (s - 1)) in W by lia. rewrite ES, write_index_eq in W by lia. unfold pos_of in W.
      assert (Q0 : q = 0). { destruct (N.eq_dec q 0) as [|NQ]; [assumption|]. exfalso. assert (2 * B * 1 <= (d + p) * B * q) by (apply N.mul_le_mono; [apply N.mul_le_mono_r; lia|lia]). lia. }
      subst q. unfold mcount in W. cbn [N.eqb] in W. rewrite N.mul_0_r in W, ES.
      assert (R2 : r < 2). { apply N.nle_gt. intro R. assert (2 * B <= r * B) by (apply N.mul_le_mono_r; exact R). lia. }
      assert (RC : r = 0 \/ r = 1) by lia. assert (MU : 2 * a <= (d + p) * a) by (apply N.mul_le_mono_r; lia).
      destruct RC as [-> | ->].
      + destruct (N.ltb_spec 0 (1 + p)); lia.
      + destruct (N.ltb_spec 1 (1 + p)); [|lia]. exists a. rewrite N.mul_sub_distr_r. destruct (N.eq_dec a 0) as [->|]; lia. }
  (* blocks of the first row *)
  assert (RW : forall c, c < 1000 -> 1 + (d + p) * c <= n -> In (1 + c, 1 + (d + p) * c) F /\ at_level d p 1000 (1 + c, 1 + (d + p) * c) = true).
  { intros c HC HS. assert (HS' : 1 <= 1 + (d + p) * c <= n) by lia.
    destruct (data_block _ _ _ _ _ _ _ _ _ IT _ HS') as [BA _]. rewrite EO in BA. rewrite in_row in BA by lia. rewrite <- EO in BA. split.
    - apply in_found. refine (sample_in _ _ _ _ BA). unfold count. lia.
    - unfold at_level. cbn [fst snd]. apply N.eqb_eq. symmetry. apply placed_iff; try assumption; [lia| |].
      + pose proof (HN _ _ _ _ _ _ _ _ _ IT). unfold U32_MAX in *. lia.
      + right. split; [lia|apply in_row; exact HC]. }
  assert (I0 : In (0, 0) F /\ forall l, at_level d p l (0, 0) = true).
  { split; [|intro l; unfold at_level; cbn [fst snd]; rewrite at_zero; reflexivity].
    apply in_found. destruct (meta_block_at _ _ _ _ _ _ _ _ _ IT 0) as (pl & BA); [rewrite EO; exists 0; lia|]. refine (sample_in 0 0 pl _ BA). unfold count. lia. }
  assert (LO : forall l, NoDup l -> (forall x, In x l -> In x F /\ at_level d p 1000 x = true) -> lenN l <= countN (at_level d p 1000) F).
  { intros l ND HI. unfold countN, lenN. apply of_nat_le, NoDup_incl_length; [exact ND|]. intros x I. apply filter_In, HI, I. }
  assert (UP : forall l, (forall x, In x F -> at_level d p 0 x = true -> In x l) -> countN (at_level d p 0) F <= lenN l).
  { intros l HI. unfold countN, lenN. apply of_nat_le, NoDup_incl_length; [apply NoDup_filter, found_nodup|].
    intros x I. apply filter_In in I as [I1 I2]. apply HI; assumption. }
  destruct (RW 0 ltac:(lia) ltac:(lia)) as [R1 R2]. rewrite !N.mul_0_r, !N.add_0_r in R1, R2. destruct I0 as [I0 IA].
  destruct (N.le_gt_cases (1 + (d + p) * 1) n) as [BIG|SMALL].
  - destruct (RW 1 ltac:(lia) BIG) as [R3 R4].
    assert (L3 : lenN [(0, 0); (1, 1); (1 + 1, 1 + (d + p) * 1)] <= countN (at_level d p 1000) F).
    { apply LO.
      - apply (NoDup_map_inv fst). cbn [map fst]. repeat constructor; cbn; intuition discriminate.
      - intros x [<-|[<-|[<-|[]]]]; auto. }
    change (lenN [(0, 0); (1, 1); (1 + 1, 1 + (d + p) * 1)]) with 3 in L3.
    set (c := (B - p) / (d + p - 1)).
    assert (U2 : countN (at_level d p 0) F <= lenN [(0, 0); (B + 2 + c, 2 + (d + p) * c)]).
    { apply UP. intros [k s] I A. destruct (Z k s I A) as [[-> ->]|(c' & _ & -> & -> & E & _)]; [left; reflexivity|right; left].
      assert (c' = c) as ->; [|reflexivity]. unfold c. rewrite <- E, N.mul_comm, N.div_mul by lia. reflexivity. }
    change (lenN [(0, 0); (B + 2 + c, 2 + (d + p) * c)]) with 2 in U2. lia.
  - assert (L2 : lenN [(0, 0); (1, 1)] <= countN (at_level d p 1000) F).
    { apply LO; [apply (NoDup_map_inv fst); cbn [map fst]; repeat constructor; cbn; intuition discriminate|]. intros x [<-|[<-|[]]]; auto. }
    assert (U1 : countN (at_level d p 0) F <= lenN [(0, 0)]).
    { apply UP. intros [k s] I A. destruct (Z k s I A) as [[-> ->]|(c' & C1 & _ & -> & _ & SN)]; [left; reflexivity|]. exfalso.
      assert ((d + p) * 1 <= (d + p) * c') by (apply N.mul_le_mono_l; exact C1). lia. }
    change (lenN [(0, 0); (1, 1)]) with 2 in L2. change (lenN [(0, 0)]) with 1 in U1. lia.
Qed.
End Guess.

(* ---- the reference block ---- *)
Lemma used_zero : me = true \/ 1 <= n -> used_index me o n 0.
Proof.
  intro H. destruct o as [[[d p] B]|] eqn:EO.
  - left. exists 0. lia.
  - destruct me eqn:EM; [left; cbn; split; [discriminate|reflexivity]|]. right. exists 1. destruct H; [discriminate|]. split; [lia|reflexivity].
Qed.
Lemma meta_zero : me = true -> meta_index (Some me) o 0.
Proof.
  intro H. rewrite H. destruct o as [[[d p] B]|]; [exists 0; lia|]. cbn. split; [discriminate|reflexivity].
Qed.
Lemma ref_meta choice mis : lenN f < 18446744073709551616 -> me = true -> (choice = Any \/ choice = Prefer TMeta \/ choice = MustBe TMeta) ->
  exists ref, get_ref_block f None None mis choice = ROk (Some (0, ref)) /\ b_version ref = v /\ b_uid ref = uid /\ b_data ref = DMeta ms.
Proof.
  intros HL ME CH. destruct (meta_blk _ _ _ _ _ _ _ _ _ IT 0 (meta_zero ME)) as (_ & h & pl & W & V & U & S & M).
  rewrite N.mul_0_l in W. assert (WA : any_block_at f 0 h pl).
  { unfold any_block_at. unfold sliceN in W. apply wf_take in W; [exact W|]. rewrite V. reflexivity. }
  pose proof (get_ref_block_ok f None None mis choice file_bytes) as K. rewrite range_whole in K by (exact HL || (unfold mult_of, SBX_SCAN_BLOCK_SIZE; lia)).
  destruct (K ltac:(lia)) as (r & E & R). clear K. rewrite E. clear E.
  assert (RR : forall P : header -> Prop, P h -> found f 0 (0 + N.max 1 (lenN f)) P r -> exists b, r = Some (0, b) /\ reads_as h pl b).
  { intros P PH F. destruct r as [[q b]|]; cbn [found] in F.
    - destruct F as (h' & pl' & (F1 & F2 & F3 & F4) & F5). destruct (N.eq_dec q 0) as [->|NZ].
      + rewrite N.add_0_l in F2. destruct (any_block_fun f 0 _ _ _ _ WA F2) as [-> ->]. exists b. auto.
      + exfalso. apply (F4 0 h pl); [constructor; lia|lia|exact WA|exact PH].
    - exfalso. apply (F 0 h pl); [constructor; lia|exact WA|exact PH]. }
  assert (exists b, r = Some (0, b) /\ reads_as h pl b) as (b & -> & RB & RD).
  { destruct CH as [-> |[-> | ->]]; cbn [ref_spec] in R.
    - apply (RR _ Logic.I R).
    - destruct R as [[_ R]|[R _]]; [exact (RR (of_type TMeta) S R)|]. exfalso. apply (R 0 h pl); [constructor; lia|exact WA|exact S].
    - exact (RR (of_type TMeta) S R). }
  exists b. split; [reflexivity|]. unfold b_version, b_uid. rewrite RB, RD, S. cbn [N.eqb]. rewrite M. split; [exact V|]. split; [exact U|reflexivity].
Qed.
Lemma lands_mult : o = None -> forall hi pos, hi <= N.max 1 (lenN f) -> lands f 0 hi pos -> exists k, pos = k * bs /\ (pos < lenN f -> used_index me o n k).
Proof.
  intros EO hi pos HH HL. pose proof (bs_ge _ _ _ _ _ _ _ _ _ IT) as BG. fold bs in BG. destruct (whole_blocks _ _ _ _ _ _ _ _ _ IT) as (K & EK & UK). fold bs in EK.
  assert (ALL : forall k, k * bs < lenN f -> used_index me o n k).
  { intros k Hk. destruct (I5 _ _ _ _ _ _ _ _ _ IT) as [Z|(i & Ui & Ei)]; [lia|]. fold bs in Ei.
    assert (KI : k <= i) by (apply N.lt_succ_r; apply (N.mul_lt_mono_pos_r bs); lia).
    rewrite EO in Ui |- *. unfold used_index in *. cbn [meta_index] in *. unfold calc_data_block_write_index, SBX_FIRST_DATA_SEQ_NUM in *.
    destruct me.
    - destruct (N.eq_dec k 0) as [->|]; [left; split; [discriminate|reflexivity]|]. right. exists k. destruct Ui as [[_ ->]|(s & Hs & <-)]; lia.
    - right. exists (k + 1). destruct Ui as [[X _]|(s & Hs & <-)]; [congruence|lia]. }
  induction HL as [|pos m HL IH HS HLT].
  - exists 0. split; [reflexivity|]. intro. apply ALL. lia.
  - destruct IH as (k & -> & _). exists (k + 1).
    assert (KL : k * bs < lenN f) by (destruct HS as (_ & HS & _); lia).
    destruct (used_block k (ALL k KL)) as (seq & pl & (h & W & V & _) & _ & _). apply (wf_header_at _ _ _ _ _ _ _ _ _ IT) in W.
    destruct HS as (_ & _ & [(h' & A & ->)|[A _]]); [|exfalso; exact (A _ W)].
    apply (header_at_parse _ _ _ file_bytes) in A, W. rewrite W in A. apply ROk_inj in A. subst h'. rewrite V. fold bs.
    split; [lia|]. intro. apply ALL. lia.
Qed.
Lemma any_is_block k h pl : used_index me o n k -> any_block_at f (k * bs) h pl -> h_version h = v /\ h_uid h = uid /\ block_at v uid f (k * bs) (h_seq_num h) pl.
Proof.
  intros U A. destruct (used_block k U) as (seq & pl' & (h' & W & V & UU & S) & _ & _).
  assert (A' : any_block_at f (k * bs) h' pl').
  { unfold any_block_at. unfold sliceN in W. apply wf_take in W; [exact W|]. rewrite V. reflexivity. }
  destruct (any_block_fun f _ _ _ _ _ A A') as [-> ->]. split; [exact V|]. split; [exact UU|]. exists h'. auto.
Qed.
Lemma ref_data choice mis : lenN f < 18446744073709551616 -> me = false -> 1 <= n -> (choice = Any \/ (exists t, choice = Prefer t) \/ choice = MustBe TData) ->
  exists ref, get_ref_block f None None mis choice = ROk (Some (0, ref)) /\ b_version ref = v /\ b_uid ref = uid /\ b_data ref = DData.
Proof.
  intros HL ME N1 CH. assert (EO : o = None) by (pose proof (MEON _ _ _ _ _ _ _ _ _ IT) as MO; destruct o as [x|]; [rewrite MO in ME; discriminate|reflexivity]).
  destruct (data_block _ _ _ _ _ _ _ _ _ IT 1 ltac:(lia)) as [(h & W & V & U & S) _]. rewrite EO, ME in W.
  change (calc_data_block_write_index 1 (Some false) None) with 0 in W. rewrite N.mul_0_l in W.
  assert (WA : any_block_at f 0 h (payload_of v o rs data 1)).
  { unfold any_block_at. unfold sliceN in W. rewrite EO. apply wf_take in W; [exact W|]. rewrite V. reflexivity. }
  pose proof (get_ref_block_ok f None None mis choice file_bytes) as K. rewrite range_whole in K by (exact HL || (unfold mult_of, SBX_SCAN_BLOCK_SIZE; lia)).
  destruct (K ltac:(lia)) as (r & E & R). clear K. rewrite E. clear E.
  assert (RR : forall P : header -> Prop, P h -> found f 0 (0 + N.max 1 (lenN f)) P r -> exists b, r = Some (0, b) /\ reads_as h (payload_of v o rs data 1) b).
  { intros P PH F. destruct r as [[q b]|]; cbn [found] in F.
    - destruct F as (h' & pl' & (F1 & F2 & F3 & F4) & F5). destruct (N.eq_dec q 0) as [->|NZ].
      + rewrite N.add_0_l in F2. destruct (any_block_fun f 0 _ _ _ _ WA F2) as [-> ->]. exists b. auto.
      + exfalso. apply (F4 0 h (payload_of v o rs data 1)); [constructor; lia|lia|exact WA|exact PH].
    - exfalso. apply (F 0 h (payload_of v o rs data 1)); [constructor; lia|exact WA|exact PH]. }
  assert (NM : forall pos h pl, lands f 0 (0 + N.max 1 (lenN f)) pos -> any_block_at f pos h pl -> 1 <= h_seq_num h).
  { intros pos h' pl' HLD A. pose proof (wf_header _ _ _ _ A) as [_ LP]. pose proof (block_size_pos (h_version h')).
    destruct (lands_mult EO _ pos (N.le_refl _) HLD) as (k & -> & UK). specialize (UK ltac:(lia)). destruct (any_is_block _ _ _ UK A) as (_ & _ & B).
    destruct (block_inv _ _ _ _ _ _ _ _ _ IT _ _ _ B) as [[_ M]|[L _]]; [|lia]. apply (meta_index_on _ _ _ _ _ _ _ _ _ IT) in M. congruence. }
  assert (S1 : 1 <= h_seq_num h) by (rewrite S; lia).
  assert (exists b, r = Some (0, b) /\ reads_as h (payload_of v o rs data 1) b) as (b & -> & RB & RD).
  { destruct CH as [-> |[([] & ->)| ->]]; cbn [ref_spec] in R.
    - apply (RR _ Logic.I R).
    - destruct R as [[_ R]|[_ R]]; [exact (RR (of_type TData) S1 R)|exact (RR (fun _ => True) Logic.I R)].
    - destruct R as [[RN R]|[_ R]]; [|exact (RR (fun _ => True) Logic.I R)]. exfalso. destruct r as [[q b]|]; [|congruence].
      destruct R as (h' & pl' & (F1 & F2 & F3 & _) & _). specialize (NM _ _ _ F1 F2). cbn in F3. lia.
    - exact (RR (of_type TData) S1 R). }
  exists b. split; [reflexivity|]. unfold b_version, b_uid. rewrite RB, RD, S. cbn [N.eqb]. auto.
Qed.

(* ---- every chunk is read ---- *)
Lemma chunk_seq j : j * ds < lenN data -> exists seq, 1 <= seq <= n /\ is_chunk o seq j.
Proof.
  intro HJ. destruct (BC _ _ _ _ _ _ _ _ _ IT) as (chunks & C1 & C2). fold ds in C1. unfold is_ceil_div in *.
  pose proof (HO _ _ _ _ _ _ _ _ _ IT) as HO'. assert (JC : j < chunks). { apply N.nle_gt. intro L. apply (N.mul_le_mono_r _ _ ds) in L. lia. }
  destruct o as [[[d p] B]|].
  - destruct HO' as (D1 & _). destruct C2 as (sets & C2 & ->). pose proof (N.div_mod' j d) as DM. pose proof (N.mod_lt j d ltac:(lia)) as ML.
    assert (JS : j / d < sets). { apply N.nle_gt. intro L. apply (N.mul_le_mono_r _ _ d) in L. lia. }
    exists (1 + j / d * (d + p) + j mod d). split.
    + assert (X : (j / d + 1) * (d + p) <= sets * (d + p)) by (apply N.mul_le_mono_r; lia). rewrite N.mul_add_distr_r in X. revert X ML. generalize (j / d * (d + p)), (j mod d). intros. lia.
    + exists (j / d), (j mod d). lia.
  - exists (1 + j). cbn. lia.
Qed.
Lemma chunk_last seq j : 1 <= seq <= n -> o = None -> is_chunk o seq j -> (j + 1) * ds <= n * ds.
Proof. intros Hs EO C. rewrite EO in C. cbn in C. apply N.mul_le_mono_r. lia. Qed.
Lemma all_visited k : used_index me o n k -> visited bs f 0 (N.max 1 (lenN f)) k.
Proof. intro U. apply (I4 _ _ _ _ _ _ _ _ _ IT) in U. fold bs in U. pose proof (bs_ge _ _ _ _ _ _ _ _ _ IT) as BG. fold bs in BG. split; lia. Qed.
Lemma visited_used seq : 1 <= seq <= n -> visited bs f 0 (N.max 1 (lenN f)) (calc_data_block_write_index seq (Some me) o).
Proof. intro H. apply all_visited. right. exists seq. auto. Qed.
(* bytes restored from an undamaged container *)
Lemma restored_chunk o' old i x : (forall seq j, is_chunk o' seq j <-> is_chunk o seq j) ->
  restored v uid o' f 0 (N.max 1 (lenN f)) old i x -> i / ds * ds < lenN data -> x = nthN (chunk ds data (i / ds)) (i mod ds).
Proof.
  intros IC R HI. unfold restored in R. cbv zeta in R. fold bs in R. change (bs - 16) with ds in R.
  destruct R as [(k & seq & pl & V & BA & C & X & _)|[NO _]].
  - rewrite N.add_0_l in BA. apply IC in C. destruct (block_inv _ _ _ _ _ _ _ _ _ IT _ _ _ BA) as [[-> M]|(Hs & -> & ->)].
    + exfalso. unfold is_chunk in C. destruct o as [[[d p] B]|]; [destruct C as (s & q & C1 & C2 & _); lia|lia].
    + rewrite X, (payload_chunk v o rs data seq _ C). reflexivity.
  - exfalso. destruct (chunk_seq _ HI) as (seq & Hs & C). apply (NO _ seq (payload_of v o rs data seq) (visited_used seq Hs)).
    + rewrite N.add_0_l. apply (data_block _ _ _ _ _ _ _ _ _ IT seq Hs).
    + apply IC, C.
Qed.
Lemma ds_pos : 1 <= ds. Proof. pose proof (block_size_pos v). unfold ds. lia. Qed.
Lemma restored_byte o' old i x : (forall seq j, is_chunk o' seq j <-> is_chunk o seq j) ->
  restored v uid o' f 0 (N.max 1 (lenN f)) old i x -> i < lenN data -> x = nthN data i.
Proof.
  intros IC R HI. pose proof ds_pos as DP. pose proof (N.div_mod' i ds) as DM. pose proof (N.mod_lt i ds ltac:(lia)) as ML.
  rewrite (restored_chunk o' old i x IC R) by lia. rewrite nth_chunk by lia. f_equal. lia.
Qed.
End Intact2.
