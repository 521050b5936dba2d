(* Repairing, part 6: the counters; repairing twice. *)
From Verif Require Import M_Base M_Specs M_Crc M_Header M_Multihash M_Metadata M_Block M_Index M_FileUtils M_Buffer M_Ranges M_Encode M_Scan M_Loop M_Decode M_Repair
  S_Crc S_Meta S_Block S_Index S_Container S_Scan S_Decode S_Encode S_Repair
  L_Base L_Crc L_File L_Header L_Meta L_Block L_Block2 L_Index L_Index2 L_Buffer L_Encode L_Loop L_Scan L_Container L_Ranges L_Decode L_Decode2 L_Ref L_Lot L_Sort2 L_Intact L_Repair L_Repair2 L_Repair3 L_Repair4 L_Repair5.
Ltac Zify.zify_post_hook ::= idtac.

Lemma exactly_count (g : N -> bool) (P : N -> Prop) l : NoDup l -> (forall i, P i <-> In i l /\ g i = true) -> exactly P (countN g l).
Proof.
  intros ND H. exists (filter g l). split; [apply NoDup_filter, ND|]. split; [|reflexivity]. intro i. rewrite filter_In. symmetry. apply H.
Qed.
Lemma countN_app {A} (g : A -> bool) l1 l2 : countN g (l1 ++ l2) = countN g l1 + countN g l2.
Proof. unfold countN. rewrite filter_app, lenN_app. reflexivity. Qed.
Lemma countN_cons {A} (g : A -> bool) a l : countN g (a :: l) = (if g a then 1 else 0) + countN g l.
Proof. unfold countN. cbn [filter]. destruct (g a); [rewrite lenN_cons; lia|reflexivity]. Qed.
Lemma countN_split {A} (g : A -> bool) l : countN g l + countN (fun x => negb (g x)) l = lenN l.
Proof. induction l as [|a l IH]; [reflexivity|]. rewrite !countN_cons, lenN_cons. destruct (g a); cbn [negb]; lia. Qed.
Lemma NoDup_front {A} (l1 l2 : list A) : NoDup (l1 ++ l2) -> NoDup l1.
Proof. induction l1 as [|a l1 IH]; intro H; [constructor|]. inversion H as [|? ? X Y]; subst. constructor; [|auto]. intro. apply X. apply in_app_iff. left. assumption. Qed.
Lemma NoDup_range lo hi : NoDup (rangeN lo hi).
Proof. apply NoDup_rangeN. Qed.

Lemma complete_iff d p m s : 1 <= d -> 1 <= s -> (set_of d p s + 1) * (d + p) <= m <-> s < 1 + m / (d + p) * (d + p).
Proof.
  intros D1 Hs. unfold set_of. assert (DN : d + p <> 0) by lia. pose proof (N.div_mod' (s - 1) (d + p)) as E1. pose proof (N.mod_lt (s - 1) (d + p) DN) as E2.
  pose proof (N.div_mod' m (d + p)) as E3. pose proof (N.mod_lt m (d + p) DN) as E4. revert E1 E2 E3 E4.
  generalize ((s - 1) / (d + p)) ((s - 1) mod (d + p)) (m / (d + p)) (m mod (d + p)). intros a b q r E1 E2 E3 E4. clear - E1 E2 E3 E4 Hs.
  generalize dependent (d + p). intros D E1 E2 E3 E4. destruct (N.le_gt_cases (a + 1) q) as [C|C].
  - pose proof (N.mul_le_mono_r (a + 1) q D C). split; intros _; lia.
  - pose proof (N.mul_le_mono_r (q + 1) (a + 1) D ltac:(lia)). split; intro X; lia.
Qed.

Lemma held_at_least_gen ref d p B g k : dpb_ok (Some (d, p, B)) -> bytes_ok g = true ->
  d <= L_Repair2.held ref d p B g k <-> at_least d p d (in_place (b_version ref) (b_uid ref) d p B g) k.
Proof.
  intros HO HB. pose proof HO as (D1 & D2 & D3).
  assert (SI : forall s, In s (seqs_of_set d p k) <-> 1 <= s /\ set_of d p s = k).
  { intro s. split.
    - intro H. assert (1 <= s). { unfold seqs_of_set in H. apply in_map_iff in H as (j & <- & _). lia. } split; [assumption|]. apply set_members; assumption.
    - intros [H1 H2]. apply set_members; assumption. }
  assert (ND : NoDup (seqs_of_set d p k)). { pose proof (burst_sets (Some true) d p B [] k ltac:(lia) ltac:(rewrite lenN_nil; lia)) as (_ & X & _). exact X. }
  unfold L_Repair2.held, countN. set (g' := L_Repair2.mark ref d p B g). split.
  - intro H. exists (firstn (N.to_nat d) (filter g' (seqs_of_set d p k))).
    assert (NF : NoDup (filter g' (seqs_of_set d p k))) by (apply NoDup_filter, ND).
    split; [rewrite <- (firstn_skipn (N.to_nat d)) in NF; apply NoDup_front in NF; exact NF|]. split.
    + unfold lenN in *. rewrite firstn_length. lia.
    + intros s Hs. assert (Hs' : In s (filter g' (seqs_of_set d p k))) by (rewrite <- (firstn_skipn (N.to_nat d)); apply in_app_iff; left; exact Hs).
      apply filter_In in Hs' as [X Y]. apply SI in X as [X1 X2]. apply (mark_iff ref d p B) in Y; [|exact HB]. auto.
  - intros (l & NL & LL & HLl). assert (I : incl l (filter g' (seqs_of_set d p k))).
    { intros s Hs. destruct (HLl s Hs) as (X1 & X2 & X3). apply filter_In. split; [apply SI; auto|apply (mark_iff ref d p B); assumption]. }
    pose proof (NoDup_incl_length NL I). unfold lenN in *. lia.
Qed.

Section Counters.
Variables (rs : codec) (rc : recon) (burst : option N) (f : file) (ref : block) (d p B m : N) (dry : bool).
Hypothesis HR : recon_ok rs rc d p.
Hypothesis HB : bytes_ok f = true.
Hypothesis HL : lenN f < 18446744073709551616.
Hypothesis SU : repair_setup burst f ref d p B m.
Let v := b_version ref.
Let uid := b_uid ref.
Let bs := ver_to_block_size v.
Let o := Some (d, p, B).
Let widx seq := calc_data_block_write_index seq (Some true) o.
Hypothesis WD : dry = true \/ lenN f mod bs = 0.
Notation mark := (mark ref d p B).
Notation held := (held ref d p B).
Notation mmark := (mmark ref).
Notation seqs := (seqs_of_set d p).
Notation HO := (L_Repair5.HO burst f ref d p B m HB HL SU).

Lemma whole_block g z i seq pl : lenN g mod bs = 0 -> block_at v uid (g ++ repN z 0) (i * bs) seq pl -> block_at v uid g (i * bs) seq pl.
Proof.
  intros WHOLE BA. pose proof (BSR ref) as BZ. fold v bs in BZ.
  pose proof (N.div_mod' (lenN g) bs) as DM. rewrite WHOLE, N.add_0_r in DM. set (q := lenN g / bs) in *.
  destruct (N.lt_ge_cases i q) as [L|L].
  - destruct BA as (h & W & X). exists h. split; [|exact X]. fold bs in W. fold bs. pose proof (N.mul_le_mono_r (i + 1) q bs ltac:(lia)). rewrite slice_app_l in W by lia. exact W.
  - exfalso. destruct BA as (h & W & X). fold bs in W.
    assert (Z : forall j, nthN (sliceN (i * bs) bs (g ++ repN z 0)) j = 0).
    { intro j. rewrite nthN_slice. destruct (_ <? _); [|reflexivity]. rewrite nthN_app. destruct (N.ltb_spec (i * bs + j) (lenN g)); [pose proof (N.mul_le_mono_r q i bs L); lia|]. apply nthN_rep0. }
    destruct W as (W1 & W2 & W3 & W4). specialize (Z 0). pose proof (f_equal (fun l => nthN l 0) W3) as Y. cbv beta in Y. rewrite nthN_take in Y.
    pose proof (block_size_pos (h_version h)) as HP. destruct (N.ltb_spec 0 (ver_to_block_size (h_version h))); [|lia]. rewrite Z in Y. discriminate Y.
Qed.
Lemma whole_same g w i seq pl : lenN g mod bs = 0 -> lenN g <= lenN w -> same_block v g w i ->
  block_at v uid w (i * bs) seq pl <-> block_at v uid g (i * bs) seq pl.
Proof.
  intros WH L SB. split; intro H.
  - apply (block_at_ext v uid g w i seq pl SB L) in H. apply whole_block in H; assumption.
  - apply (block_at_same v uid g w i seq pl SB L H).
Qed.
Lemma mark_keep w s : bytes_ok w = true -> lenN f <= lenN w -> same_block v f w (widx s) -> (dry = true -> w = f) -> mark w s = mark f s.
Proof.
  intros BW L SB DW. destruct WD as [D|WH]; [rewrite DW by exact D; reflexivity|]. apply bool_iff. rewrite !(mark_iff ref d p B) by assumption.
  unfold in_place. split; intros (pl & X); exists pl; apply (whole_same f w (widx s) s pl WH L SB); exact X.
Qed.
Lemma mmark_keep w i : bytes_ok w = true -> lenN f <= lenN w -> same_block v f w i -> (dry = true -> w = f) -> mmark w i = mmark f i.
Proof.
  intros BW L SB DW. destruct WD as [D|WH]; [rewrite DW by exact D; reflexivity|]. apply bool_iff. rewrite !(mmark_iff ref) by assumption.
  unfold some_block. split; intros (seq & pl & X); exists seq, pl; apply (whole_same f w i seq pl WH L SB); exact X.
Qed.
Definition meta_stats (l : list N) (t : pstats) : pstats := fold_left (fun t i => add_meta (mmark f i) t) l t.
Lemma mrun_stats ms : Forall field_ok ms -> fields_size ms <= bs - 16 -> forall l w t, bytes_ok w = true -> lenN f <= lenN w -> NoDup l -> (forall i, In i l -> same_block v f w i) ->
  (dry = true -> w = f) -> snd (mrun ref ms dry l (w, t)) = meta_stats l t.
Proof.
  intros HF HZ. destruct (setup_facts burst f ref d p B m HB HL SU) as (HO & HH & S0 & _).
  induction l as [|i l IH]; intros w t BW L ND SB DW; [reflexivity|].
  change (mrun ref ms dry (i :: l) (w, t)) with (mrun ref ms dry l (mput ref ms dry w i, add_meta (mmark w i) t)).
  inversion ND as [|? ? NI ND']; subst. destruct (meta_bytes_ok ref ms d p B HH S0 HF HZ) as [L1 L2]. fold v bs in L1.
  rewrite (mmark_keep w i BW L (SB i (or_introl eq_refl)) DW). rewrite IH; [reflexivity| | |exact ND'| |].
  - apply (mput_bytes rc ref ms d p B dry HH S0 HF HZ). exact BW.
  - unfold mput. destruct (mmark w i); [exact L|]. destruct dry; [exact L|]. rewrite lenN_file_write. destruct (_ =? _); lia.
  - intros j Hj. eapply same_block_trans; [apply SB; right; exact Hj|]. unfold mput. destruct (mmark w i); [apply same_block_refl|]. destruct dry; [apply same_block_refl|].
    apply (write_same f ref ms d p B S0 HZ); [exact L1|]. intros ->. contradiction.
  - intro D. unfold mput. destruct (mmark w i); [apply DW, D|]. rewrite D. apply DW, D.
Qed.
Definition all_stats (k : N) (t : pstats) : pstats := fold_left (fun t j => set_stats ref d p B f j (add_all ref d p B f (seqs j) t)) (rangeN 0 k) t.
Lemma add_all_ext w l t : (forall s, In s l -> mark w s = mark f s) -> add_all ref d p B w l t = add_all ref d p B f l t.
Proof.
  revert t. unfold add_all. induction l as [|s l IH]; intros t H; [reflexivity|]. cbn [fold_left]. rewrite (H s (or_introl eq_refl)). apply IH. intros. apply H. right. assumption.
Qed.
Lemma sets_stats w1 t1 : lenN f <= lenN w1 -> bytes_ok w1 = true -> (forall s, 1 <= s -> same_block v f w1 (widx s)) -> (dry = true -> w1 = f) ->
  forall k w t, Sets rs ref d p B dry w1 t1 k w t -> k * (d + p) < 4294967296 ->
  t = all_stats k t1 /\ (forall s, 1 <= s -> k <= set_of d p s -> mark w s = mark f s).
Proof.
  intros L1 B1 SD DW k w t SS. destruct (setup_facts burst f ref d p B m HB HL SU) as (HO & HH & S0 & ms & _ & _ & HZ).
  assert (MK : forall k w t, Sets rs ref d p B dry w1 t1 k w t -> k * (d + p) < 4294967296 -> forall s, 1 <= s -> k <= set_of d p s -> mark w s = mark f s).
  { intros k' w' t' SS' HK s Hs Hk. assert (DC : dry = true \/ dry = false) by (destruct dry; auto). destruct DC as [D|D]; rewrite D in SS'.
    - apply sets_dry in SS'. rewrite SS', DW by exact D. reflexivity.
    - destruct (sets_done rs f ref ms d p B HO HH S0 HZ HB w1 t1 L1 B1 SD _ _ _ SS' HK) as (I1 & I2 & _ & I4 & _).
      apply mark_keep; [exact I2|lia|apply I4; assumption|rewrite D; discriminate]. }
  intro HK. split; [|intros s S1 S2; exact (MK _ _ _ SS HK s S1 S2)].
  induction SS as [|k w t ws SS IH ST]; [reflexivity|]. specialize (IH ltac:(nia)). unfold all_stats in *. rewrite rangeN_snoc by lia. rewrite fold_left_app. cbn [fold_left]. rewrite <- IH.
  assert (E : forall s, In s (seqs k) -> mark w s = mark f s). { intros s Hs. apply (seqs_in f ref ms d p B HO S0 HZ) in Hs as [H1 H2]. apply (MK k w t SS ltac:(nia)); lia. }
  rewrite (add_all_ext w _ t E). unfold set_stats. replace (held w k) with (held f k) by (symmetry; apply countN_ext; exact E). reflexivity.
Qed.

(* closed forms *)
Lemma meta_closed l : forall t, meta_stats l t = mkPstats (ps_meta t + countN (mmark f) l) (ps_data t)
  (ps_failed t + countN (fun i => negb (mmark f i)) l) (ps_meta_rep t + countN (fun i => negb (mmark f i)) l) (ps_data_rep t) (ps_data_fail t).
Proof.
  induction l as [|i l IH]; intro t.
  - change (countN _ []) with 0. rewrite !N.add_0_r. destruct t; reflexivity.
  - unfold meta_stats in *. cbn [fold_left]. rewrite IH, !countN_cons. unfold add_meta. destruct (mmark f i); cbn [ps_meta ps_data ps_failed ps_meta_rep ps_data_rep ps_data_fail negb]; f_equal; lia.
Qed.
Lemma data_closed l : forall t, add_all ref d p B f l t = mkPstats (ps_meta t) (ps_data t + countN (mark f) l)
  (ps_failed t + countN (fun i => negb (mark f i)) l) (ps_meta_rep t) (ps_data_rep t) (ps_data_fail t).
Proof.
  induction l as [|i l IH]; intro t.
  - change (countN _ []) with 0. rewrite !N.add_0_r. destruct t; reflexivity.
  - unfold add_all in *. cbn [fold_left]. rewrite IH, !countN_cons. unfold add_data. destruct (mark f i); cbn [ps_meta ps_data ps_failed ps_meta_rep ps_data_rep ps_data_fail negb]; f_equal; lia.
Qed.
Definition can (s : N) : bool := d <=? held f (set_of d p s).
Lemma countN_const {A} (g : A -> bool) (b : bool) l : countN (fun x => g x && b) l = if b then countN g l else 0.
Proof.
  induction l as [|a l IH]; [destruct b; reflexivity|]. rewrite !countN_cons, IH. destruct b, (g a); cbn; lia.
Qed.
Lemma sets_closed k : forall t, all_stats k t = mkPstats (ps_meta t) (ps_data t + countN (mark f) (rangeN 1 (1 + k * (d + p))))
  (ps_failed t + countN (fun s => negb (mark f s)) (rangeN 1 (1 + k * (d + p)))) (ps_meta_rep t)
  (ps_data_rep t + countN (fun s => negb (mark f s) && can s) (rangeN 1 (1 + k * (d + p))))
  (ps_data_fail t + countN (fun s => negb (mark f s) && negb (can s)) (rangeN 1 (1 + k * (d + p)))).
Proof.
  pose proof HO as (D1 & D2 & D3). intro t. induction k as [|k IH] using N.peano_ind.
  - unfold all_stats. rewrite N.mul_0_l, N.add_0_r, !rangeN_nil by lia. change (countN _ []) with 0. rewrite !N.add_0_r. destruct t; reflexivity.
  - rewrite <- N.add_1_r. unfold all_stats in *. rewrite rangeN_snoc by lia. rewrite fold_left_app. cbn [fold_left]. rewrite IH. rewrite data_closed. cbn [ps_meta ps_data ps_failed ps_meta_rep ps_data_rep ps_data_fail].
    assert (ES : seqs k = rangeN (1 + k * (d + p)) (1 + (k + 1) * (d + p))).
    { unfold seqs_of_set. apply list_by_get; [rewrite lenN_map, !lenN_range; lia|]. intros j x E. rewrite getN_map in E.
      destruct (getN (rangeN 0 (d + p)) j) as [y|] eqn:E0; [|discriminate]. pose proof (getN_lt _ _ _ E0) as L. rewrite lenN_range in L. rewrite getN_range in E0 by lia.
      apply Some_inj in E0. apply Some_inj in E. subst y x. rewrite getN_range by lia. f_equal; lia. }
    rewrite (rangeN_split 1 (1 + k * (d + p)) (1 + (k + 1) * (d + p))) by nia. rewrite <- ES. rewrite !countN_app.
    assert (C1 : countN (fun s => negb (mark f s) && can s) (seqs k) = if d <=? held f k then countN (fun s => negb (mark f s)) (seqs k) else 0).
    { rewrite <- countN_const. apply countN_ext. intros s Hs. unfold can. destruct (setup_facts burst f ref d p B m HB HL SU) as (HO & HH & S0 & ms & _ & _ & HZ).
      apply (seqs_in f ref ms d p B HO S0 HZ) in Hs as [_ ->]. reflexivity. }
    assert (C2 : countN (fun s => negb (mark f s) && negb (can s)) (seqs k) = if negb (d <=? held f k) then countN (fun s => negb (mark f s)) (seqs k) else 0).
    { rewrite <- countN_const. apply countN_ext. intros s Hs. unfold can. destruct (setup_facts burst f ref d p B m HB HL SU) as (HO & HH & S0 & ms & _ & _ & HZ).
      apply (seqs_in f ref ms d p B HO S0 HZ) in Hs as [_ ->]. reflexivity. }
    rewrite C1, C2. pose proof (countN_split (mark f) (seqs k)) as SP. rewrite ES in SP at 3. rewrite lenN_range in SP. unfold set_stats. unfold L_Repair2.held at 1 2.
    fold (held f k). unfold L_Repair2.held in SP |- *. destruct (d <=? countN (mark f) (seqs k)); cbn [negb ps_meta ps_data ps_failed ps_meta_rep ps_data_rep ps_data_fail]; f_equal; lia.
Qed.
Lemma held_at_least k : d <= held f k <-> at_least d p d (in_place v uid d p B f) k.
Proof. apply held_at_least_gen; [exact HO|exact HB]. Qed.
Lemma counters : exists t w, repair_file rc dry burst f = ROk (Some (t, w)) /\
  let repairable s := at_least d p d (in_place v uid d p B f) (set_of d p s) in
  let missing s := 1 <= s <= m /\ ~ in_place v uid d p B f s in
  let complete s := (set_of d p s + 1) * (d + p) <= m in
  exactly (fun i => meta_index (Some true) o i /\ some_block v uid f i) (ps_meta t) /\
  exactly (fun i => meta_index (Some true) o i /\ ~ some_block v uid f i) (ps_meta_rep t) /\
  exactly (fun s => 1 <= s <= m /\ in_place v uid d p B f s) (ps_data t) /\
  (exists c, exactly missing c /\ ps_failed t = ps_meta_rep t + c) /\
  exactly (fun s => missing s /\ complete s /\ repairable s) (ps_data_rep t) /\
  exactly (fun s => missing s /\ complete s /\ ~ repairable s) (ps_data_fail t).
Proof.
  destruct (repair_runs rs rc burst f ref d p B m HR HB HL SU dry) as (ms & w & t & HF & HZ & HD & SS & E). cbv zeta in *. fold o in SS.
  destruct (setup_facts burst f ref d p B m HB HL SU) as (HO & HH & S0 & _). pose proof (m_bound burst f ref d p B m HL SU) as MB.
  pose proof HO as (D1 & D2 & D3).
  exists (add_all ref d p B w (rangeN (1 + m / (d + p) * (d + p)) (1 + m)) t), w. split; [exact E|].
  pose proof (mi_nodup f ref d p B HL) as MN. pose proof (mi_in burst f ref d p B m HB HL SU) as MI. fold o in MN, MI. set (mi := midx ref o) in *.
  assert (MS : snd (mrun ref ms dry mi (f, no_pstats)) = meta_stats mi no_pstats).
  { apply mrun_stats; try assumption; try lia; auto. intros. apply same_block_refl. }
  set (w1 := fst (mrun ref ms dry mi (f, no_pstats))) in *. rewrite MS in SS.
  pose proof (N.le_0_l (m / (d + p) * (d + p))) as X0.
  assert (KD : m / (d + p) * (d + p) <= m) by (pose proof (N.mul_div_le m (d + p) ltac:(lia)); lia).
  assert (W1 : lenN f <= lenN w1 /\ bytes_ok w1 = true /\ (forall s, 1 <= s -> same_block v f w1 (widx s)) /\ (dry = true -> w1 = f)).
  { assert (DC : dry = true \/ dry = false) by (destruct dry; auto). destruct DC as [D|D].
    - assert (X : w1 = f) by (unfold w1; rewrite D, mrun_dry; reflexivity). rewrite X. split; [lia|]. split; [exact HB|]. split; [intros; apply same_block_refl|auto].
    - pose proof (mrun_done f ref ms d p B HH S0 HF HZ mi [] f no_pstats (meta_done_start f ref ms d p B S0 HZ HB)) as (M1 & M2 & M3 & _).
      unfold w1. rewrite D. split; [exact M1|]. split; [exact M2|]. split; [|discriminate]. intros s Hs. apply M3. cbn [app]. intro X. apply MI in X. revert X. apply write_index_not_meta; assumption. }
  destruct W1 as (L1 & B1 & SD & DW).
  destruct (sets_stats w1 _ L1 B1 SD DW _ _ _ SS ltac:(unfold U32_MAX in MB; lia)) as [ET MT].
  rewrite add_all_ext.
  2: { intros s Hs. apply In_rangeN in Hs. apply MT; [lia|]. unfold set_of. apply N.div_le_lower_bound; [lia|]. rewrite N.mul_comm. lia. }
  rewrite data_closed, ET, sets_closed, meta_closed. cbn [ps_meta ps_data ps_failed ps_meta_rep ps_data_rep ps_data_fail no_pstats]. rewrite !N.add_0_l.
  assert (SP : forall g, countN g (rangeN 1 (1 + m / (d + p) * (d + p))) + countN g (rangeN (1 + m / (d + p) * (d + p)) (1 + m)) = countN g (rangeN 1 (1 + m))).
  { intro g. rewrite (rangeN_split 1 (1 + m / (d + p) * (d + p)) (1 + m)) by lia. rewrite countN_app. reflexivity. }
  rewrite <- !N.add_assoc, !SP.
  assert (NM : forall s, negb (mark f s) = true <-> ~ in_place v uid d p B f s).
  { intro s. pose proof (mark_iff ref d p B f s HB) as X. fold v uid in X. rewrite <- X. destruct (mark f s); cbn; split; congruence. }
  assert (NS : forall i, negb (mmark f i) = true <-> ~ some_block v uid f i).
  { intro i. pose proof (mmark_iff ref f i HB) as X. fold v uid in X. rewrite <- X. destruct (mmark f i); cbn; split; congruence. }
  assert (CC : forall s, 1 <= s -> (set_of d p s + 1) * (d + p) <= m <-> s < 1 + m / (d + p) * (d + p)).
  { intros s Hs. apply complete_iff; assumption. }
  assert (CN : forall s, can s = true <-> at_least d p d (in_place v uid d p B f) (set_of d p s)).
  { intro s. unfold can. rewrite <- held_at_least. apply N.leb_le. }
  assert (CNN : forall s, negb (can s) = true <-> ~ at_least d p d (in_place v uid d p B f) (set_of d p s)).
  { intro s. rewrite <- CN. destruct (can s); cbn; split; congruence. }
  split; [|split; [|split; [|split; [|split]]]].
  - apply exactly_count; [exact MN|]. intro i. rewrite MI, (mmark_iff ref f i HB). reflexivity.
  - apply exactly_count; [exact MN|]. intro i. rewrite MI, NS. reflexivity.
  - apply exactly_count; [apply NoDup_range|]. intro s. rewrite In_rangeN, (mark_iff ref d p B f s HB). fold v uid. split; intros [X Y]; split; try assumption; lia.
  - exists (countN (fun s => negb (mark f s)) (rangeN 1 (1 + m))). split; [|reflexivity].
    apply exactly_count; [apply NoDup_range|]. intro s. rewrite In_rangeN, NM. split; intros [X Y]; split; try assumption; lia.
  - apply exactly_count; [apply NoDup_range|]. intro s. rewrite In_rangeN, andb_true_iff, NM, CN. split.
    + intros ((X1 & X2) & X3 & X4). apply CC in X3; [|lia]. split; [lia|]. auto.
    + intros (X1 & X2 & X3). split; [split; [lia|exact X2]|]. split; [apply CC; lia|exact X3].
  - apply exactly_count; [apply NoDup_range|]. intro s. rewrite In_rangeN, andb_true_iff, NM, CNN. split.
    + intros ((X1 & X2) & X3 & X4). apply CC in X3; [|lia]. split; [lia|]. auto.
    + intros (X1 & X2 & X3). split; [split; [lia|exact X2]|]. split; [apply CC; lia|exact X3].
Qed.
End Counters.
