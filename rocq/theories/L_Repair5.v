(* Repairing, part 5: the whole command. *)
From Verif Require Import M_Base M_Specs M_Crc M_Header M_Multihash M_Metadata M_Block M_Index M_FileUtils M_Buffer M_Ranges M_Encode M_Scan M_Loop M_Decode M_Repair
  S_Crc S_Meta S_Block S_Index S_Container S_Scan S_Decode S_Encode S_Repair
  L_Base L_Crc L_File L_Header L_Meta L_Block L_Block2 L_Index L_Index2 L_Buffer L_Encode L_Loop L_Scan L_Container L_Ranges L_Decode L_Decode2 L_Ref L_Lot L_Sort2 L_Intact L_Repair L_Repair2 L_Repair3 L_Repair4.
Ltac Zify.zify_post_hook ::= idtac.

Lemma setup_facts burst f ref d p B m : bytes_ok f = true -> lenN f < 18446744073709551616 -> repair_setup burst f ref d p B m ->
  dpb_ok (Some (d, p, B)) /\ header_ok (b_header ref) = true /\ b_seq_num ref = 0 /\
  exists ms, b_data ref = DMeta ms /\ Forall field_ok ms /\ fields_size ms <= ver_to_block_size (b_version ref) - 16.
Proof.
  intros HB HL ((pos & G) & RS & D & _). pose proof (get_ref_block_ok f None None false (MustBe TMeta) HB) as K.
  pose proof (fun req lo => range_in_file None None false (lenN f) None req lo ltac:(discriminate) HL) as RG.
  destruct (calc_required_len_and_seek_to_from_byte_range _ _ _ _ _ None) as [req l0].
  destruct K as (r & K1 & K2); [apply (RG req l0 eq_refl)|]. rewrite G in K1. apply ROk_inj in K1. subst r.
  assert (S0 : b_seq_num ref = 0). { destruct K2 as (h & pl & (_ & _ & P & _) & (E1 & _)). unfold b_seq_num. rewrite E1. exact P. }
  apply ref_block_reads in K2 as (h & pl & W & RA & BP); [|exact HB].
  destruct (ref_dpb _ _ _ _ _ _ _ _ BP RA D) as [O1 _]. split; [exact O1|]. destruct W as (W1 & W2 & _). destruct RA as [RA1 RA2].
  split; [rewrite RA1; exact W1|]. split; [exact S0|]. exists (metas_from_bytes pl).
  unfold b_seq_num in S0. rewrite RA1 in S0. rewrite S0 in RA2. split; [exact RA2|]. split; [apply from_bytes_fields_ok, BP|].
  unfold b_version. rewrite RA1. pose proof (parsed_size pl). lia.
Qed.

Section Main.
Variables (rs : codec) (rc : recon) (burst : option N) (f : file) (ref : block) (d p B m : N).
Hypothesis HR : recon_ok rs rc d p.
Hypothesis HB : bytes_ok f = true.
Hypothesis HL : lenN f < 18446744073709551616.
Hypothesis SU : repair_setup burst f ref d p B m.
Let v := b_version ref.
Let uid := b_uid ref.
Let bs := ver_to_block_size v.
Let o := Some (d, p, B).
Let widx seq := calc_data_block_write_index seq (Some true) o.
Lemma HO : dpb_ok o. Proof. exact (proj1 (setup_facts burst f ref d p B m HB HL SU)). Qed.
Let mi := midx ref o.

Lemma mi_in i : In i mi <-> meta_index (Some true) o i.
Proof. apply (midx_in 1 f ref o 0 0 ltac:(lia) HO). Qed.
Lemma mi_pos : calc_meta_block_all_write_pos_s v o = map (fun i => i * bs) mi.
Proof. apply (midx_pos 1 f ref o 0 0 ltac:(lia)). Qed.
Lemma mi_len : lenN mi = 1 + p.
Proof. pose proof (meta_positions v o) as (L & _). rewrite mi_pos, lenN_map in L. exact L. Qed.
Lemma mi_nodup : NoDup mi.
Proof. pose proof (meta_positions v o) as (_ & ND & _). rewrite mi_pos in ND. apply NoDup_map_inv in ND. exact ND. Qed.
Lemma m_bound : m <= U32_MAX.
Proof. pose proof SU as (_ & _ & _ & M). destruct (get_FSZ ref); [destruct M as (n0 & _ & M)|]; rewrite M; lia. Qed.

Lemma repair_runs dry : exists ms w t,
  Forall field_ok ms /\ fields_size ms <= bs - 16 /\ b_data ref = DMeta ms /\
  let x := mrun ref ms dry mi (f, no_pstats) in
  let k := m / (d + p) in
  Sets rs ref d p B dry (fst x) (snd x) k w t /\
  repair_file rc dry burst f = ROk (Some (add_all ref d p B w (rangeN (1 + k * (d + p)) (1 + m)) t, w)).
Proof.
  destruct (setup_facts burst f ref d p B m HB HL SU) as (_ & HH & S0 & ms & HD & HF & HZ).
  pose proof m_bound as MB. pose proof SU as ((pos & G) & RS & D & M).
  unfold repair_file. rewrite G. cbn [rbind]. rewrite RS. cbn [negb]. rewrite D. cbn [rbind].
  assert (RG0 : refgood ref ms ref) by (split; [reflexivity|]; split; [reflexivity|]; split; assumption).
  destruct (write_ref ref ms d p B HH S0 HF HZ ref (repN SBX_LARGEST_BLOCK_SIZE 0) RG0 ltac:(rewrite lenN_rep; reflexivity) ltac:(apply bytes_ok_rep; lia))
    as (b' & buf' & E1 & G1 & L1 & B1 & _).
  rewrite E1. cbn [unwrap rbind]. fold v o. rewrite mi_pos.
  destruct (meta_fold rc ref ms d p B dry HH S0 HF HZ mi f b' buf' no_pstats G1 L1 B1 HB) as (b2 & buf2 & E2).
  fold v bs in E2.
  match goal with |- context [rfold (repair_meta_step dry ?hp) ?l ?s] => match type of E2 with ?e = _ => change (rfold (repair_meta_step dry hp) l s) with e end end.
  rewrite E2. cbn [rbind].
  set (x := mrun ref ms dry mi (f, no_pstats)).
  pose proof (mrun_far rc f ref ms d p B dry S0 HZ mi (f, no_pstats)) as FAR. fold x in FAR. rewrite mi_len in FAR. change (ps_so_far (snd (f, no_pstats))) with 0 in FAR.
  assert (BX : bytes_ok (fst x) = true) by (apply (mrun_bytes rc ref ms d p B dry HH S0 HF HZ); exact HB).
  destruct (data_run rs rc f ref ms d p B dry HO HR HH S0 HZ (fst x) (snd x) m (repairer_new ref d p) BX MB (RG_new ref ms d p B S0 HZ)) as (w & t & R' & E3 & SS).
  cbv zeta in *. exists ms, w, t. split; [exact HF|]. split; [exact HZ|]. split; [exact HD|]. split; [exact SS|].
  set (total := match get_FSZ ref with Some _ => _ | None => _ end).
  assert (T : (m = U32_MAX \/ total <= 1 + p + m) /\ (1 <= m -> 1 + p + m <= total)).
  { unfold total. destruct (get_FSZ ref) as [sz|].
    - destruct M as (n & BC & Em). rewrite Em. apply block_count_iff in BC; [|exact HO]. unfold calc_total_block_count_exc_burst_gaps, calc_meta_block_count_exc_burst_gaps.
      fold v o in BC. rewrite <- BC. unfold o. unfold U32_MAX. lia.
    - fold v bs in M. fold bs. rewrite M. unfold U32_MAX. lia. }
  rewrite (loop_rfold rc dry v (header_pred_same_ver_uid ref) d p B total (N.to_nat m) _ 1 (fst x, repairer_new ref d p, snd x) (w, R', add_all ref d p B w (rangeN (1 + m / (d + p) * (d + p)) (1 + m)) t)).
  - reflexivity.
  - destruct T as [_ T]. destruct (N.eq_dec m 0) as [Em|Em]; [rewrite Em; lia|]. specialize (T ltac:(lia)). match goal with |- context [ps_so_far ?y] => change (ps_so_far y) with (ps_so_far (snd x)) end. lia.
  - rewrite N2Nat.id. unfold U32_MAX in *. lia.
  - rewrite N2Nat.id. cbn [snd]. unfold U32_MAX in *. destruct T as [[T|T] _]; [right; lia|left; lia].
  - rewrite N2Nat.id. cbn [snd]. intro X. destruct T as [_ T]. lia.
  - rewrite N2Nat.id. exact E3.
Qed.

Definition Grown (K : N) (w : file) : Prop := lenN w = lenN f \/ exists i, used_index true o K i /\ lenN w = (i + 1) * bs.
Lemma grown_more K K' w : K <= K' -> Grown K w -> Grown K' w.
Proof.
  intros L [H|(i & H & E)]; [left; exact H|]. right. exists i. split; [|exact E]. destruct H as [H|(s & Hs & H)]; [left; exact H|]. right. exists s. split; [lia|exact H].
Qed.
Lemma mrun_grown ms l : lenN (meta_bytes ref ms) = bs -> (forall i, In i l -> meta_index (Some true) o i) -> forall w t, Grown 0 w -> Grown 0 (fst (mrun ref ms false l (w, t))).
Proof.
  intro LM. induction l as [|i l IH]; intros HI w t G; [exact G|].
  change (mrun ref ms false (i :: l) (w, t)) with (mrun ref ms false l (mput ref ms false w i, add_meta (mmark ref w i) t)).
  apply IH; [intros; apply HI; right; assumption|]. unfold mput. destruct (mmark ref w i); [exact G|]. fold v bs. unfold Grown. rewrite lenN_file_write, LM.
  pose proof (BSR ref) as BZ. fold v bs in BZ. destruct (N.eqb_spec bs 0); [lia|]. destruct (N.max_spec (lenN w) (i * bs + bs)) as [[_ ->]|[_ ->]].
  - right. exists i. split; [left; apply HI; left; reflexivity|lia].
  - exact G.
Qed.
Lemma sets_grown w1 t1 k w t : Grown 0 w1 -> Sets rs ref d p B false w1 t1 k w t -> Grown (k * (d + p)) w.
Proof.
  intros G1 SS. pose proof HO as (D1 & _). induction SS as [|k w t ws SS IH ST]; [apply (grown_more 0); [lia|exact G1]|].
  match goal with |- Grown _ ?x => change x with (put_blocks bs ws w) end.
  pose proof (SetStep_sized rs ref d p B w k ws ST) as [SZ SB]. fold v bs in SZ. pose proof (BSR ref) as BZ. fold v bs in BZ.
  destruct (put_len bs ltac:(lia) ws w SZ) as (_ & _ & [E|(a & b & Hb & E)]).
  - unfold Grown. rewrite E. fold (Grown ((k + 1) * (d + p)) w). apply (grown_more (k * (d + p))); [apply N.mul_le_mono_r; lia|exact IH].
  - right. exists a. split; [|exact E]. right. unfold SetStep in ST. destruct (d <=? _); [|subst ws; destruct Hb].
    destruct ST as (_ & _ & ST). destruct (ST a b Hb) as (s & pl & S1 & _ & S3 & _). exists s. split; [|symmetry; exact S3].
    unfold seqs_of_set in S1. apply in_map_iff in S1 as (j & <- & Hj). apply In_rangeN in Hj. lia.
Qed.
Definition Final (ms : list metadata) (w : file) : Prop :=
  lenN f <= lenN w /\ bytes_ok w = true /\
  (forall i, meta_index (Some true) o i -> some_block v uid f i -> same_block v f w i) /\
  (forall i, meta_index (Some true) o i -> some_block v uid w i) /\
  (forall i, meta_index (Some true) o i -> same_block v f w i \/ sliceN (i * bs) bs w = meta_bytes ref ms) /\
  (forall s, 1 <= s -> m / (d + p) <= set_of d p s -> same_block v f w (widx s)) /\
  (forall k, k < m / (d + p) -> SetDone rs f ref d p B k w) /\
  Grown (m / (d + p) * (d + p)) w.
Lemma slice_same g w i b : same_block v g w i -> lenN g <= lenN w -> lenN b = bs -> sliceN (i * bs) bs g = b -> sliceN (i * bs) bs w = b.
Proof.
  intros SB L LB E. pose proof (lenN_slice (i * bs) bs g) as X. rewrite E, LB in X. pose proof (BSR ref) as BZ. fold v bs in BZ.
  rewrite <- E. apply (same_slice_full v g w i SB L). fold bs. lia.
Qed.
Lemma repair_result : exists ms w t,
  Forall field_ok ms /\ fields_size ms <= bs - 16 /\ b_data ref = DMeta ms /\
  repair_file rc false burst f = ROk (Some (t, w)) /\ Final ms w.
Proof.
  destruct (repair_runs false) as (ms & w & t & HF & HZ & HD & SS & E). cbv zeta in *. pose proof HO as HO. pose proof m_bound as MB.
  destruct (setup_facts burst f ref d p B m HB HL SU) as (_ & HH & S0 & _).
  pose proof (mrun_done f ref ms d p B HH S0 HF HZ mi [] f no_pstats (meta_done_start f ref ms d p B S0 HZ HB)) as (M1 & M2 & M3 & M4 & M5 & M6). cbn [app] in *.
  fold v uid bs in M3, M4, M5, M6. set (w1 := fst (mrun ref ms false mi (f, no_pstats))) in *.
  assert (SD : forall s, 1 <= s -> same_block v f w1 (widx s)).
  { intros s Hs. apply M3. intro X. apply mi_in in X. revert X. apply write_index_not_meta; assumption. }
  assert (KD : m / (d + p) * (d + p) < 4294967296).
  { pose proof HO as (D1 & _). pose proof (N.mul_div_le m (d + p) ltac:(lia)). unfold U32_MAX in MB. lia. }
  destruct (sets_done rs f ref ms d p B HO HH S0 HZ HB w1 _ M1 M2 SD _ _ _ SS KD) as (I1 & I2 & I3 & I4 & I5). fold v o in I3, I4.
  exists ms, w, (add_all ref d p B w (rangeN (1 + m / (d + p) * (d + p)) (1 + m)) t). split; [exact HF|]. split; [exact HZ|]. split; [exact HD|]. split; [exact E|].
  split; [lia|]. split; [exact I2|]. split; [|split; [|split; [|split; [|split; [exact I5|]]]]].
  - intros i MI S. eapply same_block_trans; [apply M4, S|apply I3, MI].
  - intros i MI. apply (some_same ref w1); [apply I3, MI|exact I1|]. apply M5, mi_in, MI.
  - intros i MI. destruct (M6 i) as [H|H].
    + left. eapply same_block_trans; [exact H|apply I3, MI].
    + right. apply (slice_same w1 w i); [apply I3, MI|exact I1|apply (meta_bytes_ok ref ms d p B HH S0 HF HZ)|exact H].
  - intros s S1 SK. apply I4; assumption.
  - apply (sets_grown w1 _ _ _ _) in SS; [exact SS|]. apply mrun_grown; [apply (meta_bytes_ok ref ms d p B HH S0 HF HZ)|intros i; apply mi_in|left; reflexivity].
Qed.

(* ---- a dry run ---- *)
Lemma mrun_dry ms l : forall x, fst (mrun ref ms true l x) = fst x.
Proof.
  induction l as [|i l IH]; intro x; [reflexivity|]. unfold mrun in *. cbn [fold_left]. rewrite IH. cbn [fst]. unfold mput. destruct (mmark _ _ _); reflexivity.
Qed.
Lemma sets_dry w0 t0 k w t : Sets rs ref d p B true w0 t0 k w t -> w = w0.
Proof. intro H. induction H; auto. Qed.
Lemma dry_result : exists t, repair_file rc true burst f = ROk (Some (t, f)).
Proof.
  destruct (repair_runs true) as (ms & w & t & _ & _ & _ & SS & E). cbv zeta in *. apply sets_dry in SS. rewrite mrun_dry in SS. cbn [fst] in SS. rewrite SS in E. eexists. exact E.
Qed.

End Main.
