(* Repairing, part 9: containers of the encoder hit by bursts. *)
From Verif Require Import M_Base M_Specs M_Crc M_Header M_Multihash M_Metadata M_Block M_Index M_FileUtils M_Buffer M_Ranges M_Encode M_Scan M_Loop M_Decode M_Repair
  S_Crc S_Meta S_Block S_Index S_Container S_Scan S_Decode S_Encode S_Repair
  L_Base L_Crc L_File L_Header L_Meta L_Block L_Block2 L_Index L_Index2 L_Buffer L_Encode L_Loop L_Scan L_Container L_Ranges L_Decode L_Decode2 L_Ref L_Lot L_Sort2 L_Intact L_Intact2 L_Roundtrip
  L_Repair L_Repair2 L_Repair3 L_Repair4 L_Repair5 L_Repair6 L_Repair7 L_Repair8.
Ltac Zify.zify_post_hook ::= idtac.

Lemma hit_b B bursts i : hit B bursts i <-> hitb B bursts i = true.
Proof.
  unfold hit, hitb. rewrite existsb_exists. split; intros (s & H1 & H2); exists s; (split; [exact H1|]).
  - apply andb_true_iff. rewrite N.leb_le, N.ltb_lt. exact H2.
  - apply andb_true_iff in H2. rewrite N.leb_le, N.ltb_lt in H2. exact H2.
Qed.

(* a metadata block at the start of the file is the reference block *)
Lemma ref_first f h pl : bytes_ok f = true -> lenN f < 18446744073709551616 -> any_block_at f 0 h pl -> h_seq_num h = 0 ->
  exists ref, get_ref_block f None None false (MustBe TMeta) = ROk (Some (0, ref)) /\ reads_as h pl ref.
Proof.
  intros HB HL WA S. pose proof (get_ref_block_ok f None None false (MustBe TMeta) HB) as K.
  rewrite range_whole in K by (exact HL || (unfold mult_of, SBX_SCAN_BLOCK_SIZE; lia)).
  destruct (K ltac:(lia)) as (r & E & R). clear K. rewrite E. clear E. cbn [ref_spec] in R.
  destruct r as [[q b]|]; cbn [found] in R.
  - destruct R as (h' & pl' & (F1 & F2 & F3 & F4) & F5). destruct (N.eq_dec q 0) as [->|NZ].
    + rewrite N.add_0_l in F2. destruct (any_block_fun f 0 _ _ _ _ WA F2) as [-> ->]. exists b. auto.
    + exfalso. apply (F4 0 h pl); [constructor; lia|lia|exact WA|exact S].
  - exfalso. apply (R 0 h pl); [constructor; lia|exact WA|exact S].
Qed.

Section Bursts.
Variables (v : version) (uid : list N) (rs : codec) (rc : recon) (f0 f : file) (d p B n : N) (ms : list metadata) (data : list N) (bursts : list N).
Let bs := ver_to_block_size v.
Let o := Some (d, p, B).
Let widx seq := calc_data_block_write_index seq (Some true) o.
Hypothesis HR : recon_ok rs rc d p.
Hypothesis IT : intact v uid true o rs ms data f0 n.
Hypothesis MP : forall i, meta_index (Some true) o i -> meta_plain v uid ms (sliceN (i * bs) bs f0).
Hypothesis FZ : get_meta_by_id ms IFSZ = Some (FSZ (lenN data)).
Hypothesis RD : get_meta_by_id ms IRSD = Some (RSD d).
Hypothesis RP : get_meta_by_id ms IRSP = Some (RSP p).
Hypothesis HB : bytes_ok f = true.
Hypothesis HL : lenN f0 < 18446744073709551616.
Hypothesis LF : lenN f = lenN f0.
Hypothesis LB : lenN bursts <= p.
Hypothesis OUT : forall i, ~ hit B bursts (i / bs) -> nthN f i = nthN f0 i.
Hypothesis HIT : forall i seq pl, hit B bursts i -> used_index true o n i -> block_at v uid f (i * bs) seq pl -> block_at v uid f0 (i * bs) seq pl.

Lemma not_hit_same i : ~ hit B bursts i -> same_block v f0 f i.
Proof. intros H x E. apply OUT. fold bs in E. rewrite E. exact H. Qed.
Lemma bursts_damage : damaged v uid o n f0 f.
Proof.
  destruct (whole_blocks _ _ _ _ _ _ _ _ _ IT) as (K & EK & UK). fold bs in EK. pose proof (block_size_pos v) as BZ. fold bs in BZ.
  split; [lia|]. intros i z seq pl U BA.
  assert (BA' : block_at v uid f (i * bs) seq pl).
  { destruct BA as (h & W & X). exists h. split; [|exact X]. fold bs in W. fold bs. rewrite slice_app_l in W; [exact W|]. rewrite LF, EK. specialize (UK i U).
    replace (i * bs + bs) with ((i + 1) * bs) by lia. apply N.mul_le_mono_r. lia. }
  destruct (hitb B bursts i) eqn:E.
  - apply hit_b in E. apply HIT; assumption.
  - assert (NH : ~ hit B bursts i) by (rewrite hit_b; congruence).
    apply (block_at_same v uid f f0 i seq pl); [|lia|exact BA']. intros x Ex. symmetry. apply (not_hit_same i); assumption.
Qed.
Lemma bursts_enough seq : 1 <= seq <= n -> at_least d p d (in_place v uid d p B f) (set_of d p seq).
Proof.
  intro Hs. destruct (L_Intact.HO _ _ _ _ _ _ _ _ _ IT) as (D1 & D2 & D3). set (k := set_of d p seq).
  destruct (burst_sets (Some true) d p B bursts k D1 LB) as (SM & ND & EN).
  set (l := filter _ (seqs_of_set d p k)) in EN. assert (NL : NoDup l) by (apply NoDup_filter, ND).
  exists (firstn (N.to_nat d) l). rewrite <- (firstn_skipn (N.to_nat d)) in NL. split; [apply NoDup_front in NL; exact NL|]. split; [unfold lenN in *; rewrite firstn_length; lia|].
  intros s Hs'. assert (Hl : In s l) by (rewrite <- (firstn_skipn (N.to_nat d)); apply in_app_iff; left; exact Hs').
  apply filter_In in Hl as [H1 H2]. apply seqs_in7 in H1 as [S1 S2]; [|exact D1]. split; [exact S1|]. split; [exact S2|].
  assert (SN : s <= n).
  { destruct (L_Intact.BC _ _ _ _ _ _ _ _ _ IT) as (c & _ & sets & _ & En).
    apply (complete_iff d p n s D1) in S1 as CI. pose proof (N.div_mul sets (d + p) ltac:(lia)) as DM. rewrite <- En in DM. rewrite DM, <- En in CI.
    assert (s < 1 + n); [|lia]. apply CI. rewrite S2. unfold k, set_of. rewrite En. apply N.mul_le_mono_r.
    assert ((seq - 1) / (d + p) < sets); [|lia]. apply N.div_lt_upper_bound; lia. }
  destruct (data_block _ _ _ _ _ _ _ _ _ IT s ltac:(lia)) as [BA _]. exists (payload_of v o rs data s).
  apply (block_at_same v uid f0 f (widx s) s _); [|lia|exact BA]. apply not_hit_same. rewrite hit_b. unfold widx, o. destruct (hitb _ _ _); [discriminate H2|congruence].
Qed.
Lemma burst_setup pos ref : get_ref_block f None None false (MustBe TMeta) = ROk (Some (pos, ref)) -> b_version ref = v -> b_uid ref = uid -> b_data ref = DMeta ms ->
  repair_setup (Some B) f ref d p B n.
Proof.
  intros G EV EU ED. split; [exists pos; exact G|]. rewrite EV.
  assert (RS : ver_uses_rs v = true) by apply IT. split; [exact RS|]. split.
  - unfold get_data_par_burst. rewrite EV, RS. unfold get_RSD, get_RSP. rewrite ED, RD, RP. cbn [rbind]. reflexivity.
  - unfold get_FSZ, block_get_meta. rewrite ED, FZ. exists n. pose proof (L_Intact.BC _ _ _ _ _ _ _ _ _ IT) as BC. split; [exact BC|]. pose proof (L_Intact.HN _ _ _ _ _ _ _ _ _ IT). lia.
Qed.
Lemma burst_repaired pos ref : get_ref_block f None None false (MustBe TMeta) = ROk (Some (pos, ref)) -> b_version ref = v -> b_uid ref = uid -> b_data ref = DMeta ms ->
  exists t w, repair_file rc false (Some B) f = ROk (Some (t, w)) /\ restored v o n f0 f w.
Proof.
  intros G EV EU ED. pose proof (burst_setup pos ref G EV EU ED) as SU. pose proof bursts_damage as DM. pose proof bursts_enough as EN.
  pose proof (repair_restores rs rc (Some B) f f0 ref d p B n ms data HR) as X. rewrite EV in X. apply X; rewrite ?EV, ?EU; try assumption. rewrite LF. exact HL.
Qed.
Lemma first_spared : ~ hit B bursts 0 -> exists ref, get_ref_block f None None false (MustBe TMeta) = ROk (Some (0, ref)) /\ b_version ref = v /\ b_uid ref = uid /\ b_data ref = DMeta ms.
Proof.
  intro NH. destruct (L_Intact.HO _ _ _ _ _ _ _ _ _ IT) as (D1 & D2 & D3). assert (M0 : meta_index (Some true) o 0) by (exists 0; lia).
  destruct (meta_blk _ _ _ _ _ _ _ _ _ IT 0 M0) as (_ & h & pl & W & V & U & S & M).
  destruct (whole_blocks _ _ _ _ _ _ _ _ _ IT) as (K & EK & UK). specialize (UK 0 (or_introl M0)). fold bs in EK. pose proof (block_size_pos v) as BZ. fold bs in BZ.
  assert (EQ : sliceN (0 * bs) bs f = sliceN (0 * bs) bs f0) by (apply (same_slice_full v f0 f 0 (not_hit_same 0 NH)); fold bs; rewrite ?LF, ?EK; nia).
  fold bs in W. rewrite <- EQ in W. rewrite N.mul_0_l in W.
  assert (WA : any_block_at f 0 h pl). { unfold any_block_at. unfold sliceN in W. apply wf_take in W; [exact W|]. rewrite V. reflexivity. }
  destruct (ref_first f h pl HB ltac:(lia) WA S) as (ref & G & R1 & R2). exists ref. split; [exact G|]. unfold b_version, b_uid. rewrite R1, R2, S. cbn [N.eqb]. rewrite M.
  split; [exact V|]. split; [exact U|reflexivity].
Qed.
End Bursts.
