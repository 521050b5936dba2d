(* Repairing, part 3: the loops. *)
From Verif Require Import M_Base M_Specs M_Crc M_Header M_Multihash M_Metadata M_Block M_Index M_FileUtils M_Buffer M_Ranges M_Encode M_Scan M_Loop M_Decode M_Repair
  S_Crc S_Meta S_Block S_Index S_Container S_Scan S_Decode S_Encode S_Repair
  L_Base L_Crc L_File L_Header L_Meta L_Block L_Block2 L_Index L_Index2 L_Buffer L_Encode L_Loop L_Scan L_Container L_Decode L_Decode2 L_Ref L_Lot L_Sort2 L_Intact L_Repair L_Repair2.
Ltac Zify.zify_post_hook ::= idtac.

Lemma rfold_app {A S} (g : S -> A -> result S) l1 l2 s : rfold g (l1 ++ l2) s = do! s' <- rfold g l1 s; rfold g l2 s'.
Proof. revert s. induction l1 as [|a l1 IH]; intro s; [reflexivity|]. cbn [app rfold]. destruct (g s a); cbn [rbind]; auto. Qed.

(* ---- the loop over the numbers ---- *)
Lemma step_count rc dry v hp d p B seq x x' : repair_step rc dry v hp d p B seq x = ROk x' -> ps_so_far (snd x') = ps_so_far (snd x) + 1.
Proof.
  destruct x as [[w R] t]. unfold repair_step. destruct (rassert _); cbn [rbind]; try discriminate.
  destruct (update_codec _ _ _ _ R t) as [[R1 t1]|e|] eqn:E; cbn [rbind]; try discriminate.
  assert (E1 : ps_so_far t1 = ps_so_far t + 1).
  { unfold update_codec in E. destruct (getN _ _) as [b0|]; [|discriminate]. destruct (_ <? _).
    - apply ROk_inj, pair_inj in E as [_ <-]. unfold ps_so_far. cbn. lia.
    - destruct (sync_from_buffer _ _ _ _) as [b| |]; try discriminate.
      + destruct (negb _); [|destruct (is_meta b)]; apply ROk_inj, pair_inj in E as [_ <-]; unfold ps_so_far; cbn; lia.
      + apply ROk_inj, pair_inj in E as [_ <-]. unfold ps_so_far. cbn. lia. }
  destruct (rr_index R1 =? d + p).
  - unfold repair_set. destruct (repair_with_block_sync _ _ _ _ _ _) as [[[[ok miss] bl] R']| |]; cbn [rbind]; try discriminate.
    intro H. apply ROk_inj in H. subst x'. cbn [snd]. unfold ps_so_far in *. destruct ok; cbn; lia.
  - intro H. apply ROk_inj in H. subst x'. exact E1.
Qed.
Lemma loop_rfold rc dry v hp d p B total : forall n fuel seq x y, (n < fuel)%nat ->
  seq + N.of_nat n <= U32_MAX + 1 ->
  (total <= ps_so_far (snd x) + N.of_nat n \/ (seq + N.of_nat n = U32_MAX + 1 /\ (1 <= n)%nat)) ->
  ((1 <= n)%nat -> ps_so_far (snd x) + N.of_nat n <= total) ->
  rfold (fun s q => repair_step rc dry v hp d p B q s) (rangeN seq (seq + N.of_nat n)) x = ROk y ->
  repair_loop fuel rc dry v hp d p B total seq x = ROk y.
Proof.
  induction n as [|n IH]; intros fuel seq x y HF HS HT HL HR; destruct fuel as [|fuel]; try lia; cbn [repair_loop].
  - rewrite rangeN_nil in HR by lia. cbn [rfold] in HR. destruct (N.leb_spec total (ps_so_far (snd x))); [exact HR|lia].
  - destruct (N.leb_spec total (ps_so_far (snd x))) as [L|L]; [specialize (HL ltac:(lia)); lia|].
    rewrite rangeN_cons in HR by lia. cbn [rfold] in HR. destruct (repair_step rc dry v hp d p B seq x) as [x'| |] eqn:E; cbn [rbind] in *; try discriminate.
    apply step_count in E. unfold SBX_LAST_SEQ_NUM, U32_MAX in *. destruct (N.eqb_spec seq 4294967295) as [->|NE].
    + assert (n = O) by lia. subst n. rewrite rangeN_nil in HR by lia. exact HR.
    + apply IH; try lia. replace (seq + 1 + N.of_nat n) with (seq + N.of_nat (S n)) by lia. exact HR.
Qed.

Section Repair.
Variables (rs : codec) (rc : recon) (f : file) (ref : block) (ms : list metadata) (d p B : N) (dry : bool).
Let v := b_version ref.
Let uid := b_uid ref.
Let bs := ver_to_block_size v.
Let o := Some (d, p, B).
Let widx seq := calc_data_block_write_index seq (Some true) o.
Let hp := header_pred_same_ver_uid ref.
Hypothesis HO : dpb_ok o.
Hypothesis HR : recon_ok rs rc d p.
Hypothesis HH : header_ok (b_header ref) = true.
Hypothesis HD : b_data ref = DMeta ms.
Hypothesis HS : b_seq_num ref = 0.
Hypothesis HF : Forall field_ok ms.
Hypothesis HZ : fields_size ms <= bs - 16.
Hypothesis HB : bytes_ok f = true.
Notation mark := (mark ref d p B).
Notation mmark := (mmark ref).
Notation meta_bytes := (meta_bytes ref ms).
Notation SetStep := (SetStep rs ref d p B).
Notation set_stats := (set_stats ref d p B).
Notation seqs := (seqs_of_set d p).
Let step := fun s q => repair_step rc dry v hp d p B q s.

(* ---- metadata positions ---- *)
Definition mput (w : file) (i : N) : file := if mmark w i then w else if dry then w else file_write w (i * bs) meta_bytes.
Definition mrun (l : list N) (x : file * pstats) : file * pstats := fold_left (fun x i => (mput (fst x) i, add_meta (mmark (fst x) i) (snd x))) l x.
Lemma mput_bytes w i : bytes_ok w = true -> bytes_ok (mput w i) = true.
Proof.
  intro H. unfold mput. destruct (mmark w i); [exact H|]. destruct dry; [exact H|]. apply write_bytes_ok; [exact H|]. apply (meta_bytes_ok ref ms d p B HH HS HF HZ).
Qed.
Lemma meta_fold l : forall w b buf t, refgood ref ms b -> lenN buf = 4096 -> bytes_ok buf = true -> bytes_ok w = true ->
  exists b' buf', rfold (repair_meta_step dry hp) (map (fun i => i * bs) l) (w, b, buf, t) = ROk (fst (mrun l (w, t)), b', buf', snd (mrun l (w, t))).
Proof.
  induction l as [|i l IH]; intros w b buf t G LB BB BW; cbn [map rfold].
  - eexists _, _. reflexivity.
  - destruct (meta_step_ok ref ms d p B HH HS HF HZ dry w b buf t i G LB BB BW) as (b' & buf' & E & G' & L' & B'). fold v bs hp in E. rewrite E. cbn [rbind].
    apply IH; try assumption. apply mput_bytes. exact BW.
Qed.
Lemma mrun_bytes l : forall w t, bytes_ok w = true -> bytes_ok (fst (mrun l (w, t))) = true.
Proof.
  induction l as [|i l IH]; intros w t H; [exact H|]. apply IH. apply mput_bytes. exact H.
Qed.
Lemma mrun_far l : forall x, ps_so_far (snd (mrun l x)) = ps_so_far (snd x) + lenN l.
Proof.
  induction l as [|i l IH]; intro x; [unfold mrun; cbn [fold_left]; rewrite lenN_nil; lia|]. unfold mrun in *. cbn [fold_left]. rewrite IH, lenN_cons. cbn [snd].
  unfold add_meta, ps_so_far. destruct (mmark _ _); cbn; lia.
Qed.

(* ---- data blocks ---- *)
Definition add_all (w : file) (l : list N) (t : pstats) : pstats := fold_left (fun t s => add_data (mark w s) t) l t.
Lemma part_run w first t : bytes_ok w = true -> 1 <= first -> forall j R, SI ref d p B w first 0 R -> j < d + p ->
  exists R', rfold step (rangeN first (first + j)) (w, R, t) = ROk (w, R', add_all w (rangeN first (first + j)) t) /\ SI ref d p B w first j R'.
Proof.
  intros BW H1 j R SI0 HJ. induction j as [|j IH] using N.peano_ind.
  - rewrite N.add_0_r, rangeN_nil by lia. exists R. split; [reflexivity|exact SI0].
  - destruct (IH ltac:(lia)) as (R1 & E & SIj). rewrite <- N.add_1_r. replace (first + (j + 1)) with (first + j + 1) by lia. rewrite rangeN_snoc by lia.
    rewrite rfold_app, E. cbn [rbind rfold]. destruct (SI_step ref ms d p B HS HZ w first j R1 (add_all w (rangeN first (first + j)) t) SIj ltac:(lia) BW H1) as (R2 & E2 & SI2).
    unfold step at 1. unfold repair_step. destruct SIj as ((RI & _) & _). rewrite RI. destruct (N.eqb_spec j (d + p)); [lia|]. cbn [negb rassert rbind].
    change (calc_data_block_write_pos v (first + j) None (Some (d, p, B))) with (widx (first + j) * bs). fold v o uid bs hp in E2. fold (widx (first + j)) in E2.
    match type of E2 with ?l = _ => match goal with |- context [update_codec ?a1 ?a2 ?a3 ?a4 ?a5 ?a6] => change (update_codec a1 a2 a3 a4 a5 a6) with l end end.
    rewrite E2. cbn [rbind]. pose proof SI2 as ((RI2 & _) & _). rewrite RI2. destruct (N.eqb_spec (j + 1) (d + p)); [lia|]. cbn [rbind].
    exists R2. split; [|exact SI2]. unfold add_all. rewrite fold_left_app. reflexivity.
Qed.
Lemma SI_start w first R : RG ref d p 0 R -> SI ref d p B w first 0 R.
Proof. intro G. split; [exact G|]. intros j H. lia. Qed.
Lemma full_run w k t R : bytes_ok w = true -> (k + 1) * (d + p) < 4294967296 -> RG ref d p 0 R ->
  exists ws R', rfold step (rangeN (1 + k * (d + p)) (1 + (k + 1) * (d + p))) (w, R, t)
     = ROk (if dry then w else put_blocks bs ws w, R', set_stats w k (add_all w (seqs k) t)) /\ SetStep w k ws /\ RG ref d p 0 R'.
Proof.
  intros BW HK G. pose proof HO as (D1 & D2 & D3). set (first := 1 + k * (d + p)).
  assert (ES : seqs k = rangeN first (first + (d + p))).
  { unfold seqs_of_set. apply list_by_get; [rewrite lenN_map, !lenN_range; lia|]. intros j x E. rewrite getN_map in E.
    destruct (getN (rangeN 0 (d + p)) j) as [y|] eqn:E0; [|discriminate]. pose proof (getN_lt _ _ _ E0) as L. rewrite lenN_range in L. rewrite getN_range in E0 by lia.
    apply Some_inj in E0. apply Some_inj in E. subst y x. rewrite getN_range by lia. unfold first. f_equal; lia. }
  destruct (part_run w first t BW ltac:(unfold first; lia) (d + p - 1) R (SI_start w first R G) ltac:(lia)) as (R1 & E & SI1).
  replace (1 + (k + 1) * (d + p)) with (first + (d + p - 1) + 1) by (unfold first; lia). rewrite rangeN_snoc by lia. rewrite rfold_app, E. cbn [rbind rfold].
  destruct (SI_step ref ms d p B HS HZ w first (d + p - 1) R1 (add_all w (rangeN first (first + (d + p - 1))) t) SI1 ltac:(lia) BW ltac:(unfold first; lia)) as (R2 & E2 & SI2).
  unfold step. unfold repair_step. destruct SI1 as ((RI & _) & _). rewrite RI. destruct (N.eqb_spec (d + p - 1) (d + p)); [lia|]. cbn [negb rassert rbind].
  change (calc_data_block_write_pos v (first + (d + p - 1)) None (Some (d, p, B))) with (widx (first + (d + p - 1)) * bs). fold v o uid bs hp in E2. fold (widx (first + (d + p - 1))) in E2.
  match type of E2 with ?l = _ => match goal with |- context [update_codec ?a1 ?a2 ?a3 ?a4 ?a5 ?a6] => change (update_codec a1 a2 a3 a4 a5 a6) with l end end.
  rewrite E2. cbn [rbind]. replace (d + p - 1 + 1) with (d + p) in SI2 by lia. pose proof SI2 as ((RI2 & _) & _). rewrite RI2, N.eqb_refl.
  replace (first + (d + p - 1)) with ((k + 1) * (d + p)) by (unfold first; lia).
  match goal with |- context [repair_set _ _ _ _ _ _ (w, R2, ?tt)] => destruct (set_ok rs rc ref ms d p B HO HR HH HS HZ dry w k R2 tt SI2 BW HK) as (ws & R' & E3 & S3 & G3) end.
  rewrite E3. cbn [rbind]. exists ws, R'. split; [|split; [exact S3|exact G3]]. f_equal. f_equal. f_equal. rewrite ES.
  replace (first + (d + p)) with (first + (d + p - 1) + 1) by lia. rewrite rangeN_snoc by lia. unfold add_all. rewrite fold_left_app. cbn [fold_left].
  replace ((k + 1) * (d + p)) with (first + (d + p - 1)) by (unfold first; lia). reflexivity.
Qed.
(* k sets done *)
Inductive Sets (w0 : file) (t0 : pstats) : N -> file -> pstats -> Prop :=
| Sets_0 : Sets w0 t0 0 w0 t0
| Sets_S k w t ws : Sets w0 t0 k w t -> SetStep w k ws ->
    Sets w0 t0 (k + 1) (if dry then w else put_blocks bs ws w) (set_stats w k (add_all w (seqs k) t)).
Lemma SetStep_sized w k ws : SetStep w k ws -> sized bs ws /\ (forall a b, In (a, b) ws -> bytes_ok b = true).
Proof.
  unfold L_Repair2.SetStep. destruct (_ <=? _).
  - intros (_ & _ & H). split.
    + apply Forall_forall. intros [a b] Hx. destruct (H a b Hx) as (s & pl & _ & _ & _ & _ & L & _). exact L.
    + intros a b Hx. destruct (H a b Hx) as (s & pl & _ & _ & _ & _ & _ & L & _). exact L.
  - intros ->. split; [constructor|intros ? ? []].
Qed.
Lemma Sets_bytes w0 t0 k w t : bytes_ok w0 = true -> Sets w0 t0 k w t -> bytes_ok w = true.
Proof.
  intros H0 HSs. induction HSs as [|k w t ws HSs IH ST]; [exact H0|]. destruct dry; [exact IH|]. apply put_bytes.
  - exact IH.
  - apply (SetStep_sized w k ws ST).
Qed.
Lemma sets_run w0 t0 : bytes_ok w0 = true -> forall k, k * (d + p) < 4294967296 -> forall R, RG ref d p 0 R ->
  exists w t R', rfold step (rangeN 1 (1 + k * (d + p))) (w0, R, t0) = ROk (w, R', t) /\ Sets w0 t0 k w t /\ RG ref d p 0 R'.
Proof.
  intros B0. induction k as [|k IH] using N.peano_ind; intros HK R G.
  - rewrite N.mul_0_l, N.add_0_r, rangeN_nil by lia. exists w0, t0, R. split; [reflexivity|]. split; [constructor|exact G].
  - rewrite <- N.add_1_r in *. destruct (IH ltac:(nia) R G) as (w & t & R1 & E & HSs & G1).
    rewrite (rangeN_split 1 (1 + k * (d + p))) by nia. rewrite rfold_app, E. cbn [rbind].
    destruct (full_run w k t R1 (Sets_bytes _ _ _ _ _ B0 HSs) HK G1) as (ws & R' & E2 & ST & G2).
    eexists _, _, _. split; [exact E2|]. split; [constructor; assumption|exact G2].
Qed.
Lemma data_run w0 t0 m R : bytes_ok w0 = true -> m <= U32_MAX -> RG ref d p 0 R ->
  let k := m / (d + p) in
  exists w t R', rfold step (rangeN 1 (1 + m)) (w0, R, t0) = ROk (w, R', add_all w (rangeN (1 + k * (d + p)) (1 + m)) t) /\ Sets w0 t0 k w t.
Proof.
  intros B0 HM G k. unfold U32_MAX in HM. pose proof HO as (D1 & D2 & D3).
  pose proof (N.div_mod m (d + p) ltac:(lia)) as DM. pose proof (N.mod_lt m (d + p) ltac:(lia)) as ML. fold k in DM.
  destruct (sets_run w0 t0 B0 k ltac:(lia) R G) as (w & t & R1 & E & HSs & G1).
  rewrite (rangeN_split 1 (1 + k * (d + p))) by lia. rewrite rfold_app, E. cbn [rbind].
  destruct (part_run w (1 + k * (d + p)) t (Sets_bytes _ _ _ _ _ B0 HSs) ltac:(lia) (m mod (d + p)) R1 (SI_start _ _ _ G1) ML) as (R2 & E2 & _).
  replace (1 + k * (d + p) + m mod (d + p)) with (1 + m) in E2 by lia. exists w, t, R2. split; [exact E2|exact HSs].
Qed.
End Repair.
