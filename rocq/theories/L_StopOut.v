(* Decoding to standard output with the stop flag. *)
From Coq Require Import Sorted.
From Verif Require Import M_Base M_Specs M_Crc M_Header M_Multihash M_Metadata M_Block M_Index M_FileUtils M_Buffer M_Ranges M_Encode M_Scan M_Loop M_Decode M_Content M_Check M_Hex M_Rescue M_Json M_Show M_Stop M_StopOut
  S_Crc S_Meta S_Block S_Index S_Container S_Encode S_Decode S_Content S_Repair S_Check S_Guess S_Stdout S_Stop
  L_Base L_File L_Crc L_Header L_Meta L_Block L_Block2 L_Index L_Index2 L_Buffer L_Encode L_Loop L_Scan L_Ranges L_Decode L_Decode2 L_Chunks L_Content L_Guess L_Guess2 L_Repair6 L_Check L_Stop L_Stop2 L_Stdout L_Stdout2.
Ltac Zify.zify_post_hook ::= idtac.

Section BurstStop.
Variables (cpus : N) (f : file) (ref : block) (d p B total K M k : N) (s0 : dstats) (hashing : bool).
Let o : dpb := Some (d, p, B).
Hypothesis CPUS : 1 <= cpus.
Hypothesis HB : bytes_ok f = true.
Hypothesis HO : dpb_ok o.
Hypothesis U6 : lenN (b_uid ref) = 6.
Let v := b_version ref.
Let ds := ver_to_data_size v.
Let c := out_cfg v (b_uid ref) o cpus.
Hypothesis K1 : 1 <= K.
Hypothesis KL : (K - 1) * ds < total.
Hypothesis KU : total <= K * ds.
Hypothesis SQ : dseq o (K - 1) <= U32_MAX.
Hypothesis Z0 : ds_data s0 = 0 /\ ds_data_failed s0 = 0.
Hypothesis MK : M <= K.
Hypothesis M1 : forall j, j < M -> dseq o j <= k.
Hypothesis M2 : M = K \/ k < dseq o M.
Let last := Some (total - (K - 1) * ds).
Let fstep := b_fstep f ref d p B total K.
Let emit := bemit f ref d p B total K.
Let metas (st : ostate) : N := ds_meta (ot_stats st) + ds_meta_failed (ot_stats st).
Let told (st : ostate) : N := ds_data (ot_stats st) + ds_data_failed (ot_stats st).

(* a data block counted is a slot kept *)
Lemma run_told pre : forall n x x' ys, frun pre (pstep fstep) n x = Some (x', ys) -> told (snd x') = told (snd x) + lenN ys /\ metas (snd x') = metas (snd x).
Proof.
  induction n as [|n IH]; intros x x' ys E; cbn [frun] in E; [discriminate E|]. destruct (pre x); [injection E as <- <-; change (lenN (@nil slot)) with 0; split; [lia|reflexivity]|].
  unfold pstep at 1 in E. destruct (fstep (snd x)) as [[st1 e] b] eqn:ES.
  assert (S1 : told st1 = told (snd x) + match e with Some _ => 1 | None => 0 end /\ metas st1 = metas (snd x)).
  { unfold fstep, b_fstep in ES. unfold told, metas. set (ok := seen _) in ES. destruct (seq_num_is_parity_w_data_par_burst _ _).
    - injection ES as <- <- _. cbn [ot_stats]. destruct ok; cbn; split; lia.
    - destruct (last_reached _ _); injection ES as <- <- _; cbn [ot_stats]; destruct ok; cbn; split; lia. }
  destruct S1 as [S1 S2]. destruct b.
  - destruct e as [s|]; injection E as <- <-; cbn [snd]; rewrite S1, S2; [rewrite lenN_cons|]; change (lenN (@nil slot)) with 0; split; lia.
  - destruct (frun pre (pstep fstep) n (fst x + 1, st1)) as [[x2 ys2]|] eqn:R; [|destruct e; discriminate E]. specialize (IH _ _ _ R). cbn [snd] in IH. destruct IH as [IH1 IH2].
    destruct e as [s|]; injection E as <- <-; rewrite IH1, S1, IH2, S2; [rewrite lenN_cons|]; split; lia.
Qed.
Lemma burst_stop limit : (N.to_nat (dseq o (K - 1)) <= limit)%nat ->
  exists i st, buf_loop c (stop_pre (Some k) (fun _ => false)) (stop_step (burst_step c f ref d p (Some K) last)) (consume_stdout c hashing) limit limit (dbuf_new_multi c) (0, mkOstate 1 0 0 s0) ([], []) =
    ROk ((i, st), (let out := concat (map (fun j => takeN (total - j * ds) (delivered f ref d p B (dseq o j))) (rangeN 0 M)) in (if hashing then out else [], out))) /\
    ds_data (ot_stats st) + ds_data_failed (ot_stats st) = M /\ ds_meta (ot_stats st) + ds_meta_failed (ot_stats st) = ds_meta s0 + ds_meta_failed s0.
Proof.
  intro LIM. assert (D1 : 1 <= ds) by apply data_size_pos.
  assert (BLE : forall j, j < K -> dseq o j <= dseq o (K - 1)) by (intros j Hj; destruct (N.eq_dec j (K - 1)) as [->|]; [lia|]; pose proof (dseq_lt o j (K - 1) HO ltac:(lia)); lia).
  destruct (@frun_chunks_stop ostate slot o HO fstep (bJ f ref d p B s0) (fun _ => True) emit K M k MK M1 M2) with (m := N.to_nat (dseq o (K - 1) - 1)) (seq := 1) (j := 0) (st := mkOstate 1 0 0 s0) as (i & st & R & _).
  - intros; exact Logic.I.
  - intros st seq j [-> CT] H1 Hj HL HU. unfold fstep, b_fstep. fold o. cbn [ot_cur ot_stats ot_pos ot_bytes] in *.
    rewrite (between_parity o seq j HO H1 HL HU). pose proof (BLE j ltac:(lia)). unfold SBX_LAST_SEQ_NUM. destruct (N.eqb_spec seq U32_MAX); [lia|].
    eexists. split; [reflexivity|]. split; [|cbn [ot_stats]; rewrite <- CT; destruct (seen _); reflexivity].
    rewrite (tally_snoc cpus f ref d p B total K s0 CPUS U6 K1 KL KU SQ Z0 seq H1). cbv zeta. fold o. rewrite (between_parity o seq j HO H1 HL HU). reflexivity.
  - intros st j [-> CT] Hj. unfold fstep, b_fstep. fold o. cbn [ot_cur ot_stats ot_pos ot_bytes] in *. rewrite (dseq_not_parity o j HO). unfold emit, bemit. fold o.
    set (ok := seen _). set (t := tally _ _ _ _) in *. assert (LR : ds_data (add_data ok t) + ds_data_failed (add_data ok t) = j + 1) by (destruct ok; cbn; lia).
    unfold last_reached. rewrite LR. destruct (N.eqb_spec (j + 1) K) as [|_]; [lia|]. pose proof (dseq_lt o j (K - 1) HO ltac:(lia)).
    unfold SBX_LAST_SEQ_NUM. destruct (N.eqb_spec (dseq o j) U32_MAX); [lia|]. eexists. split; [reflexivity|]. split; [|exact LR].
    rewrite (tally_snoc cpus f ref d p B total K s0 CPUS U6 K1 KL KU SQ Z0 (dseq o j) (dseq_pos o j)). cbv zeta. fold o. rewrite (dseq_not_parity o j HO). reflexivity.
  - intros st j [-> CT] Hj. unfold fstep, b_fstep. fold o. cbn [ot_cur ot_stats ot_pos ot_bytes] in *. rewrite (dseq_not_parity o j HO). unfold emit, bemit. fold o.
    set (ok := seen _). set (t := tally _ _ _ _) in *. assert (LR : ds_data (add_data ok t) + ds_data_failed (add_data ok t) = j + 1) by (destruct ok; cbn; lia).
    unfold last_reached. rewrite LR. destruct (N.eqb_spec (j + 1) K) as [_|]; [|lia]. eexists. split; [reflexivity|exact Logic.I].
  - split; [reflexivity|]. cbn [ot_stats]. lia.
  - lia.
  - lia.
  - left; reflexivity.
  - apply dseq_pos.
  - reflexivity.
  - exists i, st. change (1 - 1) with 0 in R. pose proof (dseq_pos o (K - 1)).
    pose proof (run_told _ _ _ _ _ R) as [TL TM]. unfold told in TL. unfold metas in TM. cbn [snd ot_stats] in TL, TM.
    assert (LS : forall l, lenN (somes (map emit l)) = lenN l) by (induction l as [|j l IH]; [reflexivity|]; cbn [map]; unfold somes in *; cbn [flat_map emit bemit app]; rewrite !lenN_cons, IH; reflexivity).
    rewrite LS, lenN_range in TL. split; [|split; [lia|exact TM]]. clear TL TM LS.
    assert (CO : cfg_ok c) by (exact (out_cfg_ok cpus f ref d p B total K s0 CPUS U6 K1 KL KU SQ Z0)).
    destruct (init_queue_rep c CO ltac:(discriminate)) as [Q1 Q2].
    rewrite (loop_flat c CO (stop_pre (Some k) (fun _ => false)) (stop_step (burst_step c f ref d p (Some K) last)) (pstep fstep) (consume_stdout c hashing)
      (gout cpus ref d p B hashing) (fun x => BI (snd x)) (BGood f ref d p B)) with (n := S (N.to_nat (dseq o (K - 1) - 1))) (st' := (i, st)) (ys := somes (map emit (rangeN 0 M))).
    + rewrite fold_gout. cbn [fst snd app].
      assert (G : forall l, (forall j, In j l -> j < K) ->
        map (hbytes c) (somes (map emit l)) = map (fun j => takeN (total - j * ds) (delivered f ref d p B (dseq o j))) l /\ map (obytes c) (somes (map emit l)) = map (fun j => takeN (total - j * ds) (delivered f ref d p B (dseq o j))) l).
      { induction l as [|j l IH]; intro HL; [split; reflexivity|]. destruct IH as [IH1 IH2]; [intros; apply HL; right; assumption|].
        assert (CL : match (if j + 1 =? K then last else None) with Some n => 1 <= n <= ds | None => True end) by (destruct (j + 1 =? K); [exact (last_bounds cpus f ref d p B total K s0 CPUS U6 K1 KL KU SQ Z0)|exact Logic.I]).
        specialize (HL j (or_introl eq_refl)). destruct (good_bytes cpus f ref d p B total K s0 CPUS HB HO U6 K1 KL KU SQ Z0 (dseq o j) _ (dseq_pos o j) (dseq_not_parity o j HO) CL) as (_ & A & A').
        fold v o in A, A'. fold c in A, A'.
        cbn [map]. unfold somes in *. cbn [flat_map emit bemit app map]. rewrite IH1, IH2. unfold hbytes at 1, obytes at 1. fold o v ds last. rewrite A, A'.
        assert (EL : takeN (out_len ref (if j + 1 =? K then last else None)) (delivered f ref d p B (dseq o j)) = takeN (total - j * ds) (delivered f ref d p B (dseq o j))).
        { destruct (found_block cpus f ref d p B total K s0 CPUS HB HO U6 K1 KL KU SQ Z0 (dseq o j) None (dseq_pos o j) (dseq_not_parity o j HO)) as (_ & _ & _ & _ & _ & _ & LD). fold v ds in LD.
          destruct (N.eqb_spec (j + 1) K) as [E|NE]; cbn [out_len last]; [replace (K - 1) with j by lia; reflexivity|]. fold v ds.
          assert ((j + 1) * ds <= (K - 1) * ds) by (apply N.mul_le_mono_r; lia). rewrite !take_all by lia. reflexivity. }
        rewrite EL. auto. }
      destruct (G (rangeN 0 M)) as [G1 G2]; [intros j Hj; apply In_rangeN in Hj; lia|]. fold c. unfold c, v, o in G1, G2. rewrite G1, G2. cbv zeta. destruct hashing; reflexivity.
    + intros [i0 st0] s I _ FS. cbn [snd] in I. pose proof (b_step_ok cpus f ref d p B total K s0 CPUS U6 K1 KL KU SQ Z0 st0 s I FS) as HS. fold v o in HS. fold c ds in HS. fold last in HS. unfold pstep, stop_step. cbn [fst snd].
      change (b_fstep f ref d p B total K) with fstep in HS. destruct (fstep st0) as [[st1 [x|]] b].
      * destruct HS as (A & HS). rewrite A. cbn [rbind snd]. split; [reflexivity|exact HS].
      * destruct HS as (s' & A & HS). rewrite A. cbn [rbind snd]. exists s'. split; [reflexivity|exact HS].
    + exact (b_consume_ok cpus f ref d p B total K s0 hashing CPUS HB HO U6 K1 KL KU SQ Z0).
    + unfold BI. cbn [ot_cur snd]. lia.
    + exact Q1.
    + exact Q2.
    + lia.
    + lia.
    + exact R.
Qed.
End BurstStop.

(* ---- sequential ---- *)
Lemma seq_stop stop cpus f ref o count last lo len i0 hashing :
  let v := b_version ref in let c := out_cfg v (b_uid ref) o cpus in let len' := cut stop (ver_to_block_size v) len in let fuel := S (S (length f)) in
  1 <= cpus -> bytes_ok f = true -> dpb_ok o -> lenN (b_uid ref) = 6 ->
  (forall k, k * ver_to_block_size v < len' -> lo + (k + 1) * ver_to_block_size v <= lenN f) -> i0 + lenN f < U64_MAX ->
  match last with Some n => 1 <= n <= ver_to_data_size v | None => True end ->
  exists st, buf_loop c (stop_pre stop (seq_pre len)) (stop_step (seq_step c f ref count last)) (consume_stdout c hashing) fuel fuel (dbuf_new_multi c) (0, mkOstate i0 lo 0 no_dstats) ([], []) =
    ROk (st, (if hashing then seq_out f ref o count last lo len' i0 else [], seq_out f ref o count last lo len' i0)).
Proof.
  intros v c len' fuel CP HB HO U6 WH IX LA. destruct (seq_run cpus f ref o count last lo len' i0 hashing CP HB HO U6 WH IX LA) as (st & R).
  set (bs := ver_to_block_size v) in *. assert (BP : 1 <= bs) by (pose proof (block_size_pos v); unfold bs; lia).
  pose proof (loop_stop c stop (seq_pre len) (seq_pre len') (seq_step c f ref count last) (fun i st => ot_bytes st = i * bs)) as L.
  assert (A : forall i st, ot_bytes st = i * bs -> raised stop i || seq_pre len st = seq_pre len' st).
  { intros i st0 EB. unfold seq_pre. rewrite EB. apply cut_leb, BP. }
  assert (B : forall i st s st' a, ot_bytes st = i * bs -> seq_step c f ref count last st s = ROk (st', a, false) -> ot_bytes st' = (i + 1) * bs).
  { intros i st0 s st' a EB ES. unfold seq_step in ES. change (slot_view_len c) with bs in ES. set (d := file_read f (ot_pos st0) bs) in *.
    assert (LD : lenN d <= bs) by (unfold d, file_read; rewrite lenN_slice; lia). destruct (N.ltb_spec (lenN d) bs) as [X|X]; [discriminate ES|].
    assert (LE : ot_bytes st0 + lenN d = (i + 1) * bs) by (rewrite EB; lia).
    destruct (expect_block _ _ _) as [[s2 ok]|e|]; try discriminate ES. cbn [rbind] in ES. rewrite LE in ES.
    destruct (seq_num_is_meta _); [injection ES as <- _ _; reflexivity|]. destruct (seq_num_is_parity_w_data_par_burst _ _); [injection ES as <- _ _; reflexivity|].
    destruct (emit_data _ _ _ _ _ _ _) as [[[st2 s3] fin]|e|]; try discriminate ES. cbn [rbind] in ES. destruct fin; [discriminate ES|]. injection ES as <- _ _. reflexivity. }
  specialize (L A B (list N * list N)%type (consume_stdout c hashing) fuel fuel (dbuf_new_multi c) 0 (mkOstate i0 lo 0 no_dstats) ([], []) eq_refl).
  fold v in R. fold c fuel in R. rewrite R in L. destruct L as (i' & L). exists (i', st). exact L.
Qed.
Lemma stdout_never_stopped H order cpus limit p f : decode_stdout_stop None None H order cpus limit p f = decode_file H order cpus limit p f ToStdout.
Proof.
  unfold decode_stdout_stop, decode_file, decode. destruct (get_ref_block _ _ _ _ _) as [[[pos ref]|]|e|]; try reflexivity. cbn [rbind]. rewrite andb_false_r.
  destruct (get_data_par_burst _ _ _ _ _) as [o|e|]; try reflexivity. cbn [rbind]. destruct (_ && _); [reflexivity|].
  assert (E : decode_to_stdout_stop None None order cpus limit p f ref o = decode_to_stdout order cpus limit p f ref o); [|rewrite E; reflexivity].
  unfold decode_to_stdout_stop, decode_to_stdout. destruct (calc_required_len_and_seek_to_from_byte_range _ _ _ _ _ _) as [len lo]. cbv zeta.
  set (c := out_cfg _ _ _ _). set (hashing := match get_HSH ref with Some _ => _ | None => _ end). destruct (read_pattern_new _ _ _) as [o'|d q].
  2: { change (read_metas_stop None f ref o) with (read_metas f ref o). destruct (read_metas f ref o) as [s0|e|]; try reflexivity. cbn [rbind]. set (step := burst_step _ _ _ _ _ _ _).
    pose proof (loop_stop c None (fun _ => false) (fun _ => false) step (fun _ _ => True) (fun _ _ _ => eq_refl) (fun _ _ _ _ _ _ _ => Logic.I)
      (consume_stdout c hashing) limit limit (dbuf_new_multi c) 0 (mkOstate 1 0 0 s0) ([], []) Logic.I) as L.
    destruct (buf_loop c (fun _ => false) _ _ _ _ _ _ _) as [[st w]|e|]; [destruct L as (i & ->)|rewrite L|rewrite L]; reflexivity. }
    destruct (guess_starting_block_index _ _ _ _ _ _) as [i0|e|]; try reflexivity. cbn [rbind]. set (step := seq_step _ _ _ _ _). set (fuel := S (S (length f))).
    pose proof (loop_stop c None (seq_pre len) (seq_pre len) step (fun _ _ => True) (fun _ _ _ => eq_refl) (fun _ _ _ _ _ _ _ => Logic.I)
      (consume_stdout c hashing) fuel fuel (dbuf_new_multi c) 0 (mkOstate i0 lo 0 no_dstats) ([], []) Logic.I) as L.
    destruct (buf_loop c (seq_pre len) _ _ _ _ _ _ _) as [[st w]|e|]; [destruct L as (i & ->)|rewrite L|rewrite L]; reflexivity.
Qed.
Lemma read_metas_stop_ok stop f ref o : let ps := calc_meta_block_all_write_pos_s (b_version ref) o in
  exists s0, read_metas_stop stop f ref o = ROk s0 /\ ds_data s0 = 0 /\ ds_data_failed s0 = 0 /\
  ds_meta s0 + ds_meta_failed s0 = match stop with Some k => N.min k (lenN ps) | None => lenN ps end.
Proof.
  intro ps. unfold read_metas_stop. fold ps. assert (LP : lenN (match stop with Some k => takeN k ps | None => ps end) = match stop with Some k => N.min k (lenN ps) | None => lenN ps end) by (destruct stop; [rewrite lenN_take|]; reflexivity).
  rewrite <- LP. generalize (match stop with Some k => takeN k ps | None => ps end). clear ps LP. intro l.
  assert (G : forall l s, exists s0, rfold (fun st pos =>
           let buf := file_read f pos (ver_to_block_size (b_version ref)) in
           if lenN buf <? ver_to_block_size (b_version ref) then ROk (add_meta false st)
           else match sync_from_buffer block_dummy buf (header_pred_same_ver_uid ref) no_pred with
                | RPanic => RPanic
                | ROk _ => ROk (add_meta true st)
                | RErr _ => ROk (add_meta false st)
                end) l s = ROk s0 /\ ds_data s0 = ds_data s /\ ds_data_failed s0 = ds_data_failed s /\ ds_meta s0 + ds_meta_failed s0 = ds_meta s + ds_meta_failed s + lenN l).
  { clear l. induction l as [|pos l IH]; intro s; cbn [rfold]; [exists s; change (lenN (@nil N)) with 0; split; [reflexivity|lia]|].
    cbv zeta. set (buf := file_read _ _ _). destruct (N.ltb_spec (lenN buf) (ver_to_block_size (b_version ref))) as [L|L].
    - cbn [rbind]. destruct (IH (add_meta false s)) as (s0 & E & A & B & C). exists s0. rewrite lenN_cons. cbn in A, B, C. split; [exact E|]. split; [exact A|]. split; [exact B|lia].
    - pose proof (accept_cases ref block_dummy buf L) as AC. destruct (accept ref buf) as [b|].
      + rewrite AC. cbn [rbind]. destruct (IH (add_meta true s)) as (s0 & E & A & B & C). exists s0. rewrite lenN_cons. cbn in A, B, C. split; [exact E|]. split; [exact A|]. split; [exact B|lia].
      + destruct AC as [e ->]. cbn [rbind]. destruct (IH (add_meta false s)) as (s0 & E & A & B & C). exists s0. rewrite lenN_cons. cbn in A, B, C. split; [exact E|]. split; [exact A|]. split; [exact B|lia]. }
  apply (G l no_dstats).
Qed.
