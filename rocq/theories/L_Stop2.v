(* Decoding, checking and showing with the stop flag. *)
From Verif Require Import M_Base M_Specs M_Crc M_Header M_Multihash M_Metadata M_Block M_Index M_FileUtils M_Buffer M_Ranges M_Encode M_Scan M_Loop M_Decode M_Content M_Check M_Hex M_Rescue M_Json M_Show M_Stop
  S_Crc S_Meta S_Block S_Index S_Container S_Encode S_Decode S_Content S_Repair S_Check
  L_Base L_File L_Crc L_Header L_Meta L_Block L_Block2 L_Index L_Index2 L_Buffer L_Encode L_Loop L_Scan L_Ranges L_Decode L_Decode2 L_Chunks L_Content L_Repair6 L_Check L_Stop.
Ltac Zify.zify_post_hook ::= idtac.

Definition cut (stop : flag) (q len : N) : N := match stop with Some k => N.min len (k * q) | None => len end.
Lemma cut_leb stop q len i : 1 <= q -> raised stop i || (len <=? i * q) = (cut stop q len <=? i * q).
Proof. intro HQ. rewrite (raised_cut stop q (Some len) i HQ). destruct stop; reflexivity. Qed.

(* ---- decoding ---- *)
Lemma to_file_stop_ok stop cpus p f ref o old len lo : 1 <= cpus -> scan_range p f ref = (len, lo) ->
  let len' := cut stop (ver_to_block_size (b_version ref)) len in
  decode_to_file_stop stop cpus p f ref o old
  = ROk (fold_left (cnt f ref o) (poss f ref lo len') no_dstats,
         match get_FSZ ref with Some n => file_set_len (raw_out cpus p f ref o old len' lo) n | None => raw_out cpus p f ref o old len' lo end).
Proof.
  intros CP E len'. unfold decode_to_file_stop. fold (scan_range p f ref). rewrite E. set (bs := ver_to_block_size (b_version ref)) in *.
  assert (BP : 1 <= bs) by (pose proof (block_size_pos (b_version ref)); unfold bs; lia).
  destruct (dec_loop cpus f ref o (is_skip_good (dc_multi p)) lo len' CP old (S (S (length f))) ltac:(lia)) as (st & R & S).
  set (c := dec_cfg (b_version ref) (b_uid ref) o (is_skip_good (dc_multi p)) cpus) in *.
  pose proof (loop_stop c stop (dec_pre len) (dec_pre len') (dec_step c f ref) (fun i st => dt_bytes st = i * bs)) as L.
  assert (A : forall i st, dt_bytes st = i * bs -> raised stop i || dec_pre len st = dec_pre len' st).
  { intros i st0 EB. unfold dec_pre. rewrite EB. apply cut_leb, BP. }
  assert (B : forall i st s st' a, dt_bytes st = i * bs -> dec_step c f ref st s = ROk (st', a, false) -> dt_bytes st' = (i + 1) * bs).
  { intros i st0 s st' a EB ES. unfold dec_step in ES. change (slot_view_len c) with bs in ES. set (d := file_read f (dt_pos st0) bs) in *.
    assert (LD : lenN d <= bs) by (unfold d, file_read; rewrite lenN_slice; lia). destruct (N.ltb_spec (lenN d) bs) as [X|X]; [discriminate ES|].
    assert (LE : lenN d = bs) by lia. destruct (sync_from_buffer _ _ _ _); try discriminate ES; injection ES as <- _; cbn [dt_bytes]; rewrite EB, LE; lia. }
  specialize (L A B file (consume_write c) (Datatypes.S (Datatypes.S (length f))) (Datatypes.S (Datatypes.S (length f))) (dbuf_new_multi c) 0 (mkDstate lo 0 no_dstats) old eq_refl).
  fold c in R. rewrite R in L. destruct L as (i' & L). rewrite L. cbn [rbind snd]. rewrite S, fold_somes. reflexivity.
Qed.
Lemma decode_stop_char stop hstop H cpus p f old out : 1 <= cpus ->
  decode_file_stop stop hstop H cpus p f old = ROk out ->
  exists ref o len lo, setup p f ref o len lo /\
    let len' := cut stop (ver_to_block_size (b_version ref)) len in
    let raw := raw_out cpus p f ref o (start_file p old) len' lo in
    let res := match get_FSZ ref with Some n => file_set_len raw n | None => raw end in
    out = mkDoutcome (fold_left (cnt f ref o) (poss f ref lo len') no_dstats) res (get_HSH ref) (hash_output_stop hstop H ref res) (lenN res).
Proof.
  intros CP E. unfold decode_file_stop in E.
  destruct (get_ref_block _ _ _ _ _) as [[[pos ref]|]|e|] eqn:G; try discriminate E. cbn [rbind] in E.
  destruct (negb (dc_force_write p) && _ && _); [discriminate E|].
  destruct (get_data_par_burst _ _ _ _ _) as [o|e|] eqn:D; try discriminate E. cbn [rbind] in E.
  destruct (ver_uses_rs (b_version ref) && is_data ref); [discriminate E|].
  destruct (scan_range p f ref) as [len lo] eqn:R. cbv zeta in E.
  rewrite (to_file_stop_ok stop cpus p f ref o _ len lo CP R) in E. cbn [rbind] in E. apply ROk_inj in E.
  exists ref, o, len, lo. split; [split; [exists pos; exact G|]; split; assumption|].
  cbv zeta. rewrite <- E. unfold start_file. destruct (dc_multi p), old; reflexivity.
Qed.
Lemma decode_never_stopped H order cpus limit p f old : 1 <= cpus -> decode_file_stop None None H cpus p f old = decode_file H order cpus limit p f (ToFile old).
Proof.
  intro CP. unfold decode_file_stop, decode_file, decode. destruct (get_ref_block _ _ _ _ _) as [[[pos ref]|]|e|]; try reflexivity. cbn [rbind].
  destruct (negb (dc_force_write p) && _ && _); [reflexivity|].
  destruct (get_data_par_burst _ _ _ _ _) as [o|e|]; try reflexivity. cbn [rbind]. destruct (_ && _); [reflexivity|].
  destruct (scan_range p f ref) as [len lo] eqn:R. cbv zeta. rewrite (to_file_stop_ok None cpus p f ref o _ len lo CP R), (to_file_ok cpus p f ref o _ len lo CP R).
  reflexivity.
Qed.

(* ---- checking ---- *)
Lemma check_loop_stop_eq stop n p ref f len lo : forall i s ps,
  let bs := ver_to_block_size (b_version ref) in
  check_loop_stop stop i n p ref f len lo (i * bs) s ps = check_loop n p ref f (cut stop bs len) lo (i * bs) s ps.
Proof.
  cbv zeta. set (bs := ver_to_block_size (b_version ref)). assert (BP : 1 <= bs) by (pose proof (block_size_pos (b_version ref)); unfold bs; lia).
  induction n as [|n IH]; intros i s ps; cbn [check_loop_stop check_loop]; [reflexivity|].
  rewrite <- (cut_leb stop bs len i BP). destruct (raised stop i); cbn [orb]; [reflexivity|]. destruct (len <=? i * bs); [reflexivity|]. cbv zeta. fold bs.
  set (d := file_read f (lo + i * bs) bs). assert (LD : lenN d <= bs) by (unfold d, file_read; rewrite lenN_slice; lia).
  destruct (N.ltb_spec (lenN d) bs) as [L|L]; [reflexivity|]. assert (EB : i * bs + lenN d = (i + 1) * bs) by lia. rewrite EB.
  destruct (sync_from_buffer _ _ _ _); [apply IH| |reflexivity]. destruct (buffer_is_blank d); [destruct (cp_report_blank p)|]; apply IH.
Qed.
Lemma check_blocks_stop stop p ref f len lo : lo <= lenN f ->
  exists s ps, check_loop_stop stop 0 (S (S (length f))) p ref f len lo 0 no_cstats [] = ROk (s, ps) /\
    (bytes_ok f = true -> check_counts (b_version ref) (b_uid ref) f lo (cut stop (ver_to_block_size (b_version ref)) len) (cp_report_blank p) s).
Proof.
  intro L. set (bs := ver_to_block_size (b_version ref)). pose proof (check_loop_stop_eq stop (S (S (length f))) p ref f len lo 0 no_cstats []) as E. cbv zeta in E. fold bs in E. rewrite N.mul_0_l in E.
  rewrite E. pose proof (check_blocks_ok p ref f (cut stop bs len) lo L) as C. unfold check_blocks in C. rewrite C.
  eexists. eexists. split; [reflexivity|]. intro HB. apply counts_ok, HB.
Qed.

(* ---- hashing the content ---- *)
Section RunStop.
Context {St X : Type}.
Variable o : dpb.
Hypothesis HO : dpb_ok o.
Variable fstep : St -> St * option X * bool.
Variable J : St -> N -> N -> Prop.
Variable Fin : St -> Prop.
Variable emit : N -> option X.
Variables K M k : N.
Definition pstep (x : N * St) : N * St * option X * bool := let '(st, e, b) := fstep (snd x) in ((fst x + 1, st), e, b).
Hypothesis MK : M <= K.
Hypothesis M1 : forall j, j < M -> dseq o j <= k.
Hypothesis M2 : M = K \/ k < dseq o M.
Hypothesis HJF : forall st seq j, J st seq j -> Fin st.
Hypothesis HPar : forall st seq j, J st seq j -> 1 <= seq -> j < K -> (j = 0 \/ dseq o (j - 1) < seq) -> seq < dseq o j ->
  exists st', fstep st = (st', None, false) /\ J st' (seq + 1) j.
Hypothesis HDat : forall st j, J st (dseq o j) j -> j + 1 < K -> exists st', fstep st = (st', emit j, false) /\ J st' (dseq o j + 1) (j + 1).
Hypothesis HEnd : forall st j, J st (dseq o j) j -> j + 1 = K -> exists st', fstep st = (st', emit j, true) /\ Fin st'.
Lemma frun_chunks_stop : forall m seq j st, J st seq j -> 1 <= seq -> j < K -> (j = 0 \/ dseq o (j - 1) < seq) -> seq <= dseq o j ->
  m = N.to_nat (dseq o (K - 1) - seq) ->
  exists i st', frun (stop_pre (Some k) (fun _ => false)) pstep (S m) (seq - 1, st) = Some ((i, st'), somes (map emit (rangeN j M))) /\ Fin st'.
Proof.
  induction m as [|m IH]; intros seq j st HJ H1 HK HL HU EM.
  - assert (E : seq = dseq o (K - 1) /\ j = K - 1).
    { assert (dseq o j <= dseq o (K - 1)) by (destruct (N.eq_dec j (K - 1)) as [->|]; [lia|]; pose proof (dseq_lt o j (K - 1) HO ltac:(lia)); lia).
      assert (seq = dseq o (K - 1)) by lia. split; [assumption|]. apply (dseq_inj o); [exact HO|]. lia. }
    destruct E as [-> ->]. cbn [frun]. unfold stop_pre, raised. cbn [fst snd]. rewrite orb_false_r. destruct (N.leb_spec k (dseq o (K - 1) - 1)) as [G|G].
    + rewrite rangeN_nil; [exists (dseq o (K - 1) - 1), st; split; [reflexivity|apply (HJF _ _ _ HJ)]|].
      apply N.nlt_ge. intro X0. specialize (M1 (K - 1) X0). lia.
    + assert (EM2 : M = K). { destruct M2 as [->|X0]; [reflexivity|]. destruct (N.eq_dec M K) as [->|NE]; [reflexivity|]. exfalso.
        assert (dseq o M <= dseq o (K - 1)) by (destruct (N.eq_dec M (K - 1)) as [->|]; [lia|]; pose proof (dseq_lt o M (K - 1) HO ltac:(lia)); lia). lia. }
      destruct (HEnd _ _ HJ ltac:(lia)) as (st' & E & F). unfold pstep. cbn [fst snd]. rewrite E.
      rewrite EM2. rewrite rangeN_cons by lia. rewrite rangeN_nil by lia. exists (dseq o (K - 1) - 1 + 1), st'. split; [|exact F]. cbn [map]. unfold somes. cbn [flat_map]. destruct (emit (K - 1)); reflexivity.
  - remember (S m) as mm eqn:EMM. cbn [frun]. unfold stop_pre at 1, raised. cbn [fst snd]. rewrite orb_false_r. destruct (N.leb_spec k (seq - 1)) as [G|G].
    { rewrite rangeN_nil; [exists (seq - 1), st; split; [reflexivity|apply (HJF _ _ _ HJ)]|]. apply N.nlt_ge. intro X0. specialize (M1 j X0). lia. }
    destruct (N.eq_dec seq (dseq o j)) as [->|NE].
    + assert (HJK : j + 1 < K). { destruct (N.eq_dec (j + 1) K) as [<-|]; [|lia]. replace (j + 1 - 1) with j in EM by lia. lia. }
      assert (JM : j < M). { apply N.nle_gt. intro X0. destruct M2 as [->|X1]; [lia|]. assert (dseq o M <= dseq o j) by (destruct (N.eq_dec M j) as [->|]; [lia|]; pose proof (dseq_lt o M j HO ltac:(lia)); lia). lia. }
      destruct (HDat _ _ HJ HJK) as (st' & E & HJ').
      destruct (IH (dseq o j + 1) (j + 1) st') as (i & st2 & R & F); [exact HJ'|lia|lia|right; replace (j + 1 - 1) with j by lia; lia|pose proof (dseq_succ o j HO); lia|lia|].
      exists i, st2. split; [|exact F]. unfold pstep at 1. cbn [fst snd]. rewrite E. rewrite (rangeN_cons j) by lia. cbn [map]. unfold somes in *. cbn [flat_map].
      replace (dseq o j - 1 + 1) with (dseq o j + 1 - 1) by lia. destruct (emit j); rewrite R; reflexivity.
    + destruct (HPar _ _ _ HJ H1 HK HL ltac:(lia)) as (st' & E & HJ').
      destruct (IH (seq + 1) j st') as (i & st2 & R & F); [exact HJ'|lia|lia|destruct HL; [left; assumption|right; lia]|lia|lia|].
      exists i, st2. split; [|exact F]. unfold pstep at 1. cbn [fst snd]. rewrite E. replace (seq - 1 + 1) with (seq + 1 - 1) by lia. exact R.
Qed.
End RunStop.

Section HashStop.
Variables (cpus : N) (f : file) (ref : block) (o : dpb) (total K M k : N).
Hypothesis CPUS : 1 <= cpus.
Hypothesis HB : bytes_ok f = true.
Hypothesis HO : dpb_ok o.
Let v := b_version ref.
Let ds := ver_to_data_size v.
Let c := hash_cfg v o cpus.
Hypothesis K1 : 1 <= K.
Hypothesis KL : (K - 1) * ds < total.
Hypothesis KU : total <= K * ds.
Hypothesis SQ : dseq o (K - 1) <= U32_MAX.
Hypothesis MK : M <= K.
Hypothesis M1 : forall j, j < M -> dseq o j <= k.
Hypothesis M2 : M = K \/ k < dseq o M.
Hypothesis ALL : forall j, j < K -> got ref o f (dseq o j) <> None.
Lemma hash_stop : content_bytes_stop (Some k) cpus f o total ref
  = ROk (concat (map (fun j => takeN (total - j * ds) (payload_at ref o f (dseq o j))) (rangeN 0 M))).
Proof.
  assert (D1 : 1 <= ds) by (destruct (data_size_pos v); assumption).
  assert (DLE : forall j, j < K -> dseq o j <= dseq o (K - 1)) by (intros j Hj; destruct (N.eq_dec j (K - 1)) as [->|]; [lia|]; pose proof (dseq_lt o j (K - 1) HO ltac:(lia)); lia).
  set (hslot := hslot f ref o total).
  destruct (@frun_chunks_stop hstate slot o HO (h_fstep f ref o total) (hJ ref) (fun st => hs_err st = false) hslot K M k MK M1 M2) with (m := N.to_nat (dseq o (K - 1) - 1)) (seq := 1) (j := 0) (st := mkHstate 1 0 false) as (i & st & R & F).
  - intros st seq j ->. reflexivity.
  - intros st seq j -> H1 Hj HL HU. unfold h_fstep. cbn [hs_seq hs_bytes hs_err].
    rewrite (between_parity o seq j HO H1 HL HU). pose proof (DLE j Hj). unfold SBX_LAST_SEQ_NUM. destruct (N.eqb_spec seq U32_MAX); [lia|].
    eexists. split; [reflexivity|reflexivity].
  - intros st j -> Hj. unfold h_fstep. cbn [hs_seq hs_bytes hs_err]. rewrite (dseq_not_parity o j HO). unfold hslot, L_Content.hslot. fold v ds.
    pose proof (ALL j ltac:(lia)) as OKj. destruct (got ref o f (dseq o j)) as [b|]; [|congruence].
    assert (X : (j + 1) * ds <= (K - 1) * ds) by (apply N.mul_le_mono_r; lia).
    destruct (N.leb_spec (total - j * ds) ds); [lia|]. pose proof (dseq_lt o j (K - 1) HO ltac:(lia)).
    unfold SBX_LAST_SEQ_NUM. destruct (N.eqb_spec (dseq o j) U32_MAX); [lia|]. eexists. split; [reflexivity|]. unfold hJ. fold v ds. f_equal. lia.
  - intros st j -> Hj. unfold h_fstep. cbn [hs_seq hs_bytes hs_err]. rewrite (dseq_not_parity o j HO). unfold hslot, L_Content.hslot. fold v ds.
    pose proof (ALL j ltac:(lia)) as OKj. destruct (got ref o f (dseq o j)) as [b|]; [|congruence].
    assert (X : total - j * ds <= ds). { assert (j = K - 1) by lia. subst j. assert (K * ds = (K - 1) * ds + ds) by nia. lia. }
    destruct (N.leb_spec (total - j * ds) ds); [|lia]. eexists. split; reflexivity.
  - reflexivity.
  - lia.
  - lia.
  - left; reflexivity.
  - apply dseq_pos.
  - reflexivity.
  - assert (FU : (S (N.to_nat (dseq o (K - 1) - 1)) <= hash_fuel v o total)%nat).
    { pose proof (fuel_ok cpus f ref o total K CPUS HO K1 KL KU SQ) as FO. fold v in FO. pose proof (dseq_pos o (K - 1)). lia. }
    unfold content_bytes_stop. fold v. fold c. destruct (init_queue_rep c (hash_cfg_ok cpus f ref o total K CPUS K1 KL KU SQ) ltac:(discriminate)) as [Q1 Q2]. change (1 - 1) with 0 in R.
    rewrite (loop_flat c (hash_cfg_ok cpus f ref o total K CPUS K1 KL KU SQ) (stop_pre (Some k) (fun _ => false)) (stop_step (hash_step c f ref total)) (pstep (h_fstep f ref o total)) (consume_hash c) (fun w s => w ++ hbytes c s) (fun x => HI total (snd x)) (HGood ref)) with (n := S (N.to_nat (dseq o (K - 1) - 1))) (st' := (i, st)) (ys := somes (map hslot (rangeN 0 M))).
    + cbn [rbind snd]. rewrite F, fold_concat. cbn [app]. f_equal. f_equal.
      assert (G : forall l, (forall j, In j l -> j < K) -> map (hbytes c) (somes (map hslot l)) = map (fun j => takeN (total - j * ds) (payload_at ref o f (dseq o j))) l).
      { induction l as [|j l IH]; intro HL; [reflexivity|]. cbn [map]. unfold somes. cbn [flat_map]. destruct (hslot j) as [s|] eqn:E.
        - cbn [app map]. unfold c at 1, v. rewrite (hbytes_slot cpus f ref o total K CPUS HB HO K1 KL KU SQ j s (HL j (or_introl eq_refl)) E). f_equal. apply IH. intros; apply HL; right; assumption.
        - exfalso. unfold hslot, L_Content.hslot in E. specialize (ALL j (HL j (or_introl eq_refl))). destruct (got ref o f (dseq o j)); [discriminate E|congruence]. }
      apply G. intros j Hj. apply In_rangeN in Hj. lia.
    + intros [i0 st0] s I _ FS. cbn [snd] in I. pose proof (h_step_ok cpus f ref o total K CPUS K1 KL KU SQ st0 s I FS) as HS. unfold pstep, stop_step. cbn [fst snd].
      destruct (h_fstep f ref o total st0) as [[st1 [x|]] b].
      * destruct HS as (A & B & C & D). fold v c in A. rewrite A. cbn [rbind]. split; [reflexivity|]. split; [exact B|]. split; [exact C|exact D].
      * destruct HS as (s' & A & B & C). fold v c in A. rewrite A. cbn [rbind]. exists s'. split; [reflexivity|]. split; [exact B|exact C].
    + exact (L_Content.consume_ok cpus f ref o total K CPUS K1 KL KU SQ).
    + unfold HI. cbn [hs_bytes snd]. lia.
    + exact Q1.
    + exact Q2.
    + exact FU.
    + exact FU.
    + exact R.
Qed.
End HashStop.

(* ---- showing ---- *)
Lemma show_stop_prefix stop fuel cal p f seek_to len : forall i bytes count cs e, show_loop fuel cal (fun _ => None) p f seek_to len bytes count = ROk (cs, e) ->
  exists cs1 cs2, show_loop_stop stop i fuel cal p f seek_to len bytes count = ROk cs1 /\ cs = cs1 ++ cs2 /\ (stop = None -> cs2 = []).
Proof.
  induction fuel as [|n IH]; intros i bytes count cs e E; cbn [show_loop show_loop_stop] in *; [discriminate E|].
  destruct (raised stop i) eqn:RA; [exists [], cs; split; [reflexivity|]; split; [reflexivity|]; intros ->; discriminate RA|].
  destruct (len <=? bytes); [apply ROk_inj, pair_inj in E as [<- _]; exists [], []; auto|].
  destruct (read_block_lazily f (seek_to + bytes)) as [r|x|]; try discriminate E. cbn [rbind] in *.
  destruct (lz_eof r); [apply ROk_inj, pair_inj in E as [<- _]; exists [], []; auto|]. destruct (lz_block r) as [b|]; [|apply (IH _ _ _ _ _ E)].
  destruct (is_meta b && uid_wanted p b); [|apply (IH _ _ _ _ _ E)]. destruct (sp_all p).
  - destruct (show_loop n cal _ p f seek_to len (bytes + lz_len r) (count + 1)) as [[cs0 e0]|x|] eqn:E2; try discriminate E. cbn [rbind] in E. apply ROk_inj, pair_inj in E as [<- _].
    destruct (IH (i + 1) _ _ _ _ E2) as (c1 & c2 & -> & -> & X). cbn [rbind]. eexists; exists c2. split; [reflexivity|]. split; [apply app_assoc|exact X].
  - apply ROk_inj, pair_inj in E as [<- _]. eexists; exists []. split; [reflexivity|]. split; [symmetry; apply app_nil_r|auto].
Qed.
