(* C73: what a command leaves and says when it is stopped with Ctrl-C. *)
From Verif Require Import M_Base M_Specs M_Crc M_Header M_Multihash M_Metadata M_Block M_Index M_FileUtils M_Buffer M_Ranges M_Encode M_Scan M_Loop M_Decode M_Content M_Check M_Repair M_Update M_Hex M_Rescue M_Json M_Show M_Stop
  S_Crc S_Meta S_Block S_Index S_Container S_Encode S_Decode S_Content S_Repair S_Check S_Stop
  L_Base L_File L_Crc L_Header L_Meta L_Block L_Block2 L_Index L_Index2 L_Buffer L_Encode L_Loop L_Scan L_Ranges L_Decode L_Decode2 L_Chunks L_Content L_Repair6 L_Intact L_Intact2 L_Roundtrip L_Check L_Halfway L_Stop L_Stop2
  P_Encode P_Decode P_Content P_Roundtrip P_Update P_Check.
Ltac Zify.zify_post_hook ::= idtac.
Local Open Scope N_scope.

(* ---- the flag never set: the commands as modelled elsewhere ---- *)
Lemma content_never_stopped cpus f o total ref : content_bytes_stop None cpus f o total ref = content_bytes cpus f o total ref.
Proof.
  unfold content_bytes_stop, content_bytes. set (c := hash_cfg (b_version ref) o cpus).
  pose proof (loop_stop c None (fun _ => false) (fun _ => false) (hash_step c f ref total) (fun _ _ => True) (fun _ _ _ => eq_refl) (fun _ _ _ _ _ _ _ => I)
    (consume_hash c) (hash_fuel (b_version ref) o total) (hash_fuel (b_version ref) o total) (dbuf_new_multi c) 0 (mkHstate 1 0 false) [] I) as L.
  destruct (buf_loop c (fun _ => false) _ _ _ _ _ _ _) as [[st w]|e|]; [destruct L as (i & ->)|rewrite L|rewrite L]; reflexivity.
Qed.
Lemma check_never_stopped H cpus p f : check_file_stop None None H cpus p f = check_file H cpus p f.
Proof.
  unfold check_file_stop, check_file, content_hash. destruct (get_ref_block _ _ _ _ _) as [[[pos ref]|]|e|]; try reflexivity. cbn [rbind].
  destruct (calc_required_len_and_seek_to_from_byte_range _ _ _ _ _ (Some _)) as [len lo]. cbv zeta.
  pose proof (check_loop_stop_eq None (S (S (length f))) p ref f len lo 0 no_cstats []) as E. cbv zeta in E. rewrite N.mul_0_l in E. rewrite E.
  change (check_loop (S (S (length f))) p ref f (cut None (ver_to_block_size (b_version ref)) len) lo 0 no_cstats []) with (check_blocks p ref f len lo).
  destruct (cp_hash p); cbn [rbind]; [reflexivity| |];
    (destruct (check_hash_setup ref) as [[total h]|?|]; cbn [rbind]; [|reflexivity|reflexivity]);
    [destruct (check_blocks p ref f len lo) as [?|?|]; cbn [rbind]; [|reflexivity|reflexivity]|];
    (destruct (get_data_par_burst _ _ _ _ _) as [o|?|]; cbn [rbind]; [|reflexivity|reflexivity]; rewrite content_never_stopped; reflexivity).
Qed.
Theorem c73_not_stopped H rs cpus :
  (forall p input, encode_file_stop None H rs cpus p input = encode_file H rs cpus p input) /\
  (forall order limit p f old, 1 <= cpus -> decode_file_stop None None H cpus p f old = decode_file H order cpus limit p f (ToFile old)) /\
  (forall p f, check_file_stop None None H cpus p f = check_file H cpus p f) /\
  (forall cal p f fuel lo len cs e, show_loop fuel cal (fun _ => None) p f lo len 0 0 = ROk (cs, e) -> show_loop_stop None 0 fuel cal p f lo len 0 0 = ROk cs).
Proof.
  split; [intros; apply encode_never_stopped|]. split; [intros; apply decode_never_stopped; assumption|]. split; [intros; apply check_never_stopped|].
  intros cal p f fuel lo len cs e E. destruct (show_stop_prefix None fuel cal p f lo len 0 _ _ _ _ E) as (a & b & X & -> & Y). rewrite X, (Y eq_refl), app_nil_r. reflexivity.
Qed.

(* ---- encode ---- *)
(* what is described by [encoded] is one outcome: only the count of padding bytes is left open, for an empty file *)
Lemma container_unique v uid me o rs ms ms' data f f' n : intact v uid me o rs ms data f n -> intact v uid me o rs ms' data f' n ->
  (forall i, meta_index (Some me) o i -> sliceN (i * ver_to_block_size v) (ver_to_block_size v) f = sliceN (i * ver_to_block_size v) (ver_to_block_size v) f') -> f = f'.
Proof.
  intros IT IT' EM. set (bs := ver_to_block_size v) in *. assert (BP : 1 <= bs) by (pose proof (block_size_pos v); unfold bs; lia).
  assert (LE : lenN f = lenN f').
  { assert (G : forall x y, (x = 0 \/ exists i, used_index me o n i /\ x = (i + 1) * bs) -> (forall i, used_index me o n i -> (i + 1) * bs <= y) -> x <= y).
    { intros x y [->|(i & U & ->)] Y; [lia|auto]. }
    apply N.le_antisymm; [apply (G _ _ (I5 _ _ _ _ _ _ _ _ _ IT) (I4 _ _ _ _ _ _ _ _ _ IT'))|apply (G _ _ (I5 _ _ _ _ _ _ _ _ _ IT') (I4 _ _ _ _ _ _ _ _ _ IT))]. }
  apply list_ext_N; [exact LE|]. intros i Hi. pose proof (N.div_mod' i bs) as DM. pose proof (N.mod_lt i bs ltac:(lia)) as ML.
  assert (G : sliceN (i / bs * bs) bs f = sliceN (i / bs * bs) bs f' -> nthN f i = nthN f' i).
  { intro E. apply (f_equal (fun l => nthN l (i mod bs))) in E. rewrite !nthN_slice in E. destruct (N.ltb_spec (i mod bs) bs); [|lia]. replace (i / bs * bs + i mod bs) with i in E by lia. exact E. }
  destruct (index_cases _ _ _ _ _ _ _ _ _ IT' (i / bs)) as [M|[(seq & S1 & S2)|U]].
  - apply G, EM, M.
  - apply G. rewrite <- S2. destruct (I1 _ _ _ _ _ _ _ _ _ IT seq S1) as (c & D1 & D2). destruct (I1 _ _ _ _ _ _ _ _ _ IT' seq S1) as (c' & D1' & D2'). fold bs in D2, D2'. cbv beta in *. rewrite D2, D2', (is_crc_unique _ _ _ _ D1 D1'). reflexivity.
  - rewrite (I3 _ _ _ _ _ _ _ _ _ IT i U), (I3 _ _ _ _ _ _ _ _ _ IT' i U). reflexivity.
Qed.
Lemma encoded_unique H rs cpus p data out out' n : enc_ok H rs cpus p -> bytes_ok data = true -> block_count (e_ver p) (e_dpb p) (lenN data) n -> n <= U32_MAX ->
  encoded H rs p data out -> encoded H rs p data out' ->
  eo_file out = eo_file out' /\ eo_err out = eo_err out' /\ eo_hash out = eo_hash out' /\ eo_size out = eo_size out' /\
  st_meta (eo_stats out) = st_meta (eo_stats out') /\ st_data (eo_stats out) = st_data (eo_stats out') /\ st_parity (eo_stats out) = st_parity (eo_stats out').
Proof.
  intros OK HB BC HN E E'. assert (EF : eo_file out = eo_file out').
  { destruct (encoded_intact H rs cpus p data out n OK HB E BC HN) as [IT _]. destruct (encoded_intact H rs cpus p data out' n OK HB E' BC HN) as [IT' _].
    apply (container_unique _ _ _ _ _ _ _ _ _ _ _ IT IT'). intros i M. destruct E as (_ & (m & (n1 & _ & _ & B3 & _) & P) & _). destruct E' as (_ & (m' & (n2 & _ & _ & C3 & _) & P') & _).
    rewrite (B3 i M), (C3 i M). pose proof (meta_index_on _ _ _ _ _ _ _ _ _ IT i M) as MO.
    apply (plain_unique (e_ver p) (e_uid p) (recorded H p data)); [apply (P MO)|apply (P' MO)]. }
  destruct E as (A1 & _ & A3 & A4 & A5 & _ & n1 & A7 & A8). destruct E' as (B1 & _ & B3 & B4 & B5 & _ & n2 & B7 & B8). destruct OK as (_ & _ & O1 & _).
  assert (n1 = n2) by (apply block_count_iff in A7; [|exact O1]; apply block_count_iff in B7; [|exact O1]; congruence). subst n2.
  split; [exact EF|]. split; [congruence|]. split; [congruence|]. split; [congruence|]. split; [congruence|]. unfold dpb_ok in O1. destruct (e_dpb p) as [[[d q] B]|]; [|split; destruct A8, B8; congruence].
  destruct A8 as (s & A8 & A9 & A10), B8 as (s' & B8 & B9 & B10). assert (s = s'); [|subst s'; split; congruence]. assert (s * (d + q) = s' * (d + q)) by congruence. apply N.mul_cancel_r with (p := d + q); [lia|assumption].
Qed.
(* Encoding a file, the flag seen set before payload k (from 0): the outcome is the one of encoding a file that consists of the first k
   payloads, and it is a success: the same container, hash, size and counts. *)
Theorem c73_encode_stopped H rs p cpus content mx n k :
  enc_ok H rs cpus p -> meta_fits H p -> input_ok (SrcFile content) -> e_from p = None -> e_to p = None ->
  ver_to_max_data_file_size (e_ver p) (e_dpb p) = ROk mx -> lenN content <= mx ->
  let part := takeN (k * (ver_to_block_size (e_ver p) - 16)) content in
  block_count (e_ver p) (e_dpb p) (lenN part) n -> n < U32_MAX ->
  exists out out', encode_file_stop (Some k) H rs cpus p (SrcFile content) = ROk out /\ encode_file H rs cpus p (SrcFile part) = ROk out' /\
    encoded H rs p part out /\ eo_file out = eo_file out' /\ eo_err out = false /\ eo_err out' = false /\ eo_hash out = eo_hash out' /\ eo_size out = eo_size out' /\
    st_meta (eo_stats out) = st_meta (eo_stats out') /\ st_data (eo_stats out) = st_data (eo_stats out') /\ st_parity (eo_stats out) = st_parity (eo_stats out').
Proof.
  intros OK F IO E1 E2 HMX HL part HBC HN. assert (DSE : ver_to_block_size (e_ver p) - 16 = ver_to_data_size (e_ver p)) by (rewrite (proj2 (data_size_pos (e_ver p))); reflexivity).
  unfold part in *. rewrite DSE in *. clear part. set (part := takeN (k * ver_to_data_size (e_ver p)) content) in *.
  assert (BP : bytes_ok part = true) by (apply bytes_ok_take, IO). assert (LP : lenN part <= lenN content) by (unfold part; rewrite lenN_take; lia).
  destruct (encode_stopped H rs p cpus OK F content mx n k IO E1 E2 HMX HL HBC HN) as (out & S1 & S2).
  destruct (c38_encoded_container_is_the_file H rs p cpus part mx n OK F ltac:(split; [exact BP|destruct IO; cbn in *; lia]) E1 E2 HMX ltac:(lia) HBC HN) as (out' & T1 & T2).
  destruct (encoded_unique H rs cpus p part out out' n OK BP HBC ltac:(lia) S2 T2) as (U1 & U2 & U3 & U4 & U5 & U6 & U7).
  exists out, out'. repeat (split; [first [assumption|apply S2|apply T2]|]). assumption.
Qed.
Theorem c73_encode_stdin_stopped H rs p cpus script mx n k :
  enc_ok H rs cpus p -> meta_fits H p -> input_ok (SrcStdin script) -> well_paced (ver_to_data_size (e_ver p)) script ->
  ver_to_max_data_file_size (e_ver p) (e_dpb p) = ROk mx -> k * ver_to_data_size (e_ver p) <= mx ->
  let part := takeN (k * ver_to_data_size (e_ver p)) (concat script) in
  block_count (e_ver p) (e_dpb p) (lenN part) n -> n < U32_MAX ->
  exists out, encode_file_stop (Some k) H rs cpus p (SrcStdin script) = ROk out /\ encoded H rs p part out.
Proof. exact (fun OK F => encode_stdin_stopped H rs p cpus OK F script mx n k). Qed.
(* What is left is therefore decoded without a complaint: the recorded hash and the one computed agree. *)
Theorem c73_part_decodes H rs p cpus content mx n k :
  enc_ok H rs cpus p -> meta_fits H p -> input_ok (SrcFile content) -> e_from p = None -> e_to p = None -> meta_on p = true ->
  ver_to_max_data_file_size (e_ver p) (e_dpb p) = ROk mx -> lenN content <= mx ->
  let part := takeN (k * (ver_to_block_size (e_ver p) - 16)) content in
  block_count (e_ver p) (e_dpb p) (lenN part) n -> n < U32_MAX ->
  exists out, encode_file_stop (Some k) H rs cpus p (SrcFile content) = ROk out /\ eo_err out = false /\
  forall order cpus' limit q old,
    1 <= cpus' -> L_Roundtrip.plain q -> (dc_choice q = Any \/ dc_choice q = Prefer TMeta \/ dc_choice q = MustBe TMeta) ->
    match e_dpb p with Some (_, _, B) => dc_burst q = None -> B <= SBX_MAX_BURST_ERR_RESISTANCE \/ part <> [] | None => True end ->
    (dc_force_write q = true \/ old = None) ->
    exists dout, decode_file H order cpus' limit q (eo_file out) (ToFile old) = ROk dout /\
      do_out dout = part /\ do_recorded dout = Some (canon_hash (e_hash p), H (canon_hash (e_hash p)) part) /\ do_computed dout = do_recorded dout.
Proof.
  intros OK F IO E1 E2 ME HMX HL part HBC HN. destruct (c73_encode_stopped H rs p cpus content mx n k OK F IO E1 E2 HMX HL HBC HN) as (out & out' & S1 & S2 & _ & SF & SE & _).
  fold part in S2. assert (LP : lenN part <= lenN content) by (unfold part; rewrite lenN_take; lia).
  destruct (c16_roundtrip H rs p cpus part mx n OK F ltac:(split; [apply bytes_ok_take, IO|destruct IO; cbn in *; lia]) E1 E2 ME HMX ltac:(lia) HBC HN) as (out2 & T1 & _ & T2).
  rewrite S2 in T1. apply ROk_inj in T1. subst out2. exists out. split; [exact S1|]. split; [exact SE|]. intros order cpus' limit q old X1 X2 X3 X4 X5.
  destruct (T2 order cpus' limit q old X1 X2 X3 X4 X5) as (dout & D1 & D2 & _ & D4 & D5). rewrite SF. exists dout. auto.
Qed.

(* ---- decode to a file ---- *)
(* The flag seen set before block k of the range: the output is what the first k blocks give, cut or filled up with zeros to the recorded
   size; the hash told is of the first pieces of it only, if the flag is seen set before piece [j] of the hashing. *)
Theorem c73_decode_stopped k hstop H cpus p f old out :
  1 <= cpus -> bytes_ok f = true -> lenN f < 18446744073709551616 -> is_skip_good (dc_multi p) = false ->
  decode_file_stop (Some k) hstop H cpus p f old = ROk out ->
  exists ref o len lo, setup p f ref o len lo /\
    let len' := N.min len (k * ver_to_block_size (b_version ref)) in
    (forall i, i < lenN (do_out out) -> S_Decode.restored (b_version ref) (b_uid ref) o f lo len' (start_file p old) i (nthN (do_out out) i)) /\
    match get_FSZ ref with
    | Some n => lenN (do_out out) = n
    | None => extent (b_version ref) (b_uid ref) o f lo len' (start_file p old) (lenN (do_out out))
    end /\
    do_recorded out = get_HSH ref /\
    forall t h, get_HSH ref = Some (t, h) -> hash_supported t = true ->
      do_computed out = Some (finish_hash H t (match hstop with Some j => takeN (j * 204800) (do_out out) | None => do_out out end)).
Proof.
  intros CP HB HL SG E. destruct (decode_stop_char _ _ _ _ _ _ _ _ CP E) as (ref & o & len & lo & ST & EO).
  exists ref, o, len, lo. destruct (setup_ok _ _ _ _ _ _ HB HL ST) as (HO & _). split; [exact ST|]. cbv zeta in EO |- *. cbn [cut] in EO.
  rewrite EO. cbn [do_out do_recorded do_computed]. split; [|split; [|split; [reflexivity|]]].
  - intros i Hi. rewrite nthN_fsz by exact Hi. apply restored_ok; assumption.
  - destruct (get_FSZ ref) as [n|]; [apply lenN_set_len|apply extent_ok; assumption].
  - intros t h G SU. unfold hash_output_stop, hash_output. rewrite G, SU. destruct hstop; reflexivity.
Qed.

(* ---- check ---- *)
Lemma check_stop_ok stop hstop H cpus p f out : bytes_ok f = true -> lenN f < 18446744073709551616 -> check_file_stop stop hstop H cpus p f = ROk out ->
  exists ref len lo, check_setup p f ref len lo /\
    (cp_hash p <> HashOnly -> exists s ps, ko_check out = Some (s, ps) /\ check_counts (b_version ref) (b_uid ref) f lo (cut stop (ver_to_block_size (b_version ref)) len) (cp_report_blank p) s) /\
    (cp_hash p <> NoHash -> exists total h x, check_hash_setup ref = ROk (total, h) /\ ko_hash out = Some (h, x) /\
       x = (do! o <- get_data_par_burst f (cp_burst p) (guess_from_param (cp_guess p) (cp_from p)) (cp_misalign p) ref; do! w <- content_bytes_stop hstop cpus f o total ref; ROk (finish_hash H (fst h) w))).
Proof.
  intros HB HL E. unfold check_file_stop in E. destruct (get_ref_block _ _ _ _ _) as [[[pos ref]|]|e|] eqn:G; try discriminate E. cbn [rbind] in E.
  destruct (calc_required_len_and_seek_to_from_byte_range _ _ _ _ _ (Some _)) as [len lo] eqn:R. exists ref, len, lo. split; [split; [exists pos; exact G|exact R]|].
  assert (LO : lo <= lenN f) by (apply range_in_file in R; [lia| |exact HL]; cbn [mult_of]; pose proof (block_size_pos (b_version ref)); lia).
  destruct (check_blocks_stop stop p ref f len lo LO) as (s & ps & C1 & C2). specialize (C2 HB). rewrite C1 in E.
  destruct (cp_hash p) eqn:HP; cbn [rbind] in E.
  - apply ROk_inj in E. subst out. split; [intros _; exists s, ps; auto|congruence].
  - destruct (check_hash_setup ref) as [[total h]|e|]; try discriminate E. cbn [rbind] in E. set (X := rbind (get_data_par_burst _ _ _ _ _) _) in *.
    assert (EO : out = mkCoutcome (Some (s, ps)) (Some (h, X))) by (destruct X; try discriminate E; apply ROk_inj in E; subst out; reflexivity). subst out.
    split; [intros _; exists s, ps; auto|]. intros _. exists total, h, X. auto.
  - destruct (check_hash_setup ref) as [[total h]|e|]; try discriminate E. cbn [rbind] in E. set (X := rbind (get_data_par_burst _ _ _ _ _) _) in *.
    assert (EO : out = mkCoutcome None (Some (h, X))) by (destruct X; try discriminate E; apply ROk_inj in E; subst out; reflexivity). subst out.
    split; [congruence|]. intros _. exists total, h, X. auto.
Qed.
(* The flag seen set before block k of the range: the numbers are those of the first k blocks. *)
Theorem c73_check_stopped k hstop H cpus p f out :
  bytes_ok f = true -> lenN f < 18446744073709551616 -> check_file_stop (Some k) hstop H cpus p f = ROk out -> cp_hash p <> HashOnly ->
  exists ref len lo s ps, check_setup p f ref len lo /\ ko_check out = Some (s, ps) /\
    check_counts (b_version ref) (b_uid ref) f lo (N.min len (k * ver_to_block_size (b_version ref))) (cp_report_blank p) s.
Proof.
  intros HB HL E NH. destruct (check_stop_ok _ _ _ _ _ _ _ HB HL E) as (ref & len & lo & ST & C & _). destruct (C NH) as (s & ps & C1 & C2).
  exists ref, len, lo, s, ps. auto.
Qed.
Lemma hash_part cpus f ref o data k : 1 <= cpus -> bytes_ok f = true -> dpb_ok o -> 1 <= lenN data -> numbered (b_version ref) o (lenN data) ->
  data_in_place (b_version ref) (b_uid ref) o f data ->
  exists m, chunks_up_to (b_version ref) o (lenN data) k m /\ content_bytes_stop (Some k) cpus f o (lenN data) ref = ROk (takeN (m * (ver_to_block_size (b_version ref) - 16)) data).
Proof.
  intros CP HB HO L1 NU DI. destruct (numbered_chunks _ _ _ HO L1 NU) as (K & K1 & KL & KU & SQ). set (v := b_version ref) in *. set (ds := ver_to_data_size v) in *.
  assert (DSE : ver_to_block_size v - 16 = ds) by (unfold ds; rewrite (proj2 (data_size_pos v)); reflexivity). assert (D1 : 1 <= ds) by (destruct (data_size_pos v); assumption).
  set (total := lenN data) in *.
  assert (JK : forall j, j * ds < total <-> j < K).
  { intro j. split; intro Hj; [apply N.nle_gt; intro G; assert (K * ds <= j * ds) by (apply N.mul_le_mono_r; exact G); lia|]. assert (j * ds <= (K - 1) * ds) by (apply N.mul_le_mono_r; lia). lia. }
  assert (ALL : forall j, j < K -> got ref o f (dseq o j) <> None).
  { intros j Hj G. destruct (DI j) as (pl & CI & _); [rewrite DSE; apply JK, Hj|]. exact (got_none ref o f j HB HO G pl CI). }
  assert (EX : exists M, M <= K /\ (forall j, j < M -> dseq o j <= k) /\ (M = K \/ k < dseq o M)).
  { destruct (all_or_first cpus f ref o total K CP K1 KL KU SQ (fun j => dseq o j <=? k) K) as [A|(M & A & B & C)].
    - exists K. split; [lia|]. split; [intros j Hj; apply N.leb_le, A, Hj|auto].
    - exists M. split; [lia|]. split; [intros j Hj; apply N.leb_le, C, Hj|right; apply N.leb_gt, B]. }
  destruct EX as (M & MK & M1 & M2).
  exists M. split.
  { exists (rangeN 0 M). split; [apply NoDup_range|]. split; [|rewrite lenN_range; lia]. intro j. rewrite In_rangeN, DSE, JK. split.
    - intros [_ Hj]. split; [lia|]. exists (dseq o j). split; [apply dseq_chunk, HO|apply M1, Hj].
    - intros [Hj (seq & C & S)]. apply (chunk_dseq _ _ _ HO) in C. subst seq. split; [lia|]. apply N.nle_gt. intro G. destruct M2 as [->|M2]; [lia|].
      assert (dseq o M <= dseq o j) by (destruct (N.eq_dec M j) as [->|]; [lia|]; pose proof (dseq_lt o M j HO ltac:(lia)); lia). lia. }
  rewrite (hash_stop cpus f ref o total K M k CP HB HO K1 KL KU SQ MK M1 M2 ALL). fold v ds. rewrite DSE. f_equal.
  assert (ED : data = concat (map (fun j => takeN (total - j * ds) (payload_at ref o f (dseq o j))) (rangeN 0 K))).
  { pose proof (hash_all cpus f ref o total K CP HB HO K1 KL KU SQ ALL) as HA. fold v ds in HA.
    destruct (content_bytes_iff cpus f ref o total K CP HB HO K1 KL KU SQ data) as [_ X]. fold v in X. rewrite (X (conj eq_refl DI)) in HA. apply ROk_inj in HA. exact HA. }
  set (g := fun j => takeN (total - j * ds) (payload_at ref o f (dseq o j))) in *. destruct (N.eq_dec M K) as [->|NE].
  { rewrite take_all by lia. symmetry. exact ED. }
  assert (LG : lenN (concat (map g (rangeN 0 M))) = M * ds).
  { assert (X : forall l, (forall j, In j l -> j + 1 < K) -> lenN (concat (map g l)) = lenN l * ds).
    { induction l as [|j l IH]; intro HL; [reflexivity|]. cbn [map concat]. rewrite lenN_app, lenN_cons, IH by (intros; apply HL; right; assumption).
      assert (LJ : lenN (g j) = ds); [|rewrite LJ; lia]. unfold g. rewrite lenN_take. specialize (HL j (or_introl eq_refl)). pose proof (ALL j ltac:(lia)) as AJ.
      destruct (got ref o f (dseq o j)) as [b|] eqn:EG; [|congruence]. rewrite (lenN_payload _ _ _ _ _ HB HO EG). fold v ds. assert ((j + 1) * ds <= (K - 1) * ds) by (apply N.mul_le_mono_r; lia). lia. }
    rewrite X, lenN_range; [lia|]. intros j Hj. apply In_rangeN in Hj. lia. }
  rewrite (rangeN_split 0 M K) in ED by lia. rewrite map_app, concat_app in ED. rewrite ED, take_app, take_all by lia. rewrite LG, N.sub_diag, take_0, app_nil_r. reflexivity.
Qed.
(* The flag seen set before block number k (from 0: after k numbers) while the content is hashed: the hash told to be the content's is that of the
   chunks in the blocks numbered up to k. *)
Theorem c73_hash_stopped stop k m H cpus p f out ref len lo o h data :
  1 <= cpus -> bytes_ok f = true -> lenN f < 18446744073709551616 -> check_file_stop stop (Some k) H cpus p f = ROk out -> cp_hash p <> NoHash ->
  check_setup p f ref len lo -> get_data_par_burst f (cp_burst p) (guess_from_param (cp_guess p) (cp_from p)) (cp_misalign p) ref = ROk o -> dpb_ok o ->
  get_FSZ ref = Some (lenN data) -> get_HSH ref = Some h -> 1 <= lenN data -> numbered (b_version ref) o (lenN data) ->
  data_in_place (b_version ref) (b_uid ref) o f data -> chunks_up_to (b_version ref) o (lenN data) k m ->
  ko_hash out = Some (h, ROk (finish_hash H (fst h) (takeN (m * (ver_to_block_size (b_version ref) - 16)) data))).
Proof.
  intros CP HB HL E NH [(x & G) R] GD HO GF GH L1 NU DI CM. destruct (check_stop_ok _ _ _ _ _ _ _ HB HL E) as (ref' & len' & lo' & [(x' & G') R'] & _ & C).
  rewrite G in G'. apply ROk_inj, Some_inj, pair_inj in G' as [_ <-]. destruct (C NH) as (total & h' & y & HS & KO & EY). unfold check_hash_setup in HS. destruct (is_data ref); [discriminate HS|].
  rewrite GF, GH in HS. destruct (hash_supported (fst h)); [|discriminate HS]. apply ROk_inj, pair_inj in HS as [<- <-]. rewrite GD in EY. cbn [rbind] in EY.
  destruct (hash_part cpus f ref o data k CP HB HO L1 NU DI) as (m' & CM' & EB). rewrite (exactly_fun _ _ _ CM' CM) in EB. rewrite EB in EY. cbn [rbind] in EY. rewrite KO, EY. reflexivity.
Qed.

Lemma intact_in_place v uid o rs ms data f n : intact v uid true o rs ms data f n -> data_in_place v uid o f data.
Proof.
  intros IT j Hj. destruct (chunk_seq _ _ _ _ _ _ _ _ _ IT j Hj) as (seq & Hs & C). exists (payload_of v o rs data seq). split.
  - exists seq. split; [exact C|]. apply (data_block _ _ _ _ _ _ _ _ _ IT seq Hs).
  - rewrite (payload_chunk _ _ _ _ _ _ C). unfold chunk. rewrite lenN_slice. set (ds := ver_to_block_size v - 16) in *.
    destruct (N.le_gt_cases ds (lenN data - j * ds)).
    + replace (ds - N.min ds (lenN data - j * ds)) with 0 by lia. change (repN 0 26) with (@nil N). rewrite app_nil_r. symmetry. apply take_all. rewrite lenN_slice. lia.
    + assert (E : lenN data - j * ds = lenN (sliceN (j * ds) ds data)) by (rewrite lenN_slice; lia). rewrite E. symmetry. rewrite take_app, N.sub_diag, take_0, app_nil_r, take_all; [reflexivity|lia].
Qed.
(* So of an undamaged container the command says that the hashes agree exactly if the part hashed has the same hash as the whole. *)
Theorem c73_intact_hash_stopped v uid o rs ms data f n stop k H cpus p t :
  intact v uid true o rs ms data f n -> lenN f < 18446744073709551616 -> shards_recorded o ms -> told_check p o n -> check_plain p ->
  get_meta_by_id ms IFSZ = Some (FSZ (lenN data)) -> get_meta_by_id ms IHSH = Some (HSH (t, H t data)) -> ctx_hash_type t = t -> hash_supported t = true ->
  1 <= lenN data -> 1 <= cpus -> cp_hash p <> NoHash ->
  exists m out, chunks_up_to v o (lenN data) k m /\ check_file_stop stop (Some k) H cpus p f = ROk out /\
    let part := takeN (m * (ver_to_block_size v - 16)) data in
    ko_hash out = Some ((t, H t data), ROk (t, H t part)) /\ verdict out = Some (eqbl (H t data) (H t part)).
Proof.
  intros IT FL SR TO (P1 & P2 & P3 & P4 & P5 & CH) FS HS CT SU L1 CP NH.
  pose proof (file_bytes _ _ _ _ _ _ _ _ _ IT) as HB.
  destruct (ref_meta _ _ _ _ _ _ _ _ _ IT (cp_choice p) (cp_misalign p) FL eq_refl CH) as (ref & GR & RV & RU & RD).
  assert (GDB : get_data_par_burst f (cp_burst p) None (cp_misalign p) ref = ROk o).
  { unfold get_data_par_burst. rewrite RV. assert (RS : ver_uses_rs v = match o with Some _ => true | None => false end) by apply IT. rewrite RS. destruct o as [[[d q] B]|]; [|reflexivity]. destruct SR as [S1 S2].
    assert (GD : get_RSD ref = ROk d) by (unfold get_RSD; rewrite RD, S1; reflexivity). assert (GP : get_RSP ref = ROk q) by (unfold get_RSP; rewrite RD, S2; reflexivity).
    rewrite GD, GP. cbn [rbind]. unfold get_burst_or_guess. destruct TO as [->|(-> & LB & N1)]; [reflexivity|]. rewrite RV, RS. unfold is_data, block_type_of. rewrite RD.
    destruct (guess_intact _ _ _ _ _ _ _ _ _ IT d q B ref (cp_misalign p) eq_refl RV RU GD GP) as (g & G & _ & _ & EQ); [unfold L_Guess.LEVELS; lia|]. rewrite G. cbn [rbind]. rewrite (EQ N1). reflexivity. }
  assert (RG : calc_required_len_and_seek_to_from_byte_range None None (cp_misalign p) 0 (Len (lenN f)) (Some (ver_to_block_size (b_version ref))) = (N.max 1 (lenN f), 0)).
  { apply range_whole; [|exact FL]. cbn [mult_of]. pose proof (block_size_pos (b_version ref)). lia. }
  assert (ID : is_data ref = false) by (unfold is_data, block_type_of; rewrite RD; reflexivity).
  assert (GF : get_FSZ ref = Some (lenN data)) by (unfold get_FSZ, block_get_meta; rewrite RD, FS; reflexivity).
  assert (GH : get_HSH ref = Some (t, H t data)) by (unfold get_HSH, block_get_meta; rewrite RD, HS; reflexivity).
  assert (SH : check_hash_setup ref = ROk (lenN data, (t, H t data))) by (unfold check_hash_setup; rewrite ID, GF, GH; cbn [fst]; rewrite SU; reflexivity).
  assert (HO' := HO _ _ _ _ _ _ _ _ _ IT).
  assert (NU : numbered (b_version ref) o (lenN data)) by (rewrite RV; exists n; split; [exact (BC _ _ _ _ _ _ _ _ _ IT)|exact (HN _ _ _ _ _ _ _ _ _ IT)]).
  assert (DI : data_in_place (b_version ref) (b_uid ref) o f data) by (rewrite RV, RU; exact (intact_in_place _ _ _ _ _ _ _ _ IT)).
  destruct (hash_part cpus f ref o data k CP HB HO' L1 NU DI) as (m & CM & EB). rewrite RV in CM, EB.
  exists m. assert (EO : exists out, check_file_stop stop (Some k) H cpus p f = ROk out).
  { unfold check_file_stop. rewrite P1, P2, P4, P5. cbn [ref_from_pos]. rewrite GR. cbn [rbind]. rewrite RG, P3. cbn [guess_from_param]. rewrite GDB. cbn [rbind]. rewrite SH.
    destruct (check_blocks_stop stop p ref f (N.max 1 (lenN f)) 0 ltac:(lia)) as (s & ps & C1 & _). rewrite C1. destruct (cp_hash p); cbn [rbind]; rewrite ?EB; cbn [rbind]; eexists; reflexivity. }
  destruct EO as (out & E). exists out. split; [exact CM|]. split; [exact E|]. cbv zeta.
  assert (KO : ko_hash out = Some ((t, H t data), ROk (t, H t (takeN (m * (ver_to_block_size v - 16)) data)))).
  { rewrite (c73_hash_stopped stop k m H cpus p f out ref (N.max 1 (lenN f)) 0 o (t, H t data) data CP HB FL E NH); rewrite ?RV; unfold finish_hash; cbn [fst]; rewrite ?CT; try reflexivity; try assumption.
    - split; [exists 0; rewrite P1, P2, P4; exact GR|rewrite P4, P5; exact RG].
    - rewrite P3, P4. exact GDB.
    - rewrite <- RV. exact NU.
    - rewrite <- RV. exact DI. }
  split; [exact KO|]. unfold verdict. rewrite KO. reflexivity.
Qed.
(* And check approves of the container that a stopped encode has left (of more than nothing). *)
Theorem c73_part_approved H rs p cpus content mx n k :
  enc_ok H rs cpus p -> meta_fits H p -> input_ok (SrcFile content) -> e_from p = None -> e_to p = None -> meta_on p = true ->
  ver_to_max_data_file_size (e_ver p) (e_dpb p) = ROk mx -> lenN content <= mx ->
  let part := takeN (k * (ver_to_block_size (e_ver p) - 16)) content in
  block_count (e_ver p) (e_dpb p) (lenN part) n -> n < U32_MAX -> 1 <= lenN part ->
  exists out, encode_file_stop (Some k) H rs cpus p (SrcFile content) = ROk out /\ eo_err out = false /\
  forall cpus' q, 1 <= cpus' -> told_check q (e_dpb p) n -> check_plain q -> cp_hash q <> NoHash ->
    exists cout, check_file H cpus' q (eo_file out) = ROk cout /\ verdict cout = Some true.
Proof.
  intros OK F IO E1 E2 ME HMX HL part HBC HN L1. destruct (c73_encode_stopped H rs p cpus content mx n k OK F IO E1 E2 HMX HL HBC HN) as (out & out' & S1 & S2 & EN & SF & SE & _).
  fold part in EN. exists out. split; [exact S1|]. split; [exact SE|]. intros cpus' q CP TO CH NH.
  assert (BP : bytes_ok part = true) by (apply bytes_ok_take, IO). destruct (encoded_intact H rs cpus p part out n OK BP EN HBC ltac:(lia)) as [IT FL]. rewrite ME in IT.
  assert (SU : hash_supported (e_hash p) = true) by apply OK.
  destruct (c37_intact_container _ _ _ _ _ _ _ _ H cpus' q (canon_hash (e_hash p)) IT FL) as (cout & C1 & _ & _ & C2); try assumption.
  - unfold shards_recorded, recorded. destruct (e_dpb p) as [[[d q'] B]|]; [|exact I]. destruct (e_in_name p), (e_fdt p); split; reflexivity.
  - unfold recorded. destruct (e_in_name p); reflexivity.
  - unfold recorded. destruct (e_in_name p), (e_fdt p); reflexivity.
  - destruct (e_hash p); reflexivity.
  - destruct (e_hash p); (reflexivity || discriminate SU).
  - exists cout. split; [exact C1|exact (C2 NH)].
Qed.

(* ---- show ---- *)
Lemma lazy_step f pos r : read_block_lazily f pos = ROk r -> lz_eof r = false -> 128 <= lz_len r <= 4096.
Proof.
  unfold read_block_lazily. set (b1 := file_read f pos SBX_SCAN_BLOCK_SIZE). assert (L1 : lenN b1 <= 128) by (unfold b1, file_read; rewrite lenN_slice; apply N.le_min_l).
  change SBX_SCAN_BLOCK_SIZE with 128. destruct (N.ltb_spec (lenN b1) 128) as [X|X]; [intros E F; apply ROk_inj in E; subst r; discriminate F|].
  destruct (sync_from_buffer_header_only block_dummy b1) as [b|e|]; [|intros E _; apply ROk_inj in E; subst r; cbn [lz_len]; lia|discriminate].
  cbv zeta. set (bs := ver_to_block_size (b_version b)). pose proof (block_size_pos (b_version b)) as BP. fold bs in BP.
  set (b2 := file_read f (pos + 128) (bs - 128)). assert (L2 : lenN b2 <= bs - 128) by (unfold b2, file_read; rewrite lenN_slice; apply N.le_min_l).
  destruct (N.ltb_spec (lenN b1 + lenN b2) bs) as [Y|Y]; [intros E F; apply ROk_inj in E; subst r; discriminate F|].
  destruct (sync_from_buffer _ _ _ _); intros E _; try discriminate E; apply ROk_inj in E; subst r; cbn [lz_len]; lia.
Qed.
Lemma show_stop_cut k fuel cal p f lo len : forall i bytes count cs e, i <= k -> show_loop fuel cal (fun _ => None) p f lo len bytes count = ROk (cs, e) ->
  exists b shown, bytes + 128 * (k - i) <= b /\ b <= bytes + 4096 * (k - i) /\ show_loop_stop (Some k) i fuel cal p f lo len bytes count = ROk shown /\
    show_loop fuel cal (fun _ => None) p f lo (N.min len b) bytes count = ROk (shown, None).
Proof.
  induction fuel as [|n IH]; intros i bytes count cs e IK E; cbn [show_loop show_loop_stop raised] in *; [discriminate E|].
  destruct (N.leb_spec k i) as [RA|RA].
  { exists bytes, []. split; [lia|]. split; [lia|]. split; [reflexivity|]. destruct (N.leb_spec (N.min len bytes) bytes); [reflexivity|lia]. }
  destruct (N.leb_spec len bytes) as [LB|LB].
  { exists (bytes + 128 * (k - i)), []. split; [lia|]. split; [lia|]. split; [reflexivity|]. destruct (N.leb_spec (N.min len (bytes + 128 * (k - i))) bytes); [reflexivity|lia]. }
  assert (GO : forall b, bytes + 1 <= b -> (N.min len b <=? bytes) = false) by (intros b Hb; apply N.leb_gt; lia).
  destruct (read_block_lazily f (lo + bytes)) as [r|x|] eqn:LZ; try discriminate E. cbn [rbind] in *. pose proof (lazy_step f (lo + bytes) r LZ) as LS.
  destruct (lz_eof r) eqn:EF; [exists (bytes + 128 * (k - i)), []; split; [lia|]; split; [lia|]; split; [reflexivity|]; rewrite GO by lia; reflexivity|].
  specialize (LS eq_refl).
  assert (IH' : forall count cs e, show_loop n cal (fun _ => None) p f lo len (bytes + lz_len r) count = ROk (cs, e) ->
    exists b shown, bytes + 128 * (k - i) <= b /\ b <= bytes + 4096 * (k - i) /\ bytes + 1 <= b /\ show_loop_stop (Some k) (i + 1) n cal p f lo len (bytes + lz_len r) count = ROk shown /\
      show_loop n cal (fun _ => None) p f lo (N.min len b) (bytes + lz_len r) count = ROk (shown, None)).
  { intros count' cs' e' E'. destruct (IH (i + 1) (bytes + lz_len r) count' cs' e' ltac:(lia) E') as (b & sh & B1 & B2 & X & Y). exists b, sh. split; [lia|]. split; [lia|]. split; [lia|]. auto. }
  assert (KEEP : forall count, show_loop n cal (fun _ => None) p f lo len (bytes + lz_len r) count = ROk (cs, e) ->
    exists b shown, bytes + 128 * (k - i) <= b /\ b <= bytes + 4096 * (k - i) /\ show_loop_stop (Some k) (i + 1) n cal p f lo len (bytes + lz_len r) count = ROk shown /\
      (if N.min len b <=? bytes then ROk ([], None) else show_loop n cal (fun _ => None) p f lo (N.min len b) (bytes + lz_len r) count) = ROk (shown, None)).
  { intros count' E'. destruct (IH' count' cs e E') as (b & sh & B1 & B2 & B3 & X & Y). exists b, sh. split; [exact B1|]. split; [exact B2|]. split; [exact X|]. rewrite (GO b B3). exact Y. }
  destruct (lz_block r) as [b|]; [|exact (KEEP _ E)]. destruct (is_meta b && uid_wanted p b); [|exact (KEEP _ E)]. destruct (sp_all p).
  - destruct (show_loop n cal _ p f lo len (bytes + lz_len r) (count + 1)) as [[cs0 e0]|x|] eqn:E2; try discriminate E.
    destruct (IH' _ _ _ E2) as (b' & sh & B1 & B2 & B3 & X & Y). exists b'. eexists. split; [exact B1|]. split; [exact B2|]. rewrite X, (GO b' B3), Y. split; reflexivity.
  - exists (bytes + 128 * (k - i)). eexists. split; [lia|]. split; [lia|]. rewrite GO by lia. split; reflexivity.
Qed.
(* What has been shown until the flag is seen set is the beginning of what would have been: that of a run over a shorter range, of at least
   128 bytes for each step made, and at most as much as a block may take. *)
Theorem c73_show_stopped k fuel cal p f lo len cs e : show_loop fuel cal (fun _ => None) p f lo len 0 0 = ROk (cs, e) ->
  exists b shown rest, 128 * k <= b <= 4096 * k /\ show_loop_stop (Some k) 0 fuel cal p f lo len 0 0 = ROk shown /\
    show_loop fuel cal (fun _ => None) p f lo (N.min len b) 0 0 = ROk (shown, None) /\ cs = shown ++ rest.
Proof.
  intro E. destruct (show_stop_prefix (Some k) fuel cal p f lo len 0 _ _ _ _ E) as (a & c & X & Y & _).
  destruct (show_stop_cut k fuel cal p f lo len 0 0 0 cs e (N.le_0_l _) E) as (b & sh & B1 & B2 & X' & Z). rewrite X in X'. apply ROk_inj in X'. subst sh. exists b, a, c.
  split; [lia|]. auto.
Qed.

(* ---- what should hold does not ---- *)
(* Finding F41: an encode that was stopped ends as one that has succeeded, though its container is not of the file. *)
Theorem c73_encode_refuted : ~ forall H rs p cpus content mx n k out,
  enc_ok H rs cpus p -> meta_fits H p -> input_ok (SrcFile content) -> e_from p = None -> e_to p = None -> meta_on p = true ->
  ver_to_max_data_file_size (e_ver p) (e_dpb p) = ROk mx -> lenN content <= mx -> block_count (e_ver p) (e_dpb p) (lenN content) n -> n < U32_MAX ->
  encode_file_stop (Some k) H rs cpus p (SrcFile content) = ROk out -> eo_err out = false -> encoded H rs p content out.
Proof.
  intro A. destruct c16_hypotheses as (OK & F & IO & (mx & HMX & HL) & ME & PQ & HBC & HN).
  assert (X : match encode_file_stop (Some 1) toy_hash toy_rs 4 (toy_p V17 toy_o) (SrcFile toy_content) with ROk out => negb (eo_err out) && match eo_hash out with Some (_, x :: _) => x =? 240 | _ => false end | _ => false end = true) by (vm_compute; reflexivity).
  destruct (encode_file_stop (Some 1) toy_hash toy_rs 4 (toy_p V17 toy_o) (SrcFile toy_content)) as [out|e|] eqn:E; [|discriminate X|discriminate X]. apply andb_true_iff in X as [X1 X2].
  destruct (A toy_hash toy_rs (toy_p V17 toy_o) 4 toy_content mx 5 1 out OK F IO eq_refl eq_refl eq_refl HMX HL HBC HN E ltac:(destruct (eo_err out); [discriminate X1|reflexivity])) as (_ & _ & B & _).
  rewrite B in X2. vm_compute in X2. discriminate X2.
Qed.
(* Finding F42: a check that was stopped while hashing says of an intact container that the hashes differ. *)
Theorem c73_check_refuted : ~ forall k H cpus p f out out',
  check_file H cpus p f = ROk out -> verdict out = Some true -> check_file_stop None (Some k) H cpus p f = ROk out' -> verdict out' = Some true \/ verdict out' = None.
Proof.
  intro A. assert (X : match check_file toy_hash 2 (toy_check HashOnly false None) toy_file with ROk out => verdict out | _ => None end = Some true) by (vm_compute; reflexivity).
  assert (Y : match check_file_stop None (Some 2) toy_hash 2 (toy_check HashOnly false None) toy_file with ROk out => verdict out | _ => None end = Some false) by (vm_compute; reflexivity).
  specialize (A 2 toy_hash 2 (toy_check HashOnly false None) toy_file). destruct (check_file _ _ _ _) as [out|e|]; [|discriminate X|discriminate X].
  destruct (check_file_stop _ _ _ _ _ _) as [out'|e|]; [|discriminate Y|discriminate Y]. destruct (A out out' eq_refl X eq_refl) as [B|B]; rewrite B in Y; discriminate Y.
Qed.

(* ---- examples ---- *)
Definition kept (r : result eoutcome) : option (file * N) := match r with ROk out => if eo_err out then None else Some (eo_file out, eo_size out) | _ => None end.
(* stopped after two of the three payloads; the hypotheses of c73_encode_stopped and c73_part_decodes are met *)
Example c73_encode_run : kept (encode_file_stop (Some 2) toy_hash toy_rs 4 (toy_p V17 toy_o) (SrcFile toy_content)) = kept (encode_file toy_hash toy_rs 4 (toy_p V17 toy_o) (SrcFile (takeN 992 toy_content))) /\
  (match kept (encode_file_stop (Some 2) toy_hash toy_rs 4 (toy_p V17 toy_o) (SrcFile toy_content)) with Some (f, _) => toy_decode f | None => [] end) = takeN 992 toy_content /\
  kept (encode_file_stop (Some 2) toy_hash toy_rs 4 (toy_p V1 None) (SrcStdin [repN 600 1; repN 400 2; repN 1000 3])) = kept (encode_file toy_hash toy_rs 4 (toy_p V1 None) (SrcStdin [repN 600 1; repN 392 2])).
Proof. split; [|split]; vm_compute; reflexivity. Qed.
Example c73_encode_hypotheses : enc_ok toy_hash toy_rs 4 (toy_p V17 toy_o) /\ meta_fits toy_hash (toy_p V17 toy_o) /\ input_ok (SrcFile toy_content) /\
  (exists mx, ver_to_max_data_file_size V17 toy_o = ROk mx /\ lenN toy_content <= mx) /\
  block_count V17 toy_o (lenN (takeN (2 * (ver_to_block_size V17 - 16)) toy_content)) 5 /\ 5 < U32_MAX /\ L_Roundtrip.plain toy_q.
Proof.
  destruct c16_hypotheses as (OK & F & IO & MX & _ & PQ & _ & HN). split; [exact OK|]. split; [exact F|]. split; [exact IO|]. split; [exact MX|].
  split; [apply block_count_iff; vm_compute; repeat split; congruence|]. split; [exact HN|exact PQ].
Qed.
(* decoding stopped after the second block read: one data block has been seen; the rest is zeros *)
Example c73_decode_run : match decode_file_stop (Some 2) (Some 0) toy_hash 2 toy_q toy_file None with
  | ROk out => (do_out out, do_computed out) | _ => ([], None) end = (takeN 496 toy_content ++ repN 704 0, Some (SHA256, toy_hash SHA256 [])).
Proof. vm_compute. reflexivity. Qed.
Example c73_check_run : match check_file_stop (Some 2) (Some 1) toy_hash 2 (toy_check HashAfterCheck false None) toy_file with
  | ROk out => (ko_check out, verdict out) | _ => (None, None) end = (Some (mkCstats 1 1 0 0, []), Some false).
Proof. vm_compute. reflexivity. Qed.
(* three copies of the metadata; stopped at once, after the first step, after six *)
Definition shown (r : result (list call)) : N := match r with ROk cs => lenN cs | _ => 0 end.
Definition toy_sp : sparam := mkSparam true false None false None None None.
Example c73_show_run : let run stop := shown (show_loop_stop stop 0 (S (length toy_file)) (fun _ _ => None) toy_sp toy_file 0 (lenN toy_file) 0 0) in
  run (Some 0) = 0 /\ 0 < run (Some 1) /\ run (Some 1) <= run (Some 6) /\ run (Some 1) < run None.
Proof. vm_compute. repeat split; congruence. Qed.
(* the hypotheses of c73_intact_hash_stopped are those of c37_intact_container (c37_hypotheses); the chunks counted there *)
Example c73_chunks : chunks_up_to V17 toy_o (lenN toy_content) 2 2.
Proof.
  exists [0; 1]. split; [repeat constructor; cbn; intuition discriminate|]. split; [|reflexivity]. intro j. change (ver_to_block_size V17 - 16) with 496. change (lenN toy_content) with 1200. split.
  - intros [<-|[<-|[]]]; (split; [lia|]); [exists (dseq toy_o 0)|exists (dseq toy_o 1)]; (split; [apply dseq_chunk; vm_compute; repeat split; congruence|vm_compute; discriminate]).
  - intros [J (seq & C & S)]. assert (J3 : j = 0 \/ j = 1 \/ j = 2) by lia. destruct J3 as [-> | [-> | ->]]; [left; reflexivity|right; left; reflexivity|]. exfalso. apply (chunk_dseq toy_o seq 2) in C; [|vm_compute; repeat split; congruence]. vm_compute in C. subst seq. lia.
Qed.

Print Assumptions c73_not_stopped.
Print Assumptions c73_encode_stopped.
Print Assumptions c73_encode_stdin_stopped.
Print Assumptions c73_part_decodes.
Print Assumptions c73_part_approved.
Print Assumptions c73_decode_stopped.
Print Assumptions c73_check_stopped.
Print Assumptions c73_hash_stopped.
Print Assumptions c73_intact_hash_stopped.
Print Assumptions c73_show_stopped.
Print Assumptions c73_encode_refuted.
Print Assumptions c73_check_refuted.
