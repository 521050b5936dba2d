(* C73: decoding to standard output, stopped with Ctrl-C. *)
From Coq Require Import Sorted.
From Verif Require Import M_Base M_Specs M_Crc M_Header M_Multihash M_Metadata M_Block M_Index M_FileUtils M_Buffer M_Ranges M_Encode M_Scan M_Loop M_Decode M_Content M_Stop M_StopOut
  S_Crc S_Meta S_Block S_Index S_Container S_Encode S_Scan S_Decode S_Content S_Guess S_Stdout S_Repair S_Stop
  L_Base L_File L_Crc L_Header L_Meta L_Block L_Block2 L_Index L_Index2 L_Buffer L_Encode L_Container L_Loop L_Scan L_Ref L_Ranges L_Decode L_Decode2 L_Chunks L_Content
  L_Guess L_Guess2 L_Intact L_Intact2 L_Roundtrip L_Stdout L_Stdout2 L_Stop L_Stop2 L_StopOut P_Encode P_Decode P_Roundtrip P_Content P_Guess P_Stdout.
Ltac Zify.zify_post_hook ::= idtac.

(* the flag never set: the command as modelled elsewhere *)
Theorem c73_stdout_not_stopped H order cpus limit p f : decode_stdout_stop None None H order cpus limit p f = decode_file H order cpus limit p f ToStdout.
Proof. apply stdout_never_stopped. Qed.

Lemma stop_start mstop stop H order cpus limit q f ref o len lo : setup q f ref o len lo -> is_data ref = false \/ ver_uses_rs (b_version ref) = false ->
  decode_stdout_stop mstop stop H order cpus limit q f =
  do! (st, out, hashed) <- decode_to_stdout_stop mstop stop order cpus limit q f ref o;
  ROk (mkDoutcome st out (get_HSH ref) (hash_output H ref hashed)
         (match get_FSZ ref with Some n => n | None => ds_data st * ver_to_data_size (b_version ref) end)).
Proof.
  intros ((pos & G) & D & _) NR. unfold decode_stdout_stop. rewrite G. cbn [rbind]. rewrite D. cbn [rbind].
  assert (X : ver_uses_rs (b_version ref) && is_data ref = false) by (destruct NR as [->| ->]; [apply andb_false_r|reflexivity]). rewrite X. reflexivity.
Qed.
Lemma prefix_chunks ds (F : N -> list N) total K M : 1 <= ds -> (K - 1) * ds < total -> total <= K * ds -> (forall j, lenN (F j) = ds) -> M <= K ->
  let part m := concat (map (fun j => takeN (total - j * ds) (F j)) (rangeN 0 m)) in part M = takeN (M * ds) (part K).
Proof.
  intros D1 KL KU LF MK part. destruct (N.eq_dec M K) as [->|NE].
  { destruct (concat_chunks ds F total K D1 KL KU LF) as [LO _]. cbv zeta in LO. fold (part K) in LO. rewrite take_all; [reflexivity|]. rewrite LO. exact KU. }
  unfold part. rewrite (rangeN_split 0 M K) by lia. rewrite map_app, concat_app.
  assert (LG : lenN (part M) = M * ds).
  { unfold part. assert (X : forall l, (forall j, In j l -> j + 1 < K) -> lenN (concat (map (fun j => takeN (total - j * ds) (F j)) l)) = lenN l * ds).
    { induction l as [|j l IH]; intro HL; [reflexivity|]. cbn [map concat]. rewrite lenN_app, lenN_cons, IH by (intros; apply HL; right; assumption).
      specialize (HL j (or_introl eq_refl)). rewrite lenN_take, LF. assert ((j + 1) * ds <= (K - 1) * ds) by (apply N.mul_le_mono_r; lia). lia. }
    rewrite X, lenN_range; [lia|]. intros j Hj. apply In_rangeN in Hj. lia. }
  rewrite take_app. fold (part M). rewrite take_all by lia. rewrite LG, N.sub_diag, take_0, app_nil_r. reflexivity.
Qed.

(* With Reed-Solomon, whole container. The flag seen set before block number k + 1 (so that k numbers have been treated): what has been printed is
   the first bytes of what the whole run prints, namely those of the chunks in blocks numbered up to k; the hash told is that of these bytes; that
   many chunks are counted, and at most as many metadata blocks as were looked at before the flag was seen. The size told is the whole one. *)
Theorem c73_stdout_stopped mstop k H order cpus limit q f ref d p B len lo total n :
  1 <= cpus -> bytes_ok f = true -> lenN f < 18446744073709551616 ->
  setup q f ref (Some (d, p, B)) len lo -> dc_from q = None -> dc_to q = None ->
  get_FSZ ref = Some total -> 1 <= total ->
  block_count (b_version ref) (Some (d, p, B)) total n -> n <= U32_MAX -> n <= N.of_nat limit ->
  exists dout full m,
    decode_stdout_stop mstop (Some k) H order cpus limit q f = ROk dout /\ decode_file H order cpus limit q f ToStdout = ROk full /\
    chunks_up_to (b_version ref) (Some (d, p, B)) total k m /\
    do_out dout = takeN (m * (ver_to_block_size (b_version ref) - 16)) (do_out full) /\
    do_recorded dout = get_HSH ref /\ do_computed dout = hash_output H ref (do_out dout) /\ do_size dout = total /\
    ds_data (do_stats dout) + ds_data_failed (do_stats dout) = m /\
    ds_meta (do_stats dout) + ds_meta_failed (do_stats dout) = match mstop with Some j => N.min j (1 + p) | None => 1 + p end.
Proof.
  intros CP HB HL ST QF QT GF T1 BC' HN LIM. set (o := Some (d, p, B)) in *. set (v := b_version ref) in *.
  destruct (setup_uid _ _ _ _ _ _ HB HL ST) as [HO U6].
  assert (DSE : ver_to_block_size v - 16 = ver_to_data_size v) by (rewrite (proj2 (data_size_pos v)); reflexivity).
  set (ds := ver_to_data_size v) in *. assert (D1 : 1 <= ds) by apply data_size_pos.
  destruct (count_chunks v o total n HO T1 BC') as (K & K1 & KL & KU & SQ). fold ds in KL, KU.
  assert (EC : calc_data_chunk_count v total = K).
  { pose proof (ceil_div total ds D1) as [C1 C2]. unfold calc_data_chunk_count. fold ds. apply N.le_antisymm; [apply C2, KU|]. assert (K - 1 < (total + (ds - 1)) / ds); [|lia]. apply (N.mul_lt_mono_pos_r ds); lia. }
  assert (EL : last_chunk_size v (Some total) = Some (total - (K - 1) * ds)).
  { unfold last_chunk_size. fold ds. f_equal. assert (KE : K * ds = (K - 1) * ds + ds) by (replace K with (K - 1 + 1) at 1 by lia; rewrite N.mul_add_distr_r, N.mul_1_l; reflexivity).
    destruct (N.eq_dec total (K * ds)) as [E|E].
    - assert (M0 : total mod ds = 0) by (rewrite E; apply N.mod_mul; lia). rewrite M0. cbn [N.eqb]. lia.
    - assert (M1 : total mod ds = total - (K - 1) * ds).
      { replace total with ((total - (K - 1) * ds) + (K - 1) * ds) at 1 by lia. rewrite N.mod_add by lia. apply N.mod_small. lia. }
      rewrite M1. destruct (N.eqb_spec (total - (K - 1) * ds) 0); lia. }
  assert (SQ' : dseq o (K - 1) <= U32_MAX) by (unfold U32_MAX in *; lia).
  assert (JK : forall j, j * ds < total <-> j < K).
  { intro j. split; intro Hj; [apply N.nle_gt; intro G; assert (K * ds <= j * ds) by (apply N.mul_le_mono_r; exact G); lia|]. assert (j * ds <= (K - 1) * ds) by (apply N.mul_le_mono_r; lia). lia. }
  assert (EX : exists M, M <= K /\ (forall j, j < M -> dseq o j <= k) /\ (M = K \/ k < dseq o M)).
  { destruct (all_or_first cpus f ref o total K CP K1 KL KU SQ' (fun j => dseq o j <=? k) K) as [A|(M & A & B' & C)].
    - exists K. split; [lia|]. split; [intros j Hj; apply N.leb_le, A, Hj|auto].
    - exists M. split; [lia|]. split; [intros j Hj; apply N.leb_le, C, Hj|right; apply N.leb_gt, B']. }
  destruct EX as (M & MK & M1 & M2).
  rewrite (stdout_start H order cpus limit q f ref o len lo ST (or_introl (fsz_meta _ _ GF))), (stop_start mstop (Some k) H order cpus limit q f ref o len lo ST (or_introl (fsz_meta _ _ GF))).
  unfold decode_to_stdout, decode_to_stdout_stop. fold v. rewrite QF, QT.
  destruct (calc_required_len_and_seek_to_from_byte_range None None _ _ _ _) as [rl sk]. rewrite GF. cbn [option_map]. assert (RP : read_pattern_new None None o = BurstErrorResistant d p) by reflexivity. rewrite RP, EC, EL.
  set (hashing := match get_HSH ref with Some (t, _) => hash_supported t | None => false end).
  destruct (read_metas_ok f ref o) as (s0 & RM & Z1 & Z2 & _). rewrite RM. cbn [rbind].
  destruct (burst_run cpus f ref d p B total K s0 hashing CP HB HO U6 K1 KL KU SQ' (conj Z1 Z2) limit) as (st & E & _); [fold o; lia|].
  fold v o ds in E. rewrite E. cbn [rbind fst snd]. clear E.
  destruct (read_metas_stop_ok mstop f ref o) as (s1 & RM1 & Y1 & Y2 & YM). rewrite RM1. cbn [rbind].
  destruct (burst_stop cpus f ref d p B total K M k s1 hashing CP HB HO U6 K1 KL KU SQ' (conj Y1 Y2) MK M1 M2 limit) as (i & st1 & E & ES & EM); [fold o; lia|].
  fold v o ds in E. rewrite E. cbn [rbind fst snd]. clear E.
  set (F := fun j => delivered f ref d p B (dseq o j)).
  assert (LF : forall j, lenN (F j) = ds) by (intro j; destruct (found_block cpus f ref d p B total K s0 CP HB HO U6 K1 KL KU SQ' (conj Z1 Z2) (dseq o j) None (dseq_pos o j) (dseq_not_parity o j HO)) as (_ & _ & _ & _ & _ & _ & X); exact X).
  eexists _, _, M. split; [reflexivity|]. split; [reflexivity|]. cbn [do_out do_size do_recorded do_computed do_stats]. rewrite DSE. split; [|split; [|split; [reflexivity|split; [apply hash_out|split; [reflexivity|split; [exact ES|]]]]]].
  - exists (rangeN 0 M). split; [apply NoDup_rangeN|]. split; [|rewrite lenN_range; lia]. intro j. rewrite In_rangeN, DSE, JK. split.
    + intros [_ Hj]. split; [lia|]. exists (dseq o j). split; [apply dseq_chunk, HO|apply M1, Hj].
    + intros [Hj (seq & C & S)]. apply (chunk_dseq _ _ _ HO) in C. subst seq. split; [lia|]. apply N.nle_gt. intro G. destruct M2 as [->|M2]; [lia|].
      assert (dseq o M <= dseq o j) by (destruct (N.eq_dec M j) as [->|]; [lia|]; pose proof (dseq_lt o M j HO ltac:(lia)); lia). lia.
  - exact (prefix_chunks ds F total K M D1 KL KU LF MK).
  - rewrite EM, YM, (proj1 (meta_positions _ _)). reflexivity.
Qed.

(* Read from front to back (no Reed-Solomon, or a range given): the flag seen set after k blocks. What is printed is what c40_stdout_sequential says of
   a range with k blocks. *)
Theorem c73_stdout_stopped_sequential mstop k H order cpus limit q f ref o len lo i0 :
  1 <= cpus -> bytes_ok f = true -> lenN f < 18446744073709551616 ->
  setup q f ref o len lo -> is_data ref = false \/ ver_uses_rs (b_version ref) = false ->
  o = None \/ dc_from q <> None \/ dc_to q <> None ->
  guess_starting_block_index order f (dc_from q) (dc_misalign q) ref o = ROk i0 -> i0 + lenN f < U64_MAX ->
  let bs := ver_to_block_size (b_version ref) in let len' := N.min len (k * bs) in
  (forall i, i * bs < len' -> lo + (i + 1) * bs <= lenN f) ->
  exists dout ks xs, decode_stdout_stop mstop (Some k) H order cpus limit q f = ROk dout /\
    data_blocks (b_version ref) o i0 len' ks /\
    Forall2 (block_or_zeros (b_version ref) (b_uid ref) o f lo i0) ks xs /\
    do_out dout = match get_FSZ ref with Some t => if t =? 0 then concat xs else takeN t (concat xs) | None => concat xs end /\
    do_recorded dout = get_HSH ref /\ do_computed dout = hash_output H ref (do_out dout) /\
    (forall t, get_FSZ ref = Some t -> do_size dout = t).
Proof.
  intros CP HB HL ST NR SQ GI IX bs len' WH. set (v := b_version ref) in *. destruct (setup_uid _ _ _ _ _ _ HB HL ST) as [HO U6].
  assert (DSE : ver_to_block_size v - 16 = ver_to_data_size v) by (rewrite (proj2 (data_size_pos v)); reflexivity).
  rewrite (stop_start mstop (Some k) H order cpus limit q f ref o len lo ST NR). unfold decode_to_stdout_stop. fold v.
  destruct ST as (_ & _ & SR). unfold scan_range in SR. fold v in SR. rewrite SR.
  assert (RP : read_pattern_new (dc_from q) (dc_to q) o = Sequential o).
  { unfold read_pattern_new. destruct o as [[[d p] B]|]; [|reflexivity]. destruct SQ as [X|SQ]; [discriminate|]. destruct (dc_from q), (dc_to q); try reflexivity. destruct SQ; congruence. }
  rewrite RP, GI. cbn [rbind]. set (hashing := match get_HSH ref with Some (t, _) => hash_supported t | None => false end).
  assert (LAST : match last_chunk_size v (get_FSZ ref) with Some n => 1 <= n <= ver_to_data_size v | None => True end).
  { unfold last_chunk_size. pose proof (proj1 (data_size_pos v)) as D1. destruct (get_FSZ ref) as [t|]; [|exact Logic.I]. pose proof (N.mod_lt t (ver_to_data_size v) ltac:(lia)). destruct (N.eqb_spec (t mod ver_to_data_size v) 0); lia. }
  destruct (seq_stop (Some k) cpus f ref o (option_map (calc_data_chunk_count v) (get_FSZ ref)) (last_chunk_size v (get_FSZ ref)) lo len i0 hashing CP HB HO U6 WH IX LAST) as (st & E).
  fold v in E. rewrite E. cbn [rbind fst snd]. clear E. cbn [cut]. fold bs. fold len'.
  pose proof (seq_out_eq f ref o (get_FSZ ref) lo len' i0 HB U6) as SO. cbv zeta in SO. fold v in SO. rewrite SO. clear SO. set (ks := filter _ _). eexists _, ks, (map (kpay f ref o lo i0) ks).
  split; [reflexivity|]. split; [|split; [|split; [reflexivity|split; [reflexivity|split; [apply hash_out|intros t GT; cbn [do_size]; rewrite GT; reflexivity]]]]].
  - split; [apply sorted_filter, sorted_range|]. intro i. unfold ks. rewrite filter_In, In_rangeN, (data_iff o i0 i HO).
    pose proof (ceil_le len' (ver_to_block_size v) _ i (ceil_div len' (ver_to_block_size v) ltac:(pose proof (block_size_pos v); lia))) as X.
    split; intros [A C]; (split; [|exact C]).
    + apply N.nle_gt. intro L. apply X in L. lia.
    + split; [lia|]. apply N.nle_gt. intro L. apply X in L. lia.
  - clearbody ks. induction ks as [|i ks IH]; constructor; [|exact IH]. unfold block_or_zeros, kpay, kgot. fold v. pose proof (gotp_spec ref f (lo + i * ver_to_block_size v) (snum o i0 i) HB) as G. fold v in G. unfold snum in *.
    destruct (gotp _ _ _ _) as [b|]; cbn [seen]; [left; apply G|right; split; [exact G|rewrite DSE; reflexivity]].
Qed.

(* ---- what should hold does not ---- *)
Definition stopped_out (stop : flag) (q : dparam) (f : file) : option (list N * N * option hash_bytes) :=
  match decode_stdout_stop None stop toy_hash (fun l => l) 2 100%nat q f with ROk x => Some (do_out x, do_size x, do_computed x) | _ => None end.
(* Finding F44: a decode to standard output that was stopped ends as one that has succeeded and tells the size of the whole file, though not
   all of it has been printed. *)
Theorem c73_stdout_refuted : ~ forall k H order cpus limit q f full dout, decode_file H order cpus limit q f ToStdout = ROk full -> lenN (do_out full) = do_size full ->
  decode_stdout_stop None (Some k) H order cpus limit q f = ROk dout -> lenN (do_out dout) = do_size dout.
Proof.
  intro A. assert (X : match decode_stdout_stop None (Some 2) toy_hash (fun l => l) 2 100%nat toy_q toy_file with ROk x => (lenN (do_out x), do_size x) | _ => (0, 0) end = (992, 1200)) by (vm_compute; reflexivity).
  assert (Y : match decode_file toy_hash (fun l => l) 2 100%nat toy_q toy_file ToStdout with ROk x => (lenN (do_out x), do_size x) | _ => (0, 0) end = (1200, 1200)) by (vm_compute; reflexivity).
  specialize (A 2 toy_hash (fun l => l) 2 100%nat toy_q toy_file). destruct (decode_stdout_stop _ _ _ _ _ _ _ _) as [dout|e|]; [|discriminate X|discriminate X].
  destruct (decode_file _ _ _ _ _ _ _) as [full|e|]; [|discriminate Y|discriminate Y].
  apply pair_inj in X as [X1 X2]. apply pair_inj in Y as [Y1 Y2]. specialize (A full dout eq_refl ltac:(congruence) eq_refl). rewrite X1, X2 in A. discriminate A.
Qed.

(* ---- examples: the hypotheses are those of c40_stdout_burst and c40_stdout_sequential (c40_hypotheses, c40_hypotheses_sequential) ---- *)
(* stopped at once, after one and three numbers; the file with a block lost; without Reed-Solomon, stopped after the metadata block and the first data block *)
Example c73_stdout_run : map (fun stop => option_map (fun x => lenN (fst (fst x))) (stopped_out stop toy_q toy_file)) [Some 0; Some 1; Some 3] = [Some 0; Some 496; Some 1200] /\
  option_map (fun x => fst (fst x)) (stopped_out (Some 2) toy_q hurt) = Some (repN 496 0 ++ sliceN 496 496 toy_content) /\
  option_map (fun x => fst (fst x)) (stopped_out (Some 2) toy_q plain_file) = Some (takeN 496 toy_content).
Proof. split; [|split]; vm_compute; reflexivity. Qed.

Print Assumptions c73_stdout_not_stopped.
Print Assumptions c73_stdout_stopped.
Print Assumptions c73_stdout_stopped_sequential.
Print Assumptions c73_stdout_refuted.
