(* C40: decoding to standard output. *)
From Coq Require Import Sorted.
From Verif Require Import M_Base M_Specs M_Crc M_Header M_Multihash M_Metadata M_Block M_Index M_FileUtils M_Buffer M_Ranges M_Encode M_Scan M_Loop M_Decode M_Content
  S_Crc S_Meta S_Block S_Index S_Container S_Encode S_Scan S_Decode S_Content S_Guess S_Stdout
  L_Base L_File L_Crc L_Header L_Meta L_Block L_Block2 L_Index L_Index2 L_Buffer L_Encode L_Container L_Loop L_Scan L_Ref L_Ranges L_Decode L_Decode2 L_Chunks L_Content
  L_Guess L_Guess2 L_Intact L_Intact2 L_Roundtrip L_Stdout L_Stdout2 P_Encode P_Decode P_Roundtrip P_Content P_Guess.
Ltac Zify.zify_post_hook ::= idtac.

Lemma setup_uid q f ref o len lo : bytes_ok f = true -> lenN f < 18446744073709551616 -> setup q f ref o len lo -> dpb_ok o /\ lenN (b_uid ref) = 6.
Proof.
  intros HB HL ST. destruct (setup_ok _ _ _ _ _ _ HB HL ST) as (A & _ & (h & pl & R & _ & HO) & _). split; [exact A|].
  destruct R as (E & _). apply header_ok_spec in HO. unfold b_uid. rewrite E. apply HO.
Qed.
Lemma stdout_start H order cpus limit q f ref o len lo : setup q f ref o len lo -> is_data ref = false \/ ver_uses_rs (b_version ref) = false ->
  decode_file H order cpus limit q f ToStdout =
  do! (st, out, hashed) <- decode_to_stdout order cpus limit q f ref o;
  ROk (mkDoutcome st out (get_HSH ref) (hash_output H ref hashed)
         (match get_FSZ ref with Some n => n | None => ds_data st * ver_to_data_size (b_version ref) end)).
Proof.
  intros ((pos & G) & D & _) NR. unfold decode_file. rewrite G. cbn [rbind]. rewrite andb_false_r. unfold decode. rewrite D. cbn [rbind].
  assert (X : ver_uses_rs (b_version ref) && is_data ref = false) by (destruct NR as [->| ->]; [apply andb_false_r|reflexivity]). rewrite X. reflexivity.
Qed.
Lemma fsz_meta ref t : get_FSZ ref = Some t -> is_data ref = false.
Proof. unfold get_FSZ, block_get_meta, is_data, block_type_of. destruct (b_data ref); [discriminate|reflexivity]. Qed.
Lemma hash_out H ref (out : list N) : hash_output H ref (if match get_HSH ref with Some (t, _) => hash_supported t | None => false end then out else []) = hash_output H ref out.
Proof. unfold hash_output. destruct (get_HSH ref) as [[t h]|]; [|reflexivity]. destruct (hash_supported t); reflexivity. Qed.
Lemma count_filter_iff (P : N -> Prop) (g : N -> bool) K : (forall k, k < K -> (g k = true <-> P k)) -> count_of P K (lenN (filter g (rangeN 0 K))).
Proof.
  intro H. exists (filter g (rangeN 0 K)). split; [apply NoDup_filter, NoDup_rangeN|]. split; [|reflexivity].
  intro k. rewrite filter_In, In_rangeN. split; [intros [A B]; split; [lia|apply H; [lia|exact B]]|intros [A B]; split; [lia|apply H; assumption]].
Qed.

(* C40 with Reed-Solomon, whole container. Whatever the content of the file: the output has exactly the recorded size
   and consists of the chunks found in place, in order, with zeros where a chunk is missing; the hash reported is that of
   the output; the counters are right. [limit] stands for enough steps. *)
Theorem c40_stdout_burst H order cpus limit q f ref d p B len lo total n K :
  1 <= cpus -> bytes_ok f = true -> lenN f < 18446744073709551616 ->
  setup q f ref (Some (d, p, B)) len lo -> dc_from q = None -> dc_to q = None ->
  get_FSZ ref = Some total -> 1 <= total ->
  block_count (b_version ref) (Some (d, p, B)) total n -> n <= U32_MAX -> n <= N.of_nat limit ->
  is_ceil_div total (ver_to_block_size (b_version ref) - 16) K ->
  exists dout, decode_file H order cpus limit q f ToStdout = ROk dout /\
    lenN (do_out dout) = total /\ do_size dout = total /\
    chunks_or_zeros (b_version ref) (b_uid ref) (Some (d, p, B)) f (do_out dout) /\
    do_recorded dout = get_HSH ref /\ do_computed dout = hash_output H ref (do_out dout) /\
    count_of (fun j => exists pl, chunk_in_place (b_version ref) (b_uid ref) (Some (d, p, B)) f j pl) K (ds_data (do_stats dout)) /\
    ds_data (do_stats dout) + ds_data_failed (do_stats dout) = K /\
    ds_meta (do_stats dout) + ds_meta_failed (do_stats dout) = 1 + p.
Proof.
  intros CP HB HL ST QF QT GF T1 BC' HN LIM CK. set (o := Some (d, p, B)) in *. set (v := b_version ref) in *.
  destruct (setup_uid _ _ _ _ _ _ HB HL ST) as [HO U6].
  assert (DSE : ver_to_block_size v - 16 = ver_to_data_size v) by (rewrite (proj2 (data_size_pos v)); reflexivity).
  set (ds := ver_to_data_size v) in *. assert (D1 : 1 <= ds) by apply data_size_pos.
  destruct (count_chunks v o total n HO T1 BC') as (K' & K1 & KL & KU & SQ). fold ds in KL, KU.
  assert (EK : K' = K). { rewrite DSE in CK. destruct CK as [C1 C2]. apply N.le_antisymm; [|apply C2, KU]. assert (K' - 1 < K); [|lia]. apply (N.mul_lt_mono_pos_r ds); lia. }
  subst K'. assert (EC : calc_data_chunk_count v total = K).
  { pose proof (ceil_div total ds D1) as [C1 C2]. rewrite DSE in CK. destruct CK as [C3 C4]. unfold calc_data_chunk_count. fold ds. apply N.le_antisymm; [apply C2, C3|apply C4, C1]. }
  assert (EL : last_chunk_size v (Some total) = Some (total - (K - 1) * ds)).
  { unfold last_chunk_size. fold ds. f_equal. assert (KE : K * ds = (K - 1) * ds + ds) by (replace K with (K - 1 + 1) at 1 by lia; rewrite N.mul_add_distr_r, N.mul_1_l; reflexivity).
    destruct (N.eq_dec total (K * ds)) as [E|E].
    - assert (M0 : total mod ds = 0) by (rewrite E; apply N.mod_mul; lia). rewrite M0. cbn [N.eqb]. lia.
    - assert (M1 : total mod ds = total - (K - 1) * ds).
      { replace total with ((total - (K - 1) * ds) + (K - 1) * ds) at 1 by lia. rewrite N.mod_add by lia. apply N.mod_small. lia. }
      rewrite M1. destruct (N.eqb_spec (total - (K - 1) * ds) 0); lia. }
  rewrite (stdout_start H order cpus limit q f ref o len lo ST (or_introl (fsz_meta _ _ GF))). unfold decode_to_stdout. fold v. rewrite QF, QT.
  destruct (calc_required_len_and_seek_to_from_byte_range None None _ _ _ _) as [rl sk]. rewrite GF. cbn [option_map]. assert (RP : read_pattern_new None None o = BurstErrorResistant d p) by reflexivity. rewrite RP, EC, EL.
  destruct (read_metas_ok f ref o) as (s0 & RM & Z1 & Z2 & ZM). rewrite RM. cbn [rbind]. set (hashing := match get_HSH ref with Some (t, _) => hash_supported t | None => false end).
  destruct (burst_run cpus f ref d p B total K s0 hashing CP HB HO U6 K1 KL KU ltac:(fold o; unfold U32_MAX in *; lia) (conj Z1 Z2) limit) as (st & E & ES); [fold o; lia|].
  fold v o ds in E, ES. rewrite E. cbn [rbind fst snd]. clear E.
  set (F := fun j => delivered f ref d p B (dseq o j)). set (out := concat _).
  assert (LF : forall j, lenN (F j) = ds) by (intro j; destruct (found_block cpus f ref d p B total K s0 CP HB HO U6 K1 KL KU ltac:(fold o; unfold U32_MAX in *; lia) (conj Z1 Z2) (dseq o j) None (dseq_pos o j) (dseq_not_parity o j HO)) as (_ & _ & _ & _ & _ & _ & X); exact X).
  destruct (concat_chunks ds F total K D1 KL KU LF) as [LO NO]. cbv zeta in LO, NO. change (concat (map (fun j => takeN (total - j * ds) (F j)) (rangeN 0 K))) with out in LO, NO.
  destruct (tally_counts o (okseq f ref d p B) (rangeN 1 (dseq o (K - 1) + 1)) s0) as (TA & TB & TC & TD). rewrite (data_seqs o K HO K1) in TA, TB. rewrite lenN_map, lenN_range in TB. rewrite lenN_filter_map in TA.
  eexists. split; [reflexivity|]. cbn [do_out do_size do_recorded do_computed do_stats]. rewrite ES, TB, TC, TD, TA, Z1, Z2.
  split; [exact LO|]. split; [reflexivity|]. split; [|split; [reflexivity|]].
  - intros j Hj. rewrite LO, DSE in *. exists (F j). split.
    + unfold F, delivered. fold o. destruct (got ref o f (dseq o j)) as [b|] eqn:G.
      * left. apply (got_some ref o f j b HB HO G).
      * right. split; [apply (got_none ref o f j HB HO G)|]. rewrite DSE. reflexivity.
    + apply list_ext_N; [rewrite lenN_slice, lenN_take, LF, LO; lia|]. intros i Hi. rewrite lenN_slice, LO in Hi. rewrite nthN_slice, nthN_take. destruct (N.ltb_spec i ds); [|lia]. destruct (N.ltb_spec i (total - j * ds)); [|lia].
      rewrite NO by lia. destruct (dm_eq (j * ds + i) ds j i ltac:(lia) ltac:(lia)) as [-> ->]. reflexivity.
  - split; [apply hash_out|]. split; [|split; [lia|rewrite ZM, (proj1 (meta_positions _ _)); reflexivity]]. rewrite N.add_0_l.
    apply count_filter_iff. intros k Hk. unfold okseq. fold o. destruct (got ref o f (dseq o k)) as [b|] eqn:G; cbn [seen].
    + split; [intros _|reflexivity]. eexists. apply (got_some ref o f k b HB HO G).
    + split; [discriminate|]. intros [pl C]. exfalso. exact (got_none ref o f k HB HO G pl C).
Qed.

Lemma data_iff o i0 k : dpb_ok o -> isdata o i0 k = true <-> exists j, is_chunk o (calc_seq_num_at_index (i0 + k) (Some true) o) j.
Proof.
  intro HO. unfold isdata. fold (snum o i0 k). generalize (snum o i0 k). intro s. unfold seq_num_is_meta, SBX_FIRST_DATA_SEQ_NUM. split.
  - destruct (N.eqb_spec s 0) as [E|E]; cbn [negb andb]; [discriminate|]. rewrite negb_true_iff. intro PA.
    destruct o as [[[d p] B]|]; [|exists (s - 1); cbn; lia]. unfold seq_num_is_parity_w_data_par_burst in PA. rewrite parity_mod in PA by lia. apply N.leb_gt in PA.
    exists ((s - 1) / (d + p) * d + (s - 1) mod (d + p)). exists ((s - 1) / (d + p)), ((s - 1) mod (d + p)). split; [exact PA|]. split; [|reflexivity].
    pose proof (N.div_mod' (s - 1) (d + p)) as DM. rewrite N.mul_comm in DM. lia.
  - intros [j C]. apply (chunk_dseq o _ _ HO) in C. rewrite C. pose proof (dseq_pos o j). destruct (N.eqb_spec (dseq o j) 0); [lia|]. rewrite dseq_not_parity by exact HO. reflexivity.
Qed.

(* C40, sequential reading (no Reed-Solomon, or a range of the container given). i0 is the index guessed for the first block
   (C30). If the file does not end within one of the blocks to be read, the output is the payloads of the data blocks in
   order, zeros in place of those that are not what belongs there, cut at the recorded size if one is recorded and not 0. *)
Theorem c40_stdout_sequential H order cpus limit q f ref o len lo i0 :
  1 <= cpus -> bytes_ok f = true -> lenN f < 18446744073709551616 ->
  setup q f ref o len lo -> is_data ref = false \/ ver_uses_rs (b_version ref) = false ->
  o = None \/ dc_from q <> None \/ dc_to q <> None ->
  guess_starting_block_index order f (dc_from q) (dc_misalign q) ref o = ROk i0 -> i0 + lenN f < U64_MAX ->
  (forall k, k * ver_to_block_size (b_version ref) < len -> lo + (k + 1) * ver_to_block_size (b_version ref) <= lenN f) ->
  exists dout ks xs, decode_file H order cpus limit q f ToStdout = ROk dout /\
    data_blocks (b_version ref) o i0 len ks /\
    Forall2 (block_or_zeros (b_version ref) (b_uid ref) o f lo i0) ks xs /\
    do_out dout = match get_FSZ ref with Some t => if t =? 0 then concat xs else takeN t (concat xs) | None => concat xs end /\
    do_recorded dout = get_HSH ref /\ do_computed dout = hash_output H ref (do_out dout).
Proof.
  intros CP HB HL ST NR SQ GI IX WH. set (v := b_version ref) in *. destruct (setup_uid _ _ _ _ _ _ HB HL ST) as [HO U6].
  assert (DSE : ver_to_block_size v - 16 = ver_to_data_size v) by (rewrite (proj2 (data_size_pos v)); reflexivity).
  rewrite (stdout_start H order cpus limit q f ref o len lo ST NR). unfold decode_to_stdout. fold v.
  destruct ST as (_ & _ & SR). unfold scan_range in SR. fold v in SR. rewrite SR.
  assert (RP : read_pattern_new (dc_from q) (dc_to q) o = Sequential o).
  { unfold read_pattern_new. destruct o as [[[d p] B]|]; [|reflexivity]. destruct SQ as [X|SQ]; [discriminate|]. destruct (dc_from q), (dc_to q); try reflexivity. destruct SQ; congruence. }
  rewrite RP, GI. cbn [rbind]. set (hashing := match get_HSH ref with Some (t, _) => hash_supported t | None => false end).
  assert (LAST : match last_chunk_size v (get_FSZ ref) with Some n => 1 <= n <= ver_to_data_size v | None => True end).
  { unfold last_chunk_size. pose proof (proj1 (data_size_pos v)) as D1. destruct (get_FSZ ref) as [t|]; [|exact Logic.I]. pose proof (N.mod_lt t (ver_to_data_size v) ltac:(lia)). destruct (N.eqb_spec (t mod ver_to_data_size v) 0); lia. }
  destruct (seq_run cpus f ref o (option_map (calc_data_chunk_count v) (get_FSZ ref)) (last_chunk_size v (get_FSZ ref)) lo len i0 hashing CP HB HO U6 WH IX LAST) as (st & E).
  fold v in E. rewrite E. cbn [rbind fst snd]. clear E.
  pose proof (seq_out_eq f ref o (get_FSZ ref) lo len i0 HB U6) as SO. cbv zeta in SO. fold v in SO. rewrite SO. clear SO. set (ks := filter _ _). eexists _, ks, (map (kpay f ref o lo i0) ks).
  split; [reflexivity|]. split; [|split; [|split; [reflexivity|split; [reflexivity|apply hash_out]]]].
  - split; [apply sorted_filter, sorted_range|]. intro k. unfold ks. rewrite filter_In, In_rangeN, (data_iff o i0 k HO).
    pose proof (ceil_le len (ver_to_block_size v) _ k (ceil_div len (ver_to_block_size v) ltac:(pose proof (block_size_pos v); lia))) as X.
    split; intros [A C]; (split; [|exact C]).
    + apply N.nle_gt. intro L. apply X in L. lia.
    + split; [lia|]. apply N.nle_gt. intro L. apply X in L. lia.
  - clearbody ks. induction ks as [|k ks IH]; constructor; [|exact IH]. unfold block_or_zeros, kpay, kgot. fold v. pose proof (gotp_spec ref f (lo + k * ver_to_block_size v) (snum o i0 k) HB) as G. fold v in G. unfold snum in *.
    destruct (gotp _ _ _ _) as [b|]; cbn [seen]; [left; apply G|right; split; [exact G|rewrite DSE; reflexivity]].
Qed.

(* an undamaged container *)
Lemma intact_in_place v uid o rs ms data f n : intact v uid true o rs ms data f n -> data_in_place v uid o f data.
Proof.
  intros IT j Hj. destruct (chunk_seq _ _ _ _ _ _ _ _ _ IT j Hj) as (seq & Hs & C). exists (payload_of v o rs data seq). split.
  - exists seq. split; [exact C|]. apply (data_block _ _ _ _ _ _ _ _ _ IT seq Hs).
  - rewrite (payload_chunk _ _ _ _ _ _ C). unfold chunk. rewrite lenN_slice. set (ds := ver_to_block_size v - 16) in *.
    destruct (N.le_gt_cases ds (lenN data - j * ds)).
    + replace (ds - N.min ds (lenN data - j * ds)) with 0 by lia. change (repN 0 26) with (@nil N). rewrite app_nil_r. symmetry. apply take_all. rewrite lenN_slice. lia.
    + assert (E : lenN data - j * ds = lenN (sliceN (j * ds) ds data)) by (rewrite lenN_slice; lia). rewrite E. symmetry. rewrite take_app, N.sub_diag, take_0, app_nil_r, take_all; [reflexivity|lia].
Qed.
Lemma sorted_ext : forall l l', StronglySorted N.lt l -> StronglySorted N.lt l' -> (forall x, In x l <-> In x l') -> l = l'.
Proof.
  induction l as [|a l IH]; intros l' S S' E.
  - destruct l' as [|b l']; [reflexivity|]. destruct (proj2 (E b) (or_introl eq_refl)).
  - destruct l' as [|b l']; [destruct (proj1 (E a) (or_introl eq_refl))|]. inversion_clear S as [|? ? S1 F1]. inversion_clear S' as [|? ? S2 F2]. rewrite Forall_forall in F1, F2.
    assert (a = b).
    { destruct (proj1 (E a) (or_introl eq_refl)) as [->|I]; [reflexivity|]. destruct (proj2 (E b) (or_introl eq_refl)) as [->|J]; [reflexivity|]. apply F2 in I. apply F1 in J. lia. }
    subst b. f_equal. apply IH; [exact S1|exact S2|]. intro x. split; intro I.
    + destruct (proj1 (E x) (or_intror I)) as [->|J]; [apply F1 in I; lia|exact J].
    + destruct (proj2 (E x) (or_intror I)) as [->|J]; [apply F2 in I; lia|exact J].
Qed.
Section Plain.
Variables (v : version) (uid : list N) (me : bool) (rs : codec) (ms : list metadata) (data f : list N) (n : N).
Hypothesis IT : intact v uid me None rs ms data f n.
Let bs := ver_to_block_size v.
Let i0 : N := if me then 0 else 1.
Lemma plain_widx s : 1 <= s -> calc_data_block_write_index s (Some me) None = s - i0.
Proof. intro H. unfold calc_data_block_write_index, i0, SBX_FIRST_DATA_SEQ_NUM. destruct me; cbn [N.add]; lia. Qed.
Lemma plain_len : lenN f = (n + 1 - i0) * bs.
Proof.
  assert (U : forall i, used_index me None n i <-> i < n + 1 - i0).
  { intro i. unfold used_index, meta_index. pose proof plain_widx as W. unfold i0 in *. destruct me; split.
    - intros [[_ ->]|(s & Hs & <-)]; [lia|]. rewrite W; lia.
    - intro L. destruct (N.eq_dec i 0) as [->|]; [left; split; [discriminate|reflexivity]|]. right. exists i. rewrite W; lia.
    - intros [[X _]|(s & Hs & <-)]; [congruence|]. rewrite W; lia.
    - intro L. right. exists (i + 1). rewrite W; lia. }
  destruct (I5 _ _ _ _ _ _ _ _ _ IT) as [Z|(i & Ui & E)].
  - pose proof (bs_ge _ _ _ _ _ _ _ _ _ IT) as BG. destruct (N.eq_dec (n + 1 - i0) 0) as [->|NZ]; [exact Z|]. assert (UU : used_index me None n 0) by (apply U; lia).
    apply (I4 _ _ _ _ _ _ _ _ _ IT) in UU. lia.
  - fold bs in E. assert (E' : i + 1 = n + 1 - i0); [|congruence]. apply U in Ui as Li. assert (UU : used_index me None n (n + 1 - i0 - 1)) by (apply U; lia).
    apply (I4 _ _ _ _ _ _ _ _ _ IT) in UU. fold bs in UU. rewrite E in UU. pose proof (bs_ge _ _ _ _ _ _ _ _ _ IT) as BG. fold bs in BG. apply N.mul_le_mono_pos_r in UU; lia.
Qed.
Lemma plain_block k : 1 - i0 <= k < n + 1 - i0 -> block_at v uid f (0 + k * bs) (i0 + k) (chunk (bs - 16) data (i0 + k - 1)).
Proof.
  intro Hk. destruct (data_block _ _ _ _ _ _ _ _ _ IT (i0 + k) ltac:(lia)) as [B _].
  assert (W : calc_data_block_write_index (i0 + k) (Some me) None = k) by (rewrite plain_widx; lia). rewrite W in B. exact B.
Qed.
Lemma plain_start order q ref : (forall l x, In x (order l) <-> In x l) -> dc_from q = None -> b_version ref = v -> b_uid ref = uid -> (me = true \/ 1 <= n) ->
  guess_starting_block_index order f (dc_from q) (dc_misalign q) ref None = ROk i0.
Proof.
  intros OR QF RV RU NZ. rewrite QF. pose proof (file_bytes _ _ _ _ _ _ _ _ _ IT) as FB.
  assert (INV : forall k seq pl, block_at v uid f (0 + k * bs) seq pl -> 1 <= seq -> calc_data_block_write_index seq None None = i0 + k).
  { intros k seq pl BA S1. rewrite N.add_0_l in BA. destruct (block_inv _ _ _ _ _ _ _ _ _ IT k seq pl BA) as [[-> _]|(Hs & -> & _)]; [lia|].
    rewrite plain_widx by lia. change (calc_data_block_write_index seq None None) with (1 + (seq - 1)). unfold i0. destruct me; lia. }
  destruct (N.le_gt_cases 1 n) as [N1|N0].
  - apply c30_excerpt; [exact FB|exact OR| |].
    + rewrite RV, RU. fold bs. exists (1 - i0), 1. split; [unfold i0; destruct me; reflexivity|]. split; [lia|]. eexists. pose proof (plain_block (1 - i0)) as PB. replace (i0 + (1 - i0)) with 1 in PB by (unfold i0; destruct me; reflexivity). apply PB. unfold i0; destruct me; lia.
    + intros k seq (_ & S1 & pl & BA). rewrite RV, RU in BA. exact (INV k seq pl BA S1).
  - destruct (c30_most_suggested order f None (dc_misalign q) ref None FB OR) as (r & votes & E & VO & _ & ZR). rewrite E. f_equal. rewrite ZR; [destruct NZ as [M|]; [unfold i0; rewrite M; reflexivity|lia]|].
    intro x. destruct (VO x) as (ks & _ & IK & <-). destruct ks as [|k ks]; [reflexivity|]. destruct (proj1 (IK k) (or_introl eq_refl)) as (_ & seq & pl & BA & S1 & _). rewrite RV, RU in BA.
    rewrite N.add_0_l in BA. destruct (block_inv _ _ _ _ _ _ _ _ _ IT k seq pl BA) as [[-> _]|(Hs & _)]; lia.
Qed.
Lemma plain_all ks xs len : len = N.max 1 (lenN f) -> (me = true \/ 1 <= n) -> data_blocks v None i0 len ks -> Forall2 (block_or_zeros v uid None f 0 i0) ks xs ->
  concat xs = data ++ repN (n * (bs - 16) - lenN data) 26.
Proof.
  intros -> NZ [S E] F. pose proof (bs_ge _ _ _ _ _ _ _ _ _ IT) as BG. fold bs in BG. pose proof (HN _ _ _ _ _ _ _ _ _ IT) as HN'. unfold U32_MAX in HN'.
  assert (SN : forall k, k < n + 1 - i0 -> calc_seq_num_at_index (i0 + k) (Some true) None = i0 + k).
  { intros k Hk. rewrite calc_seq_num_at_index_eq. cbn [seq_at]. unfold u32. apply N.mod_small. unfold i0 in *. destruct me; lia. }
  assert (EL : forall k, k * bs < N.max 1 (lenN f) <-> k < n + 1 - i0).
  { intro k. rewrite plain_len. assert (P : 1 <= n + 1 - i0) by (unfold i0; destruct me, NZ; lia || congruence). rewrite (N.max_r 1) by (assert (1 * bs <= (n + 1 - i0) * bs) by (apply N.mul_le_mono_r; exact P); lia).
    symmetry. apply N.mul_lt_mono_pos_r. lia. }
  assert (EK : ks = rangeN (1 - i0) (n + 1 - i0)).
  { apply sorted_ext; [exact S|apply sorted_range|]. intro k. rewrite E, In_rangeN. fold bs. rewrite EL. split.
    - intros [L [j C]]. rewrite SN in C by exact L. cbn in C. lia.
    - intros [L U]. split; [exact U|]. exists (i0 + k - 1). rewrite SN by exact U. cbn. unfold i0 in *. destruct me; lia. }
  assert (EX : xs = map (fun k => chunk (bs - 16) data (i0 + k - 1)) ks).
  { assert (KB : forall k, In k ks -> 1 - i0 <= k < n + 1 - i0) by (intros k Hk; rewrite EK in Hk; apply In_rangeN in Hk; exact Hk). clear EK E S.
    induction F as [|k x ks xs Hx F IH]; [reflexivity|]. cbn [map]. f_equal; [|apply IH; intros; apply KB; right; assumption].
    specialize (KB k (or_introl eq_refl)). pose proof (plain_block k KB) as PB. unfold block_or_zeros in Hx. fold bs in Hx. rewrite SN in Hx by lia.
    destruct Hx as [BA|[NB _]]; [apply (block_at_unique _ _ _ _ _ _ _ _ BA PB)|exfalso; exact (NB _ PB)]. }
  assert (ES : map (fun k => chunk (bs - 16) data (i0 + k - 1)) ks = map (chunk (bs - 16) data) (rangeN 0 n)).
  { rewrite EK. unfold i0. destruct me; [|change (1 - 1) with 0; replace (n + 1 - 1) with n by lia; apply map_ext; intro k; f_equal; lia].
    change (1 - 0) with 1. rewrite N.sub_0_r. clear. induction n as [|m IH] using N.peano_ind; [reflexivity|]. rewrite <- N.add_1_r. rewrite (rangeN_snoc 1), (rangeN_snoc 0) by lia. rewrite !map_app, IH. cbn [map]. do 3 f_equal. lia. }
  rewrite EX, ES. clear EX ES EK E S F xs ks.
  destruct (BC _ _ _ _ _ _ _ _ _ IT) as (c & [C1 C2] & C3). subst c. fold bs in C1, C2. set (ds := bs - 16) in *.
  assert (LC : forall l, lenN (concat (map (chunk ds data) l)) = lenN l * ds) by (intro l; apply lenN_concat_map; intro; apply lenN_chunk).
  apply list_ext_N; [rewrite LC, lenN_range, lenN_app, lenN_rep; lia|]. intros i Hi. rewrite LC, lenN_range, N.sub_0_r in Hi.
  assert (N1 : 1 <= n) by (destruct (N.eq_dec n 0) as [Z|]; [rewrite Z in Hi; lia|lia]).
  assert (KE : n * ds = (n - 1) * ds + ds) by (replace n with (n - 1 + 1) at 1 by lia; rewrite N.mul_add_distr_r, N.mul_1_l; reflexivity).
  destruct (concat_chunks ds (chunk ds data) (n * ds) n ltac:(lia) ltac:(lia) ltac:(lia) (fun j => lenN_chunk ds data j)) as [_ NO]. cbv zeta in NO.
  assert (ET : map (fun j => takeN (n * ds - j * ds) (chunk ds data j)) (rangeN 0 n) = map (chunk ds data) (rangeN 0 n)).
  { apply map_ext_in. intros j Hj. apply In_rangeN in Hj. apply take_all. rewrite lenN_chunk. assert ((j + 1) * ds <= n * ds) by (apply N.mul_le_mono_r; lia). lia. }
  rewrite ET in NO. rewrite (NO i Hi). clear NO ET. pose proof (N.div_mod' i ds) as DM. pose proof (N.mod_lt i ds ltac:(lia)) as ML. rewrite N.mul_comm in DM. set (j := i / ds) in *. set (r := i mod ds) in *.
  rewrite nthN_app. destruct (N.ltb_spec i (lenN data)) as [L|L]; [rewrite nth_chunk; [f_equal; lia|lia|lia]|].
  unfold chunk. rewrite nthN_app, lenN_slice. clear KE C2 EL SN. clearbody j r. generalize dependent (j * ds). generalize dependent (n * ds). intros w C1 Hi q DM. destruct (N.ltb_spec r (N.min ds (lenN data - q))); [lia|]. rewrite !nthN_rep.
  destruct (N.ltb_spec (i - lenN data) (w - lenN data)); [|lia]. destruct (N.ltb_spec (r - N.min ds (lenN data - q)) (ds - N.min ds (lenN data - q))); [reflexivity|lia].
Qed.
End Plain.

(* The burst level is known or found (C29): the layout used is that of the container. *)
Lemma setup_exact v uid o rs ms data f n q : intact v uid true o rs ms data f n -> lenN f < 18446744073709551616 -> plain q -> (o <> None -> 1 <= n) ->
  (dc_choice q = Any \/ dc_choice q = Prefer TMeta \/ dc_choice q = MustBe TMeta) ->
  match o with
  | Some (d, p, B) => get_meta_by_id ms IRSD = Some (RSD d) /\ get_meta_by_id ms IRSP = Some (RSP p) /\
                      ((dc_burst q = None /\ B <= SBX_MAX_BURST_ERR_RESISTANCE) \/ dc_burst q = Some B)
  | None => True end ->
  exists ref, setup q f ref o (N.max 1 (lenN f)) 0 /\ b_version ref = v /\ b_uid ref = uid /\ b_data ref = DMeta ms.
Proof.
  intros IT FL PL N1 CH MD. destruct (ref_meta _ _ _ _ _ _ _ _ _ IT (dc_choice q) (dc_misalign q) FL eq_refl CH) as (ref & GR & RV & RU & RDT).
  pose proof PL as (P1 & P2 & P3 & P4 & P5 & P6). exists ref. split; [|auto]. split; [exists 0; rewrite P1, P2, P4; exact GR|]. split; [|apply (plain_range f q FL PL)].
  unfold get_data_par_burst. rewrite RV. assert (RS : ver_uses_rs v = match o with Some _ => true | None => false end) by apply IT.
  destruct o as [[[d p] B]|]; rewrite RS; [|reflexivity]. destruct MD as (M1 & M2 & M3).
  assert (RD : get_RSD ref = ROk d) by (unfold get_RSD; rewrite RDT, M1; reflexivity).
  assert (RP : get_RSP ref = ROk p) by (unfold get_RSP; rewrite RDT, M2; reflexivity).
  rewrite RD, RP. cbn [rbind]. unfold get_burst_or_guess. rewrite P3, P4. cbn [guess_from_param].
  destruct M3 as [[M3 MB]| ->]; [rewrite M3|reflexivity]. rewrite RV, RS. unfold is_data, block_type_of. rewrite RDT.
  destruct (guess_intact _ _ _ _ _ _ _ _ _ IT d p B ref (dc_misalign q) eq_refl RV RU RD RP) as (g & G & _ & _ & E); [unfold LEVELS; lia|].
  rewrite G. cbn [rbind]. rewrite E by (apply N1; discriminate). reflexivity.
Qed.

(* C40, encoding followed by decoding to standard output: the file comes out, the hash computed is the one recorded. With
   Reed-Solomon the file must not be empty (finding F13). *)
Theorem c40_roundtrip H rs p cpus content mx n :
  enc_ok H rs cpus p -> meta_fits H p -> input_ok (SrcFile content) ->
  e_from p = None -> e_to p = None -> meta_on p = true -> (e_dpb p <> None -> 1 <= lenN content) ->
  ver_to_max_data_file_size (e_ver p) (e_dpb p) = ROk mx -> lenN content <= mx ->
  block_count (e_ver p) (e_dpb p) (lenN content) n -> n < U32_MAX ->
  exists out, encode_file H rs cpus p (SrcFile content) = ROk out /\ eo_err out = false /\
  forall order cpus' limit q,
    (forall l x, In x (order l) <-> In x l) ->
    1 <= cpus' -> plain q -> (dc_choice q = Any \/ dc_choice q = Prefer TMeta \/ dc_choice q = MustBe TMeta) ->
    match e_dpb p with Some (_, _, B) => (dc_burst q = None /\ B <= SBX_MAX_BURST_ERR_RESISTANCE) \/ dc_burst q = Some B | None => True end ->
    n <= N.of_nat limit ->
    exists dout, decode_file H order cpus' limit q (eo_file out) ToStdout = ROk dout /\
      do_out dout = content /\
      do_recorded dout = Some (canon_hash (e_hash p), H (canon_hash (e_hash p)) content) /\ do_computed dout = do_recorded dout.
Proof.
  intros OK F IO EF ET ME NE HMX HL HBC HN. destruct (c38_encoded_container_is_the_file H rs p cpus content mx n OK F IO EF ET HMX HL HBC HN) as (out & E & EN).
  exists out. split; [exact E|]. split; [apply EN|]. intros order cpus' limit q OR CP PQ CH BU LIM.
  destruct IO as [IB IL]. destruct (encoded_intact H rs cpus p content out n OK IB EN HBC ltac:(lia)) as [IT FL]. rewrite ME in IT.
  assert (HS : hash_supported (e_hash p) = true) by apply OK.
  assert (HO' := HO _ _ _ _ _ _ _ _ _ IT).
  assert (N1 : e_dpb p <> None -> 1 <= n).
  { intro X. specialize (NE X). destruct (count_chunks (e_ver p) (e_dpb p) (lenN content) n HO' NE HBC) as (K & _ & _ & _ & SQ). pose proof (dseq_pos (e_dpb p) (K - 1)). lia. }
  destruct (setup_exact _ _ _ _ _ _ _ _ q IT FL PQ N1 CH) as (ref & ST & RV & RU & RD).
  { destruct (e_dpb p) as [[[d par] B]|] eqn:EO; [|exact Logic.I]. unfold recorded. rewrite EO. destruct (e_in_name p), (e_fdt p); cbn; auto. }
  assert (BO := file_bytes _ _ _ _ _ _ _ _ _ IT).
  assert (GF : get_FSZ ref = Some (lenN content)).
  { unfold get_FSZ, block_get_meta. rewrite RD. unfold recorded. destruct (e_in_name p), (e_fdt p); reflexivity. }
  assert (GH : get_HSH ref = Some (canon_hash (e_hash p), H (canon_hash (e_hash p)) content)).
  { unfold get_HSH, block_get_meta. rewrite RD. unfold recorded. destruct (e_in_name p), (e_fdt p); reflexivity. }
  assert (HH : hash_output H ref content = Some (canon_hash (e_hash p), H (canon_hash (e_hash p)) content)).
  { unfold hash_output. rewrite GH. unfold finish_hash. destruct (e_hash p); try discriminate; reflexivity. }
  assert (ID : is_data ref = false) by exact (fsz_meta _ _ GF). pose proof PQ as (_ & _ & _ & QF & QT & _).
  assert (G : exists dout, decode_file H order cpus' limit q (eo_file out) ToStdout = ROk dout /\ do_out dout = content /\ do_recorded dout = get_HSH ref /\ do_computed dout = hash_output H ref (do_out dout)).
  { destruct (e_dpb p) as [[[d par] B]|] eqn:EO.
    - assert (L1 : 1 <= lenN content) by (apply NE; discriminate).
      pose proof (ceil_div (lenN content) (ver_to_block_size (b_version ref) - 16) ltac:(pose proof (block_size_pos (b_version ref)); lia)) as CK.
      assert (BC' : block_count (b_version ref) (Some (d, par, B)) (lenN content) n) by (rewrite RV; exact HBC). assert (HN' : n <= U32_MAX) by (unfold U32_MAX in *; lia).
      destruct (c40_stdout_burst H order cpus' limit q (eo_file out) ref d par B _ _ (lenN content) n _ CP BO FL ST QF QT GF L1 BC' HN' LIM CK) as (dout & ED & LO & _ & CZ & RC & CC & _).
      exists dout. split; [exact ED|]. split; [|auto]. apply (c39_data_unique (e_ver p) (e_uid p) (Some (d, par, B)) (eo_file out)); [exact HO'|exact LO| |exact (intact_in_place _ _ _ _ _ _ _ _ IT)].
      rewrite RV, RU in CZ. intros j Hj. destruct (CZ j Hj) as (x & [CP'|[NC _]] & EX); [exists x; auto|]. exfalso.
      destruct (intact_in_place _ _ _ _ _ _ _ _ IT j ltac:(rewrite <- LO; exact Hj)) as (pl & C & _). exact (NC pl C).
    - assert (LE := plain_len _ _ _ _ _ _ _ _ IT). cbv zeta in LE. rewrite N.sub_0_r in LE. pose proof (block_size_pos (e_ver p)) as BP.
      assert (LF : N.max 1 (lenN (eo_file out)) = lenN (eo_file out)) by (rewrite LE; apply N.max_r; nia).
      destruct (c40_stdout_sequential H order cpus' limit q (eo_file out) ref None _ 0 0 CP BO FL ST (or_introl ID) (or_introl eq_refl)) as (dout & ks & xs & ED & DB & F2 & DO & RC & CC).
      + apply (plain_start _ _ _ _ _ _ _ _ IT order q ref OR QF RV RU). left; reflexivity.
      + rewrite LE. unfold U32_MAX, U64_MAX in *. nia.
      + intros k Hk. rewrite RV in *. rewrite LF, LE in Hk. rewrite LE. assert (k < n + 1) by (apply (N.mul_lt_mono_pos_r (ver_to_block_size (e_ver p))); lia). rewrite N.add_0_l. apply N.mul_le_mono_r. lia.
      + exists dout. split; [exact ED|]. split; [|auto]. rewrite RV in DB. rewrite RV, RU in F2. rewrite GF in DO.
        rewrite (plain_all _ _ _ _ _ _ _ _ IT ks xs _ eq_refl (or_introl eq_refl) DB F2) in DO. rewrite DO. destruct (N.eqb_spec (lenN content) 0) as [Z|NZ]; [|apply take_app_exact; reflexivity].
        destruct content as [|a content']; [|rewrite lenN_cons in Z; lia]. destruct HBC as (c & [_ C2] & ->). assert (c = 0) by (specialize (C2 0); change (lenN (@nil N)) with 0 in C2; lia). subst c. reflexivity. }
  destruct G as (dout & A & B & C & D). exists dout. split; [exact A|]. split; [exact B|]. rewrite C, D, B, GH, HH. auto.
Qed.
(* Without metadata there is no recorded size: the padding comes out as well. *)
Theorem c40_roundtrip_no_metadata H rs p cpus content mx n :
  enc_ok H rs cpus p -> meta_fits H p -> input_ok (SrcFile content) ->
  e_from p = None -> e_to p = None -> meta_on p = false -> 1 <= lenN content ->
  ver_to_max_data_file_size (e_ver p) (e_dpb p) = ROk mx -> lenN content <= mx ->
  block_count (e_ver p) (e_dpb p) (lenN content) n -> n < U32_MAX ->
  exists out, encode_file H rs cpus p (SrcFile content) = ROk out /\ eo_err out = false /\
  forall order cpus' limit q,
    (forall l x, In x (order l) <-> In x l) ->
    1 <= cpus' -> plain q -> (dc_choice q = Any \/ (exists t, dc_choice q = Prefer t) \/ dc_choice q = MustBe TData) ->
    exists dout, decode_file H order cpus' limit q (eo_file out) ToStdout = ROk dout /\
      do_out dout = content ++ repN (n * (ver_to_block_size (e_ver p) - 16) - lenN content) 26 /\
      do_recorded dout = None /\ do_computed dout = None.
Proof.
  intros OK F IO EF ET ME L1 HMX HL HBC HN. destruct (c38_encoded_container_is_the_file H rs p cpus content mx n OK F IO EF ET HMX HL HBC HN) as (out & E & EN).
  exists out. split; [exact E|]. split; [apply EN|]. intros order cpus' limit q OR CP PQ CH.
  destruct IO as [IB IL]. destruct (encoded_intact H rs cpus p content out n OK IB EN HBC ltac:(lia)) as [IT FL]. rewrite ME in IT.
  assert (EO : e_dpb p = None) by (pose proof (MEON _ _ _ _ _ _ _ _ _ IT) as MO; destruct (e_dpb p) as [x|]; [specialize (MO ltac:(discriminate)); discriminate|reflexivity]).
  rewrite EO in *. assert (N1 : 1 <= n).
  { destruct (count_chunks (e_ver p) None (lenN content) n Logic.I L1 HBC) as (K & _ & _ & _ & SQ). pose proof (dseq_pos None (K - 1)). lia. }
  destruct (setup_data _ _ _ _ _ _ _ _ _ q IT FL PQ eq_refl N1 CH) as (ref & ST & RV & RU & RD & _).
  assert (BO := file_bytes _ _ _ _ _ _ _ _ _ IT).
  assert (GF : get_FSZ ref = None) by (unfold get_FSZ, block_get_meta; rewrite RD; reflexivity).
  assert (GH : get_HSH ref = None) by (unfold get_HSH, block_get_meta; rewrite RD; reflexivity).
  assert (RS : ver_uses_rs (b_version ref) = false) by (rewrite RV; apply IT). pose proof PQ as (_ & _ & _ & QF & QT & _).
  assert (LE := plain_len _ _ _ _ _ _ _ _ IT). cbv zeta in LE. replace (n + 1 - 1) with n in LE by lia. pose proof (block_size_pos (e_ver p)) as BP.
  assert (LF : N.max 1 (lenN (eo_file out)) = lenN (eo_file out)) by (rewrite LE; apply N.max_r; nia).
  destruct (c40_stdout_sequential H order cpus' limit q (eo_file out) ref None _ 0 1 CP BO FL ST (or_intror RS) (or_introl eq_refl)) as (dout & ks & xs & ED & DB & F2 & DO & RC & CC).
  - apply (plain_start _ _ _ _ _ _ _ _ IT order q ref OR QF RV RU). right; exact N1.
  - rewrite LE. unfold U32_MAX, U64_MAX in *. nia.
  - intros k Hk. rewrite RV in *. rewrite LF, LE in Hk. rewrite LE. assert (k < n) by (apply (N.mul_lt_mono_pos_r (ver_to_block_size (e_ver p))); lia). rewrite N.add_0_l. apply N.mul_le_mono_r. lia.
  - exists dout. split; [exact ED|]. rewrite RV in DB. rewrite RV, RU in F2. rewrite GF in DO.
    rewrite (plain_all _ _ _ _ _ _ _ _ IT ks xs _ eq_refl (or_intror N1) DB F2) in DO. split; [exact DO|]. rewrite RC, CC, GH. unfold hash_output. rewrite GH. auto.
Qed.

(* Finding F13: with Reed-Solomon, if the recorded size is 0 or there is none, reading does not stop at the end of the
   container: the run is not over while the blocks visited are fewer than the sequence numbers there are. *)
Lemma fill_goes_on (c : cfg) step : (forall st s st' a stop, step st s = ROk (st', a, stop) -> ot_cur st < U32_MAX -> stop = false /\ ot_cur st' <= ot_cur st + 1) ->
  forall fuel st b st' b' run, fill c (fun _ : ostate => false) step fuel st b = ROk (st', b', run) -> ot_cur st + N.of_nat fuel <= U32_MAX ->
  run = true /\ ot_cur st' <= ot_cur st + N.of_nat fuel.
Proof.
  intros HS. induction fuel as [|fuel IH]; intros st b st' b' run E L; cbn [fill] in E.
  - destruct (is_full b); [|discriminate]. apply ROk_inj, pair_inj in E as [E <-]. apply pair_inj in E as [<- _]. split; [reflexivity|lia].
  - destruct (is_full b); [apply ROk_inj, pair_inj in E as [E <-]; apply pair_inj in E as [<- _]; split; [reflexivity|lia]|].
    destruct (get_slot c b) as [[b1 loc]|]; [|discriminate]. destruct (slot_at b1 loc) as [s|]; [|discriminate].
    destruct (step st s) as [[[st1 a] stop]| |] eqn:ES; [|discriminate|discriminate]. cbn [rbind] in E. destruct (HS _ _ _ _ _ ES ltac:(lia)) as [-> L1].
    destruct (match a with Keep s' => ROk (put_slot b1 loc s') | Cancel s' => cancel_slot c (put_slot b1 loc s') end) as [b2| |]; [|discriminate|discriminate]. cbn [rbind] in E.
    destruct (IH _ _ _ _ _ E ltac:(lia)) as [A B]. split; [exact A|lia].
Qed.
Lemma loop_goes_on {W} (c : cfg) step (consume : W -> dbuf -> result (dbuf * W)) ff : (forall st s st' a stop, step st s = ROk (st', a, stop) -> ot_cur st < U32_MAX -> stop = false /\ ot_cur st' <= ot_cur st + 1) ->
  forall fuel q st w r, ot_cur st + N.of_nat ff * N.of_nat fuel <= U32_MAX -> buf_loop c (fun _ : ostate => false) step consume ff fuel q st w <> ROk r.
Proof.
  intros HS. induction fuel as [|fuel IH]; intros q st w r L E; cbn [buf_loop] in E; [discriminate|]. destruct q as [|b q]; [discriminate|].
  destruct (fill _ _ _ _ _ _) as [[[st1 b1] run]| |] eqn:EF; [|discriminate|discriminate]. cbn [rbind] in E. assert (LX : N.of_nat ff * N.of_nat (S fuel) = N.of_nat ff + N.of_nat ff * N.of_nat fuel) by lia.
  rewrite LX in L. clear LX. generalize dependent (N.of_nat ff * N.of_nat fuel). intros m IH L. destruct (fill_goes_on c step HS _ _ _ _ _ _ EF ltac:(lia)) as [-> LB].
  destruct (consume w b1) as [[b2 w1]| |]; [|discriminate|discriminate]. cbn [rbind] in E. eapply IH; [|exact E]. lia.
Qed.
Theorem c40_endless_refuted H order cpus limit q f ref d p B len lo dout :
  setup q f ref (Some (d, p, B)) len lo -> is_data ref = false -> dc_from q = None -> dc_to q = None ->
  get_FSZ ref = None \/ get_FSZ ref = Some 0 -> N.of_nat limit * N.of_nat limit < U32_MAX ->
  decode_file H order cpus limit q f ToStdout <> ROk dout.
Proof.
  intros ST ID QF QT GF LIM E. set (o := Some (d, p, B)) in *. rewrite (stdout_start H order cpus limit q f ref o len lo ST (or_introl ID)) in E.
  unfold decode_to_stdout in E. rewrite QF, QT in E. destruct (calc_required_len_and_seek_to_from_byte_range None None _ _ _ _) as [rl sk].
  assert (RP : read_pattern_new None None o = BurstErrorResistant d p) by reflexivity. rewrite RP in E. destruct (read_metas f ref o) as [s0| |]; [|discriminate|discriminate]. cbn [rbind] in E.
  set (count := option_map _ _) in E. assert (NC : forall s, 1 <= ds_data s + ds_data_failed s -> last_reached count s = false).
  { intros s L. unfold last_reached, count. destruct GF as [-> | ->]; [reflexivity|]. cbn [option_map]. assert (Z : calc_data_chunk_count (b_version ref) 0 = 0) by (destruct (b_version ref); reflexivity).
    rewrite Z. apply N.eqb_neq. lia. }
  destruct (buf_loop _ _ _ _ _ _ _ _ _) as [[st w]| |] eqn:EB; [|discriminate|discriminate]. eapply loop_goes_on; [|shelve|exact EB]. clear EB E.
  intros st1 s st2 a stop ES LC. unfold burst_step in ES. destruct (if _ <? _ then _ else _) as [[s2 ok]| |]; [|discriminate|discriminate]. cbn [rbind] in ES.
  unfold SBX_LAST_SEQ_NUM in ES. destruct (N.eqb_spec (ot_cur st1) U32_MAX); [lia|].
  destruct (seq_num_is_parity (ot_cur st1) d p); [apply ROk_inj, pair_inj in ES as [ES <-]; apply pair_inj in ES as [<- _]; split; [reflexivity|cbn [ot_cur]; lia]|].
  unfold emit_data in ES. destruct (if ok then ROk s2 else _) as [s3| |]; [|discriminate|discriminate]. cbn [rbind] in ES.
  rewrite NC in ES by (destruct ok; cbn; lia). cbn [rbind] in ES. apply ROk_inj, pair_inj in ES as [ES <-]; apply pair_inj in ES as [<- _]; split; [reflexivity|cbn [ot_cur]; lia].
  Unshelve. cbn [ot_cur]. lia.
Qed.

(* Findings F12, F14 and F15, on concrete containers. *)
Definition run_stdout (q : dparam) (f : file) : list N := match decode_file toy_hash (fun l => l) 2 100%nat q f ToStdout with ROk x => do_out x | _ => [] end.
Definition run_file (q : dparam) (f : file) : list N := match decode_file toy_hash (fun l => l) 2 100%nat q f (ToFile None) with ROk x => do_out x | _ => [] end.
Definition q_from (n : N) : dparam := mkDparam (Prefer TMeta) None None None false None (Some n) None false None.
Definition plain_file : file := match encode_file toy_hash toy_rs 4 (toy_p V1 None) (SrcFile toy_content) with ROk out => eo_file out | _ => [] end.
(* F12: a burst resistant container from byte 0 on: to a file the data comes out, to standard output it does not: places of
   blocks that do not exist in this container are taken for lost data. *)
Theorem c40_range_refuted : run_file (q_from 0) toy_file = toy_content /\
  run_stdout (q_from 0) toy_file = takeN 496 toy_content ++ repN 704 0.
Proof. split; vm_compute; reflexivity. Qed.
(* F14: from the third block on, without Reed-Solomon: the padding of the last block comes out. *)
Theorem c40_padding_refuted : run_file (q_from 1024) plain_file = repN 496 0 ++ dropN 496 toy_content /\
  run_stdout (q_from 1024) plain_file = dropN 496 toy_content ++ repN 288 26.
Proof. split; vm_compute; reflexivity. Qed.
(* F15: a container without metadata followed by 100 more bytes: those bytes come out, filled up with zeros to a payload. *)
Definition bare_file : file := match encode_file toy_hash toy_rs 4 (mkEparam V1 [1;2;3;4;5;6] None false SHA256 None None None [] None 7%Z) (SrcFile toy_content) with ROk out => eo_file out | _ => [] end.
Theorem c40_trailing_refuted : run_stdout toy_q bare_file = toy_content ++ repN 288 26 /\
  run_file toy_q (bare_file ++ repN 100 65) = toy_content ++ repN 288 26 /\
  run_stdout toy_q (bare_file ++ repN 100 65) = toy_content ++ repN 288 26 ++ repN 84 65 ++ repN 412 0.
Proof. split; [|split]; vm_compute; reflexivity. Qed.

(* The hypotheses of c40_stdout_burst are met by a damaged container: the first data block destroyed, zeros in its place. *)
Definition hurt : file := takeN 512 toy_file ++ repN 512 255 ++ dropN 1024 toy_file.
Definition toy_meta : block := P_Guess.toy_ref.
Example c40_hypotheses : setup toy_q hurt toy_meta toy_o (lenN hurt) 0 /\ get_FSZ toy_meta = Some 1200 /\ bytes_ok hurt = true /\
  run_stdout toy_q hurt = repN 496 0 ++ dropN 496 toy_content /\ run_stdout toy_q toy_file = toy_content /\ run_stdout toy_q plain_file = toy_content.
Proof. split; [split; [exists 0; vm_compute; reflexivity|split; vm_compute; reflexivity]|]. split; [|split; [|split; [|split]]]; vm_compute; reflexivity. Qed.
(* Those of c40_stdout_sequential are met by an excerpt, those of c40_endless_refuted by the container of an empty file. *)
Example c40_hypotheses_sequential : exists ref, setup (q_from 1024) plain_file ref None 1024 1024 /\
  guess_starting_block_index (fun l => l) plain_file (Some 1024) false ref None = ROk 2 /\
  forall k, k * 512 < 1024 -> 1024 + (k + 1) * 512 <= lenN plain_file.
Proof.
  assert (E : exists ref, get_ref_block plain_file (Some 0) None false (Prefer TMeta) = ROk (Some (0, ref)) /\ b_version ref = V1 /\
    guess_starting_block_index (fun l => l) plain_file (Some 1024) false ref None = ROk 2) by (eexists; split; [vm_compute; reflexivity|split; vm_compute; reflexivity]).
  destruct E as (ref & E & V & G). exists ref. split; [split; [exists 0; exact E|]|split; [exact G|]].
  - unfold scan_range, get_data_par_burst. rewrite V. split; vm_compute; reflexivity.
  - assert (L : lenN plain_file = 2048) by (vm_compute; reflexivity). rewrite L. intros. lia.
Qed.
Definition empty_file : file := match encode_file toy_hash toy_rs 4 (toy_p V17 toy_o) (SrcFile []) with ROk out => eo_file out | _ => [] end.
Example c40_hypotheses_endless : exists ref len, setup toy_q empty_file ref (Some (3, 2, 4)) len 0 /\ is_data ref = false /\ get_FSZ ref = Some 0.
Proof. eexists _, _. split; [split; [exists 0; vm_compute; reflexivity|split; vm_compute; reflexivity]|]. split; vm_compute; reflexivity. Qed.
Print Assumptions c40_stdout_burst.
Print Assumptions c40_stdout_sequential.
Print Assumptions c40_roundtrip.
Print Assumptions c40_roundtrip_no_metadata.
Print Assumptions c40_endless_refuted.
Print Assumptions c40_range_refuted.
Print Assumptions c40_padding_refuted.
Print Assumptions c40_trailing_refuted.
