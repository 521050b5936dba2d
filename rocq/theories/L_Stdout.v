(* Decoding to standard output, burst error resistant reading pattern. *)
From Verif Require Import M_Base M_Specs M_Crc M_Header M_Multihash M_Metadata M_Block M_Index M_FileUtils M_Buffer M_Ranges M_Encode M_Scan M_Loop M_Decode M_Content
  S_Crc S_Meta S_Block S_Index S_Container S_Decode S_Content
  L_Base L_File L_Crc L_Header L_Meta L_Block L_Block2 L_Index L_Index2 L_Buffer L_Encode L_Container L_Loop L_Scan L_Decode L_Chunks L_Content.
Ltac Zify.zify_post_hook ::= idtac.

Lemma count_chunks v o size n : dpb_ok o -> 1 <= size -> block_count v o size n ->
  exists K, 1 <= K /\ (K - 1) * ver_to_data_size v < size /\ size <= K * ver_to_data_size v /\ dseq o (K - 1) <= n.
Proof.
  intros HO S1 (K & [C1 C2] & C3). assert (DSE : ver_to_block_size v - 16 = ver_to_data_size v) by (rewrite (proj2 (data_size_pos v)); reflexivity).
  rewrite DSE in *. set (ds := ver_to_data_size v) in *. assert (K1 : 1 <= K) by (destruct (N.eq_dec K 0) as [E|]; [rewrite E in C1; lia|lia]).
  exists K. split; [exact K1|]. split; [apply N.nle_gt; intro L; apply C2 in L; lia|]. split; [exact C1|]. unfold dseq.
  destruct o as [[[d p] B]|]; [|subst n; lia]. destruct C3 as (sets & [S1' S2] & ->). destruct HO as (Hd & Hp & _).
  pose proof (N.div_mod' (K - 1) d) as DM. pose proof (N.mod_lt (K - 1) d ltac:(lia)) as ML. set (x := (K - 1) / d) in *. set (y := (K - 1) mod d) in *.
  assert (XS : x < sets). { apply (N.mul_lt_mono_pos_r d); lia. }
  assert (X : (x + 1) * (d + p) <= sets * (d + p)) by (apply N.mul_le_mono_r; lia).
  rewrite N.mul_add_distr_r in X. generalize dependent (x * (d + p)). generalize dependent (sets * (d + p)). intros. lia.
Qed.

(* the block of zeros *)
Definition blank_block (v : version) (uid : list N) (seq : N) : block :=
  let b := mkBlock (header_new v uid seq) DData in set_crc b (crc_of v uid seq (repN (ver_to_block_size v - 16) 0)).
Definition blank_buf (v : version) (uid : list N) (seq : N) : list N :=
  put_at (repN (ver_to_block_size v) 0) 0 (header_to_bytes (b_header (blank_block v uid seq))).
Lemma slice_rep_zero v : slice_data_buf v (repN (ver_to_block_size v) 0) = repN (ver_to_block_size v - 16) 0.
Proof.
  pose proof (block_size_pos v). unfold slice_data_buf, SBX_HEADER_SIZE. apply list_ext_N; [rewrite lenN_slice, !lenN_rep; lia|].
  intros i Hi. rewrite nthN_slice, !nthN_rep. repeat destruct (_ <? _); reflexivity.
Qed.
Lemma blank_ok c seq s : 1 <= seq -> lenN (s_buf s) = ver_to_block_size (c_ver c) ->
  blank_slot c seq s = ROk (mkSlot (blank_block (c_ver c) (c_uid c) seq) (blank_buf (c_ver c) (c_uid c) seq) (s_rpos s) (s_wpos s) (s_clen s) (s_pad s)).
Proof.
  intros S1 L. unfold blank_slot. set (b := set_seq_num _ seq).
  assert (E : exists crc, b = mkBlock (mkHeader (c_ver c) crc (c_uid c) seq) DData).
  { unfold b, set_seq_num, switch_block_type_to_match_header, switch_block_type, header_type_matches_block_type, set_uid, set_version, block_type_of. destruct (s_block s) as [h dd]. cbn.
    exists (h_crc h). unfold header_type, SBX_FIRST_DATA_SEQ_NUM. cbn [h_seq_num]. destruct (N.ltb_spec seq 1); [lia|]. destruct dd; reflexivity. }
  destruct E as (crc & E). rewrite sync_to_data; [|rewrite E; reflexivity|rewrite lenN_rep, L, E; cbn; lia].
  cbv zeta. rewrite E. cbn [do_crc b_version b_uid b_seq_num b_header h_version h_uid h_seq_num]. rewrite L, slice_rep_zero. reflexivity.
Qed.
Lemma lenN_blank v uid seq : lenN uid = 6 -> lenN (blank_buf v uid seq) = ver_to_block_size v.
Proof. intro U. pose proof (block_size_pos v). unfold blank_buf. rewrite lenN_put_at; rewrite ?lenN_header_to_bytes, ?lenN_rep; cbn; try assumption; lia. Qed.
Lemma blank_payload v uid seq : lenN uid = 6 -> slice_data_buf v (blank_buf v uid seq) = repN (ver_to_data_size v) 0.
Proof.
  intro U. pose proof (block_size_pos v). unfold blank_buf. unfold slice_data_buf at 1, SBX_HEADER_SIZE. rewrite slice_put_other.
  - pose proof (slice_rep_zero v) as X. unfold slice_data_buf, SBX_HEADER_SIZE in X. rewrite X, (proj2 (data_size_pos v)). reflexivity.
  - rewrite lenN_header_to_bytes, lenN_rep by exact U. lia.
  - right. rewrite lenN_header_to_bytes by exact U. lia.
Qed.

Definition seen {A} (x : option A) : bool := match x with Some _ => true | None => false end.
(* counters after the blocks below seq *)
Definition tally (o : dpb) (ok : N -> bool) (s0 : dstats) (seqs : list N) : dstats :=
  fold_left (fun s q => if seq_num_is_parity_w_data_par_burst q o then add_parity (ok q) s else add_data (ok q) s) seqs s0.

Section Burst.
Variables (cpus : N) (f : file) (ref : block) (d p B total K : N) (s0 : dstats) (hashing : bool).
Let o : dpb := Some (d, p, B).
Hypothesis CPUS : 1 <= cpus.
Hypothesis HB : bytes_ok f = true.
Hypothesis HO : dpb_ok o.
Hypothesis U6 : lenN (b_uid ref) = 6.
Let v := b_version ref.
Let bs := ver_to_block_size v.
Let ds := ver_to_data_size v.
Let c := out_cfg v (b_uid ref) o cpus.
Hypothesis K1 : 1 <= K.
Hypothesis KL : (K - 1) * ds < total.
Hypothesis KU : total <= K * ds.
Hypothesis SQ : dseq o (K - 1) <= U32_MAX.
Hypothesis Z0 : ds_data s0 = 0 /\ ds_data_failed s0 = 0.
Lemma out_cfg_ok : cfg_ok c.
Proof. unfold cfg_ok, dws, lot_size, c, out_cfg, c_in, c_lots, DEFAULT_SINGLE_LOT_SIZE, LOT_COUNT_PER_CPU. lia. Qed.
Lemma bds1 : 1 <= ds. Proof. apply data_size_pos. Qed.
Let last := Some (total - (K - 1) * ds).

Definition found_slot (seq : N) (cl : option N) : slot :=
  match got ref o f seq with
  | Some b => mkSlot b (bytes_for ref o f seq) None None cl false
  | None => mkSlot (blank_block v (b_uid ref) seq) (blank_buf v (b_uid ref) seq) None None cl false
  end.
Definition b_fstep (st : ostate) : ostate * option slot * bool :=
  let seq := ot_cur st in
  let ok := seen (got ref o f seq) in
  let is_last := seq =? SBX_LAST_SEQ_NUM in
  let next st' := mkOstate (if is_last then seq else seq + 1) (ot_pos st) (ot_bytes st) st' in
  if seq_num_is_parity_w_data_par_burst seq o then (next (add_parity ok (ot_stats st)), None, is_last)
  else
    let st' := add_data ok (ot_stats st) in
    if last_reached (Some K) st' then (mkOstate seq (ot_pos st) (ot_bytes st) st', Some (found_slot seq last), true)
    else (next st', Some (found_slot seq None), is_last).
Definition BGood (s : slot) : Prop := exists seq cl, s = found_slot seq cl /\ 1 <= seq /\ seq_num_is_parity_w_data_par_burst seq o = false /\
  match cl with Some n => 1 <= n <= ds | None => True end.
Definition BI (st : ostate) : Prop := 1 <= ot_cur st.
Lemma last_bounds : 1 <= total - (K - 1) * ds <= ds.
Proof. assert (K * ds = (K - 1) * ds + ds) by nia. lia. Qed.
Lemma lenN_found seq cl : lenN (s_buf (found_slot seq cl)) = bs.
Proof.
  unfold found_slot, got. fold v. fold (bytes_for ref o f seq). change (ver_to_block_size v) with bs.
  change (file_read f (calc_data_block_write_pos v seq None o) bs) with (bytes_for ref o f seq).
  destruct (N.ltb_spec (lenN (bytes_for ref o f seq)) bs); [apply lenN_blank, U6|].
  assert (lenN (bytes_for ref o f seq) <= bs) by (unfold bytes_for, file_read; rewrite lenN_slice; fold v; fold bs; lia).
  destruct (accept ref _) as [b|]; [destruct (_ =? _)|]; cbn [s_buf]; try (apply lenN_blank, U6); lia.
Qed.
Lemma b_step_ok st s : BI st -> Fresh c s ->
  match b_fstep st with
  | (st', Some x, stop) => burst_step c f ref d p (Some K) last st s = ROk (st', Keep x, stop) /\ lenN (s_buf x) = bs /\ BGood x /\ (stop = false -> BI st')
  | (st', None, stop) => exists s', burst_step c f ref d p (Some K) last st s = ROk (st', Cancel s', stop) /\ lenN (s_buf s') = bs /\ (stop = false -> BI st')
  end.
Proof.
  intros I F. unfold b_fstep, burst_step. destruct (expect_got c ref o f (ot_cur st) s eq_refl eq_refl eq_refl eq_refl F) as (s2 & E & L & (X1 & X2 & X3 & X4) & G).
  cbv zeta in E. cbv zeta. rewrite E. cbn [rbind]. change (seq_num_is_parity (ot_cur st) d p) with (seq_num_is_parity_w_data_par_burst (ot_cur st) o).
  fold v in L. fold bs in L. unfold BI in I.
  assert (NX : forall st', 1 <= ot_cur (mkOstate (if ot_cur st =? SBX_LAST_SEQ_NUM then ot_cur st else ot_cur st + 1) (ot_pos st) (ot_bytes st) st')) by (intro; cbn [ot_cur]; destruct (_ =? _); lia).
  destruct (seq_num_is_parity_w_data_par_burst (ot_cur st) o) eqn:PA; [eexists; split; [reflexivity|]; split; [exact L|intros; apply NX]|].
  unfold emit_data. change (match got ref o f (ot_cur st) with Some _ => true | None => false end) with (seen (got ref o f (ot_cur st))).
  assert (EB : (if seen (got ref o f (ot_cur st)) then ROk s2 else blank_slot c (ot_cur st) s2) = ROk (found_slot (ot_cur st) None)).
  { unfold found_slot. destruct (got ref o f (ot_cur st)) as [b|]; cbn [seen]; [rewrite (G b eq_refl); reflexivity|].
    rewrite blank_ok by assumption. rewrite X1, X2, X3, X4. reflexivity. }
  rewrite EB. cbn [rbind]. set (st1 := add_data _ _). destruct (last_reached (Some K) st1); cbn [rbind].
  - assert (EC : with_clen (found_slot (ot_cur st) None) last = found_slot (ot_cur st) last) by (unfold found_slot; destruct (got ref o f (ot_cur st)); reflexivity).
    rewrite EC. split; [reflexivity|]. split; [apply lenN_found|]. split; [|discriminate].
    exists (ot_cur st), last. split; [reflexivity|]. split; [exact I|]. split; [exact PA|exact last_bounds].
  - split; [reflexivity|]. split; [apply lenN_found|]. split; [exists (ot_cur st), None; auto|]. intros _. apply NX.
Qed.
(* payload delivered for block seq *)
Definition delivered (seq : N) : list N := if seen (got ref o f seq) then payload_at ref o f seq else repN ds 0.
Lemma found_block seq cl : 1 <= seq -> seq_num_is_parity_w_data_par_burst seq o = false -> exists b buf, found_slot seq cl = mkSlot b buf None None cl false /\
  is_data b = true /\ b_seq_num b = seq /\ slice_data_buf v buf = delivered seq /\ lenN (delivered seq) = ds.
Proof.
  intros S1 PA. assert (J : exists j, seq = dseq o j).
  { destruct HO as (D1 & P1 & _). pose proof (N.div_mod' (seq - 1) (d + p)) as DM. pose proof (N.mod_lt (seq - 1) (d + p) ltac:(lia)) as ML.
    unfold seq_num_is_parity_w_data_par_burst, o in PA. rewrite parity_mod in PA by exact S1. apply N.leb_gt in PA.
    exists ((seq - 1) / (d + p) * d + (seq - 1) mod (d + p)). unfold dseq, o.
    destruct (dm_eq ((seq - 1) / (d + p) * d + (seq - 1) mod (d + p)) d ((seq - 1) / (d + p)) ((seq - 1) mod (d + p)) ltac:(lia) PA) as [-> ->]. lia. }
  destruct J as (j & ->). unfold found_slot, delivered. destruct (got ref o f (dseq o j)) as [b|] eqn:EG; cbn [seen].
  - destruct (got_some _ _ _ _ _ HB HO EG) as (_ & SN & _ & _ & MM & _). pose proof (lenN_payload _ _ _ _ _ HB HO EG) as LP.
    eexists; eexists; split; [reflexivity|]. split; [unfold is_data, is_meta in *; destruct (block_type_of b); [reflexivity|discriminate]|]. split; [exact SN|]. split; [reflexivity|exact LP].
  - eexists; eexists; split; [reflexivity|]. split; [reflexivity|]. split; [reflexivity|]. split; [apply blank_payload, U6|apply lenN_rep].
Qed.
Definition out_len (cl : option N) : N := match cl with Some n => n | None => ds end.
Lemma good_bytes seq cl : 1 <= seq -> seq_num_is_parity_w_data_par_burst seq o = false -> match cl with Some n => 1 <= n <= ds | None => True end ->
  let s := found_slot seq cl in
  (exists q, slot_write_pos c s = ROk q) /\
  slot_hash_bytes c s = ROk (takeN (out_len cl) (delivered seq)) /\ slot_append c (with_wpos s (wpos_of c s)) = ROk (takeN (out_len cl) (delivered seq)).
Proof.
  intros S1 PA CL. destruct (found_block seq cl S1 PA) as (b & buf & E & ID & SN & SL & LD). cbv zeta. rewrite E.
  set (s := mkSlot b buf None None cl false). pose proof bds1 as D1.
  assert (WP : exists q, slot_write_pos c s = ROk (Some q)).
  { unfold slot_write_pos, s. cbn [s_block c_out c out_cfg c_ver c_dpb]. rewrite SN. unfold calc_data_chunk_write_pos, calc_data_chunk_write_index.
    unfold seq_num_is_parity_w_data_par_burst, o in PA. unfold o. unfold seq_num_is_meta, SBX_FIRST_DATA_SEQ_NUM. destruct (N.ltb_spec seq 1); [lia|]. cbn [orb]. rewrite PA. cbn. eauto. }
  destruct WP as (q & WP). split; [eauto|]. split.
  - unfold slot_hash_bytes, s. cbn [s_block s_pad s_clen s_buf]. rewrite ID. unfold is_parity_w_dpb. rewrite SN. change (c_dpb c) with o. rewrite PA, andb_false_r. cbn [negb andb].
    change (ver_to_data_size (c_ver c)) with ds. change (c_ver c) with v. fold (out_len cl). rewrite SL.
    assert (R : 1 <= out_len cl <= ds) by (destruct cl; cbn; lia). destruct (N.ltb_spec 0 (out_len cl)), (N.leb_spec (out_len cl) ds); try lia. reflexivity.
  - unfold slot_append, wpos_of. rewrite WP. cbn [with_wpos s_wpos]. unfold slot_out. change (c_out c) with OutData. cbv iota zeta. change (s_buf (with_wpos s (Some q))) with buf. change (s_clen (with_wpos s (Some q))) with cl. change (c_ver c) with v. rewrite SL.
    destruct cl as [n|]; cbn [out_len]; [destruct (N.ltb_spec (lenN (delivered seq)) n); [lia|reflexivity]|]. rewrite take_all by lia. reflexivity.
Qed.
Definition gout (w : list N * list N) (s : slot) : list N * list N := (fst w ++ (if hashing then hbytes c s else []), snd w ++ obytes c s).
Lemma fold_gout ys w : fold_left gout ys w = (fst w ++ (if hashing then concat (map (hbytes c) ys) else []), snd w ++ concat (map (obytes c) ys)).
Proof.
  revert w. induction ys as [|y ys IH]; intro w; cbn [fold_left map concat]; [destruct w, hashing; cbn; rewrite !app_nil_r; reflexivity|].
  rewrite IH. unfold gout. cbn [fst snd]. destruct hashing; rewrite <- ?app_assoc; reflexivity.
Qed.
Lemma b_consume_ok w xs b : buf_rep c (Holds c) (Fresh c) xs b -> Forall BGood xs ->
  exists b', consume_stdout c hashing w b = ROk (b', fold_left gout xs w) /\ shape c b'.
Proof.
  intros HR HG. rewrite Forall_forall in HG.
  assert (EH : (if hashing then dbuf_hash c b else ROk []) = ROk (if hashing then concat (map (hbytes c) xs) else [])).
  { destruct hashing; [|reflexivity]. apply (hash_flat c out_cfg_ok xs b HR); [discriminate|]. intros x Hx. destruct (HG x Hx) as (seq & cl & -> & S1 & PA & CL).
    destruct (good_bytes seq cl S1 PA CL) as (_ & -> & _). eauto. }
  destruct (append_flat c out_cfg_ok xs b HR) as (b' & E & SH).
  - intros x Hx. destruct (HG x Hx) as (seq & cl & -> & S1 & PA & CL). apply (good_bytes seq cl S1 PA CL).
  - intros x Hx. destruct (HG x Hx) as (seq & cl & -> & S1 & PA & CL). destruct (good_bytes seq cl S1 PA CL) as (_ & _ & ->). eauto.
  - exists b'. unfold consume_stdout. rewrite EH. cbn [rbind]. rewrite E. cbn [rbind]. rewrite fold_gout. auto.
Qed.

Definition okseq (seq : N) : bool := seen (got ref o f seq).
Definition bJ (st : ostate) (seq j : N) : Prop :=
  st = mkOstate seq 0 0 (tally o okseq s0 (rangeN 1 seq)) /\ ds_data (ot_stats st) + ds_data_failed (ot_stats st) = j.
Definition bemit (j : N) : option slot := Some (found_slot (dseq o j) (if j + 1 =? K then last else None)).
Lemma tally_snoc seq : 1 <= seq -> tally o okseq s0 (rangeN 1 (seq + 1)) =
  let s := tally o okseq s0 (rangeN 1 seq) in if seq_num_is_parity_w_data_par_burst seq o then add_parity (okseq seq) s else add_data (okseq seq) s.
Proof. intro H. unfold tally. rewrite rangeN_snoc by lia. rewrite fold_left_app. reflexivity. Qed.
Lemma bdseq_le j : j < K -> dseq o j <= dseq o (K - 1).
Proof. intro H. destruct (N.eq_dec j (K - 1)) as [->|]; [lia|]. pose proof (dseq_lt o j (K - 1) HO ltac:(lia)). lia. Qed.
Lemma burst_run limit : (N.to_nat (dseq o (K - 1)) <= limit)%nat ->
  exists st, buf_loop c (fun _ => false) (burst_step c f ref d p (Some K) last) (consume_stdout c hashing) limit limit (dbuf_new_multi c) (mkOstate 1 0 0 s0) ([], []) =
    ROk (st, (let out := concat (map (fun j => takeN (total - j * ds) (delivered (dseq o j))) (rangeN 0 K)) in (if hashing then out else [], out))) /\
    ot_stats st = tally o okseq s0 (rangeN 1 (dseq o (K - 1) + 1)).
Proof.
  intro LIM. pose proof bds1 as D1.
  destruct (@frun_chunks ostate slot o HO b_fstep bJ (fun st => ot_stats st = tally o okseq s0 (rangeN 1 (dseq o (K - 1) + 1))) bemit K) with (m := N.to_nat (dseq o (K - 1) - 1)) (seq := 1) (j := 0) (st := mkOstate 1 0 0 s0) as (st & R & F).
  - intros st seq j [-> CT] H1 Hj HL HU. unfold b_fstep. cbn [ot_cur ot_stats ot_pos ot_bytes] in *.
    rewrite (between_parity o seq j HO H1 HL HU). pose proof (bdseq_le j ltac:(lia)). unfold SBX_LAST_SEQ_NUM. destruct (N.eqb_spec seq U32_MAX); [lia|].
    eexists. split; [reflexivity|]. split; [|cbn [ot_stats]; rewrite <- CT; destruct (seen _); reflexivity]. rewrite tally_snoc by exact H1. cbv zeta. rewrite (between_parity o seq j HO H1 HL HU). reflexivity.
  - intros st j [-> CT] Hj. unfold b_fstep. cbn [ot_cur ot_stats ot_pos ot_bytes] in *. rewrite (dseq_not_parity o j HO). unfold bemit.
    set (ok := seen _). set (t := tally _ _ _ _) in *. assert (LR : ds_data (add_data ok t) + ds_data_failed (add_data ok t) = j + 1) by (destruct ok; cbn; lia).
    unfold last_reached. rewrite LR. destruct (N.eqb_spec (j + 1) K) as [|_]; [lia|]. pose proof (dseq_lt o j (K - 1) HO ltac:(lia)).
    unfold SBX_LAST_SEQ_NUM. destruct (N.eqb_spec (dseq o j) U32_MAX); [lia|]. eexists. split; [reflexivity|]. split; [|exact LR]. rewrite tally_snoc by apply dseq_pos. cbv zeta. rewrite (dseq_not_parity o j HO). reflexivity.
  - intros st j [-> CT] Hj. unfold b_fstep. cbn [ot_cur ot_stats ot_pos ot_bytes] in *. rewrite (dseq_not_parity o j HO). unfold bemit.
    set (ok := seen _). set (t := tally _ _ _ _) in *. assert (LR : ds_data (add_data ok t) + ds_data_failed (add_data ok t) = j + 1) by (destruct ok; cbn; lia).
    unfold last_reached. rewrite LR. destruct (N.eqb_spec (j + 1) K) as [_|]; [|lia]. eexists. split; [reflexivity|]. cbn [ot_stats].
    replace (K - 1) with j by lia. rewrite tally_snoc by apply dseq_pos. cbv zeta. rewrite (dseq_not_parity o j HO). reflexivity.
  - split; [reflexivity|]. cbn [ot_stats]. lia.
  - lia.
  - lia.
  - left; reflexivity.
  - apply dseq_pos.
  - reflexivity.
  - exists st. split; [|exact F]. pose proof (dseq_pos o (K - 1)).
    destruct (init_queue_rep c out_cfg_ok ltac:(discriminate)) as [Q1 Q2].
    rewrite (loop_flat c out_cfg_ok (fun _ => false) (burst_step c f ref d p (Some K) last) b_fstep (consume_stdout c hashing) gout BI BGood) with (n := S (N.to_nat (dseq o (K - 1) - 1))) (st' := st) (ys := somes (map bemit (rangeN 0 K))).
    + rewrite fold_gout. cbn [fst snd app].
      assert (G : forall l, (forall j, In j l -> j < K) ->
        map (hbytes c) (somes (map bemit l)) = map (fun j => takeN (total - j * ds) (delivered (dseq o j))) l /\ map (obytes c) (somes (map bemit l)) = map (fun j => takeN (total - j * ds) (delivered (dseq o j))) l).
      { induction l as [|j l IH]; intro HL; [split; reflexivity|]. destruct IH as [IH1 IH2]; [intros; apply HL; right; assumption|].
        assert (CL : match (if j + 1 =? K then last else None) with Some n => 1 <= n <= ds | None => True end) by (destruct (j + 1 =? K); [exact last_bounds|exact Logic.I]).
        specialize (HL j (or_introl eq_refl)). destruct (good_bytes (dseq o j) _ (dseq_pos o j) (dseq_not_parity o j HO) CL) as (_ & A & A').
        cbn [map]. unfold somes in *. cbn [flat_map bemit app map]. rewrite IH1, IH2. unfold hbytes at 1, obytes at 1. rewrite A, A'.
        assert (EL : takeN (out_len (if j + 1 =? K then last else None)) (delivered (dseq o j)) = takeN (total - j * ds) (delivered (dseq o j))).
        { destruct (found_block (dseq o j) None (dseq_pos o j) (dseq_not_parity o j HO)) as (_ & _ & _ & _ & _ & _ & LD).
          destruct (N.eqb_spec (j + 1) K) as [E|NE]; cbn [out_len last]; [replace (K - 1) with j by lia; reflexivity|].
          assert ((j + 1) * ds <= (K - 1) * ds) by (apply N.mul_le_mono_r; lia). rewrite !take_all by lia. reflexivity. }
        rewrite EL. auto. }
      destruct (G (rangeN 0 K)) as [G1 G2]; [intros j Hj; apply In_rangeN in Hj; lia|]. rewrite G1, G2. cbv zeta. destruct hashing; reflexivity.
    + intros st0 s I _ FS. apply b_step_ok; assumption.
    + exact b_consume_ok.
    + unfold BI. cbn [ot_cur]. lia.
    + exact Q1.
    + exact Q2.
    + lia.
    + lia.
    + exact R.
Qed.
End Burst.
(* the counters of data blocks *)
Lemma tally_counts o ok seqs : forall s0,
  ds_data (tally o ok s0 seqs) = ds_data s0 + lenN (filter ok (filter (fun q => negb (seq_num_is_parity_w_data_par_burst q o)) seqs)) /\
  ds_data (tally o ok s0 seqs) + ds_data_failed (tally o ok s0 seqs) =
    ds_data s0 + ds_data_failed s0 + lenN (filter (fun q => negb (seq_num_is_parity_w_data_par_burst q o)) seqs) /\
  ds_meta (tally o ok s0 seqs) = ds_meta s0 /\ ds_meta_failed (tally o ok s0 seqs) = ds_meta_failed s0.
Proof.
  unfold tally. induction seqs as [|q seqs IH]; intro s0; cbn [fold_left filter]; [change (lenN (@nil N)) with 0; lia|].
  destruct (seq_num_is_parity_w_data_par_burst q o); cbn [negb].
  - destruct (IH (add_parity (ok q) s0)) as (A & B & C & D). rewrite B, A, C, D. destruct (ok q); cbn; auto.
  - destruct (IH (add_data (ok q) s0)) as (A & B & C & D). rewrite B, A, C, D. cbn [filter]. destruct (ok q); cbn [add_data ds_data ds_data_failed ds_meta ds_meta_failed]; rewrite !lenN_cons; lia.
Qed.
Lemma filter_none {A} (g : A -> bool) l : (forall x, In x l -> g x = false) -> filter g l = [].
Proof. induction l as [|a l IH]; intro H; [reflexivity|]. cbn. rewrite (H a (or_introl eq_refl)). apply IH. intros; apply H; right; assumption. Qed.
Lemma data_seqs o K : dpb_ok o -> 1 <= K ->
  filter (fun q => negb (seq_num_is_parity_w_data_par_burst q o)) (rangeN 1 (dseq o (K - 1) + 1)) = map (dseq o) (rangeN 0 K).
Proof.
  intro HO. induction K as [|K IH] using N.peano_ind; [lia|]. intros _. rewrite <- N.add_1_r. replace (K + 1 - 1) with K by lia.
  rewrite (rangeN_snoc 0) by lia. rewrite map_app. cbn [map]. rewrite rangeN_snoc by (pose proof (dseq_pos o K); lia). rewrite filter_app. f_equal.
  - destruct (N.eq_dec K 0) as [->|NZ].
    + rewrite (rangeN_nil 0 0) by lia. cbn [map]. apply filter_none. intros q Hq. apply In_rangeN in Hq. apply negb_false_iff, (between_parity o q 0 HO); [lia|left; reflexivity|lia].
    + rewrite <- (IH ltac:(lia)). pose proof (dseq_lt o (K - 1) K HO ltac:(lia)) as L. pose proof (dseq_pos o (K - 1)) as P.
      replace (dseq o K) with (dseq o (K - 1) + 1 + (dseq o K - (dseq o (K - 1) + 1))) by lia. set (a := dseq o (K - 1) + 1) in *. set (m := dseq o K - a).
      assert (SP : rangeN 1 (a + m) = rangeN 1 a ++ rangeN a (a + m)).
      { clearbody m. clear - P. revert m. induction m as [|m IH] using N.peano_ind; [rewrite N.add_0_r, (rangeN_nil a), app_nil_r by lia; reflexivity|].
        replace (a + N.succ m) with (a + m + 1) by lia. rewrite !rangeN_snoc by (unfold a; lia). rewrite IH, app_assoc. reflexivity. }
      rewrite SP, filter_app, (filter_none _ (rangeN a (a + m))), app_nil_r; [reflexivity|]. intros q Hq. apply In_rangeN in Hq. unfold m in Hq.
      apply negb_false_iff, (between_parity o q K HO); [lia|right; lia|lia].
  - cbn [filter]. rewrite dseq_not_parity by exact HO. reflexivity.
Qed.
Lemma lenN_filter_map {A B} (h : A -> B) (g : B -> bool) l : lenN (filter g (map h l)) = lenN (filter (fun a => g (h a)) l).
Proof. induction l as [|a l IH]; [reflexivity|]. cbn [map filter]. destruct (g (h a)); rewrite ?lenN_cons; congruence. Qed.
(* the metadata blocks are only counted *)
Lemma read_metas_ok f ref o : exists s0, read_metas f ref o = ROk s0 /\ ds_data s0 = 0 /\ ds_data_failed s0 = 0 /\
  ds_meta s0 + ds_meta_failed s0 = lenN (calc_meta_block_all_write_pos_s (b_version ref) o).
Proof.
  unfold read_metas. generalize (calc_meta_block_all_write_pos_s (b_version ref) o). intro l.
  assert (G : forall l s, exists s0, rfold (fun st pos =>
           let buf := file_read f pos (ver_to_block_size (b_version ref)) in
           if lenN buf <? ver_to_block_size (b_version ref) then ROk (add_meta false st)
           else match sync_from_buffer block_dummy buf (header_pred_same_ver_uid ref) no_pred with
                | RPanic => RPanic
                | ROk _ => ROk (add_meta true st)
                | RErr _ => ROk (add_meta false st)
                end) l s = ROk s0 /\ ds_data s0 = ds_data s /\ ds_data_failed s0 = ds_data_failed s /\ ds_meta s0 + ds_meta_failed s0 = ds_meta s + ds_meta_failed s + lenN l).
  { clear l. induction l as [|pos l IH]; intro s; cbn [rfold]; [exists s; change (lenN (@nil N)) with 0; split; [reflexivity|lia]|].
    cbv zeta. set (buf := file_read _ _ _). destruct (N.ltb_spec (lenN buf) (ver_to_block_size (b_version ref))) as [L|L].
    - cbn [rbind]. destruct (IH (add_meta false s)) as (s0 & E & A & B & C). exists s0. rewrite lenN_cons. cbn in A, B, C. split; [exact E|]. split; [exact A|]. split; [exact B|lia].
    - pose proof (accept_cases ref block_dummy buf L) as AC. destruct (accept ref buf) as [b|].
      + rewrite AC. cbn [rbind]. destruct (IH (add_meta true s)) as (s0 & E & A & B & C). exists s0. rewrite lenN_cons. cbn in A, B, C. split; [exact E|]. split; [exact A|]. split; [exact B|lia].
      + destruct AC as [e ->]. cbn [rbind]. destruct (IH (add_meta false s)) as (s0 & E & A & B & C). exists s0. rewrite lenN_cons. cbn in A, B, C. split; [exact E|]. split; [exact A|]. split; [exact B|lia]. }
  apply (G l no_dstats).
Qed.
