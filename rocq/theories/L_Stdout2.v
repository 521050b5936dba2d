(* Decoding to standard output, sequential reading pattern. *)
From Coq Require Import Sorted.
From Verif Require Import M_Base M_Specs M_Crc M_Header M_Multihash M_Metadata M_Block M_Index M_FileUtils M_Buffer M_Ranges M_Encode M_Scan M_Loop M_Decode M_Content
  S_Crc S_Meta S_Block S_Index S_Container S_Decode S_Content
  L_Base L_File L_Crc L_Header L_Meta L_Block L_Block2 L_Index L_Index2 L_Buffer L_Encode L_Container L_Loop L_Scan L_Decode L_Chunks L_Content L_Stdout.
Ltac Zify.zify_post_hook ::= idtac.

Definition gotp (ref : block) (f : file) (pos seq : N) : option block :=
  match accept ref (file_read f pos (ver_to_block_size (b_version ref))) with Some b => if b_seq_num b =? seq then Some b else None | None => None end.
Lemma gotp_spec ref f pos seq : bytes_ok f = true ->
  match gotp ref f pos seq with
  | Some b => block_at (b_version ref) (b_uid ref) f pos seq (slice_data_buf (b_version ref) (file_read f pos (ver_to_block_size (b_version ref)))) /\
      b_seq_num b = seq /\ is_meta b = (seq =? 0) /\ lenN (file_read f pos (ver_to_block_size (b_version ref))) = ver_to_block_size (b_version ref)
  | None => forall pl, ~ block_at (b_version ref) (b_uid ref) f pos seq pl
  end.
Proof.
  intro HB. unfold gotp. pose proof (accept_block_at ref f pos HB) as AB.
  change (sliceN pos (ver_to_block_size (b_version ref)) f) with (file_read f pos (ver_to_block_size (b_version ref))) in AB.
  destruct (accept ref _) as [b|]; [|intros pl BA; exact (AB _ _ BA)]. destruct AB as (BA & V & U & M). destruct (N.eqb_spec (b_seq_num b) seq) as [E|E].
  - rewrite E in *. split; [exact BA|]. split; [first [exact E|reflexivity]|]. split; [exact M|]. destruct BA as (h & W & V' & _). apply wf_len in W. rewrite V' in W.
    unfold file_read in *. rewrite lenN_slice in *. lia.
  - intros pl BA'. destruct (block_at_unique _ _ _ _ _ _ _ _ BA BA') as [S _]. congruence.
Qed.

Section Seq.
Variables (cpus : N) (f : file) (ref : block) (o : dpb) (count last : option N) (lo len i0 : N) (hashing : bool).
Hypothesis CPUS : 1 <= cpus.
Hypothesis HB : bytes_ok f = true.
Hypothesis HO : dpb_ok o.
Hypothesis U6 : lenN (b_uid ref) = 6.
Let v := b_version ref.
Let bs := ver_to_block_size v.
Let ds := ver_to_data_size v.
Let c := out_cfg v (b_uid ref) o cpus.
(* no visited block is cut off by the end of the file *)
Hypothesis WHOLE : forall k, k * bs < len -> lo + (k + 1) * bs <= lenN f.
Hypothesis IX : i0 + lenN f < U64_MAX.
Hypothesis LAST : match last with Some n => 1 <= n <= ds | None => True end.
Let nv := (len + (bs - 1)) / bs.
Lemma seq_cfg_ok : cfg_ok c.
Proof. unfold cfg_ok, dws, lot_size, c, out_cfg, c_in, c_lots, DEFAULT_SINGLE_LOT_SIZE, LOT_COUNT_PER_CPU. destruct o as [[[d p] B]|]; cbn [c_dpb]; [destruct HO as (D1 & P1 & _)|]; lia. Qed.
Lemma sbs1 : 128 <= bs. Proof using. apply block_size_pos. Qed.
Lemma nv_iff k : k < nv <-> k * bs < len.
Proof.
  pose proof sbs1 as B1. unfold nv. pose proof (ceil_le len bs _ k (ceil_div len bs ltac:(lia))) as X. split; intro G.
  - apply N.nle_gt. intro L. apply X in L. lia.
  - apply N.nle_gt. intro L. apply X in L. lia.
Qed.
Definition snum (k : N) : N := calc_seq_num_at_index (i0 + k) (Some true) o.
Definition isdata (k : N) : bool := negb (seq_num_is_meta (snum k)) && negb (seq_num_is_parity_w_data_par_burst (snum k) o).
Definition kgot (k : N) : option block := gotp ref f (lo + k * bs) (snum k).
Definition kslot (k : N) (cl : option N) : slot :=
  match kgot k with
  | Some b => mkSlot b (file_read f (lo + k * bs) bs) None None cl false
  | None => mkSlot (blank_block v (b_uid ref) (snum k)) (blank_buf v (b_uid ref) (snum k)) None None cl false
  end.
Definition kcount (k : N) (s : dstats) : dstats :=
  let ok := seen (kgot k) in
  if seq_num_is_meta (snum k) then (if ok then add_meta true s else add_parity false s)
  else if seq_num_is_parity_w_data_par_burst (snum k) o then add_parity ok s else add_data ok s.
Definition k_of (st : ostate) : N := ot_cur st - i0.
Definition s_fstep (st : ostate) : ostate * option slot * bool :=
  let k := k_of st in
  let st' := kcount k (ot_stats st) in
  let next := mkOstate (i0 + (k + 1)) (lo + (k + 1) * bs) ((k + 1) * bs) st' in
  if isdata k then
    if last_reached count st' then (mkOstate (i0 + k) (lo + (k + 1) * bs) ((k + 1) * bs) st', Some (kslot k last), true)
    else (next, Some (kslot k None), false)
  else (next, None, false).
Definition SI (st : ostate) : Prop := ot_cur st = i0 + k_of st /\ ot_pos st = lo + k_of st * bs /\ ot_bytes st = k_of st * bs.
Definition SGood (s : slot) : Prop := exists k cl, s = kslot k cl /\ isdata k = true /\ match cl with Some n => 1 <= n <= ds | None => True end.
Lemma snum_pos k : isdata k = true -> 1 <= snum k.
Proof. unfold isdata, seq_num_is_meta, SBX_FIRST_DATA_SEQ_NUM. destruct (N.eqb_spec (snum k) 0); cbn [negb andb]; [discriminate|lia]. Qed.
Lemma snum_par k : isdata k = true -> seq_num_is_parity_w_data_par_burst (snum k) o = false.
Proof. unfold isdata. destruct (seq_num_is_parity_w_data_par_burst (snum k) o); [rewrite andb_false_r; discriminate|reflexivity]. Qed.
Lemma lenN_kslot k cl : lenN (s_buf (kslot k cl)) = bs.
Proof.
  unfold kslot. pose proof (gotp_spec ref f (lo + k * bs) (snum k) HB) as G. fold (kgot k) in G. destruct (kgot k) as [b|]; cbn [s_buf]; [|apply lenN_blank, U6].
  destruct G as (_ & _ & _ & L). exact L.
Qed.
Lemma s_step_ok st s : SI st -> seq_pre len st = false -> Fresh c s ->
  match s_fstep st with
  | (st', Some x, stop) => seq_step c f ref count last st s = ROk (st', Keep x, stop) /\ lenN (s_buf x) = bs /\ SGood x /\ (stop = false -> SI st')
  | (st', None, stop) => exists s', seq_step c f ref count last st s = ROk (st', Cancel s', stop) /\ lenN (s_buf s') = bs /\ (stop = false -> SI st')
  end.
Proof.
  intros (I1 & I2 & I3) PRE (F1 & F2 & F3 & F4 & F5). change (c_ver c) with v in F1. fold bs in F1.
  unfold seq_pre in PRE. rewrite I3 in PRE. apply N.leb_gt in PRE. pose proof (WHOLE _ PRE) as WH. pose proof sbs1 as B1. pose proof IX as IX'.
  assert (KF : k_of st < lenN f).
  { assert (k_of st * 1 <= k_of st * bs) by (apply N.mul_le_mono_l; lia). rewrite N.mul_add_distr_r in WH. lia. }
  set (k := k_of st) in *. unfold s_fstep, seq_step. fold k. rewrite I1, I2, I3. change (slot_view_len c) with bs.
  set (d := file_read f (lo + k * bs) bs). assert (LD : lenN d = bs). { unfold d, file_read. rewrite lenN_slice. rewrite N.mul_add_distr_r in WH. lia. }
  cbv zeta. rewrite LD, N.ltb_irrefl. change (c_dpb c) with o. fold (snum k).
  assert (EV : fill_view c s d = mkSlot (s_block s) d None None None false).
  { unfold fill_view. change (slot_view_off c) with 0. rewrite put_full by lia. rewrite F2, F3, F4, F5. reflexivity. }
  rewrite EV. unfold expect_block. cbn [s_block s_buf].
  assert (EXS : exists s2, (match sync_from_buffer (s_block s) d (header_pred_same_ver_uid ref) no_pred with
     | ROk b => ROk (with_block (mkSlot (s_block s) d None None None false) b, b_seq_num b =? snum k) | RErr _ => ROk (mkSlot (s_block s) d None None None false, false) | RPanic => RPanic end)
     = ROk (s2, seen (kgot k)) /\ lenN (s_buf s2) = bs /\ (s_rpos s2 = None /\ s_wpos s2 = None /\ s_clen s2 = None /\ s_pad s2 = false) /\
       (forall b, kgot k = Some b -> s2 = mkSlot b d None None None false)).
  { pose proof (accept_cases ref (s_block s) d) as AC. fold v bs in AC. specialize (AC ltac:(lia)). unfold kgot, gotp. fold v bs d. destruct (accept ref d) as [b|].
    - rewrite AC. eexists. split; [destruct (b_seq_num b =? snum k); reflexivity|]. cbn. split; [exact LD|]. split; [auto|].
      intros b' X. destruct (b_seq_num b =? snum k); [apply Some_inj in X; subst; reflexivity|discriminate].
    - destruct AC as [e AC]. rewrite AC. eexists. split; [reflexivity|]. cbn. split; [exact LD|]. split; [auto|discriminate]. }
  destruct EXS as (s2 & E & L & (X1 & X2 & X3 & X4) & G). rewrite E. cbn [rbind]. clear E.
  assert (NL : (i0 + k =? U64_MAX) = false) by (apply N.eqb_neq; lia). rewrite NL.
  assert (BK : lo + k * bs + bs = lo + (k + 1) * bs /\ k * bs + bs = (k + 1) * bs) by lia. destruct BK as [-> ->].
  assert (NI : forall st', SI (mkOstate (i0 + (k + 1)) (lo + (k + 1) * bs) ((k + 1) * bs) st')).
  { intro st'. unfold SI, k_of. cbn [ot_cur ot_pos ot_bytes]. replace (i0 + (k + 1) - i0) with (k + 1) by lia. auto. }
  replace (i0 + k + 1) with (i0 + (k + 1)) by lia.
  unfold isdata, kcount. destruct (seq_num_is_meta (snum k)) eqn:EM; cbn [negb andb]; [eexists; split; [reflexivity|]; split; [exact L|intros; apply NI]|].
  destruct (seq_num_is_parity_w_data_par_burst (snum k) o) eqn:EP; cbn [negb]; [eexists; split; [reflexivity|]; split; [exact L|intros; apply NI]|].
  assert (DT : isdata k = true) by (unfold isdata; rewrite EM, EP; reflexivity).
  unfold emit_data.
  assert (EB : (if seen (kgot k) then ROk s2 else blank_slot c (snum k) s2) = ROk (kslot k None)).
  { unfold kslot. fold d. destruct (kgot k) as [b|]; cbn [seen]; [rewrite (G b eq_refl); reflexivity|].
    rewrite blank_ok by (exact (snum_pos k DT) || exact L). rewrite X1, X2, X3, X4. reflexivity. }
  rewrite EB. cbn [rbind]. set (st1 := add_data _ _). destruct (last_reached count st1); cbn [rbind].
  - assert (EC : with_clen (kslot k None) last = kslot k last) by (unfold kslot; destruct (kgot k); reflexivity).
    rewrite EC. split; [reflexivity|]. split; [apply lenN_kslot|]. split; [|discriminate]. exists k, last. auto.
  - split; [reflexivity|]. split; [apply lenN_kslot|]. split; [exists k, None; auto|]. intros _. apply NI.
Qed.
Definition kpay (k : N) : list N := if seen (kgot k) then slice_data_buf v (file_read f (lo + k * bs) bs) else repN ds 0.
Lemma lenN_kpay k : lenN (kpay k) = ds.
Proof using HB.
  clear - HB.
  unfold kpay. pose proof (gotp_spec ref f (lo + k * bs) (snum k) HB) as G. fold (kgot k) in G. destruct (kgot k); cbn [seen]; [|apply lenN_rep].
  destruct G as (_ & _ & _ & L). fold v bs in L. unfold slice_data_buf. rewrite lenN_slice, L. unfold ds. rewrite (proj2 (data_size_pos v)). fold bs. pose proof sbs1. unfold SBX_HEADER_SIZE. lia.
Qed.
Definition olen (cl : option N) : N := match cl with Some n => n | None => ds end.
Lemma k_bytes k cl : isdata k = true -> match cl with Some n => 1 <= n <= ds | None => True end ->
  let s := kslot k cl in
  (exists q, slot_write_pos c s = ROk q) /\
  slot_hash_bytes c s = ROk (takeN (olen cl) (kpay k)) /\ slot_append c (with_wpos s (wpos_of c s)) = ROk (takeN (olen cl) (kpay k)).
Proof.
  intros DT CL. pose proof (snum_pos k DT) as S1. pose proof (snum_par k DT) as PA. pose proof (lenN_kpay k) as LD.
  assert (E : exists b buf, kslot k cl = mkSlot b buf None None cl false /\ is_data b = true /\ b_seq_num b = snum k /\ slice_data_buf v buf = kpay k).
  { unfold kslot, kpay. pose proof (gotp_spec ref f (lo + k * bs) (snum k) HB) as G. fold (kgot k) in G. destruct (kgot k) as [b|]; cbn [seen].
    - destruct G as (_ & SN & MM & _). exists b, (file_read f (lo + k * bs) bs). split; [reflexivity|]. split; [|split; [exact SN|reflexivity]].
      unfold is_data, is_meta in *. destruct (block_type_of b); [reflexivity|]. destruct (N.eqb_spec (snum k) 0); [lia|discriminate].
    - eexists; eexists; split; [reflexivity|]. split; [reflexivity|]. split; [reflexivity|]. apply blank_payload, U6. }
  destruct E as (b & buf & E & ID & SN & SL). cbv zeta. rewrite E. set (s := mkSlot b buf None None cl false).
  assert (D1 : 1 <= ds) by apply data_size_pos.
  assert (WP : exists q, slot_write_pos c s = ROk (Some q)).
  { unfold slot_write_pos, s. cbn [s_block c_out c out_cfg c_ver c_dpb]. rewrite SN. unfold calc_data_chunk_write_pos, calc_data_chunk_write_index, seq_num_is_meta.
    unfold seq_num_is_parity_w_data_par_burst in PA. unfold SBX_FIRST_DATA_SEQ_NUM. destruct (N.ltb_spec (snum k) 1); [lia|]. destruct o as [[[d p] B]|]; cbn [orb]; rewrite ?PA; cbn; eauto. }
  destruct WP as (q & WP). split; [eauto|]. split.
  - unfold slot_hash_bytes, s. cbn [s_block s_pad s_clen s_buf]. rewrite ID. unfold is_parity_w_dpb. rewrite SN. change (c_dpb c) with o. rewrite PA, andb_false_r. cbn [negb andb].
    change (ver_to_data_size (c_ver c)) with ds. change (c_ver c) with v. fold (olen cl). rewrite SL.
    assert (R : 1 <= olen cl <= ds) by (destruct cl; cbn; lia). destruct (N.ltb_spec 0 (olen cl)), (N.leb_spec (olen cl) ds); try lia. reflexivity.
  - unfold slot_append, wpos_of. rewrite WP. cbn [with_wpos s_wpos]. unfold slot_out. change (c_out c) with OutData. cbv iota zeta. change (s_buf (with_wpos s (Some q))) with buf. change (s_clen (with_wpos s (Some q))) with cl. change (c_ver c) with v. rewrite SL.
    destruct cl as [n|]; cbn [olen]; [destruct (N.ltb_spec (lenN (kpay k)) n); [lia|reflexivity]|]. rewrite take_all by lia. reflexivity.
Qed.
Definition sgout (w : list N * list N) (s : slot) : list N * list N := (fst w ++ (if hashing then hbytes c s else []), snd w ++ obytes c s).
Lemma fold_sgout ys w : fold_left sgout ys w = (fst w ++ (if hashing then concat (map (hbytes c) ys) else []), snd w ++ concat (map (obytes c) ys)).
Proof.
  revert w. induction ys as [|y ys IH]; intro w; cbn [fold_left map concat]; [destruct w, hashing; cbn; rewrite !app_nil_r; reflexivity|].
  rewrite IH. unfold sgout. cbn [fst snd]. destruct hashing; rewrite <- ?app_assoc; reflexivity.
Qed.
Lemma s_consume_ok w xs b : buf_rep c (Holds c) (Fresh c) xs b -> Forall SGood xs ->
  exists b', consume_stdout c hashing w b = ROk (b', fold_left sgout xs w) /\ shape c b'.
Proof.
  intros HR HG. rewrite Forall_forall in HG.
  assert (EH : (if hashing then dbuf_hash c b else ROk []) = ROk (if hashing then concat (map (hbytes c) xs) else [])).
  { destruct hashing; [|reflexivity]. apply (hash_flat c seq_cfg_ok xs b HR); [discriminate|]. intros x Hx. destruct (HG x Hx) as (k & cl & -> & DT & CL).
    destruct (k_bytes k cl DT CL) as (_ & -> & _). eauto. }
  destruct (append_flat c seq_cfg_ok xs b HR) as (b' & E & SH).
  - intros x Hx. destruct (HG x Hx) as (k & cl & -> & DT & CL). apply (k_bytes k cl DT CL).
  - intros x Hx. destruct (HG x Hx) as (k & cl & -> & DT & CL). destruct (k_bytes k cl DT CL) as (_ & _ & ->). eauto.
  - exists b'. unfold consume_stdout. rewrite EH. cbn [rbind]. rewrite E. cbn [rbind]. rewrite fold_sgout. auto.
Qed.

(* the data blocks visited, each with the length to write: all, or up to number [count] *)
Fixpoint pieces (ks : list N) (done : N) : list (N * option N) :=
  match ks with
  | [] => []
  | k :: ks => if isdata k then
                 if match count with Some n => done + 1 =? n | None => false end then [(k, last)] else (k, None) :: pieces ks (done + 1)
               else pieces ks done
  end.
Lemma count_data k st : isdata k = true -> ds_data (kcount k st) + ds_data_failed (kcount k st) = ds_data st + ds_data_failed st + 1.
Proof.
  unfold isdata, kcount. destruct (seq_num_is_meta (snum k)); cbn [negb andb]; [discriminate|]. destruct (seq_num_is_parity_w_data_par_burst (snum k) o); [discriminate|].
  intros _. destruct (seen (kgot k)); cbn; lia.
Qed.
Lemma count_other k st : isdata k = false -> ds_data (kcount k st) + ds_data_failed (kcount k st) = ds_data st + ds_data_failed st.
Proof.
  unfold isdata, kcount. destruct (seq_num_is_meta (snum k)); [intros _; destruct (seen (kgot k)); reflexivity|]. destruct (seq_num_is_parity_w_data_par_burst (snum k) o); [|discriminate].
  intros _. destruct (seen (kgot k)); reflexivity.
Qed.
Lemma seq_frun : forall m k st, SI st -> k_of st = k -> k + N.of_nat m = nv ->
  exists st', frun (seq_pre len) s_fstep (S m) st = Some (st', map (fun x => kslot (fst x) (snd x)) (pieces (rangeN k nv) (ds_data (ot_stats st) + ds_data_failed (ot_stats st)))).
Proof.
  induction m as [|m IH]; intros k st HI EK EM.
  - rewrite rangeN_nil by lia. cbn [frun]. unfold seq_pre. destruct HI as (_ & _ & ->). rewrite EK.
    assert (NK : ~ k < nv) by lia. rewrite nv_iff in NK. destruct (N.leb_spec len (k * bs)); [|lia]. exists st. reflexivity.
  - assert (KN : k < nv) by lia. pose proof (proj1 (nv_iff k) KN) as KL. rewrite rangeN_cons by exact KN. cbn [frun pieces].
    unfold seq_pre at 1. destruct HI as (I1 & I2 & I3). rewrite I3, EK. destruct (N.leb_spec len (k * bs)); [lia|].
    unfold s_fstep at 1. rewrite EK. set (st1 := kcount k (ot_stats st)). set (nx := mkOstate (i0 + (k + 1)) (lo + (k + 1) * bs) ((k + 1) * bs) st1).
    assert (KX : k_of nx = k + 1) by (unfold k_of, nx; cbn [ot_cur]; lia).
    assert (NI : SI nx) by (unfold SI; rewrite KX; cbn [nx ot_cur ot_pos ot_bytes]; auto).
    destruct (IH (k + 1) nx NI KX ltac:(lia)) as (st'' & R). cbn [ot_stats nx] in R. destruct (isdata k) eqn:DT.
    + unfold last_reached. unfold st1 in *. rewrite (count_data k _ DT) in *. destruct (match count with Some n => _ =? n | None => false end).
      * eexists. reflexivity.
      * change (if seq_pre len nx then _ else _) with (frun (seq_pre len) s_fstep (S m) nx). rewrite R. eexists. reflexivity.
    + unfold st1 in *. rewrite (count_other k _ DT) in R. change (if seq_pre len nx then _ else _) with (frun (seq_pre len) s_fstep (S m) nx). rewrite R. eexists. reflexivity.
Qed.
Lemma nv_le : nv <= lenN f.
Proof.
  apply N.nlt_ge. intro L. assert (KL : lenN f * bs < len) by (apply nv_iff; exact L). apply WHOLE in KL. pose proof sbs1. nia.
Qed.
Lemma pieces_ok : forall ks done, Forall (fun x => isdata (fst x) = true /\ match snd x with Some n => 1 <= n <= ds | None => True end) (pieces ks done).
Proof.
  induction ks as [|k ks IH]; intro done; [constructor|]. cbn [pieces]. destruct (isdata k) eqn:E; [|apply IH].
  destruct (match count with Some n => _ | None => false end); constructor; cbn; auto.
Qed.
Definition seq_out : list N := concat (map (fun x => takeN (olen (snd x)) (kpay (fst x))) (pieces (rangeN 0 nv) 0)).
Lemma seq_run : exists st, buf_loop c (seq_pre len) (seq_step c f ref count last) (consume_stdout c hashing) (S (S (length f))) (S (S (length f)))
    (dbuf_new_multi c) (mkOstate i0 lo 0 no_dstats) ([], []) = ROk (st, (if hashing then seq_out else [], seq_out)).
Proof.
  set (st0 := mkOstate i0 lo 0 no_dstats). assert (K0 : k_of st0 = 0) by (unfold k_of; cbn; lia).
  assert (I0 : SI st0) by (unfold SI; rewrite K0; cbn; lia).
  destruct (seq_frun (N.to_nat nv) 0 st0 I0 K0 ltac:(lia)) as (st & R). exists st. cbn [st0 ot_stats no_dstats ds_data ds_data_failed] in R.
  destruct (init_queue_rep c seq_cfg_ok ltac:(discriminate)) as [Q1 Q2]. pose proof nv_le as NL. unfold lenN in NL.
  rewrite (loop_flat c seq_cfg_ok (seq_pre len) (seq_step c f ref count last) s_fstep (consume_stdout c hashing) sgout SI SGood) with (n := S (N.to_nat nv)) (st' := st) (ys := map (fun x => kslot (fst x) (snd x)) (pieces (rangeN 0 nv) 0)).
  - rewrite fold_sgout. cbn [fst snd app]. rewrite !map_map.
    pose proof (pieces_ok (rangeN 0 nv) 0) as PO. unfold seq_out. set (l := pieces (rangeN 0 nv) 0) in *. clearbody l. clear R.
    assert (G : map (fun x => hbytes c (kslot (fst x) (snd x))) l = map (fun x => takeN (olen (snd x)) (kpay (fst x))) l /\ map (fun x => obytes c (kslot (fst x) (snd x))) l = map (fun x => takeN (olen (snd x)) (kpay (fst x))) l).
    { rewrite Forall_forall in PO. split; apply map_ext_in; intros x Hx; destruct (PO x Hx) as [DT CL]; destruct (k_bytes _ _ DT CL) as (_ & A & A'); unfold hbytes, obytes; rewrite ?A, ?A'; reflexivity. }
    destruct G as [-> ->]. destruct hashing; reflexivity.
  - exact s_step_ok.
  - exact s_consume_ok.
  - exact I0.
  - exact Q1.
  - exact Q2.
  - lia.
  - lia.
  - exact R.
Qed.
(* the pieces in closed form *)
Lemma pieces_eq : forall ks done, match count with Some n => done < n | None => True end ->
  pieces ks done = match count with
    | Some n => if lenN (filter isdata ks) + done <? n then map (fun k => (k, None)) (filter isdata ks)
                else map (fun k => (k, None)) (takeN (n - 1 - done) (filter isdata ks)) ++ [(nthN (filter isdata ks) (n - 1 - done), last)]
    | None => map (fun k => (k, None)) (filter isdata ks) end.
Proof using.
  clear - count last i0 o.
  induction ks as [|k ks IH]; intros done HD.
  - cbn [pieces filter]. destruct count as [n|]; [|reflexivity]. change (lenN (@nil N)) with 0. destruct (N.ltb_spec (0 + done) n); [reflexivity|lia].
  - cbn [pieces filter]. destruct (isdata k); [|apply IH, HD]. destruct count as [n|]; [|cbn [map]; f_equal; apply IH, Logic.I].
    rewrite lenN_cons. destruct (N.eqb_spec (done + 1) n) as [E|NE].
    + destruct (N.ltb_spec (1 + lenN (filter isdata ks) + done) n); [lia|]. replace (n - 1 - done) with 0 by lia. rewrite take_0. reflexivity.
    + rewrite IH by lia. destruct (N.ltb_spec (lenN (filter isdata ks) + (done + 1)) n), (N.ltb_spec (1 + lenN (filter isdata ks) + done) n); try lia; [reflexivity|].
      replace (n - 1 - done) with (1 + (n - 1 - (done + 1))) by lia. rewrite take_cons. unfold nthN. replace (N.to_nat (1 + (n - 1 - (done + 1)))) with (S (N.to_nat (n - 1 - (done + 1)))) by lia. reflexivity.
Qed.
End Seq.

Lemma take_concat {A} (F : A -> list N) (dflt : A) ds : forall (D : list A) m r, (forall x, lenN (F x) = ds) -> r <= ds -> m < lenN D ->
  takeN (m * ds + r) (concat (map F D)) = concat (map F (firstn (N.to_nat m) D)) ++ takeN r (F (nth (N.to_nat m) D dflt)).
Proof.
  induction D as [|x D IH]; intros m r HF HR HM; [change (lenN (@nil A)) with 0 in HM; lia|]. rewrite lenN_cons in HM. cbn [map concat].
  destruct (N.eq_dec m 0) as [->|NZ].
  - cbn [N.to_nat firstn map concat app nth]. rewrite N.mul_0_l, N.add_0_l. rewrite take_app, HF. replace (r - ds) with 0 by lia. rewrite take_0. apply app_nil_r.
  - replace m with (1 + (m - 1)) at 1 2 3 by lia. replace (N.to_nat (1 + (m - 1))) with (S (N.to_nat (m - 1))) by lia. cbn [firstn nth map concat]. rewrite <- app_assoc.
    rewrite <- (IH (m - 1) r HF HR ltac:(lia)). replace ((1 + (m - 1)) * ds + r) with (lenN (F x) + ((m - 1) * ds + r)) by (rewrite HF; lia). rewrite take_app. rewrite take_all by apply N.le_add_r. rewrite (N.add_comm (lenN (F x))), N.add_sub. reflexivity.
Qed.
Lemma lenN_concat_map {A} (F : A -> list N) ds (D : list A) : (forall x, lenN (F x) = ds) -> lenN (concat (map F D)) = lenN D * ds.
Proof. intro HF. induction D as [|x D IH]; [reflexivity|]. cbn [map concat]. rewrite lenN_app, lenN_cons, IH, HF. lia. Qed.
Lemma sorted_range lo hi : StronglySorted N.lt (rangeN lo hi).
Proof.
  destruct (N.le_gt_cases hi lo) as [L|L]; [rewrite rangeN_nil by lia; constructor|]. remember (hi - lo) as m eqn:E. revert lo L E.
  induction m as [|m IH] using N.peano_ind; intros lo L E; [lia|]. rewrite rangeN_cons by lia. constructor.
  - destruct (N.eq_dec (lo + 1) hi) as [<-|]; [rewrite rangeN_nil by lia; constructor|]. apply IH; lia.
  - apply Forall_forall. intros x Hx. apply In_rangeN in Hx. lia.
Qed.
Lemma sorted_filter g l : StronglySorted N.lt l -> StronglySorted N.lt (filter g l).
Proof.
  induction 1 as [|x l S IH F]; [constructor|]. cbn [filter]. destruct (g x); [|exact IH]. constructor; [exact IH|]. rewrite Forall_forall in *. intros y Hy. apply filter_In in Hy. apply F, Hy.
Qed.
(* everything the sequential reader writes, in terms of the data blocks visited *)
Lemma seq_out_eq f ref o fsz lo len i0 :
  bytes_ok f = true -> lenN (b_uid ref) = 6 ->
  let v := b_version ref in
  let ks := filter (isdata o i0) (rangeN 0 ((len + (ver_to_block_size v - 1)) / ver_to_block_size v)) in
  let all := concat (map (kpay f ref o lo i0) ks) in
  seq_out f ref o (option_map (calc_data_chunk_count v) fsz) (last_chunk_size v fsz) lo len i0 = match fsz with Some t => if t =? 0 then all else takeN t all | None => all end.
Proof.
  intros HB U6 v ks all. assert (LK : forall k, lenN (kpay f ref o lo i0 k) = ver_to_data_size v) by (intro; apply lenN_kpay; assumption).
  set (ds := ver_to_data_size v) in *. assert (D1 : 1 <= ds) by apply data_size_pos.
  assert (EP : forall l, concat (map (fun x => takeN (olen ref (snd x)) (kpay f ref o lo i0 (fst x))) (map (fun k => (k, @None N)) l)) = concat (map (kpay f ref o lo i0) l)).
  { intro l. rewrite map_map. f_equal. apply map_ext. intro k. cbn [fst snd olen]. apply take_all. fold v ds. rewrite LK. lia. }
  unfold seq_out. fold v. destruct fsz as [t|]; cbn [option_map last_chunk_size]; [|rewrite pieces_eq by exact Logic.I; apply EP].
  fold ds. unfold calc_data_chunk_count. fold ds. destruct (N.eqb_spec t 0) as [->|NZ].
  - assert (Z : (0 + (ds - 1)) / ds = 0) by (apply N.div_small; lia). rewrite Z.
    assert (G : forall l done cl, pieces o (Some 0) cl i0 l done = pieces o None cl i0 l done).
    { induction l as [|k l IH]; intros done cl; [reflexivity|]. cbn [pieces]. destruct (isdata o i0 k); [|apply IH]. destruct (N.eqb_spec (done + 1) 0); [lia|]. rewrite IH. reflexivity. }
    rewrite G, pieces_eq by exact Logic.I. apply EP.
  - pose proof (ceil_div t ds D1) as [C1 C2]. set (K := (t + (ds - 1)) / ds) in *. assert (K1 : 1 <= K) by (destruct (N.eq_dec K 0) as [E|]; [rewrite E in C1; lia|lia]).
    assert (KL : (K - 1) * ds < t) by (apply N.nle_gt; intro L; apply C2 in L; lia).
    assert (ET : t = (K - 1) * ds + (if t mod ds =? 0 then ds else t mod ds)).
    { assert (KE : K * ds = (K - 1) * ds + ds) by (replace K with (K - 1 + 1) at 1 by lia; rewrite N.mul_add_distr_r, N.mul_1_l; reflexivity).
      destruct (N.eq_dec t (K * ds)) as [E|E].
      - assert (M0 : t mod ds = 0) by (rewrite E; apply N.mod_mul; lia). rewrite M0. cbn [N.eqb]. lia.
      - assert (M1 : t mod ds = t - (K - 1) * ds).
        { replace t with ((t - (K - 1) * ds) + (K - 1) * ds) at 1 by lia. rewrite N.mod_add by lia. apply N.mod_small. lia. }
        rewrite M1. destruct (N.eqb_spec (t - (K - 1) * ds) 0); lia. }
    assert (R : (if t mod ds =? 0 then ds else t mod ds) <= ds) by (pose proof (N.mod_lt t ds ltac:(lia)); destruct (N.eqb_spec (t mod ds) 0); lia).
    set (r := if t mod ds =? 0 then ds else t mod ds) in *.
    rewrite pieces_eq by lia. fold ks. rewrite N.add_0_r, N.sub_0_r. destruct (N.ltb_spec (lenN ks) K) as [L|L].
    + rewrite EP. symmetry. apply take_all. unfold all. rewrite (lenN_concat_map _ ds) by exact LK. assert (lenN ks * ds <= (K - 1) * ds) by (apply N.mul_le_mono_r; lia). lia.
    + rewrite map_app, concat_app, EP. cbn [map concat fst snd olen]. rewrite app_nil_r. rewrite ET at 1.
      unfold all. rewrite (take_concat _ 0 ds) by (exact LK || exact R || lia). reflexivity.
Qed.
