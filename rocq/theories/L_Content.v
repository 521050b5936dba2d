(* Hashing the data stored in a container. *)
From Verif Require Import M_Base M_Specs M_Crc M_Header M_Multihash M_Metadata M_Block M_Index M_FileUtils M_Buffer M_Ranges M_Encode M_Scan M_Loop M_Decode M_Content
  S_Crc S_Meta S_Block S_Index S_Container S_Decode S_Content
  L_Base L_File L_Crc L_Header L_Meta L_Block L_Block2 L_Index L_Index2 L_Buffer L_Encode L_Container L_Loop L_Scan L_Decode L_Chunks.
Ltac Zify.zify_post_hook ::= idtac.

(* what a reader expecting block seq makes of the bytes at its place *)
Definition got (ref : block) (o : dpb) (f : file) (seq : N) : option block :=
  let d := file_read f (calc_data_block_write_pos (b_version ref) seq None o) (ver_to_block_size (b_version ref)) in
  if lenN d <? ver_to_block_size (b_version ref) then None
  else match accept ref d with Some b => if b_seq_num b =? seq then Some b else None | None => None end.
Definition bytes_for (ref : block) (o : dpb) (f : file) (seq : N) : list N :=
  file_read f (calc_data_block_write_pos (b_version ref) seq None o) (ver_to_block_size (b_version ref)).
Definition payload_at (ref : block) (o : dpb) (f : file) (seq : N) : list N := slice_data_buf (b_version ref) (bytes_for ref o f seq).

Lemma widx_none seq o : calc_data_block_write_index seq None o = calc_data_block_write_index seq (Some true) o.
Proof. reflexivity. Qed.
Lemma got_some ref o f j b : bytes_ok f = true -> dpb_ok o -> got ref o f (dseq o j) = Some b ->
  chunk_in_place (b_version ref) (b_uid ref) o f j (payload_at ref o f (dseq o j)) /\ b_seq_num b = dseq o j /\ b_version b = b_version ref /\
  b_uid b = b_uid ref /\ is_meta b = false /\ lenN (bytes_for ref o f (dseq o j)) = ver_to_block_size (b_version ref).
Proof.
  intros HB HO. unfold got. fold (bytes_for ref o f (dseq o j)). destruct (N.ltb_spec (lenN (bytes_for ref o f (dseq o j))) (ver_to_block_size (b_version ref))) as [L|L]; [discriminate|].
  pose proof (accept_block_at ref f (calc_data_block_write_pos (b_version ref) (dseq o j) None o) HB) as AB.
  change (sliceN (calc_data_block_write_pos (b_version ref) (dseq o j) None o) (ver_to_block_size (b_version ref)) f) with (bytes_for ref o f (dseq o j)) in AB.
  destruct (accept ref _) as [b'|]; [|discriminate]. destruct (N.eqb_spec (b_seq_num b') (dseq o j)) as [E|]; [|discriminate]. intro X; apply Some_inj in X; subst b'.
  destruct AB as (BA & V & U & M). rewrite E in BA, M. split; [exists (dseq o j); split; [apply dseq_chunk, HO|exact BA]|]. split; [exact E|]. split; [exact V|]. split; [exact U|].
  split; [rewrite M; pose proof (dseq_pos o j); destruct (N.eqb_spec (dseq o j) 0); [lia|reflexivity]|].
  unfold bytes_for, file_read in *. rewrite lenN_slice in *. lia.
Qed.
Lemma got_none ref o f j : bytes_ok f = true -> dpb_ok o -> got ref o f (dseq o j) = None -> forall pl, ~ chunk_in_place (b_version ref) (b_uid ref) o f j pl.
Proof.
  intros HB HO. unfold got. fold (bytes_for ref o f (dseq o j)). intros E pl (seq & C & BA). apply (chunk_dseq _ _ _ HO) in C. subst seq.
  pose proof (accept_block_at ref f (calc_data_block_write_pos (b_version ref) (dseq o j) None o) HB) as AB.
  change (sliceN (calc_data_block_write_pos (b_version ref) (dseq o j) None o) (ver_to_block_size (b_version ref)) f) with (bytes_for ref o f (dseq o j)) in AB.
  destruct (N.ltb_spec (lenN (bytes_for ref o f (dseq o j))) (ver_to_block_size (b_version ref))) as [L|L].
  - destruct BA as (h & W & V & _). apply wf_len in W. rewrite V in W.
    change (sliceN (calc_data_block_write_index (dseq o j) (Some true) o * ver_to_block_size (b_version ref)) (ver_to_block_size (b_version ref)) f) with (bytes_for ref o f (dseq o j)) in W. lia.
  - destruct (accept ref _) as [b|]; [|exact (AB _ _ BA)]. destruct AB as (BA' & _). destruct (block_at_unique _ _ _ _ _ _ _ _ BA BA') as [S _].
    destruct (N.eqb_spec (b_seq_num b) (dseq o j)); [discriminate|congruence].
Qed.
Lemma chunk_unique v uid o f j pl pl' : dpb_ok o -> chunk_in_place v uid o f j pl -> chunk_in_place v uid o f j pl' -> pl = pl'.
Proof.
  intros HO (s & C & A) (s' & C' & A'). apply (chunk_dseq _ _ _ HO) in C, C'. subst s s'. apply (block_at_unique _ _ _ _ _ _ _ _ A A').
Qed.
Lemma lenN_payload ref o f j b : bytes_ok f = true -> dpb_ok o -> got ref o f (dseq o j) = Some b -> lenN (payload_at ref o f (dseq o j)) = ver_to_data_size (b_version ref).
Proof.
  intros HB HO E. destruct (got_some _ _ _ _ _ HB HO E) as (_ & _ & _ & _ & _ & L). unfold payload_at, slice_data_buf. rewrite lenN_slice, L.
  rewrite (proj2 (data_size_pos _)). pose proof (block_size_pos (b_version ref)). unfold SBX_HEADER_SIZE. lia.
Qed.

Lemma put_full buf d : lenN d = lenN buf -> put_at buf 0 d = d.
Proof. intro H. unfold put_at. rewrite take_0. cbn [app]. rewrite N.add_0_l, drop_all by lia. apply app_nil_r. Qed.
(* the step of a reader on a slot, in terms of [got] *)
Lemma expect_got c ref o f seq s : c_ver c = b_version ref -> c_dpb c = o -> slot_view_len c = ver_to_block_size (b_version ref) -> slot_view_off c = 0 -> Fresh c s ->
  exists s2, (let d := file_read f (calc_data_block_write_pos (c_ver c) seq None (c_dpb c)) (slot_view_len c) in
    if lenN d <? slot_view_len c then ROk (fill_view c s d, false) else expect_block ref seq (fill_view c s d))
    = ROk (s2, match got ref o f seq with Some _ => true | None => false end) /\ lenN (s_buf s2) = ver_to_block_size (b_version ref) /\
    (s_rpos s2 = None /\ s_wpos s2 = None /\ s_clen s2 = None /\ s_pad s2 = false) /\
    (forall b, got ref o f seq = Some b -> s2 = mkSlot b (bytes_for ref o f seq) None None None false).
Proof.
  intros CV CO VL VO (F1 & F2 & F3 & F4 & F5). rewrite CV in F1. cbv zeta. rewrite CV, CO, VL. unfold got. fold (bytes_for ref o f seq). set (d := bytes_for ref o f seq).
  assert (LD : lenN d <= ver_to_block_size (b_version ref)) by (unfold d, bytes_for, file_read; rewrite lenN_slice; lia).
  destruct (N.ltb_spec (lenN d) (ver_to_block_size (b_version ref))) as [L|L].
  - eexists. split; [reflexivity|]. split; [cbn [fill_view s_buf]; rewrite lenN_put_at; rewrite ?VO; [exact F1|lia]|]. split; [cbn; auto|discriminate].
  - assert (EV : fill_view c s d = mkSlot (s_block s) d None None None false).
    { unfold fill_view. rewrite VO, put_full by lia. rewrite F2, F3, F4, F5. reflexivity. }
    rewrite EV. unfold expect_block. cbn [s_block s_buf]. pose proof (accept_cases ref (s_block s) d L) as AC. destruct (accept ref d) as [b|].
    + rewrite AC. cbn [with_block s_buf s_rpos s_wpos s_clen s_pad]. destruct (b_seq_num b =? seq); eexists; (split; [reflexivity|]); cbn; (split; [lia|]); (split; [auto|]); try discriminate.
      intros b' X; apply Some_inj in X; subst; reflexivity.
    + destruct AC as [e AC]. rewrite AC. eexists. split; [reflexivity|]. cbn. split; [lia|]. split; [auto|discriminate].
Qed.

Section Hash.
Variables (cpus : N) (f : file) (ref : block) (o : dpb) (total K : N).
Hypothesis CPUS : 1 <= cpus.
Hypothesis HB : bytes_ok f = true.
Hypothesis HO : dpb_ok o.
Let v := b_version ref.
Let bs := ver_to_block_size v.
Let ds := ver_to_data_size v.
Let c := hash_cfg v o cpus.
Hypothesis K1 : 1 <= K.
Hypothesis KL : (K - 1) * ds < total.
Hypothesis KU : total <= K * ds.
Hypothesis SQ : dseq o (K - 1) <= U32_MAX.
Lemma hash_cfg_ok : cfg_ok c.
Proof. unfold cfg_ok, dws, lot_size, c, hash_cfg, c_in, c_lots, DEFAULT_SINGLE_LOT_SIZE, LOT_COUNT_PER_CPU. lia. Qed.
Lemma ds1 : 1 <= ds. Proof. apply data_size_pos. Qed.

Definition h_fstep (st : hstate) : hstate * option slot * bool :=
  let seq := hs_seq st in
  let rem := total - hs_bytes st in
  let is_last := seq =? SBX_LAST_SEQ_NUM in
  let next b := mkHstate (if is_last then seq else seq + 1) b (hs_err st) in
  if seq_num_is_parity_w_data_par_burst seq o then (next (hs_bytes st), None, is_last)
  else match got ref o f seq with
       | Some b =>
           if rem <=? ds then (mkHstate seq (hs_bytes st + rem) (hs_err st), Some (mkSlot b (bytes_for ref o f seq) None None (Some rem) false), true)
           else (next (hs_bytes st + ds), Some (mkSlot b (bytes_for ref o f seq) None None None false), is_last)
       | None => (mkHstate seq (hs_bytes st) true, None, true)
       end.
Definition HGood (s : slot) : Prop := match s_clen s with Some n => 1 <= n <= ds | None => True end.
Definition HI (st : hstate) : Prop := hs_bytes st < total.

Lemma h_step_ok st s : HI st -> Fresh c s ->
  match h_fstep st with
  | (st', Some x, stop) => hash_step c f ref total st s = ROk (st', Keep x, stop) /\ lenN (s_buf x) = bs /\ HGood x /\ (stop = false -> HI st')
  | (st', None, stop) => exists s', hash_step c f ref total st s = ROk (st', Cancel s', stop) /\ lenN (s_buf s') = bs /\ (stop = false -> HI st')
  end.
Proof.
  intros I F. unfold h_fstep, hash_step. destruct (expect_got c ref o f (hs_seq st) s eq_refl eq_refl eq_refl eq_refl F) as (s2 & E & L & _ & G).
  cbv zeta in E. cbv zeta. rewrite E. cbn [rbind]. change (c_dpb c) with o. change (c_ver c) with v. fold ds. fold v in L. fold bs in L. unfold HI in I.
  destruct (seq_num_is_parity_w_data_par_burst (hs_seq st) o); [eexists; split; [reflexivity|]; split; [exact L|]; intros; exact I|].
  destruct (got ref o f (hs_seq st)) as [b|].
  - rewrite (G b eq_refl) in *. destruct (N.leb_spec (total - hs_bytes st) ds) as [R|R].
    + split; [reflexivity|]. split; [exact L|]. split; [unfold HGood; cbn [s_clen]; lia|discriminate].
    + split; [reflexivity|]. split; [exact L|]. split; [exact Logic.I|]. intros _. unfold HI; cbn [hs_bytes]. lia.
  - eexists. split; [reflexivity|]. split; [exact L|discriminate].
Qed.
Lemma hash_ok s : HGood s -> exists p, slot_hash_bytes c s = ROk p.
Proof.
  intro G. unfold slot_hash_bytes. destruct (_ && _ && _); [|eauto]. change (ver_to_data_size (c_ver c)) with ds. unfold HGood in G. pose proof ds1.
  destruct (s_clen s) as [n|]; cbn [rbind].
  - destruct (N.ltb_spec 0 n), (N.leb_spec n ds); try lia. cbn. eauto.
  - destruct (N.ltb_spec 0 ds), (N.leb_spec ds ds); try lia. cbn. eauto.
Qed.
Lemma consume_ok w xs b : buf_rep c (Holds c) (Fresh c) xs b -> Forall HGood xs ->
  exists b', consume_hash c w b = ROk (b', fold_left (fun w s => w ++ hbytes c s) xs w) /\ shape c b'.
Proof.
  intros HR HG. exists b. unfold consume_hash. rewrite (hash_flat c hash_cfg_ok xs b HR).
  - cbn [rbind]. rewrite fold_concat. split; [reflexivity|]. apply (rep_shape c xs _ HR).
  - discriminate.
  - intros x Hx. apply hash_ok. rewrite Forall_forall in HG. auto.
Qed.
Lemma fuel_ok : (N.to_nat (dseq o (K - 1)) <= hash_fuel v o total)%nat.
Proof.
  unfold hash_fuel. fold ds. pose proof ds1 as D1.
  assert (Q : K - 1 <= total / ds) by (apply N.div_le_lower_bound; lia). set (q := total / ds) in *. unfold dseq.
  destruct o as [[[d p] B]|]; [|lia]. destruct HO as (Hd & Hp & _).
  pose proof (N.div_mod' (K - 1) d) as DM. pose proof (N.mod_lt (K - 1) d ltac:(lia)) as ML. set (x := (K - 1) / d) in *. set (y := (K - 1) mod d) in *.
  assert (XK : x <= K - 1) by (assert (1 * x <= d * x) by (apply N.mul_le_mono_r; lia); generalize dependent (d * x); intros; lia).
  assert (XP : x * p <= q * p) by (apply N.mul_le_mono_r; lia).
  replace (x * (d + p)) with (d * x + x * p) by ring. replace ((q + 1) * (1 + p)) with (q + 1 + q * p + p) by ring.
  clear KL KU SQ. generalize dependent (d * x). generalize dependent (x * p). generalize dependent (q * p). intros. lia.
Qed.

(* the run, up to chunk M - 1, where it ends *)
Definition hslot (j : N) : option slot :=
  match got ref o f (dseq o j) with
  | Some b => Some (mkSlot b (bytes_for ref o f (dseq o j)) None None (if total - j * ds <=? ds then Some (total - j * ds) else None) false)
  | None => None
  end.
Definition hJ (st : hstate) (seq j : N) : Prop := st = mkHstate seq (j * ds) false.
Lemma dseq_le j : j < K -> dseq o j <= dseq o (K - 1).
Proof. intro H. destruct (N.eq_dec j (K - 1)) as [->|]; [lia|]. pose proof (dseq_lt o j (K - 1) HO ltac:(lia)). lia. Qed.
Lemma hash_run M (bad : bool) : 1 <= M <= K -> (forall j, j + 1 < M -> got ref o f (dseq o j) <> None) ->
  (if bad then got ref o f (dseq o (M - 1)) = None else M = K /\ got ref o f (dseq o (M - 1)) <> None) ->
  content_bytes cpus f o total ref = if bad then RErr OtherError else ROk (concat (map (hbytes c) (somes (map hslot (rangeN 0 M))))).
Proof.
  intros HM OK END. pose proof ds1 as D1.
  destruct (@frun_chunks hstate slot o HO h_fstep hJ (fun st => hs_err st = bad) hslot M) with (m := N.to_nat (dseq o (M - 1) - 1)) (seq := 1) (j := 0) (st := mkHstate 1 0 false) as (st & R & F).
  - intros st seq j -> H1 Hj HL HU. unfold h_fstep. cbn [hs_seq hs_bytes hs_err].
    rewrite (between_parity o seq j HO H1 HL HU). pose proof (dseq_le j ltac:(lia)). unfold SBX_LAST_SEQ_NUM. destruct (N.eqb_spec seq U32_MAX); [lia|].
    eexists. split; [reflexivity|reflexivity].
  - intros st j -> Hj. unfold h_fstep. cbn [hs_seq hs_bytes hs_err]. rewrite (dseq_not_parity o j HO). unfold hslot.
    specialize (OK j Hj). destruct (got ref o f (dseq o j)) as [b|]; [|congruence].
    assert (X : (j + 1) * ds <= (K - 1) * ds) by (apply N.mul_le_mono_r; lia).
    destruct (N.leb_spec (total - j * ds) ds); [lia|]. pose proof (dseq_lt o j (K - 1) HO ltac:(lia)).
    unfold SBX_LAST_SEQ_NUM. destruct (N.eqb_spec (dseq o j) U32_MAX); [lia|]. eexists. split; [reflexivity|]. unfold hJ. f_equal. lia.
  - intros st j -> Hj. unfold h_fstep. cbn [hs_seq hs_bytes hs_err]. rewrite (dseq_not_parity o j HO). unfold hslot. replace (M - 1) with j in END by lia.
    destruct bad.
    + rewrite END. eexists. split; reflexivity.
    + destruct END as [EK NN]. destruct (got ref o f (dseq o j)) as [b|]; [|congruence].
      assert (X : total - j * ds <= ds). { assert (j = K - 1) by lia. subst j. assert (K * ds = (K - 1) * ds + ds) by nia. lia. }
      destruct (N.leb_spec (total - j * ds) ds); [|lia]. eexists. split; reflexivity.
  - reflexivity.
  - lia.
  - lia.
  - left; reflexivity.
  - apply dseq_pos.
  - reflexivity.
  - assert (FU : (S (N.to_nat (dseq o (M - 1) - 1)) <= hash_fuel v o total)%nat).
    { pose proof fuel_ok. pose proof (dseq_le (M - 1) ltac:(lia)). pose proof (dseq_pos o (M - 1)). lia. }
    unfold content_bytes. fold v. fold c. destruct (init_queue_rep c hash_cfg_ok ltac:(discriminate)) as [Q1 Q2].
    rewrite (loop_flat c hash_cfg_ok (fun _ => false) (hash_step c f ref total) h_fstep (consume_hash c) (fun w s => w ++ hbytes c s) HI HGood) with (n := S (N.to_nat (dseq o (M - 1) - 1))) (st' := st) (ys := somes (map hslot (rangeN 0 M))).
    + cbn [rbind]. rewrite F, fold_concat. destruct bad; reflexivity.
    + intros st0 s I _ FS. apply h_step_ok; assumption.
    + exact consume_ok.
    + unfold HI. cbn [hs_bytes]. lia.
    + exact Q1.
    + exact Q2.
    + exact FU.
    + exact FU.
    + exact R.
Qed.
Lemma hbytes_slot j s : j < K -> hslot j = Some s -> hbytes c s = takeN (total - j * ds) (payload_at ref o f (dseq o j)).
Proof.
  unfold hslot. intro Hj. destruct (got ref o f (dseq o j)) as [b|] eqn:EG; [|discriminate]. intro X; apply Some_inj in X; subst s.
  destruct (got_some _ _ _ _ _ HB HO EG) as (_ & SN & VV & _ & MM & _). pose proof (lenN_payload _ _ _ _ _ HB HO EG) as LP. fold v ds in LP.
  unfold hbytes, slot_hash_bytes. cbn [s_block s_pad s_clen s_buf].
  assert (ID : is_data b = true) by (unfold is_data, is_meta in *; destruct (block_type_of b); [reflexivity|discriminate]).
  assert (PA : is_parity_w_dpb b (c_dpb c) = false) by (unfold is_parity_w_dpb; rewrite SN; change (c_dpb c) with o; rewrite dseq_not_parity by exact HO; apply andb_false_r).
  rewrite ID, PA. cbn [negb andb]. change (ver_to_data_size (c_ver c)) with ds. change (slice_data_buf (c_ver c) (bytes_for ref o f (dseq o j))) with (payload_at ref o f (dseq o j)).
  pose proof ds1. assert (j * ds <= (K - 1) * ds) by (apply N.mul_le_mono_r; lia). destruct (N.leb_spec (total - j * ds) ds).
  - destruct (N.ltb_spec 0 (total - j * ds)), (N.leb_spec (total - j * ds) ds); try lia. reflexivity.
  - destruct (N.ltb_spec 0 ds), (N.leb_spec ds ds); try lia. cbn [andb rassert rbind]. rewrite !take_all by lia. reflexivity.
Qed.
Lemma hash_all : (forall j, j < K -> got ref o f (dseq o j) <> None) ->
  content_bytes cpus f o total ref = ROk (concat (map (fun j => takeN (total - j * ds) (payload_at ref o f (dseq o j))) (rangeN 0 K))).
Proof.
  intro ALL. rewrite (hash_run K false); [|lia|intros; apply ALL; lia|split; [reflexivity|apply ALL; lia]]. f_equal. f_equal.
  assert (G : forall l, (forall j, In j l -> j < K) -> map (hbytes c) (somes (map hslot l)) = map (fun j => takeN (total - j * ds) (payload_at ref o f (dseq o j))) l).
  { induction l as [|j l IH]; intro HL; [reflexivity|]. cbn [map]. unfold somes. cbn [flat_map]. destruct (hslot j) as [s|] eqn:E.
    - cbn [app map]. rewrite (hbytes_slot j s (HL j (or_introl eq_refl)) E). f_equal. apply IH. intros; apply HL; right; assumption.
    - exfalso. unfold hslot in E. specialize (ALL j (HL j (or_introl eq_refl))). destruct (got ref o f (dseq o j)); [discriminate|congruence]. }
  apply G. intros j Hj. apply In_rangeN in Hj. lia.
Qed.
Lemma all_or_first (P : N -> bool) n : (forall j, j < n -> P j = true) \/ exists m, m < n /\ P m = false /\ forall j, j < m -> P j = true.
Proof.
  induction n as [|n IH] using N.peano_ind; [left; intros; lia|]. rewrite <- N.add_1_r. destruct IH as [IH|(m & A & B & C)].
  - destruct (P n) eqn:E; [left; intros j Hj; destruct (N.eq_dec j n) as [->|]; [exact E|apply IH; lia]|right; exists n; split; [lia|auto]].
  - right. exists m. split; [lia|auto].
Qed.
Lemma content_bytes_iff w : content_bytes cpus f o total ref = ROk w <-> lenN w = total /\ data_in_place v (b_uid ref) o f w.
Proof.
  pose proof ds1 as D1. assert (DSE : ver_to_block_size v - 16 = ds) by (unfold ds; rewrite (proj2 (data_size_pos v)); reflexivity).
  set (isok := fun j => match got ref o f (dseq o j) with Some _ => true | None => false end).
  assert (JK : forall j, j * ds < total -> j < K). { intros j Hj. apply N.nle_gt. intro G. assert (K * ds <= j * ds) by (apply N.mul_le_mono_r; exact G). lia. }
  destruct (all_or_first isok K) as [ALL|(m & HM & BAD & BEF)].
  - assert (ALL' : forall j, j < K -> got ref o f (dseq o j) <> None) by (intros j Hj; specialize (ALL j Hj); unfold isok in ALL; destruct (got ref o f (dseq o j)); congruence).
    rewrite (hash_all ALL').
    set (P := fun j => if j <? K then payload_at ref o f (dseq o j) else repN ds 0).
    assert (LP : forall j, lenN (P j) = ds).
    { intro j. unfold P. destruct (N.ltb_spec j K) as [Hj|]; [|apply lenN_rep]. specialize (ALL' j Hj). destruct (got ref o f (dseq o j)) as [b|] eqn:EG; [|congruence]. apply (lenN_payload _ _ _ _ _ HB HO EG). }
    assert (EQ : map (fun j => takeN (total - j * ds) (payload_at ref o f (dseq o j))) (rangeN 0 K) = map (fun j => takeN (total - j * ds) (P j)) (rangeN 0 K)).
    { apply map_ext_in. intros j Hj. apply In_rangeN in Hj. unfold P. destruct (N.ltb_spec j K); [reflexivity|lia]. }
    rewrite EQ. destruct (concat_chunks ds P total K D1 KL KU LP) as [C1 C2]. set (x := concat _) in *.
    assert (SL : forall j, j * ds < total -> sliceN (j * ds) ds x = takeN (total - j * ds) (P j)).
    { intros j Hj. apply list_ext_N; [rewrite lenN_slice, lenN_take, C1, LP; lia|]. intros i Hi. rewrite lenN_slice, C1 in Hi.
      rewrite nthN_slice, nthN_take. destruct (N.ltb_spec i ds); [|lia]. destruct (N.ltb_spec i (total - j * ds)); [|lia]. rewrite C2 by lia.
      destruct (dm_eq (j * ds + i) ds j i ltac:(lia) ltac:(lia)) as [-> ->]. reflexivity. }
    assert (IP : forall j, j < K -> chunk_in_place v (b_uid ref) o f j (P j)).
    { intros j Hj. unfold P. destruct (N.ltb_spec j K); [|lia]. specialize (ALL' j Hj). destruct (got ref o f (dseq o j)) as [b|] eqn:EG; [|congruence]. apply (got_some _ _ _ _ _ HB HO EG). }
    split.
    + intro X; apply ROk_inj in X; subst w. split; [exact C1|]. intros j Hj. rewrite DSE in *. rewrite C1 in Hj. exists (P j). split; [apply IP, JK, Hj|]. rewrite C1. apply SL, Hj.
    + intros [LW DI]. f_equal. apply list_ext_N; [congruence|]. intros i Hi. rewrite C1 in Hi. rewrite C2 by exact Hi.
      pose proof (N.div_mod' i ds) as DM. pose proof (N.mod_lt i ds ltac:(lia)) as ML.
      destruct (DI (i / ds)) as (pl & CP & SW); [rewrite DSE, LW; lia|]. rewrite DSE in SW.
      assert (pl = P (i / ds)) by (eapply chunk_unique; [exact HO|exact CP|apply IP, JK; lia]). subst pl.
      assert (X : nthN (sliceN (i / ds * ds) ds w) (i mod ds) = nthN w i) by (rewrite nthN_slice; destruct (N.ltb_spec (i mod ds) ds); [f_equal; lia|lia]).
      rewrite <- X, SW, nthN_take, LW. destruct (N.ltb_spec (i mod ds) (total - i / ds * ds)); [reflexivity|lia].
  - assert (BAD' : got ref o f (dseq o m) = None) by (unfold isok in BAD; destruct (got ref o f (dseq o m)); congruence).
    rewrite (hash_run (m + 1) true); [|lia| |replace (m + 1 - 1) with m by lia; exact BAD'].
    + split; [discriminate|]. intros [LW DI]. exfalso. assert (MM : m * ds <= (K - 1) * ds) by (apply N.mul_le_mono_r; lia).
      destruct (DI m) as (pl & CP & _); [rewrite DSE, LW; lia|]. exact (got_none _ _ _ _ HB HO BAD' pl CP).
    + intros j Hj E. specialize (BEF j ltac:(lia)). unfold isok in BEF. rewrite E in BEF. discriminate.
Qed.
Lemma content_bytes_err : (forall w, lenN w = total -> ~ data_in_place v (b_uid ref) o f w) -> content_bytes cpus f o total ref = RErr OtherError.
Proof.
  intro NO. set (isok := fun j => match got ref o f (dseq o j) with Some _ => true | None => false end).
  destruct (all_or_first isok K) as [ALL|(m & HM & BAD & BEF)].
  - exfalso. assert (ALL' : forall j, j < K -> got ref o f (dseq o j) <> None) by (intros j Hj; specialize (ALL j Hj); unfold isok in ALL; destruct (got ref o f (dseq o j)); congruence).
    pose proof (hash_all ALL') as E. apply content_bytes_iff in E as [E1 E2]. exact (NO _ E1 E2).
  - apply (hash_run (m + 1) true); [lia| |].
    + intros j Hj E. specialize (BEF j ltac:(lia)). unfold isok in BEF. rewrite E in BEF. discriminate.
    + replace (m + 1 - 1) with m by lia. unfold isok in BAD. destruct (got ref o f (dseq o m)); congruence.
Qed.
End Hash.
