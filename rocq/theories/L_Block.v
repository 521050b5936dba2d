(* Proofs about blocks. *)
From Verif Require Import M_Base L_Base L_File M_Specs M_Crc M_Header M_Multihash M_Metadata M_Block.
From Verif Require Import S_Crc S_Meta S_Block L_Crc L_Header L_Meta.

Lemma block_size_pos v : 128 <= ver_to_block_size v <= 4096.
Proof. destruct v; cbn; lia. Qed.
Lemma lenN_be4 x : lenN (be_bytes 4 x) = 4. Proof. reflexivity. Qed.
Lemma ver_usize_lt v : ver_to_usize v < 256.
Proof. destruct v; cbn; lia. Qed.
Lemma lenN_put_at buf pos d : pos + lenN d <= lenN buf -> lenN (put_at buf pos d) = lenN buf.
Proof. intro H. unfold put_at. rewrite !lenN_app, lenN_take, lenN_drop. lia. Qed.
Lemma nthN_put_at buf pos d i : pos + lenN d <= lenN buf ->
  nthN (put_at buf pos d) i = if (pos <=? i) && (i <? pos + lenN d) then nthN d (i - pos) else nthN buf i.
Proof.
  intro H. unfold put_at. rewrite !nthN_app, lenN_take, nthN_take, nthN_drop.
  replace (N.min pos (lenN buf)) with pos by lia.
  destruct (N.ltb_spec i pos), (N.leb_spec pos i); try (exfalso; lia); cbn [andb]; [reflexivity|].
  destruct (N.ltb_spec (i - pos) (lenN d)), (N.ltb_spec i (pos + lenN d)); try (exfalso; lia); [reflexivity|].
  f_equal. lia.
Qed.
Lemma bytes_ok_put_at buf pos d : bytes_ok buf = true -> bytes_ok d = true -> bytes_ok (put_at buf pos d) = true.
Proof.
  intros H1 H2. unfold put_at. rewrite !bytes_ok_app, H2, bytes_ok_take, bytes_ok_drop by exact H1. reflexivity.
Qed.
Lemma slice_put_same buf pos d : pos + lenN d <= lenN buf -> sliceN pos (lenN d) (put_at buf pos d) = d.
Proof.
  intro H. apply list_ext_N.
  - rewrite lenN_slice, lenN_put_at by exact H. lia.
  - intros i Hi. rewrite lenN_slice, lenN_put_at in Hi by exact H.
    rewrite nthN_slice, nthN_put_at by exact H.
    destruct (N.ltb_spec i (lenN d)); [|lia].
    destruct (N.leb_spec pos (pos + i)), (N.ltb_spec (pos + i) (pos + lenN d)); try lia. cbn [andb]. f_equal. lia.
Qed.
Lemma slice_put_other buf pos d p n : pos + lenN d <= lenN buf -> p + n <= pos \/ pos + lenN d <= p ->
  sliceN p n (put_at buf pos d) = sliceN p n buf.
Proof.
  intros H HD. apply list_ext_N.
  - rewrite !lenN_slice, lenN_put_at by exact H. reflexivity.
  - intros i Hi. rewrite !nthN_slice, nthN_put_at by exact H.
    destruct (N.ltb_spec i n); [|reflexivity].
    destruct (N.leb_spec pos (p + i)), (N.ltb_spec (p + i) (pos + lenN d)); try lia; reflexivity.
Qed.

(* the check value as one CRC over uid, sequence number, payload *)
Definition crc_of (v : version) (uid : list N) (seq : N) (payload : list N) : N :=
  crc_ccitt_generic (ver_to_usize v) (uid ++ be_bytes 4 seq ++ payload).
Lemma calc_crc_eq b buf : ver_to_block_size (b_version b) <= lenN buf ->
  calc_crc b buf = ROk (crc_of (b_version b) (b_uid b) (b_seq_num b) (slice_data_buf (b_version b) buf)).
Proof.
  intro H. unfold calc_crc. destruct (N.ltb_spec (lenN buf) (ver_to_block_size (b_version b))); [lia|].
  unfold crc_of. rewrite !crc_app. unfold header_calc_crc, sbx_crc_ccitt.
  replace (u16 (ver_to_usize (h_version (b_header b)))) with (ver_to_usize (h_version (b_header b)))
    by (destruct (h_version (b_header b)); reflexivity). reflexivity.
Qed.

(* ---- parsing, independent of the previous contents of the Block object ---- *)
Definition parse (buf : list N) : result block := sync_from_buffer block_dummy buf no_hpred no_pred.

Lemma switch_canon h d :
  switch_block_type_to_match_header (mkBlock h d)
  = mkBlock h (if h_seq_num h <? 1 then (match d with DMeta ms => DMeta ms | DData => DMeta [] end) else DData).
Proof.
  unfold switch_block_type_to_match_header, header_type_matches_block_type, header_type,
    block_type_of, switch_block_type, SBX_FIRST_DATA_SEQ_NUM. cbn [b_header b_data].
  destruct (h_seq_num h <? 1), d; reflexivity.
Qed.
Definition block_of (h : header) (payload : list N) : block :=
  mkBlock h (if h_seq_num h <? 1 then DMeta (metas_from_bytes payload) else DData).
Lemma sync_from_unfold b buf hp p : sync_from_buffer b buf hp p =
  if lenN buf <? 16 then RPanic else
  match header_from_bytes (takeN 16 buf) with
  | RErr e => RErr e | RPanic => RPanic
  | ROk h =>
    if negb (hp h) then RErr FailedPred else
    if lenN buf <? ver_to_block_size (h_version h) then RPanic else
    let pl := slice_data_buf (h_version h) buf in
    if h_crc h =? crc_of (h_version h) (h_uid h) (h_seq_num h) pl
    then (if p (block_of h pl) then ROk (block_of h pl) else RErr FailedPred)
    else RErr InvalidCRC
  end.
Proof.
  unfold sync_from_buffer, sync_from_buffer_header_only, SBX_HEADER_SIZE.
  destruct (lenN buf <? 16); [reflexivity|].
  destruct (header_from_bytes (takeN 16 buf)) as [h|e|]; try reflexivity.
  rewrite switch_canon. cbn [b_header b_data].
  destruct (negb (hp h)); [reflexivity|]. unfold verify_crc.
  destruct (N.ltb_spec (lenN buf) (ver_to_block_size (h_version h))) as [HL|HL].
  - unfold calc_crc, b_version. cbn [b_header].
    destruct (N.ltb_spec (lenN buf) (ver_to_block_size (h_version h))); [reflexivity|lia].
  - rewrite calc_crc_eq by exact HL. unfold b_version, b_uid, b_seq_num, b_crc. cbn [b_header].
    destruct (h_crc h =? _); [|reflexivity]. unfold block_of.
    destruct (N.ltb_spec (h_seq_num h) 1).
    + destruct (N.eqb_spec (h_seq_num h) 0); [|lia]. destruct (b_data b); reflexivity.
    + reflexivity.
Qed.
Theorem sync_history_free b1 b2 buf hp p : sync_from_buffer b1 buf hp p = sync_from_buffer b2 buf hp p.
Proof. rewrite !sync_from_unfold. reflexivity. Qed.
Lemma sync_from_ok b0 buf hp p b : sync_from_buffer b0 buf hp p = ROk b <->
  parse buf = ROk b /\ hp (b_header b) = true /\ p b = true.
Proof.
  unfold parse. rewrite !sync_from_unfold. unfold no_hpred, no_pred. cbn [negb].
  destruct (lenN buf <? 16); [split; [discriminate|intros [? _]; discriminate]|].
  destruct (header_from_bytes (takeN 16 buf)) as [h|e|]; try (split; [discriminate|intros [? _]; discriminate]).
  destruct (lenN buf <? ver_to_block_size (h_version h)).
  { destruct (hp h); cbn [negb]; split; try discriminate; intros [? _]; discriminate. }
  destruct (h_crc h =? _).
  - destruct (hp h) eqn:E1; cbn [negb].
    + destruct (p _) eqn:E2.
      * split; [intro H; injection H as <-; auto|intros (H & _); exact H].
      * split; [discriminate|]. intros (H & _ & F). injection H as <-. congruence.
    + split; [discriminate|]. intros (H & F & _). injection H as <-. cbn in F. congruence.
  - destruct (hp h); cbn [negb]; split; try discriminate; intros [? _]; discriminate.
Qed.
Lemma parse_ok_iff buf b : bytes_ok buf = true ->
  parse buf = ROk b <->
  exists h pl, well_formed_block buf h pl /\ b = block_of h pl.
Proof.
  intro Hb. unfold parse. rewrite sync_from_unfold. unfold no_hpred, no_pred. cbn [negb]. split.
  - destruct (N.ltb_spec (lenN buf) 16); [discriminate|].
    destruct (header_from_bytes (takeN 16 buf)) as [h|e|] eqn:EH; try discriminate.
    destruct (N.ltb_spec (lenN buf) (ver_to_block_size (h_version h))); [discriminate|].
    destruct (N.eqb_spec (h_crc h) (crc_of (h_version h) (h_uid h) (h_seq_num h) (slice_data_buf (h_version h) buf))) as [EC|]; [|discriminate].
    intro E; injection E as <-. exists h, (slice_data_buf (h_version h) buf). split; [|reflexivity].
    apply header_from_bytes_inv in EH as (HL & HB & HO); [|apply bytes_ok_take, Hb].
    pose proof (block_size_pos (h_version h)).
    split; [exact HO|]. split; [unfold slice_data_buf; rewrite lenN_slice; unfold SBX_HEADER_SIZE; lia|].
    split.
    + rewrite HB. unfold slice_data_buf, sliceN, SBX_HEADER_SIZE. rewrite <- take_add. f_equal. lia.
    + rewrite EC. apply crc_is_remainder; [pose proof (ver_usize_lt (h_version h)); lia|].
      apply header_ok_spec in HO as (_ & _ & HU & _).
      rewrite !bytes_ok_app, HU, bytes_ok_be. unfold slice_data_buf. rewrite bytes_ok_slice by exact Hb. reflexivity.
  - intros (h & pl & (HO & HL & HT & HC) & ->).
    pose proof (block_size_pos (h_version h)) as HV.
    pose proof (proj1 (header_ok_spec h) HO) as (Hc & Hu & Hub & Hs).
    assert (LB : ver_to_block_size (h_version h) <= lenN buf).
    { assert (E : lenN (takeN (ver_to_block_size (h_version h)) buf) = lenN (header_to_bytes h ++ pl)) by (rewrite HT; reflexivity).
      rewrite lenN_take, lenN_app, lenN_header_to_bytes in E by exact Hu. lia. }
    destruct (N.ltb_spec (lenN buf) 16); [lia|].
    assert (T16 : takeN 16 buf = header_to_bytes h).
    { replace 16 with (N.min 16 (ver_to_block_size (h_version h))) by lia.
      rewrite <- take_take, HT. apply take_app_exact. rewrite lenN_header_to_bytes by exact Hu. reflexivity. }
    rewrite T16, header_roundtrip by exact HO.
    destruct (N.ltb_spec (lenN buf) (ver_to_block_size (h_version h))); [lia|].
    assert (SD : slice_data_buf (h_version h) buf = pl).
    { unfold slice_data_buf, sliceN, SBX_HEADER_SIZE. rewrite <- drop_take, HT. apply drop_app_exact.
      rewrite lenN_header_to_bytes by exact Hu. reflexivity. }
    cbv zeta. rewrite SD.
    assert (BP : bytes_ok pl = true).
    { rewrite <- SD. apply bytes_ok_slice, Hb. }
    destruct (N.eqb_spec (h_crc h) (crc_of (h_version h) (h_uid h) (h_seq_num h) pl)) as [|NE]; [reflexivity|].
    exfalso. apply NE. eapply is_crc_unique; [exact HC|]. apply crc_is_remainder.
    + pose proof (ver_usize_lt (h_version h)); lia.
    + rewrite !bytes_ok_app, Hub, bytes_ok_be, BP. reflexivity.
Qed.

(* Panics: only when the buffer is shorter than the block announced by its header *)
Lemma sync_no_panic b buf hp p : 4096 <= lenN buf -> sync_from_buffer b buf hp p <> RPanic.
Proof.
  intro H. rewrite sync_from_unfold. destruct (N.ltb_spec (lenN buf) 16); [lia|].
  destruct (header_from_bytes (takeN 16 buf)) as [h|e|] eqn:E; try discriminate.
  - destruct (negb (hp h)); [discriminate|]. pose proof (block_size_pos (h_version h)).
    destruct (N.ltb_spec (lenN buf) (ver_to_block_size (h_version h))); [lia|].
    cbv zeta. destruct (_ =? _); [|discriminate]. destruct (p _); discriminate.
  - intros _. apply (header_from_bytes_no_panic _ E).
Qed.

(* ---- writing ---- *)
Definition do_crc (upd : option bool) : bool := match upd with Some x => x | None => true end.
Lemma sync_to_data b upd buf : b_data b = DData -> ver_to_block_size (b_version b) <= lenN buf ->
  sync_to_buffer b upd buf =
    let b1 := if do_crc upd then set_crc b (crc_of (b_version b) (b_uid b) (b_seq_num b) (slice_data_buf (b_version b) buf)) else b in
    ROk (b1, put_at buf 0 (header_to_bytes (b_header b1))).
Proof.
  intros HD HL. unfold sync_to_buffer. destruct (N.ltb_spec (lenN buf) (ver_to_block_size (b_version b))); [lia|].
  unfold block_type_of. rewrite HD. fold (do_crc upd). unfold update_crc. rewrite calc_crc_eq by exact HL.
  destruct (do_crc upd); reflexivity.
Qed.
Lemma sync_to_meta b upd buf ms : b_data b = DMeta ms -> b_seq_num b = 0 -> Forall field_ok ms ->
  ver_to_block_size (b_version b) <= lenN buf ->
  sync_to_buffer b upd buf =
    if ver_to_block_size (b_version b) - 16 <? fields_size ms then RErr TooMuchMetadata else
    let pl := fields_bytes ms ++ repN (ver_to_block_size (b_version b) - 16 - fields_size ms) 26 in
    let b1 := set_crc b (crc_of (b_version b) (b_uid b) (b_seq_num b) pl) in
    ROk (b1, put_at (put_at buf 16 pl) 0 (header_to_bytes (b_header b1))).
Proof.
  intros HD HS HF HL. unfold sync_to_buffer. destruct (N.ltb_spec (lenN buf) (ver_to_block_size (b_version b))); [lia|].
  unfold block_type_of. rewrite HD, HS. cbn [N.eqb]. rewrite metas_to_bytes_eq by exact HF.
  unfold SBX_HEADER_SIZE. destruct (N.ltb_spec (ver_to_block_size (b_version b) - 16) (fields_size ms)); [reflexivity|].
  cbv zeta. set (pl := fields_bytes ms ++ repN _ 26).
  pose proof (block_size_pos (b_version b)) as HV.
  assert (LP : lenN pl = ver_to_block_size (b_version b) - 16).
  { unfold pl. rewrite lenN_app, fields_bytes_len, lenN_rep by exact HF. lia. }
  unfold update_crc. rewrite calc_crc_eq by (rewrite lenN_put_at by lia; lia). rewrite HS.
  unfold slice_data_buf, SBX_HEADER_SIZE. rewrite <- LP, slice_put_same by lia. reflexivity.
Qed.
Lemma wf_put buf h pl : header_ok h = true -> lenN pl = ver_to_block_size (h_version h) - 16 ->
  bytes_ok pl = true -> ver_to_block_size (h_version h) <= lenN buf ->
  sliceN 16 (ver_to_block_size (h_version h) - 16) buf = pl ->
  h_crc h = crc_of (h_version h) (h_uid h) (h_seq_num h) pl ->
  well_formed_block (put_at buf 0 (header_to_bytes h)) h pl.
Proof.
  intros HO HL HB HT HS HC. pose proof (proj1 (header_ok_spec h) HO) as (Hc & Hu & Hub & Hsq).
  pose proof (lenN_header_to_bytes h Hu) as L16. pose proof (block_size_pos (h_version h)) as HV.
  split; [exact HO|]. split; [exact HL|]. split.
  - unfold put_at. rewrite take_0. cbn [app]. rewrite N.add_0_l, L16, take_app, L16.
    rewrite take_all by lia. f_equal. exact HS.
  - rewrite HC. apply crc_is_remainder; [pose proof (ver_usize_lt (h_version h)); lia|].
    rewrite !bytes_ok_app, Hub, bytes_ok_be, HB. reflexivity.
Qed.
Lemma crc_of_lt v uid seq pl : bytes_ok uid = true -> bytes_ok pl = true -> crc_of v uid seq pl < 65536.
Proof.
  intros H1 H2. apply crc_lt; [pose proof (ver_usize_lt v); lia|].
  rewrite !bytes_ok_app, H1, H2, bytes_ok_be. reflexivity.
Qed.
Lemma header_ok_set_crc b c : header_ok (b_header b) = true -> c < 65536 -> header_ok (b_header (set_crc b c)) = true.
Proof. rewrite !header_ok_spec. destruct b as [[] ?]; cbn. intuition. Qed.

Theorem block_roundtrip b upd buf b' buf' :
  block_ok b -> bytes_ok buf = true -> (is_data b = true -> upd <> Some false) ->
  sync_to_buffer b upd buf = ROk (b', buf') ->
  lenN buf' = lenN buf /\
  (is_data b = true -> slice_data_buf (b_version b) buf' = slice_data_buf (b_version b) buf) /\
  (forall i, ver_to_block_size (b_version b) <= i -> nthN buf' i = nthN buf i) /\
  exists r, (forall b0, sync_from_buffer b0 buf' no_hpred no_pred = ROk r) /\
    b_version r = b_version b /\ b_uid r = b_uid b /\ b_seq_num r = b_seq_num b /\
    match b_data b with DData => b_data r = DData | DMeta ms => b_data r = DMeta (map canon_field ms) end.
Proof.
  intros [HO HD] HB HU E.
  pose proof (proj1 (header_ok_spec (b_header b)) HO) as (Hc & Hu & Hub & Hsq).
  pose proof (block_size_pos (b_version b)) as HV.
  destruct (N.lt_ge_cases (lenN buf) (ver_to_block_size (b_version b))) as [HL|HL].
  { unfold sync_to_buffer in E. destruct (N.ltb_spec (lenN buf) (ver_to_block_size (b_version b))); [discriminate|lia]. }
  destruct (b_data b) as [|ms] eqn:ED.
  - rewrite sync_to_data in E by assumption. cbv zeta in E.
    assert (DC : do_crc upd = true).
    { unfold is_data, block_type_of in HU. rewrite ED in HU. destruct upd as [[]|]; try reflexivity.
      exfalso; apply HU; reflexivity. }
    rewrite DC in E. apply ROk_inj in E. apply pair_inj in E as [<- <-].
    set (c := crc_of _ _ _ _) in *. set (b1 := set_crc b c).
    assert (H1 : header_ok (b_header b1) = true).
    { apply header_ok_set_crc; [exact HO|]. apply crc_of_lt; [exact Hub|apply bytes_ok_slice, HB]. }
    assert (L16 : lenN (header_to_bytes (b_header b1)) = 16) by (apply lenN_header_to_bytes; exact Hu).
    split; [apply lenN_put_at; lia|]. split; [|split].
    + intros _. unfold slice_data_buf, SBX_HEADER_SIZE. apply slice_put_other; lia.
    + intros i Hi. rewrite nthN_put_at by lia. destruct (N.ltb_spec i (0 + lenN (header_to_bytes (b_header b1)))); [lia|].
      rewrite andb_false_r. reflexivity.
    + exists (block_of (b_header b1) (slice_data_buf (b_version b) buf)). split.
      * intro b0. apply sync_from_ok. split; [|split; reflexivity].
        apply parse_ok_iff. { apply bytes_ok_put_at; [exact HB|]. apply bytes_ok_header. exact Hub. }
        exists (b_header b1), (slice_data_buf (b_version b) buf). split; [|reflexivity].
        apply wf_put; try assumption; try reflexivity.
        -- unfold slice_data_buf. rewrite lenN_slice. unfold SBX_HEADER_SIZE. change (h_version (b_header b1)) with (b_version b). lia.
        -- apply bytes_ok_slice, HB.
      * unfold block_of, b_version, b_uid, b_seq_num. cbn [b_header b_data set_crc b1 h_version h_uid h_seq_num].
        repeat split. unfold b_seq_num in HD. destruct (N.ltb_spec (h_seq_num (b_header b)) 1); [lia|reflexivity].
  - destruct HD as (HS0 & HF & HSH). rewrite (sync_to_meta b upd buf ms) in E by assumption.
    destruct (N.ltb_spec (ver_to_block_size (b_version b) - 16) (fields_size ms)); [discriminate|].
    cbv zeta in E. set (pl := fields_bytes ms ++ repN _ 26) in *.
    assert (LP : lenN pl = ver_to_block_size (b_version b) - 16).
    { unfold pl. rewrite lenN_app, fields_bytes_len, lenN_rep by exact HF. lia. }
    assert (BP : bytes_ok pl = true).
    { unfold pl. rewrite bytes_ok_app, fields_bytes_ok by exact HF. apply bytes_ok_rep; lia. }
    set (c := crc_of _ _ _ _) in *. apply ROk_inj in E. apply pair_inj in E as [<- <-]. set (b1 := set_crc b c).
    assert (H1 : header_ok (b_header b1) = true).
    { apply header_ok_set_crc; [exact HO|]. apply crc_of_lt; [exact Hub|exact BP]. }
    assert (L16 : lenN (header_to_bytes (b_header b1)) = 16) by (apply lenN_header_to_bytes; exact Hu).
    assert (LB : lenN (put_at buf 16 pl) = lenN buf) by (apply lenN_put_at; lia).
    split; [rewrite lenN_put_at; lia|]. split; [|split].
    + unfold is_data, block_type_of. rewrite ED. discriminate.
    + intros i Hi. rewrite nthN_put_at by lia. destruct (N.ltb_spec i (0 + lenN (header_to_bytes (b_header b1)))); [lia|].
      rewrite andb_false_r. rewrite nthN_put_at by lia. destruct (N.ltb_spec i (16 + lenN pl)); [lia|].
      rewrite andb_false_r. reflexivity.
    + exists (block_of (b_header b1) pl). split.
      * intro b0. apply sync_from_ok. split; [|split; reflexivity].
        apply parse_ok_iff. { apply bytes_ok_put_at; [apply bytes_ok_put_at; assumption|]. apply bytes_ok_header. exact Hub. }
        exists (b_header b1), pl. split; [|reflexivity].
        apply wf_put; try assumption; try reflexivity.
        -- rewrite LB. exact HL.
        -- change (h_version (b_header b1)) with (b_version b). rewrite <- LP. apply slice_put_same. lia.
      * unfold block_of, b_version, b_uid, b_seq_num. cbn [b_header b_data set_crc b1 h_version h_uid h_seq_num].
        repeat split. unfold b_seq_num in HS0. rewrite HS0. cbn [N.ltb N.compare].
        f_equal. unfold metas_from_bytes, pl. rewrite meta_p_fields by exact HF. apply filter_valid; assumption.
Qed.

(* ---- error detection at block level ---- *)
Lemma par_app a b : par (a ++ b) = xorb (par a) (par b).
Proof.
  induction a as [|x a IH]; cbn [app par fold_right]; [fold (par b); destruct (par b); reflexivity|].
  fold (par (a ++ b)). fold (par a). rewrite IH. symmetry. apply xorb_assoc.
Qed.
Lemma par_rev a : par (rev a) = par a.
Proof.
  induction a as [|x a IH]; cbn [rev]; [reflexivity|]. rewrite par_app, IH. cbn [par fold_right].
  fold (par a). rewrite xorb_false_r. apply xorb_comm.
Qed.
Lemma xorbits_app a b c d : length a = length c -> xorbits (a ++ b) (c ++ d) = xorbits a c ++ xorbits b d.
Proof. revert c. induction a as [|x a IH]; intros [|y c] H; cbn in *; try lia; [reflexivity|]. rewrite IH by lia. reflexivity. Qed.
Lemma msg_bits_app a b : msg_bits (a ++ b) = msg_bits a ++ msg_bits b.
Proof. unfold msg_bits. apply flat_map_app. Qed.
Lemma length_msg_bits a b : lenN a = lenN b -> length (msg_bits a) = length (msg_bits b).
Proof. intro H. pose proof (lenN_msg_bits a). pose proof (lenN_msg_bits b). unfold lenN in *. lia. Qed.
Lemma odd_distance_app a b c d : lenN a = lenN c -> lenN b = lenN d ->
  N.odd (bit_distance (a ++ b) (c ++ d)) = xorb (N.odd (bit_distance a c)) (N.odd (bit_distance b d)).
Proof.
  intros H1 H2. rewrite !bit_distance_par by (rewrite ?lenN_app; lia).
  rewrite !msg_bits_app, xorbits_app, par_app by (apply length_msg_bits; exact H1). reflexivity.
Qed.
Lemma odd_distance_refl a : N.odd (bit_distance a a) = false.
Proof.
  rewrite bit_distance_par by reflexivity. generalize (msg_bits a). intro l.
  induction l as [|x l IH]; [reflexivity|]. cbn [xorbits par fold_right]. fold (par (xorbits l l)).
  rewrite IH, xorb_nilpotent. reflexivity.
Qed.
Lemma crc_field_bits c : c < 65536 -> msg_bits (be_bytes 2 c) = rev (map (N.testbit c) (rangeN 0 16)).
Proof.
  intro H. cbn [be_bytes]. change (256 ^ N.of_nat 1) with 256. change (256 ^ N.of_nat 0) with 1. rewrite N.div_1_r.
  rewrite (N.mod_small (c / 256)) by lia.
  unfold msg_bits. cbn [flat_map]. unfold byte_bits. cbn [app].
  change (rev (map (N.testbit c) (rangeN 0 16))) with
    (map (N.testbit c) [15;14;13;12;11;10;9;8;7;6;5;4;3;2;1;0]). cbn [map].
  assert (HI : forall i, N.testbit (c / 256) i = N.testbit c (i + 8)).
  { intro i. change 256 with (2 ^ 8). rewrite <- N.shiftr_div_pow2, N.shiftr_spec'. reflexivity. }
  assert (LO : forall i, i < 8 -> N.testbit (c mod 256) i = N.testbit c i).
  { intros i Hi. change 256 with (2 ^ 8). apply N.mod_pow2_bits_low. exact Hi. }
  rewrite !HI, !LO by lia. reflexivity.
Qed.
Lemma xorbits_map {A} (f g : A -> bool) l : xorbits (map f l) (map g l) = map (fun i => xorb (f i) (g i)) l.
Proof. induction l as [|x l IH]; cbn; [reflexivity|]. rewrite IH. reflexivity. Qed.
Lemma crc_field_par c c' : c < 65536 -> c' < 65536 ->
  N.odd (bit_distance (be_bytes 2 c) (be_bytes 2 c')) = par16 (N.lxor c c').
Proof.
  intros H H'. rewrite bit_distance_par by reflexivity. rewrite !crc_field_bits by assumption.
  rewrite <- !map_rev, xorbits_map, map_rev, par_rev. unfold par16. f_equal. apply map_ext.
  intro i. symmetry. apply N.lxor_spec.
Qed.

(* Two well-formed blocks in buffers that agree on the first 4 bytes *)
Lemma wf_version buf h pl : well_formed_block buf h pl -> nthN buf 3 = ver_to_usize (h_version h).
Proof.
  intros (HO & HL & HT & _). pose proof (proj1 (header_ok_spec h) HO) as (_ & Hu & _ & _).
  pose proof (block_size_pos (h_version h)).
  assert (E : nthN (takeN (ver_to_block_size (h_version h)) buf) 3 = nthN (header_to_bytes h ++ pl) 3) by (rewrite HT; reflexivity).
  rewrite nthN_take in E. destruct (N.ltb_spec 3 (ver_to_block_size (h_version h))); [|lia]. rewrite E.
  rewrite nthN_app, lenN_header_to_bytes by exact Hu. change (3 <? 16) with true. cbn iota.
  destruct (header_fields h Hu) as (_ & -> & _). destruct (h_version h); reflexivity.
Qed.
Lemma usize_inj v w : ver_to_usize v = ver_to_usize w -> v = w.
Proof. destruct v, w; cbn; congruence. Qed.
Definition body (h : header) (pl : list N) : list N := h_uid h ++ be_bytes 4 (h_seq_num h) ++ pl.
Lemma wf_split buf h pl : well_formed_block buf h pl ->
  takeN (ver_to_block_size (h_version h)) buf
  = (SBX_SIGNATURE ++ [ver_to_usize (h_version h)]) ++ be_bytes 2 (h_crc h) ++ body h pl.
Proof.
  intros (HO & HL & HT & _). rewrite HT. unfold header_to_bytes, body. rewrite <- !app_assoc.
  destruct (h_version h); reflexivity.
Qed.
Lemma lenN_body buf h pl : well_formed_block buf h pl -> lenN (body h pl) = ver_to_block_size (h_version h) - 6.
Proof.
  intros (HO & HL & HT & _). pose proof (proj1 (header_ok_spec h) HO) as (_ & Hu & _ & _).
  pose proof (block_size_pos (h_version h)). unfold body. rewrite !lenN_app, lenN_be4. lia.
Qed.
Lemma wf_len buf h pl : well_formed_block buf h pl -> ver_to_block_size (h_version h) <= lenN buf.
Proof.
  intros (HO & HL & HT & _). pose proof (proj1 (header_ok_spec h) HO) as (_ & Hu & _ & _).
  pose proof (block_size_pos (h_version h)).
  assert (E : lenN (takeN (ver_to_block_size (h_version h)) buf) = lenN (header_to_bytes h ++ pl)) by (rewrite HT; reflexivity).
  rewrite lenN_take, lenN_app, lenN_header_to_bytes in E by exact Hu. lia.
Qed.
Lemma nth_body buf h pl i : well_formed_block buf h pl -> i < lenN (body h pl) -> nthN (body h pl) i = nthN buf (6 + i).
Proof.
  intros W Hi. pose proof (lenN_body _ _ _ W) as LB. pose proof (wf_split _ _ _ W) as S.
  assert (E : nthN (takeN (ver_to_block_size (h_version h)) buf) (6 + i) = nthN buf (6 + i)).
  { rewrite nthN_take. destruct (N.ltb_spec (6 + i) (ver_to_block_size (h_version h))); [reflexivity|lia]. }
  rewrite <- E, S. rewrite app_assoc, nthN_app.
  change (lenN ((SBX_SIGNATURE ++ [ver_to_usize (h_version h)]) ++ be_bytes 2 (h_crc h))) with 6.
  destruct (N.ltb_spec (6 + i) 6); [lia|]. f_equal. lia.
Qed.
Lemma wf_bytes_body buf h pl : bytes_ok buf = true -> well_formed_block buf h pl -> bytes_ok (body h pl) = true.
Proof.
  intros HB (HO & HL & HT & _). pose proof (proj1 (header_ok_spec h) HO) as (_ & Hu & Hub & _).
  unfold body. rewrite !bytes_ok_app, Hub, bytes_ok_be.
  assert (B : bytes_ok (header_to_bytes h ++ pl) = true) by (rewrite <- HT; apply bytes_ok_take, HB).
  rewrite bytes_ok_app in B. apply andb_true_iff in B as [_ ->]. reflexivity.
Qed.
Lemma wf_crc buf h pl : bytes_ok buf = true -> well_formed_block buf h pl ->
  h_crc h = crc_ccitt_generic (ver_to_usize (h_version h)) (body h pl).
Proof.
  intros HB W. pose proof (wf_bytes_body _ _ _ HB W) as B. destruct W as (HO & HL & HT & HC).
  eapply is_crc_unique; [exact HC|]. apply crc_is_remainder; [pose proof (ver_usize_lt (h_version h)); lia|exact B].
Qed.
Theorem burst_not_wf buf buf' h pl h' pl' k :
  bytes_ok buf = true -> bytes_ok buf' = true ->
  well_formed_block buf h pl ->
  same_outside 6 (ver_to_block_size (h_version h)) buf buf' -> buf <> buf' ->
  (forall i, bitN buf i <> bitN buf' i -> k <= i < k + 16) ->
  ~ well_formed_block buf' h' pl'.
Proof.
  intros HB HB' W [HL HS] HNE HW W'.
  assert (EV : h_version h = h_version h').
  { apply usize_inj. rewrite <- (wf_version _ _ _ W), <- (wf_version _ _ _ W'). apply HS. left; lia. }
  pose proof (block_size_pos (h_version h)) as HV.
  pose proof (lenN_body _ _ _ W) as LB. pose proof (lenN_body _ _ _ W') as LB'. rewrite <- EV in LB'.
  pose proof (wf_crc _ _ _ HB W) as C. pose proof (wf_crc _ _ _ HB' W') as C'. rewrite <- EV in C'.
  assert (EC : h_crc h = h_crc h').
  { pose proof (wf_split _ _ _ W) as S. pose proof (wf_split _ _ _ W') as S'. rewrite <- EV in S'.
    assert (Q : forall i, i < 6 -> nthN ((SBX_SIGNATURE ++ [ver_to_usize (h_version h)]) ++ be_bytes 2 (h_crc h) ++ body h pl) i
       = nthN ((SBX_SIGNATURE ++ [ver_to_usize (h_version h)]) ++ be_bytes 2 (h_crc h') ++ body h' pl') i).
    { intros i Hi. rewrite <- S, <- S', !nthN_take. destruct (i <? _); [|reflexivity]. apply HS. lia. }
    pose proof (Q 4 ltac:(lia)) as Q4. pose proof (Q 5 ltac:(lia)) as Q5.
    unfold nthN in Q4, Q5. cbn [N.to_nat] in *.
    change (Pos.to_nat 4) with 4%nat in Q4. change (Pos.to_nat 5) with 5%nat in Q5.
    cbn [SBX_SIGNATURE app nth be_bytes] in Q4, Q5.
    change (256 ^ N.of_nat 1) with 256 in *. change (256 ^ N.of_nat 0) with 1 in *.
    destruct W as (HO & _). destruct W' as (HO' & _). apply header_ok_spec in HO, HO'.
    change (N.to_nat 4) with 4%nat in Q4. change (N.to_nat 5) with 5%nat in Q5. cbn [nth] in Q4, Q5. lia. }
  revert EC. rewrite C, C'.
  apply (crc_detects_burst (ver_to_usize (h_version h)) (body h pl) (body h' pl') (k - 48)).
  - pose proof (ver_usize_lt (h_version h)); lia.
  - apply (wf_bytes_body _ _ _ HB W).
  - apply (wf_bytes_body _ _ _ HB' W').
  - lia.
  - intro E. apply HNE. apply list_ext_N; [exact HL|]. intros i Hi.
    destruct (N.lt_ge_cases i 6); [apply HS; lia|].
    destruct (N.lt_ge_cases i (ver_to_block_size (h_version h))); [|apply HS; lia].
    replace i with (6 + (i - 6)) by lia.
    rewrite <- (nth_body _ _ _ (i - 6) W), <- (nth_body _ _ _ (i - 6) W') by lia. rewrite E. reflexivity.
  - intros i Hi HD.
    assert (B1 : bitN (body h pl) i = bitN buf (i + 48)).
    { unfold bitN. rewrite nth_body with (buf := buf) by (try exact W; lia).
      replace ((i + 48) / 8) with (6 + i / 8) by lia. f_equal. lia. }
    assert (B2 : bitN (body h' pl') i = bitN buf' (i + 48)).
    { unfold bitN. rewrite nth_body with (buf := buf') by (try exact W'; lia).
      replace ((i + 48) / 8) with (6 + i / 8) by lia. f_equal. lia. }
    rewrite B1, B2 in HD. apply HW in HD. lia.
Qed.
Lemma same_outside_split lo hi buf buf' : lo <= hi -> hi <= lenN buf -> same_outside lo hi buf buf' ->
  takeN lo buf = takeN lo buf' /\ dropN hi buf = dropN hi buf'.
Proof.
  intros H1 H2 [HL HS]. split; apply list_ext_N.
  - rewrite !lenN_take, HL. reflexivity.
  - intros i _. rewrite !nthN_take. destruct (N.ltb_spec i lo); [|reflexivity]. apply HS. lia.
  - rewrite !lenN_drop, HL. reflexivity.
  - intros i _. rewrite !nthN_drop. apply HS. lia.
Qed.
Theorem odd_flips_not_wf buf buf' h pl h' pl' :
  bytes_ok buf = true -> bytes_ok buf' = true ->
  well_formed_block buf h pl ->
  same_outside 4 (ver_to_block_size (h_version h)) buf buf' ->
  N.odd (bit_distance buf buf') = true ->
  ~ well_formed_block buf' h' pl'.
Proof.
  intros HB HB' W HSO HOD W'. pose proof HSO as [HL HS].
  assert (EV : h_version h = h_version h').
  { apply usize_inj. rewrite <- (wf_version _ _ _ W), <- (wf_version _ _ _ W'). apply HS. left; lia. }
  pose proof (block_size_pos (h_version h)) as HV. pose proof (wf_len _ _ _ W) as LW.
  pose proof (lenN_body _ _ _ W) as LB. pose proof (lenN_body _ _ _ W') as LB'. rewrite <- EV in LB'.
  pose proof (wf_crc _ _ _ HB W) as C. pose proof (wf_crc _ _ _ HB' W') as C'. rewrite <- EV in C'.
  destruct (same_outside_split 4 (ver_to_block_size (h_version h)) buf buf' ltac:(lia) LW HSO) as [_ ED].
  pose proof (wf_split _ _ _ W) as S. pose proof (wf_split _ _ _ W') as S'. rewrite <- EV in S'.
  rewrite <- (take_drop (ver_to_block_size (h_version h)) buf), <- (take_drop (ver_to_block_size (h_version h)) buf') in HOD.
  rewrite S, S', ED in HOD.
  rewrite !odd_distance_app in HOD by (rewrite ?lenN_app; cbn [be_bytes]; rewrite ?lenN_cons; lia).
  rewrite !odd_distance_refl, xorb_false_l, xorb_false_r in HOD.
  destruct W as (HO & W2). destruct W' as (HO' & W2').
  pose proof (proj1 (header_ok_spec h) HO) as (Hc & _). pose proof (proj1 (header_ok_spec h') HO') as (Hc' & _).
  rewrite crc_field_par in HOD by assumption. rewrite C, C', crc_parity, xorb_nilpotent in HOD; [discriminate| | | |].
  - pose proof (ver_usize_lt (h_version h)); lia.
  - apply (wf_bytes_body buf h pl HB). split; assumption.
  - apply (wf_bytes_body buf' h' pl' HB'). split; assumption.
  - lia.
Qed.
(* a change confined to the CRC field is always seen *)
Theorem crc_field_not_wf buf buf' h pl h' pl' :
  bytes_ok buf = true -> bytes_ok buf' = true ->
  well_formed_block buf h pl ->
  same_outside 4 6 buf buf' -> buf <> buf' ->
  ~ well_formed_block buf' h' pl'.
Proof.
  intros HB HB' W [HL HS] HNE W'.
  assert (EV : h_version h = h_version h').
  { apply usize_inj. rewrite <- (wf_version _ _ _ W), <- (wf_version _ _ _ W'). apply HS. left; lia. }
  pose proof (block_size_pos (h_version h)) as HV.
  pose proof (lenN_body _ _ _ W) as LB. pose proof (lenN_body _ _ _ W') as LB'. rewrite <- EV in LB'.
  pose proof (wf_crc _ _ _ HB W) as C. pose proof (wf_crc _ _ _ HB' W') as C'. rewrite <- EV in C'.
  assert (EB : body h pl = body h' pl').
  { apply list_ext_N; [lia|]. intros i Hi. rewrite (nth_body _ _ _ i W), (nth_body _ _ _ i W') by lia. apply HS. lia. }
  assert (EC : h_crc h = h_crc h') by (rewrite C, C', EB; reflexivity).
  apply HNE. pose proof (wf_split _ _ _ W) as S. pose proof (wf_split _ _ _ W') as S'. rewrite <- EV in S'.
  rewrite <- EC, <- EB in S'.
  rewrite <- (take_drop (ver_to_block_size (h_version h)) buf), <- (take_drop (ver_to_block_size (h_version h)) buf').
  rewrite S, S'. f_equal. apply list_ext_N; [rewrite !lenN_drop; lia|]. intros i _. rewrite !nthN_drop. apply HS. lia.
Qed.
