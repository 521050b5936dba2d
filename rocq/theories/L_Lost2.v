(* Decoding blocks of a container that come in any order. *)
From Coq Require Import Permutation Sorted.
From Verif Require Import M_Base M_Specs M_Header M_Multihash M_Metadata M_Block M_Index M_Buffer M_Ranges M_Scan M_Encode M_Decode S_Crc S_Meta S_Block S_Index S_Container S_Encode S_Scan S_Decode S_Lost.
From Verif Require Import L_Base L_Header L_Block L_Block2 L_Index L_Ranges L_Ref L_Scan L_File L_Intact L_Intact2 L_Decode L_Decode2 L_Roundtrip P_Roundtrip L_Lost.

Section Heap.
Variables (v : version) (uid : list N) (o : dpb) (rs : codec) (ms : list metadata) (data f0 : list N) (n : N) (hp : list piece).
Hypothesis IT : intact v uid true o rs ms data f0 n.
Let bs := ver_to_block_size v.
Let g := concat (map bytes_of hp).
Hypothesis HP : Forall (fun q => exists h pl, q = Blk h pl /\ piece_ok q /\ sound h pl /\ h_version h = v /\ h_uid h = uid /\
  exists i, block_at v uid f0 (i * bs) (h_seq_num h) pl) hp.
Hypothesis GB : bytes_ok g = true.
Hypothesis GL : lenN g < 18446744073709551616.
Lemma heap_disk : disk_of hp [] g.
Proof using HP.
  clear GB GL. split; [symmetry; apply app_nil_r|]. split; [reflexivity|]. revert HP. apply Forall_impl. intros q (h & pl & -> & OK & _). exact OK.
Qed.
Lemma heap_start a b : hp = a ++ b -> start_at a = lenN a * bs.
Proof using HP.
  clear GB GL. intro E. rewrite E in HP. apply Forall_app in HP as [HA _]. clear E. induction HA as [|q a (h & pl & -> & OK & _ & V & _) HA IH]; [reflexivity|].
  unfold start_at in *. cbn [map concat]. rewrite lenN_app, lenN_cons. rewrite IH, (piece_len _ OK). rewrite V. fold bs. lia.
Qed.
Lemma heap_len : lenN g = lenN hp * bs.
Proof using HP. clear GB GL. rewrite <- (heap_start hp []); [reflexivity|symmetry; apply app_nil_r]. Qed.
Lemma heap_in h pl : In (Blk h pl) hp -> h_version h = v /\ h_uid h = uid /\ sound h pl /\ exists i, block_at v uid f0 (i * bs) (h_seq_num h) pl.
Proof using HP. intro I. apply (proj1 (Forall_forall _ _) HP) in I as (h' & pl' & E & OK & S & V & U & B). injection E as <- <-. auto. Qed.
(* block number k of the file *)
Lemma heap_block a h pl b : hp = a ++ Blk h pl :: b -> block_at v uid g (lenN a * bs) (h_seq_num h) pl.
Proof using HP.
  intro E. destruct (heap_in h pl) as (V & U & S & _); [rewrite E; apply in_elt|]. exists h. split; [|auto]. rewrite <- (heap_start a _ E). fold bs.
  pose proof (piece_slice _ _ _ heap_disk a h pl b E) as SL. rewrite V in SL. fold bs in SL. rewrite SL. rewrite <- (app_nil_r (bytes_of _)). apply blk_wf; [|exact S].
  pose proof heap_disk as (_ & _ & OK). rewrite E in OK. apply Forall_app in OK as [_ OK]. inversion OK; assumption.
Qed.
Lemma heap_read k seq pl : (k + 1) * bs <= lenN g -> block_at v uid g (k * bs) seq pl -> exists a h b, hp = a ++ Blk h pl :: b /\ h_seq_num h = seq.
Proof using HP.
  clear GB GL. intros HK HBk. rewrite heap_len in HK. assert (K : k < lenN hp). { pose proof (block_size_pos v) as BP. fold bs in BP. apply N.mul_le_mono_pos_r in HK; lia. }
  assert (SP : exists a q b, hp = a ++ q :: b /\ lenN a = k).
  { exists (takeN k hp). destruct (dropN k hp) as [|q b] eqn:ED.
    - exfalso. assert (lenN (dropN k hp) = 0) by (rewrite ED; reflexivity). rewrite lenN_drop in *. lia.
    - exists q, b. rewrite <- ED, take_drop. split; [reflexivity|]. rewrite lenN_take. lia. }
  destruct SP as (a & q & b & E & <-).
  assert (Q : exists h' pl', q = Blk h' pl'). { pose proof HP as HP'. rewrite E in HP'. apply Forall_app in HP' as [_ HP']. inversion HP' as [|? ? (h' & pl' & -> & _) _]; subst. eauto. }
  destruct Q as (h' & pl' & ->). destruct (block_at_unique _ _ _ _ _ _ _ _ HBk (heap_block a h' pl' b E)) as [-> ->]. exists a, h', b. auto.
Qed.
Lemma heap_ref choice mis : (exists h pl, In (Blk h pl) hp /\ h_seq_num h = 0) -> (choice = Prefer TMeta \/ choice = MustBe TMeta) ->
  exists pos ref, get_ref_block g None None mis choice = ROk (Some (pos, ref)) /\ b_version ref = v /\ b_uid ref = uid /\ b_data ref = DMeta ms.
Proof using All.
  intros (h0 & pl0 & I0 & S0) CH.
  pose proof (get_ref_block_ok g None None mis choice GB) as K. rewrite range_whole in K by (exact GL || (unfold mult_of, SBX_SCAN_BLOCK_SIZE; lia)).
  destruct (K ltac:(lia)) as (r & E & R). clear K. rewrite E. clear E. rewrite N.add_0_l in R.
  assert (NB : no_block g 0 (N.max 1 (lenN g)) (of_type TMeta) -> False).
  { intro NB. apply in_split in I0 as (a & b & E). apply (NB (start_at a) h0 pl0); [|apply (block_piece _ _ _ heap_disk GB a _ b h0 pl0 E)|exact S0].
    - apply (pieces_land _ _ _ heap_disk GB _ (N.le_max_r 1 _) a _ b E).
    - split; [reflexivity|]. apply (heap_in h0 pl0). rewrite E. apply in_elt. }
  assert (F : found g 0 (N.max 1 (lenN g)) (of_type TMeta) r).
  { destruct CH as [-> | ->]; cbn [ref_spec] in R; [destruct R as [[_ R]|[R _]]; [exact R|exfalso; exact (NB R)]|exact R]. }
  destruct r as [[pos b]|]; cbn [found] in F; [|exfalso; exact (NB F)].
  destruct F as (h & pl & (L & W & T & _) & RH & RD). rewrite N.add_0_l in L, W.
  destruct (lands_pieces _ _ _ heap_disk GB _ _ L) as (a & c & E & ->).
  destruct c as [|q c].
  { exfalso. rewrite app_nil_r in E. subst a. apply wf_header in W as [_ W]. unfold start_at in W. fold g in W. pose proof (block_size_pos (h_version h)). lia. }
  apply (block_piece _ _ _ heap_disk GB a q c h pl E) in W as [-> SD].
  destruct (heap_in h pl) as (V & U & _ & i & B); [rewrite E; apply in_elt|]. cbn [of_type] in T. rewrite T in B, RD. cbn in RD.
  exists (start_at a), b. split; [reflexivity|]. unfold b_version, b_uid. rewrite RH. split; [exact V|]. split; [exact U|]. rewrite RD. f_equal.
  destruct (block_inv _ _ _ _ _ _ _ _ _ IT _ _ _ B) as [[_ M]|(A & _)]; [|lia].
  destruct (meta_blk _ _ _ _ _ _ _ _ _ IT i M) as (_ & h' & pl' & W' & V' & U' & S' & <-).
  assert (B' : block_at v uid f0 (i * bs) 0 pl') by (exists h'; auto). destruct (block_at_unique _ _ _ _ _ _ _ _ B B') as [_ ->]. reflexivity.
Qed.
(* the choices made at the start *)
Lemma heap_setup q : plain q ->
  match o with Some (d, p, _) => get_meta_by_id ms IRSD = Some (RSD d) /\ get_meta_by_id ms IRSP = Some (RSP p) /\ dc_burst q <> None | None => True end ->
  (dc_choice q = Prefer TMeta \/ dc_choice q = MustBe TMeta) -> (exists h pl, In (Blk h pl) hp /\ h_seq_num h = 0) ->
  exists ref o', setup q g ref o' (N.max 1 (lenN g)) 0 /\ b_version ref = v /\ b_uid ref = uid /\ b_data ref = DMeta ms /\
    match o, o' with Some (d, p, _), Some (d', p', b) => d' = d /\ p' = p /\ dc_burst q = Some b | None, None => True | _, _ => False end.
Proof using All.
  intros PL MD CH MB. destruct (heap_ref (dc_choice q) (dc_misalign q) MB CH) as (pos & ref & GR & RV & RU & RD).
  pose proof PL as (P1 & P2 & P3 & P4 & P5 & P6).
  assert (EX : exists o', get_data_par_burst g (dc_burst q) (guess_from_param (dc_guess q) (dc_from q)) (dc_misalign q) ref = ROk o' /\
    match o, o' with Some (d, p, _), Some (d', p', b) => d' = d /\ p' = p /\ dc_burst q = Some b | None, None => True | _, _ => False end).
  { unfold get_data_par_burst. rewrite RV. assert (RS : ver_uses_rs v = match o with Some _ => true | None => false end) by apply IT.
    destruct o as [[[d p] B]|]; rewrite RS; [|exists None; split; [reflexivity|exact Logic.I]]. destruct MD as (M1 & M2 & M3).
    assert (RDD : get_RSD ref = ROk d) by (unfold get_RSD; rewrite RD, M1; reflexivity).
    assert (RP : get_RSP ref = ROk p) by (unfold get_RSP; rewrite RD, M2; reflexivity).
    rewrite RDD, RP. cbn [rbind]. unfold get_burst_or_guess. destruct (dc_burst q) as [b|]; [|contradiction]. cbn [rbind]. exists (Some (d, p, b)). auto. }
  destruct EX as (o' & GD & EO). exists ref, o'. split; [|auto].
  split; [exists pos; rewrite P1, P2, P4; exact GR|]. split; [exact GD|]. apply plain_range; assumption.
Qed.
(* whenever decoding succeeds, the data comes out *)
Theorem heap_right H order cpus limit q old dout : 1 <= cpus -> plain q ->
  match o with Some (d, p, _) => get_meta_by_id ms IRSD = Some (RSD d) /\ get_meta_by_id ms IRSP = Some (RSP p) | None => True end ->
  get_meta_by_id ms IFSZ = Some (FSZ (lenN data)) -> (dc_choice q = Prefer TMeta \/ dc_choice q = MustBe TMeta) ->
  (exists h pl, In (Blk h pl) hp /\ h_seq_num h = 0) ->
  (forall i seq pl, block_at v uid f0 (i * bs) seq pl -> (exists j, is_chunk o seq j /\ j * (bs - 16) < lenN data) -> exists h, In (Blk h pl) hp /\ h_seq_num h = seq) ->
  decode_file H order cpus limit q g (ToFile old) = ROk dout -> do_out dout = data.
Proof using All.
  intros CP PL MD FZ CH MB ALL E. pose proof PL as (P1 & P2 & P3 & P4 & P5 & P6).
  destruct (decode_file_char _ _ _ _ _ _ _ _ CP GB GL E) as (ref & o' & len & lo & ST & _).
  destruct (heap_ref (dc_choice q) (dc_misalign q) MB CH) as (pos & ref' & GR & RV & RU & RD).
  assert (ref' = ref /\ len = N.max 1 (lenN g) /\ lo = 0) as (-> & -> & ->).
  { pose proof ST as ((pos' & G') & _ & SR). rewrite P1, P2, P4 in G'. pose proof (eq_trans (eq_sym GR) G') as G2. rewrite plain_range in SR by assumption. split; [|split]; congruence. }
  destruct (c18_damaged_container v uid o rs ms data f0 n H order cpus limit q g old dout ref o' _ _ IT MD FZ CP GB GL P6 E ST RV RU RD) as [L C].
  { intros k seq pl [[_ VK] B]. fold bs in VK, B. rewrite N.add_0_l in VK, B. destruct (heap_read k seq pl VK B) as (a & h & b & EH & <-).
    destruct (heap_in h pl) as (_ & _ & _ & X); [rewrite EH; apply in_elt|exact X]. }
  fold bs in C. apply list_ext_N; [exact L|]. intros i Hi. rewrite L in Hi. destruct (C i Hi) as [A _].
  set (ds := bs - 16) in *. assert (DP : 1 <= ds) by (pose proof (block_size_pos v); unfold ds, bs; lia).
  pose proof (N.div_mod' i ds) as DM. pose proof (N.mod_lt i ds ltac:(lia)) as ML.
  assert (JL : i / ds * ds < lenN data) by lia.
  destruct (chunk_seq _ _ _ _ _ _ _ _ _ IT (i / ds)) as (seq & Hs & CHK); [exact JL|].
  destruct (data_block _ _ _ _ _ _ _ _ _ IT seq Hs) as [BA _].
  destruct (ALL _ _ _ BA (ex_intro _ _ (conj CHK JL))) as (h & IH & SQ). apply in_split in IH as (a & b & EH).
  pose proof (heap_block a h _ b EH) as BK. rewrite SQ in BK. apply (A (lenN a) seq (payload_of v o rs data seq)); [|exact CHK]. split; [|rewrite N.add_0_l; exact BK].
  pose proof heap_len as HL. rewrite EH, lenN_app, lenN_cons in HL. pose proof (block_size_pos v) as BP. fold bs in BP. fold bs. clear - HL BP. split; nia.
Qed.
(* and it succeeds if the burst level is given *)
Theorem heap_decodes H order cpus limit q old : 1 <= cpus -> plain q ->
  match o with Some (d, p, _) => get_meta_by_id ms IRSD = Some (RSD d) /\ get_meta_by_id ms IRSP = Some (RSP p) /\ dc_burst q <> None | None => True end ->
  (dc_choice q = Prefer TMeta \/ dc_choice q = MustBe TMeta) -> (dc_force_write q = true \/ old = None) ->
  (exists h pl, In (Blk h pl) hp /\ h_seq_num h = 0) ->
  exists dout, decode_file H order cpus limit q g (ToFile old) = ROk dout.
Proof using All.
  intros CP PL MD CH FW MB. destruct (heap_setup q PL MD CH MB) as (ref & o' & ST & RV & RU & RD & _).
  apply (decode_file_total H order cpus limit q g old ref o' _ _ CP ST); [|destruct FW; auto].
  unfold is_data, block_type_of. rewrite RD. apply andb_false_r.
Qed.
End Heap.
