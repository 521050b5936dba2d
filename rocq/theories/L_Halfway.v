(* Lemmas about containers whose metadata blocks need not agree: what a run of update leaves that did not come to its end. *)
From Coq Require Import String Ascii.
From Verif Require Import L_Update P_Update M_Base M_Specs M_Crc M_Header M_Multihash M_Metadata M_Block M_Index M_FileUtils M_Buffer M_Ranges M_Encode
  M_Scan M_Loop M_Decode M_Content M_Sort M_Repair M_Update M_Rescue M_Hex M_Json M_Codec M_Path M_Cli
  S_Crc S_Meta S_Block S_Index S_Container S_Encode S_Scan S_Decode S_Content S_Repair S_Update S_Cli S_History S_Halfway
  L_Base L_Crc L_File L_Header L_Meta L_Meta2 L_Block L_Index L_Index2 L_Container L_Scan L_Ranges L_Ref L_Decode2 L_Guess L_Intact L_Intact2 L_Encode4 L_Repair L_Repair9 L_Roundtrip
  L_Path L_Cli L_Cli2 L_Cli3 P_Encode P_Decode P_Roundtrip P_Content P_Cli P_Options L_Renew L_History.
Ltac Zify.zify_post_hook ::= idtac.

(* ---- of the reference block only version, UID and fields matter ---- *)
Lemma pred_ext ref ref' : b_version ref = b_version ref' -> b_uid ref = b_uid ref' -> header_pred_same_ver_uid ref = header_pred_same_ver_uid ref'.
Proof. intros V U. unfold header_pred_same_ver_uid. rewrite V, U. reflexivity. Qed.
Lemma update_block_ext ref ref' p d : b_version ref = b_version ref' -> b_uid ref = b_uid ref' -> update_block ref p d = update_block ref' p d.
Proof. intros V U. unfold update_block. rewrite (pred_ext ref ref' V U). reflexivity. Qed.
Lemma sample_ext ref ref' f : b_version ref = b_version ref' -> b_uid ref = b_uid ref' -> forall count pos, sample_blocks count f pos ref = sample_blocks count f pos ref'.
Proof.
  intros V U. induction count as [|count IH]; intro pos; [reflexivity|]. cbn [sample_blocks]. rewrite (pred_ext ref ref' V U), V. destruct (_ <? _); [reflexivity|].
  destruct (match _ with ROk _ => _ | RErr _ => _ | RPanic => _ end); cbn [rbind]; try reflexivity. rewrite IH. reflexivity.
Qed.
Lemma level_ext ref ref' f burst g mis : b_version ref = b_version ref' -> b_uid ref = b_uid ref' -> b_data ref = b_data ref' ->
  get_data_par_burst f burst g mis ref = get_data_par_burst f burst g mis ref'.
Proof.
  intros V U D. assert (RD : get_RSD ref = get_RSD ref') by (unfold get_RSD; rewrite D; reflexivity). assert (RP : get_RSP ref = get_RSP ref') by (unfold get_RSP; rewrite D; reflexivity).
  assert (ID : is_data ref = is_data ref') by (unfold is_data, block_type_of; rewrite D; reflexivity).
  assert (G : guess_burst f g mis ref = guess_burst f g mis ref').
  { unfold guess_burst. rewrite V, RD, RP. destruct (negb _); [reflexivity|]. destruct (get_RSD ref'); cbn [rbind]; try reflexivity. destruct (get_RSP ref'); cbn [rbind]; try reflexivity.
    rewrite (sample_ext ref ref' f V U). reflexivity. }
  unfold get_data_par_burst, get_burst_or_guess. rewrite V, RD, RP, ID, G. reflexivity.
Qed.

Lemma not_meta v uid o rs ms data g n seq : intact v uid true o rs ms data g n -> 1 <= seq <= n -> ~ meta_index (Some true) o (calc_data_block_write_index seq (Some true) o).
Proof.
  intros IT Hs X. destruct (data_block _ _ _ _ _ _ _ _ _ IT seq Hs) as [BA _]. destruct (meta_block_at _ _ _ _ _ _ _ _ _ IT _ X) as (pl & BA').
  destruct (block_at_unique _ _ _ _ _ _ _ _ BA BA') as [Y _]. lia.
Qed.
(* ---- a container with other metadata blocks than at its beginning ---- *)
Section Patched.
Variables (v : version) (uid : list N) (o : dpb) (rs : codec) (ms : list metadata) (data g : list N) (n : N) (h : list N).
Let bs := ver_to_block_size v.
Set Default Proof Using "All".
Hypothesis IT : intact v uid true o rs ms data g n.
Hypothesis FL : lenN g < 18446744073709551616.
Hypothesis HB : bytes_ok h = true.
Hypothesis LH : lenN h = lenN g.
Hypothesis H0 : same_block v g h 0.
Hypothesis HS : forall i, ~ meta_index (Some true) o i -> same_block v g h i.
Hypothesis HM : forall i, meta_index (Some true) o i -> exists pl, block_at v uid h (i * bs) 0 pl.

Lemma same_sym i : same_block v g h i -> same_block v h g i.
Proof. intros X k E. symmetry. apply X, E. Qed.
Lemma patched_data seq : 1 <= seq <= n -> block_at v uid h (calc_data_block_write_index seq (Some true) o * bs) seq (payload_of v o rs data seq).
Proof. intro Hs. apply (block_at_same v uid g h); [apply HS, (not_meta _ _ _ _ _ _ _ _ _ IT Hs)|lia|]. apply (data_block _ _ _ _ _ _ _ _ _ IT seq Hs). Qed.
Lemma patched_inv k seq pl : block_at v uid h (k * bs) seq pl ->
  (seq = 0 /\ meta_index (Some true) o k) \/ (1 <= seq <= n /\ k = calc_data_block_write_index seq (Some true) o /\ pl = payload_of v o rs data seq).
Proof.
  intro BA. destruct (index_cases _ _ _ _ _ _ _ _ _ IT k) as [M|[(s & Hs & E)|NU]].
  - left. split; [|exact M]. destruct (HM k M) as (pl' & BA'). destruct (block_at_unique _ _ _ _ _ _ _ _ BA BA') as [-> _]. reflexivity.
  - right. rewrite <- E in BA. destruct (block_at_unique _ _ _ _ _ _ _ _ BA (patched_data s Hs)) as [-> ->]. auto.
  - exfalso. assert (NM : ~ meta_index (Some true) o k) by (intro X; apply NU; left; exact X).
    assert (BA' : block_at v uid g (k * bs) seq pl) by (apply (block_at_same v uid h g); [apply same_sym, HS, NM|lia|exact BA]).
    apply NU. destruct (block_inv _ _ _ _ _ _ _ _ _ IT _ _ _ BA') as [[_ M]|(Hs & -> & _)]; [left; exact M|right; exists seq; auto].
Qed.
Lemma patched_ref choice mis : (choice = Any \/ choice = Prefer TMeta \/ choice = MustBe TMeta) ->
  exists ref, get_ref_block h None None mis choice = ROk (Some (0, ref)) /\ b_version ref = v /\ b_uid ref = uid /\ b_data ref = DMeta ms.
Proof.
  intro CH. assert (M0 : meta_index (Some true) o 0) by (apply (meta_zero _ _ _ _ _ _ _ _ _ IT eq_refl)).
  destruct (meta_blk _ _ _ _ _ _ _ _ _ IT 0 M0) as (_ & hd & pl & W & V & U & S & M).
  pose proof (I4 _ _ _ _ _ _ _ _ _ IT 0 (or_introl M0)) as LE.
  rewrite <- (same_slice_full v g h 0 H0 ltac:(lia) LE) in W. rewrite N.mul_0_l in W. assert (WA : any_block_at h 0 hd pl).
  { unfold any_block_at. unfold sliceN in W. apply wf_take in W; [exact W|]. rewrite V. reflexivity. }
  pose proof (get_ref_block_ok h None None mis choice HB) as K. rewrite range_whole in K by (rewrite ?LH; exact FL || (unfold mult_of, SBX_SCAN_BLOCK_SIZE; lia)).
  destruct (K ltac:(lia)) as (r & E & R). clear K. rewrite E. clear E.
  assert (RR : forall P : header -> Prop, P hd -> found h 0 (0 + N.max 1 (lenN h)) P r -> exists b, r = Some (0, b) /\ reads_as hd pl b).
  { intros P PH F. destruct r as [[q b]|]; cbn [found] in F.
    - destruct F as (h' & pl' & (F1 & F2 & F3 & F4) & F5). destruct (N.eq_dec q 0) as [->|NZ].
      + rewrite N.add_0_l in F2. destruct (any_block_fun h 0 _ _ _ _ WA F2) as [-> ->]. exists b. auto.
      + exfalso. apply (F4 0 hd pl); [constructor; lia|lia|exact WA|exact PH].
    - exfalso. apply (F 0 hd pl); [constructor; lia|exact WA|exact PH]. }
  assert (exists b, r = Some (0, b) /\ reads_as hd pl b) as (b & -> & RB & RD).
  { destruct CH as [-> |[-> | ->] ]; cbn [ref_spec] in R.
    - apply (RR _ Logic.I R).
    - destruct R as [[_ R]|[R _] ]; [exact (RR (of_type TMeta) S R)|]. exfalso. apply (R 0 hd pl); [constructor; lia|exact WA|exact S].
    - exact (RR (of_type TMeta) S R). }
  exists b. split; [reflexivity|]. unfold b_version, b_uid. rewrite RB, RD, S. cbn [N.eqb]. rewrite M. split; [exact V|]. split; [exact U|reflexivity].
Qed.
Lemma patched_accept ref k : b_version ref = v -> b_uid ref = uid -> option_map b_seq_num (accept ref (sliceN (k * bs) bs h)) = option_map b_seq_num (accept ref (sliceN (k * bs) bs g)).
Proof.
  intros RV RU. pose proof (accept_block_at ref h (k * bs) HB) as A. pose proof (accept_block_at ref g (k * bs) (file_bytes _ _ _ _ _ _ _ _ _ IT)) as A'. rewrite RV, RU in A, A'. fold bs in A, A'.
  destruct (accept ref (sliceN (k * bs) bs h)) as [b|], (accept ref (sliceN (k * bs) bs g)) as [b'|]; cbn [option_map].
  - destruct A as (A & _), A' as (A' & _). f_equal. destruct (patched_inv _ _ _ A) as [[-> M]|(Hs & E & _)].
    + destruct (meta_block_at _ _ _ _ _ _ _ _ _ IT _ M) as (pl & X). destruct (block_at_unique _ _ _ _ _ _ _ _ A' X). congruence.
    + rewrite E in A'. destruct (data_block _ _ _ _ _ _ _ _ _ IT _ Hs) as [X _]. destruct (block_at_unique _ _ _ _ _ _ _ _ A' X). congruence.
  - exfalso. destruct A as (A & _). destruct (patched_inv _ _ _ A) as [[_ M]|(Hs & E & _)].
    + destruct (meta_block_at _ _ _ _ _ _ _ _ _ IT _ M) as (pl & X). exact (A' _ _ X).
    + destruct (data_block _ _ _ _ _ _ _ _ _ IT _ Hs) as [X _]. fold bs in X. rewrite <- E in X. exact (A' _ _ X).
  - exfalso. destruct A' as (A' & _). destruct (block_inv _ _ _ _ _ _ _ _ _ IT _ _ _ A') as [[_ M]|(Hs & E & _)].
    + destruct (HM _ M) as (pl & X). exact (A _ _ X).
    + pose proof (patched_data _ Hs) as X. rewrite <- E in X. exact (A _ _ X).
  - reflexivity.
Qed.
Lemma patched_guess ref mis : b_version ref = v -> b_uid ref = uid -> guess_burst h None mis ref = guess_burst g None mis ref.
Proof.
  intros RV RU. unfold guess_burst. destruct (negb _); [reflexivity|]. destruct (get_RSD ref) as [d| |]; cbn [rbind]; try reflexivity. destruct (get_RSP ref) as [p| |]; cbn [rbind]; try reflexivity.
  cbn [guess_from_pos]. rewrite (sample_ok ref h HB), (sample_ok ref g (file_bytes _ _ _ _ _ _ _ _ _ IT)). cbn [rbind]. apply (f_equal (fun x => ROk (pick_level d p x))). rewrite RV. fold bs. unfold nsample. rewrite LH.
  rewrite !map_map. apply map_ext. intro k. rewrite N.add_0_l. apply patched_accept; assumption.
Qed.
Lemma patched_level ref burst mis : b_version ref = v -> b_uid ref = uid -> get_data_par_burst h burst None mis ref = get_data_par_burst g burst None mis ref.
Proof.
  intros RV RU. unfold get_data_par_burst, get_burst_or_guess. rewrite patched_guess by assumption. reflexivity.
Qed.
Lemma patched_hash H cpus ref t : 1 <= lenN data -> 1 <= cpus -> b_version ref = v -> b_uid ref = uid -> content_hash H cpus h o (lenN data) ref t = ROk (finish_hash H t data).
Proof.
  intros L1 CP RV RU. assert (HO' := L_Intact.HO _ _ _ _ _ _ _ _ _ IT).
  apply c39_container_hash; [exact CP|exact HB|exact HO'|exact L1|rewrite RV; exists n; split; [exact (BC _ _ _ _ _ _ _ _ _ IT)|exact (HN _ _ _ _ _ _ _ _ _ IT)]|].
  rewrite RV, RU. exists data. split; [reflexivity|]. split; [|reflexivity]. intros j Hj.
  destruct (chunk_seq _ _ _ _ _ _ _ _ _ IT j Hj) as (seq & Hs & C). exists (payload_of v o rs data seq). split.
  - exists seq. split; [exact C|]. apply (patched_data seq Hs).
  - rewrite (payload_chunk _ _ _ _ _ _ C). unfold chunk. rewrite lenN_slice. set (ds := ver_to_block_size v - 16) in *.
    destruct (N.le_gt_cases ds (lenN data - j * ds)).
    + replace (ds - N.min ds (lenN data - j * ds)) with 0 by lia. change (repN 0 26) with (@nil N). rewrite app_nil_r. symmetry. apply take_all. rewrite lenN_slice. lia.
    + assert (E : lenN data - j * ds = lenN (sliceN (j * ds) ds data)) by (rewrite lenN_slice; lia). rewrite E. symmetry. rewrite take_app, N.sub_diag, take_0, app_nil_r, take_all; [reflexivity|lia].
Qed.
(* what decode makes of it *)
Hypothesis SR : shards_recorded o ms.
Hypothesis FZ : get_meta_by_id ms IFSZ = Some (FSZ (lenN data)).
Lemma patched_setup q : plain q -> (dc_choice q = Any \/ dc_choice q = Prefer TMeta \/ dc_choice q = MustBe TMeta) ->
  match o with Some (_, _, B) => dc_burst q = None -> B <= SBX_MAX_BURST_ERR_RESISTANCE \/ 1 <= n | None => True end ->
  exists ref o', setup q h ref o' (N.max 1 (lenN h)) 0 /\ b_version ref = v /\ b_uid ref = uid /\ b_data ref = DMeta ms /\ (o = None -> o' = None) /\
    (forall seq j, is_chunk o' seq j <-> is_chunk o seq j).
Proof.
  intros PL CH BU. destruct (patched_ref (dc_choice q) (dc_misalign q) CH) as (ref & GR & RV & RU & RDT). pose proof PL as (P1 & P2 & P3 & P4 & P5 & P6).
  assert (MD : match o with Some (d, p, B) => get_meta_by_id ms IRSD = Some (RSD d) /\ get_meta_by_id ms IRSP = Some (RSP p) /\ (dc_burst q = None -> B <= SBX_MAX_BURST_ERR_RESISTANCE \/ 1 <= n) | None => True end).
  { unfold shards_recorded in SR. destruct o as [[[d p] B]|]; [|exact Logic.I]. destruct SR. auto. }
  destruct (setup_meta_large _ _ _ _ _ _ _ _ _ q IT FL PL eq_refl CH MD) as (rg & o' & ((pos & GRg) & GDg & _) & RVg & RUg & RDg & IC).
  exists ref, o'. split; [split; [exists 0; rewrite P1, P2, P4; exact GR|split]|].
  - rewrite P3, P4 in *. cbn [guess_from_param] in *. rewrite patched_level by assumption. rewrite <- GDg. apply level_ext; congruence.
  - rewrite <- LH in FL. apply plain_range; assumption.
  - split; [exact RV|]. split; [exact RU|]. split; [exact RDT|]. split; [|exact IC]. intro EO. assert (RS : ver_uses_rs v = false) by (rewrite EO in IT; apply IT). unfold get_data_par_burst in GDg. rewrite RVg, RS in GDg. congruence.
Qed.
Lemma patched_decode H order cpus limit q : 1 <= cpus -> plain q -> (dc_choice q = Any \/ dc_choice q = Prefer TMeta \/ dc_choice q = MustBe TMeta) ->
  match o with Some (_, _, B) => dc_burst q = None -> B <= SBX_MAX_BURST_ERR_RESISTANCE \/ 1 <= n | None => True end ->
  exists pos ref o', get_ref_block h (ref_from_pos (dc_ref_from q) (dc_from q)) (dc_ref_to q) (dc_misalign q) (dc_choice q) = ROk (Some (pos, ref)) /\
    get_data_par_burst h (dc_burst q) (guess_from_param (dc_guess q) (dc_from q)) (dc_misalign q) ref = ROk o' /\ b_data ref = DMeta ms /\ (o = None -> o' = None) /\
    forall old, (dc_force_write q = true \/ old = None) ->
      exists dout, decode_file H order cpus limit q h (ToFile old) = ROk dout /\ do_out dout = data.
Proof.
  intros CP PQ CH BU. destruct (patched_setup q PQ CH BU) as (ref & o' & ST & RV & RU & RD & ON & IC). pose proof ST as ((pos & GR) & GD & _).
  exists pos, ref, o'. split; [exact GR|]. split; [exact GD|]. split; [exact RD|]. split; [exact ON|].
  intros old FW. assert (ID : is_data ref = false) by (unfold is_data, block_type_of; rewrite RD; reflexivity).
  destruct (decode_file_total H order cpus limit q h old ref o' _ 0 CP ST) as (dout & ED).
  { rewrite ID. apply andb_false_r. } { destruct FW; auto. }
  exists dout. split; [exact ED|].
  assert (GF : get_FSZ ref = Some (lenN data)) by (unfold get_FSZ, block_get_meta; rewrite RD, FZ; reflexivity).
  destruct (c18_survivors H order cpus limit q h old dout ref o' _ 0 data CP HB ltac:(lia) ltac:(apply PQ) ED ST GF) as [L C].
  { rewrite RV, RU. fold bs. intros k seq pl j [_ BA] CJ r Hr Hj. rewrite N.add_0_l in BA. apply IC in CJ. destruct (patched_inv _ _ _ BA) as [[-> _]|(_ & _ & ->)].
    - exfalso. unfold is_chunk in CJ. destruct o as [[[d p] B]|]; [destruct CJ as (s & x & _ & C & _); lia|lia].
    - rewrite (payload_chunk _ _ _ _ _ _ CJ). apply nth_chunk; assumption. }
  rewrite RV, RU in C. fold bs in C. apply list_ext_N; [exact L|]. intros i Hi. rewrite L in Hi. destruct (C i Hi) as [A _].
  set (ds := bs - 16) in *. assert (DP : 1 <= ds) by (pose proof (block_size_pos v); unfold ds, bs; lia).
  pose proof (N.div_mod' i ds) as DM. pose proof (N.mod_lt i ds ltac:(lia)) as ML.
  destruct (chunk_seq _ _ _ _ _ _ _ _ _ IT (i / ds)) as (seq & Hs & CS); [fold bs ds; lia|].
  apply (A (calc_data_block_write_index seq (Some true) o) seq (payload_of v o rs data seq)); [|apply IC, CS]. split.
  - pose proof (visited_used _ _ _ _ _ _ _ _ _ IT seq Hs) as V. rewrite LH. unfold visited in *. rewrite LH. exact V.
  - rewrite N.add_0_l. apply patched_data, Hs.
Qed.
End Patched.

(* ---- changing fields twice ---- *)
Lemma upd_noop l m t : with_id (meta_to_id m) l = m :: t -> update_meta_list l m = l.
Proof.
  induction l as [|x l IH]; cbn [with_id filter update_meta_list]; [discriminate|]. destruct (metadata_id_eqb (meta_to_id x) (meta_to_id m)) eqn:E.
  - intro X. injection X as -> _. reflexivity.
  - intro X. f_equal. apply IH, X.
Qed.
Lemma upds_noop sets l : (forall m, In m sets -> exists t, with_id (meta_to_id m) l = m :: t) -> update_metas_list l sets = l.
Proof.
  unfold update_metas_list. induction sets as [|m sets IH]; intro X; [reflexivity|]. cbn [fold_left]. destruct (X m (or_introl eq_refl)) as (t & E). rewrite (upd_noop l m t E).
  apply IH. intros m' Hm. apply X. right. exact Hm.
Qed.
Lemma filter_true {A} (f : A -> bool) l : (forall x, In x l -> f x = true) -> filter f l = l.
Proof. induction l as [|x l IH]; intro X; [reflexivity|]. cbn [filter]. rewrite (X x (or_introl eq_refl)). f_equal. apply IH. intros y Hy. apply X. right. exact Hy. Qed.
Lemma new_twice sets gone ms : NoDup (map meta_to_id sets) -> (forall m, In m sets -> ~ In (meta_to_id m) gone) ->
  new_fields sets gone (new_fields sets gone ms) = new_fields sets gone ms.
Proof.
  intros ND DJ. destruct (new_fields_changed sets gone ms ND DJ) as (C1 & C2 & _). set (l := new_fields sets gone ms) in *. unfold new_fields at 1.
  rewrite (upds_noop sets l) by (intros m Hm; rewrite (C1 m Hm); eauto). unfold remove_metas_list. apply filter_true. intros x Hx. apply negb_true_iff, not_true_is_false. intro E.
  apply existsb_id in E. specialize (C2 _ E). assert (Y : In x (with_id (meta_to_id x) l)) by (apply filter_In; split; [exact Hx|apply id_eqb_refl]). rewrite C2 in Y. exact Y.
Qed.
Lemma plain_unique v uid ms a b : meta_plain v uid ms a -> meta_plain v uid ms b -> a = b.
Proof.
  intros (pl & M & c & C & ->) (pl' & M' & c' & C' & ->). rewrite M in M'. apply ROk_inj in M'. subst pl'. rewrite (is_crc_unique _ _ _ _ C C'). reflexivity.
Qed.
