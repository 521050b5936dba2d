(* Lemmas about containers whose metadata is updated: they stay containers that decode and repair can cope with. *)
From Coq Require Import String Ascii.
From Verif Require Import M_Base M_Specs M_Crc M_Header M_Multihash M_Metadata M_Block M_Index M_FileUtils M_Buffer M_Ranges M_Encode
  M_Scan M_Loop M_Decode M_Content M_Sort M_Repair M_Update M_Rescue M_Hex M_Json M_Codec M_Path M_Cli
  S_Crc S_Meta S_Block S_Index S_Container S_Encode S_Scan S_Decode S_Content S_Repair S_Update S_Cli S_History
  L_Base L_Crc L_File L_Header L_Meta L_Meta2 L_Block L_Index L_Index2 L_Container L_Scan L_Ranges L_Ref L_Decode2 L_Guess L_Intact L_Intact2 L_Encode4 L_Repair L_Repair6 L_Repair8 L_Repair9 L_Roundtrip L_Update
  L_Path L_Cli L_Cli2 L_Cli3 P_Encode P_Decode P_Roundtrip P_Content P_Update P_Cli P_Options.
Ltac Zify.zify_post_hook ::= idtac.

(* ---- the block update writes is one the encoder could have written ---- *)
Lemma written_plain ref f p i ms d : bytes_ok f = true -> storable p -> fields_at (b_version ref) (b_uid ref) f i ms ->
  update_block ref p (file_read f (i * ver_to_block_size (b_version ref)) (ver_to_block_size (b_version ref))) = ROk (Some d) ->
  meta_plain (b_version ref) (b_uid ref) (newf p ms) d.
Proof.
  intros HB ST FA UB. pose proof (fields_len ref f i ms FA) as LE. set (v := b_version ref) in *. set (bs := ver_to_block_size v) in *. pose proof (block_size_pos v) as BP. fold bs in BP.
  set (d0 := file_read f (i * bs) bs) in *. assert (LD : lenN d0 = bs) by (unfold d0, file_read; rewrite lenN_slice; lia).
  assert (BD : bytes_ok d0 = true) by (apply bytes_ok_slice, HB).
  destruct FA as (pl & (h & W & V & U & S) & PM). fold bs in W. change (sliceN (i * bs) bs f) with d0 in W.
  assert (A : accept ref d0 = Some (block_of h pl)) by (apply accept_iff; [exact BD|]; exists h, pl; auto).
  pose proof (accept_cases ref block_dummy d0 ltac:(fold v bs; lia)) as AC. rewrite A in AC.
  assert (DM : b_data (block_of h pl) = DMeta ms) by (unfold block_of; cbn [b_data]; rewrite S; cbn; congruence).
  unfold update_block in UB. rewrite AC in UB. unfold is_meta, block_type_of in UB. rewrite DM in UB. unfold update_metas in UB. rewrite DM in UB. cbn [unwrap rbind b_data] in UB.
  unfold remove_metas in UB. cbn [b_data b_header unwrap rbind] in UB. fold (new_fields (up_set p) (up_remove p) ms) in UB. fold (newf p ms) in UB.
  set (b2 := mkBlock (b_header (block_of h pl)) (DMeta (newf p ms))) in *.
  assert (BPL : bytes_ok pl = true) by (destruct W as (HO & HL & HT & _); pose proof (bytes_ok_take (ver_to_block_size (h_version h)) _ BD) as X; rewrite HT, bytes_ok_app in X; apply andb_true_iff in X; apply X).
  pose proof (parser_sanitises pl BPL) as [PF _]. rewrite PM in PF.
  assert (HO : header_ok h = true) by apply W. pose proof (proj1 (header_ok_spec h) HO) as (H1 & H2 & H3 & H4).
  assert (FO : Forall field_ok (newf p ms)).
  { apply Forall_forall. intros x Hx. apply new_in in Hx as [Hx|Hx]; [apply ST, Hx|]. rewrite Forall_forall in PF. apply PF, Hx. }
  assert (VB : b_version b2 = v) by exact V. assert (UB2 : b_uid b2 = b_uid ref) by exact U.
  pose proof (sync_to_meta b2 None d0 (newf p ms) eq_refl S FO) as SM. rewrite VB in SM. fold bs in SM. specialize (SM ltac:(lia)).
  destruct (N.ltb_spec (bs - 16) (fields_size (newf p ms))) as [L|L]; [rewrite SM in UB; discriminate|]. cbv zeta in SM. rewrite SM in UB. apply ROk_inj, Some_inj in UB.
  rewrite UB2 in *. set (pl' := fields_bytes (newf p ms) ++ repN _ 26) in *.
  assert (LP : lenN pl' = bs - 16) by (unfold pl'; rewrite lenN_app, fields_bytes_len, lenN_rep by exact FO; lia).
  exists pl'. split; [unfold pl'; rewrite metas_to_bytes_eq by exact FO; fold bs; destruct (N.ltb_spec (bs - 16) (fields_size (newf p ms))); [lia|reflexivity]|].
  assert (U6 : lenN (b_uid ref) = 6) by (rewrite <- UB2; exact H2). assert (UO : bytes_ok (b_uid ref) = true) by (rewrite <- UB2; exact H3).
  exists (crc_of v (b_uid ref) 0 pl'). split.
  - apply crc_is_remainder; [pose proof (ver_usize_lt v); lia|]. unfold pl'. rewrite !bytes_ok_app, UO, bytes_ok_be, fields_bytes_ok, bytes_ok_rep by (try exact FO; lia). reflexivity.
  - assert (SB : b_seq_num b2 = 0) by exact S. rewrite SB in UB.
    assert (EH : forall c, b_header (set_crc b2 c) = b_header (set_crc (mkBlock (header_new v (b_uid ref) 0) (DMeta (newf p ms))) c)).
    { intro c. assert (HU : h_uid h = b_uid ref) by exact U. assert (HV : h_version h = v) by exact V. assert (HS : h_seq_num h = 0) by exact S. unfold set_crc, b2, block_of, header_new. cbn [b_header b_data]. destruct h. cbn in *. congruence. }
    rewrite EH in UB. rewrite <- (take_sealed v (b_uid ref) (newf p ms) (crc_of v (b_uid ref) 0 pl') pl' d0 U6 LP ltac:(fold bs; lia)). fold bs. rewrite UB. symmetry. apply take_all. rewrite <- UB.
    assert (L1 : lenN (put_at d0 16 pl') = lenN d0) by (apply lenN_put_at; lia). rewrite lenN_put_at; rewrite ?lenN_header_to_bytes; try exact U6; lia.
Qed.

(* c24_intact_container, with what else is known of the file *)
Lemma update_intact v uid o rs ms data f n H cpus q w s :
  intact v uid true o rs ms data f n -> lenN f < 18446744073709551616 -> shards_recorded o ms -> told q o n ->
  get_meta_by_id ms IFSZ = Some (FSZ (lenN data)) -> (uo_hash q <> None -> 1 <= lenN data) -> 1 <= cpus ->
  hash_fn_ok H -> opts_ok q -> names_ok q -> uo_dry q = false ->
  update_file H cpus (update_param H q) None f = (w, ROk s) ->
  exists h ms', (forall t, uo_hash q = Some t -> h = finish_hash H t data) /\ changed (asked_fields q h) (asked_gone q) ms ms' /\
    intact v uid true o rs ms' data w n /\
    (forall i, meta_index (Some true) o i -> meta_plain v uid ms' (sliceN (i * ver_to_block_size v) (ver_to_block_size v) w)) /\ lenN w = lenN f /\ (forall i, ~ meta_index (Some true) o i -> same_block v f w i).
Proof.
  intros IT FL SR TO FS L1 CP HF OO NO DR E. pose proof (file_bytes _ _ _ _ _ _ _ _ _ IT) as HB. pose proof (block_size_pos v) as BP.
  destruct (update_setup_intact _ _ _ _ _ _ _ _ q IT FL SR TO) as (ref & ST & RV & RU & RD).
  destruct (update_file_cases H cpus q None f w _ HF E) as [[_ X]|(ref' & o' & h & ST' & NH & HH & TS & R)]; [destruct (X s eq_refl)|].
  assert (EQ : ref' = ref /\ o' = o).
  { destruct ST as [(x & G) D], ST' as [(x' & G') D']. rewrite G in G'. apply ROk_inj, Some_inj, pair_inj in G' as [_ <-]. rewrite D in D'. apply ROk_inj in D'. auto. }
  destruct EQ as [-> ->]. clear ST'. destruct (second_run H q h ref o f HF HB HH None TS) as [OK R']. rewrite R, DR in R'. apply pair_inj in R' as [EW R']. apply ROk_inj in R'.
  pose proof (second_storable H q h NO HH) as STO. pose proof (storable_safe _ STO) as SF. set (p := second H q h) in *. set (L := done ref o f None) in *.
  assert (LC : forall i, In i L <-> meta_index (Some true) o i).
  { intro i. unfold L. rewrite (live_cut ref o f None i). split; [tauto|]. intro M. split; [exact M|]. split; [exact I|]. rewrite RV. apply (I4 _ _ _ _ _ _ _ _ _ IT). left. exact M. }
  assert (FA : forall i, In i L -> fields_at (b_version ref) (b_uid ref) f i ms) by (intros i Hi; rewrite RV, RU; apply (meta_fields _ _ _ _ _ _ _ _ IT), LC, Hi).
  assert (LE : forall i, In i L -> (i + 1) * ver_to_block_size (b_version ref) <= lenN f) by (intros i Hi; exact (fields_len ref f i ms (FA i Hi))).
  assert (M0 : meta_index (Some true) o 0) by (apply (meta_zero _ _ _ _ _ _ _ _ _ IT eq_refl)). assert (L0 : In 0 L) by (apply LC, M0).
  assert (SAME : forall i, In i L -> outcome ref f p i = outcome ref f p 0).
  { intros i Hi. unfold outcome, file_read. rewrite RV. destruct (proj2 (proj2 (proj2 (proj2 (proj2 (proj2 (proj2 (proj2 (proj2 IT))))))))) as (meta0 & (n' & _ & _ & C3 & _) & _). f_equal. rewrite (C3 i), (C3 0) by (try exact M0; apply LC, Hi). reflexivity. }
  destruct (update_block_cases ref f HB p 0 SF (LE 0 L0)) as [A _]. specialize (A ms (FA 0 L0)). fold (outcome ref f p 0) in A.
  destruct (_ <? _); [destruct (OK 0 L0) as (x & X); congruence|]. destruct A as (d & OD & LD & AD). destruct (AD STO) as [BD FD].
  assert (ALL : forall i, In i L -> outcome ref f p i = ROk (Some d)) by (intros i Hi; rewrite (SAME i Hi); exact OD).
  assert (WI : forall i b, In (i, b) (writes ref f p L) <-> In i L /\ b = d).
  { intros i b. rewrite writes_in. split; intros [X Y]; (split; [exact X|]); [rewrite (ALL i X) in Y; apply ROk_inj, Some_inj in Y; congruence|rewrite Y; apply ALL, X]. }
  destruct (put_blocks_ok (ver_to_block_size (b_version ref)) ltac:(rewrite RV; lia) (writes ref f p L) f) as (P1 & P2 & P3 & P4 & P5).
  { apply Forall_forall. intros [i b] Hi. apply WI in Hi as [_ ->]. exact LD. }
  { intros a b b' X X'. apply WI in X as [_ ->]. apply WI in X' as [_ ->]. reflexivity. }
  rewrite <- EW in P1, P2, P3, P4, P5. rewrite RV in *.
  assert (LW : lenN w = lenN f). { destruct P5 as [X|(a & b & X & Y)]; [exact X|]. apply WI in X as [X _]. specialize (LE a X). lia. }
  exists h, (newf p ms). split; [|split; [|split]].
  - intros t HT. unfold new_hash in NH. rewrite HT in NH. destruct NH as (x & FZ & CH). unfold get_FSZ, block_get_meta in FZ. rewrite RD, FS in FZ. apply Some_inj in FZ. subst x.
    rewrite (c39_intact_container _ _ _ _ _ _ _ _ H cpus ref t IT (L1 ltac:(congruence)) CP RV RU) in CH. apply ROk_inj in CH. congruence.
  - apply (new_fields_changed (up_set p) (up_remove p) ms (second_nodup H q h) (second_disjoint H q h OO)).
  - apply (intact_replace _ _ _ _ _ _ _ _ IT w d (newf p ms)).
    + exact LW.
    + intros i Hi. apply P1. apply WI. split; [apply LC, Hi|reflexivity].
    + intros i Hi k Ek. apply P2. intros b X. apply WI in X as [X _]. apply Hi, LC. rewrite Ek in X. exact X.
    + split; [exact LD|]. split; [exact BD|]. destruct (FD d) as (pl & (h' & W & V & U & S) & PM).
      { unfold sliceN. rewrite N.mul_0_l, drop_0. apply take_all. lia. }
      rewrite N.mul_0_l in W. unfold sliceN in W. rewrite drop_0, take_all in W by lia. exists (block_of h' pl). split.
      * intro b0. apply sync_from_ok. split; [apply parse_ok_iff; [exact BD|eauto]|split; reflexivity].
      * unfold b_version, b_uid, b_seq_num, block_of. cbn [b_header b_data]. rewrite S. cbn. rewrite PM. split; [exact V|]. split; [rewrite U; exact RU|]. split; reflexivity.
  - split; [|split; [exact LW|]].
    + intros i Hi. rewrite (P1 i d) by (apply WI; split; [apply LC, Hi|reflexivity]). rewrite <- RV. rewrite <- RU. apply (written_plain ref f p 0 ms d HB STO).
      * rewrite RV. exact (FA 0 L0).
      * exact OD.
    + intros i Hi k Ek. apply P2. intros b X. apply WI in X as [X _]. apply Hi, LC. rewrite Ek in X. exact X.
Qed.

(* ---- fields ---- *)
Lemma changed_other sets gone ms ms' i : changed sets gone ms ms' -> ~ In i gone -> ~ In i (map meta_to_id sets) -> with_id i ms' = with_id i ms.
Proof.
  intros (_ & _ & C) N1 N2. cbv zeta in C. apply (f_equal (with_id i)) in C. unfold with_id in *. rewrite !filter_filter in C.
  assert (X : forall l, filter (fun m => metadata_id_eqb (meta_to_id m) i) l = filter (fun x => negb (existsb (metadata_id_eqb (meta_to_id x)) (gone ++ map meta_to_id sets)) && metadata_id_eqb (meta_to_id x) i) l).
  { intro l. apply filter_ext. intro m. destruct (metadata_id_eqb (meta_to_id m) i) eqn:X; [|rewrite andb_false_r; reflexivity]. apply id_eqb_eq in X. rewrite X. rewrite andb_true_r. symmetry. apply negb_true_iff, not_true_is_false. intro Y. apply existsb_id in Y. apply in_app_iff in Y. tauto. }
  rewrite !X. exact C.
Qed.
Definition name_field (nm : option (list N)) : option metadata := option_map FNM nm.
Definition new_name (q : uopts) (nm : option (list N)) : option (list N) := match uo_fnm q with Some x => Some x | None => if uo_no_fnm q then None else nm end.
Lemma changed_name q h ms ms' nm : changed (asked_fields q h) (asked_gone q) ms ms' -> get_meta_by_id ms IFNM = name_field nm -> get_meta_by_id ms' IFNM = name_field (new_name q nm).
Proof.
  intros C G. rewrite get_with_id in *. unfold new_name. destruct (uo_fnm q) as [x|] eqn:F.
  - destruct C as (C & _). assert (I : In (FNM x) (asked_fields q h)) by (unfold asked_fields; rewrite F; left; reflexivity). apply C in I. cbn [meta_to_id] in I. rewrite I. reflexivity.
  - destruct (uo_no_fnm q) eqn:NF.
    + destruct C as (_ & C & _). rewrite (C IFNM); [reflexivity|]. unfold asked_gone. rewrite NF. left. reflexivity.
    + rewrite (changed_other _ _ _ _ IFNM C); [exact G| |].
      * unfold asked_gone. rewrite NF, !in_app_iff. destruct (uo_no_snm q), (uo_no_hsh q); cbn [In]; intuition discriminate.
      * unfold asked_fields. rewrite F. destruct (uo_snm q), (uo_hash q); cbn; intuition discriminate.
Qed.

(* ---- a container as encode and update leave it ---- *)
Record kept_well (v : version) (uid : list N) (o : dpb) (rs : codec) (data : list N) (n : N) (first f : list N) (nm : option (list N)) (ms : list metadata) : Prop := mkKept {
  kw_intact : intact v uid true o rs ms data f n;
  kw_len : lenN f < 18446744073709551616;
  kw_plain : forall i, meta_index (Some true) o i -> meta_plain v uid ms (sliceN (i * ver_to_block_size v) (ver_to_block_size v) f);
  kw_size : get_meta_by_id ms IFSZ = Some (FSZ (lenN data));
  kw_shards : shards_recorded o ms;
  kw_name : get_meta_by_id ms IFNM = name_field nm;
  kw_same : lenN f = lenN first /\ forall i, ~ meta_index (Some true) o i -> same_block v first f i }.
Lemma kept_update v uid o rs data n first f nm ms H cpus q w s :
  kept_well v uid o rs data n first f nm ms -> told q o n -> (uo_hash q <> None -> 1 <= lenN data) -> 1 <= cpus -> hash_fn_ok H -> opts_ok q -> names_ok q -> uo_dry q = false ->
  update_file H cpus (update_param H q) None f = (w, ROk s) ->
  exists ms', kept_well v uid o rs data n first w (new_name q nm) ms'.
Proof.
  intros [IT FL MP FZ SR NM [LS SM]] TO L1 CP HF OO NO DR E.
  destruct (update_intact _ _ _ _ _ _ _ _ _ _ _ _ _ IT FL SR TO FZ L1 CP HF OO NO DR E) as (h & ms' & _ & C & IT' & MP' & LW & SB).
  assert (K : forall i, i <> IFNM -> i <> ISNM -> i <> IHSH -> get_meta_by_id ms' i = get_meta_by_id ms i) by (intros i A1 A2 A3; rewrite !get_with_id, (changed_keeps q h ms ms' i C A1 A2 A3); reflexivity).
  exists ms'. split; [exact IT'|lia|exact MP'|rewrite K by discriminate; exact FZ| |exact (changed_name _ _ _ _ _ C NM)|].
  - unfold shards_recorded in *. destruct o as [[[d p] B]|]; [|exact Logic.I]. rewrite !K by discriminate. exact SR.
  - split; [lia|]. intros i Hi k Ek. rewrite (SB i Hi k Ek). apply (SM i Hi k Ek).
Qed.
