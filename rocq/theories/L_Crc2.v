(* CRC facts in the form of the property statements. *)
From Verif Require Import M_Base L_Base L_File M_Specs M_Crc M_Header M_Metadata M_Block S_Crc S_Block L_Crc L_Header L_Block.

Lemma crc_exact start msg : start < 65536 -> bytes_ok msg = true ->
  forall r, crc_ccitt_generic start msg = r <-> is_crc start msg r.
Proof.
  intros Hs Hm r. split.
  - intros <-. apply crc_is_remainder; assumption.
  - intro H. eapply is_crc_unique; [apply crc_is_remainder; assumption|exact H].
Qed.
Lemma table_entries i : i < 256 -> is_crc 0 [i] (nthN CRCCCITT_TABLE i).
Proof.
  intro Hi. replace (nthN CRCCCITT_TABLE i) with (crc_ccitt_generic 0 [i]).
  - apply crc_is_remainder; [lia|]. cbn. rewrite andb_true_r. apply byte_ok_lt, Hi.
  - unfold crc_ccitt_generic. cbn [fold_left]. rewrite crc_byte_bits8 by lia. symmetry. apply tab_facts, Hi.
Qed.
Lemma block_crc b buf :
  header_ok (b_header b) = true -> bytes_ok buf = true -> ver_to_block_size (b_version b) <= lenN buf ->
  exists c, calc_crc b buf = ROk c /\
    is_crc (ver_to_usize (b_version b))
           (b_uid b ++ be_bytes 4 (b_seq_num b) ++ sliceN 16 (ver_to_block_size (b_version b) - 16) buf) c.
Proof.
  intros HO HB HL. rewrite calc_crc_eq by exact HL. eexists. split; [reflexivity|].
  apply crc_is_remainder; [pose proof (ver_usize_lt (b_version b)); lia|].
  apply header_ok_spec in HO as (_ & _ & HU & _).
  rewrite !bytes_ok_app, bytes_ok_be, bytes_ok_slice by exact HB. unfold b_uid. rewrite HU. reflexivity.
Qed.
Lemma sync_wf b0 buf hp p b : bytes_ok buf = true -> sync_from_buffer b0 buf hp p = ROk b ->
  exists h pl, well_formed_block buf h pl /\ h_version h = b_version b.
Proof.
  intros HB H. apply sync_from_ok in H as (H & _). apply parse_ok_iff in H as (h & pl & W & ->); [|exact HB].
  exists h, pl. auto.
Qed.
Lemma burst_detected buf buf' b0 hp p b k :
  bytes_ok buf = true -> bytes_ok buf' = true ->
  sync_from_buffer b0 buf hp p = ROk b ->
  same_outside 6 (ver_to_block_size (b_version b)) buf buf' -> buf <> buf' ->
  (forall i, bitN buf i <> bitN buf' i -> k <= i < k + 16) ->
  forall b0' hp' p' b', sync_from_buffer b0' buf' hp' p' <> ROk b'.
Proof.
  intros HB HB' E HS HN HW b0' hp' p' b' E'.
  apply sync_wf in E as (h & pl & W & EV); [|exact HB]. apply sync_wf in E' as (h' & pl' & W' & _); [|exact HB'].
  rewrite <- EV in HS. eapply burst_not_wf; [exact HB|exact HB'| | | | |]; eauto.
Qed.
Lemma odd_flips_detected buf buf' b0 hp p b :
  bytes_ok buf = true -> bytes_ok buf' = true ->
  sync_from_buffer b0 buf hp p = ROk b ->
  same_outside 4 (ver_to_block_size (b_version b)) buf buf' ->
  N.odd (bit_distance buf buf') = true ->
  forall b0' hp' p' b', sync_from_buffer b0' buf' hp' p' <> ROk b'.
Proof.
  intros HB HB' E HS HN b0' hp' p' b' E'.
  apply sync_wf in E as (h & pl & W & EV); [|exact HB]. apply sync_wf in E' as (h' & pl' & W' & _); [|exact HB'].
  rewrite <- EV in HS. eapply odd_flips_not_wf; [exact HB|exact HB'| | | |]; eauto.
Qed.
Lemma crc_field_change_detected buf buf' b0 hp p b :
  bytes_ok buf = true -> bytes_ok buf' = true ->
  sync_from_buffer b0 buf hp p = ROk b ->
  same_outside 4 6 buf buf' -> buf <> buf' ->
  forall b0' hp' p' b', sync_from_buffer b0' buf' hp' p' <> ROk b'.
Proof.
  intros HB HB' E HS HN b0' hp' p' b' E'.
  apply sync_wf in E as (h & pl & W & EV); [|exact HB]. apply sync_wf in E' as (h' & pl' & W' & _); [|exact HB'].
  eapply crc_field_not_wf; [exact HB|exact HB'| | | |]; eauto.
Qed.
