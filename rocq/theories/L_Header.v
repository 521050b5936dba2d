(* Proofs about the block header. *)
From Verif Require Import M_Base L_Base L_File M_Specs M_Crc M_Header L_Crc.

Lemma ver_p_usize v : ver_p (u8 (ver_to_usize v)) = Some v.
Proof. destruct v; reflexivity. Qed.
Lemma ver_p_inv b v : ver_p b = Some v -> b = ver_to_usize v.
Proof.
  unfold ver_p.
  repeat match goal with |- context [?x =? ?y] => destruct (N.eqb_spec x y); [intro H; injection H as <-; assumption|] end.
  discriminate.
Qed.
Lemma ver_p_some b : (exists v, ver_p b = Some v) <-> In b [1; 2; 3; 17; 18; 19].
Proof.
  split.
  - intros [v H]. apply ver_p_inv in H. subst. destruct v; cbn; tauto.
  - intro H. cbn in H. repeat (destruct H as [<-|H]; [eexists; reflexivity|]). contradiction.
Qed.
Lemma version_eqb_eq a b : version_eqb a b = true <-> a = b.
Proof. destruct a, b; cbn; split; congruence. Qed.
Lemma version_eqb_refl a : version_eqb a a = true.
Proof. destruct a; reflexivity. Qed.

Lemma header_ok_spec h : header_ok h = true <->
  h_crc h < 65536 /\ lenN (h_uid h) = 6 /\ bytes_ok (h_uid h) = true /\ h_seq_num h < 4294967296.
Proof.
  unfold header_ok, SBX_FILE_UID_LEN, U32_MAX. rewrite !andb_true_iff, N.ltb_lt, N.eqb_eq, N.leb_le. intuition lia.
Qed.
Lemma lenN_header_to_bytes h : lenN (h_uid h) = 6 -> lenN (header_to_bytes h) = 16.
Proof. intro H. unfold header_to_bytes. rewrite !lenN_app, !lenN_be, H. reflexivity. Qed.
Lemma bytes_ok_header h : bytes_ok (h_uid h) = true -> bytes_ok (header_to_bytes h) = true.
Proof.
  intro H. unfold header_to_bytes. rewrite !bytes_ok_app, !bytes_ok_be, H.
  destruct (h_version h); reflexivity.
Qed.

(* splitting a 16 byte header at the field boundaries *)
Lemma header_fields h : lenN (h_uid h) = 6 ->
  takeN 3 (header_to_bytes h) = SBX_SIGNATURE /\
  nthN (header_to_bytes h) 3 = u8 (ver_to_usize (h_version h)) /\
  sliceN 4 2 (header_to_bytes h) = be_bytes 2 (h_crc h) /\
  sliceN 6 6 (header_to_bytes h) = h_uid h /\
  sliceN 12 4 (header_to_bytes h) = be_bytes 4 (h_seq_num h).
Proof.
  intro HU. unfold header_to_bytes. repeat split.
  - do 3 (rewrite slice_app_r by (vm_compute; discriminate)).
    change (6 - lenN SBX_SIGNATURE - lenN [u8 (ver_to_usize (h_version h))] - lenN (be_bytes 2 (h_crc h))) with 0.
    unfold sliceN. rewrite drop_0. apply take_app_exact. symmetry; exact HU.
  - do 3 (rewrite slice_app_r by (vm_compute; discriminate)).
    change (12 - lenN SBX_SIGNATURE - lenN [u8 (ver_to_usize (h_version h))] - lenN (be_bytes 2 (h_crc h))) with 6.
    rewrite slice_app_r by lia. rewrite HU. apply slice_all. rewrite lenN_be. reflexivity.
Qed.
Lemma header_roundtrip h : header_ok h = true -> header_from_bytes (header_to_bytes h) = ROk h.
Proof.
  rewrite header_ok_spec. intros (Hc & Hu & Hub & Hs).
  destruct (header_fields h Hu) as (F1 & F2 & F3 & F4 & F5).
  unfold header_from_bytes. rewrite lenN_header_to_bytes by exact Hu. cbn [negb N.eqb Pos.eqb].
  rewrite F1, eqbl_refl, F2, ver_p_usize, F3, F4, F5.
  rewrite (be_val_be_small 2) by exact Hc. rewrite (be_val_be_small 4) by exact Hs.
  destruct h; reflexivity.
Qed.
Lemma header_from_bytes_inv buf h : bytes_ok buf = true -> header_from_bytes buf = ROk h ->
  lenN buf = 16 /\ header_to_bytes h = buf /\ header_ok h = true.
Proof.
  intro Hb. unfold header_from_bytes.
  destruct (N.eqb_spec (lenN buf) 16) as [HL|]; cbn [negb]; [|discriminate].
  destruct (eqbl (takeN 3 buf) SBX_SIGNATURE) eqn:ES; [|discriminate].
  apply eqbl_eq in ES. destruct (ver_p (nthN buf 3)) as [v|] eqn:EV; [|discriminate].
  intro H. injection H as <-. apply ver_p_inv in EV. split; [exact HL|].
  assert (L1 : length (sliceN 4 2 buf) = 2%nat).
  { pose proof (lenN_slice 4 2 buf). unfold lenN in *. lia. }
  assert (L2 : length (sliceN 12 4 buf) = 4%nat).
  { pose proof (lenN_slice 12 4 buf). unfold lenN in *. lia. }
  split.
  - unfold header_to_bytes. cbn [h_version h_crc h_uid h_seq_num].
    rewrite <- ES, <- L1 at 1. rewrite <- L2 at 1.
    rewrite !be_bytes_be_val by (apply bytes_ok_slice; exact Hb).
    assert (E3 : [u8 (ver_to_usize v)] = sliceN 3 1 buf).
    { apply list_ext_N.
      - rewrite lenN_slice, HL. reflexivity.
      - intros i Hi. change (lenN [u8 (ver_to_usize v)]) with 1 in Hi.
        assert (i = 0) by lia. subst i. rewrite nthN_slice. change (0 <? 1) with true. cbn iota.
        change (3 + 0) with 3. rewrite EV. destruct v; reflexivity. }
    rewrite E3, take_slice.
    change 12 with (6 + 6). rewrite <- slice_split. change 6 with (4 + 2) at 1. rewrite <- slice_split.
    change 4 with (3 + 1) at 1. rewrite <- slice_split. change 3 with (0 + 3) at 2. rewrite <- slice_split.
    apply slice_all. rewrite HL. reflexivity.
  - apply header_ok_spec. cbn [h_version h_crc h_uid h_seq_num].
    pose proof (be_val_lt (sliceN 4 2 buf) (bytes_ok_slice _ _ _ Hb)) as B1.
    pose proof (be_val_lt (sliceN 12 4 buf) (bytes_ok_slice _ _ _ Hb)) as B2.
    rewrite lenN_slice, HL in B1, B2.
    repeat split.
    + exact B1.
    + rewrite lenN_slice, HL. reflexivity.
    + apply bytes_ok_slice, Hb.
    + exact B2.
Qed.
Lemma header_from_bytes_ok_iff buf :
  (exists h, header_from_bytes buf = ROk h) <->
  lenN buf = 16 /\ takeN 3 buf = SBX_SIGNATURE /\ In (nthN buf 3) [1; 2; 3; 17; 18; 19].
Proof.
  unfold header_from_bytes. split.
  - intros [h H]. destruct (N.eqb_spec (lenN buf) 16) as [HL|]; cbn [negb] in H; [|discriminate].
    destruct (eqbl (takeN 3 buf) SBX_SIGNATURE) eqn:ES; [|discriminate].
    apply eqbl_eq in ES. destruct (ver_p (nthN buf 3)) as [v|] eqn:EV; [|discriminate].
    split; [exact HL|]. split; [exact ES|]. apply ver_p_some. exists v; exact EV.
  - intros (HL & HS & HV). apply ver_p_some in HV as [v EV].
    rewrite HL, HS, EV. eexists. reflexivity.
Qed.
Lemma header_from_bytes_no_panic buf : header_from_bytes buf <> RPanic.
Proof.
  unfold header_from_bytes. destruct (negb _); [discriminate|]. destruct (eqbl _ _); [|discriminate].
  destruct (ver_p _); discriminate.
Qed.
