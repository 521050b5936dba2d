(* C31 and C35: exactly what happens where the property fails. *)
From Verif Require Import M_Base M_Specs M_Header M_Multihash M_Metadata M_Block M_Index M_FileUtils M_Buffer M_Ranges M_Encode
  S_Crc S_Meta S_Block S_Index S_Container S_Encode L_Base L_Index2 L_Ranges L_Encode L_Encode2 L_Encode3 L_Encode4 S_Pace L_Pace P_Encode.

(* An exclusive end of 0 is the same as no end. *)
Theorem c31_exclusive_zero from mis so_far len mo : 1 <= mult_of mo -> len < 18446744073709551616 ->
  calc_required_len_and_seek_to_from_byte_range from (Some (Exc 0)) mis so_far (Len len) mo = calc_required_len_and_seek_to_from_byte_range from None mis so_far (Len len) mo.
Proof.
  intros HM HL. assert (HL' : last_pos (Len len) < 18446744073709551615) by (unfold last_pos; lia).
  destruct (range_eq from (Some (Exc 0)) mis so_far (Len len) mo HM HL') as [S ->]. destruct (range_eq from None mis so_far (Len len) mo HM HL') as [_ ->].
  f_equal. f_equal. f_equal. change (sub64 0 1) with 18446744073709551615. rewrite N.max_l by lia. apply N.min_r. lia.
Qed.
Print Assumptions c31_exclusive_zero.
Example c31_exclusive_zero_ex : calc_required_len_and_seek_to_from_byte_range (Some 300) (Some (Exc 0)) false 0 (Len 5000) (Some 128) = (4744, 256).
Proof. vm_compute. reflexivity. Qed.

Lemma fewer_blocks v o a b n : dpb_ok o -> b <= a -> block_count v o a n -> exists m, block_count v o b m /\ m <= n.
Proof.
  intros DO L (c & C1 & C2). destruct (data_size_pos v) as [DS _]. change (ver_to_data_size v) with (ver_to_block_size v - 16) in DS. set (ds := ver_to_block_size v - 16) in *.
  pose proof (ceil_div b ds DS) as CB. set (c' := (b + (ds - 1)) / ds) in *.
  assert (LC : c' <= c) by (apply (ceil_le b ds c' c CB); destruct C1; lia). destruct o as [[[d p] B]|].
  - destruct C2 as (s & C2 & ->). destruct DO as (D1 & _). pose proof (ceil_div c' d D1) as CD. exists ((c' + (d - 1)) / d * (d + p)). split; [exists c'; split; [exact CB|]; eexists; split; [exact CD|reflexivity]|].
    apply N.mul_le_mono_r. apply (ceil_le c' d _ s CD). destruct C2; lia.
  - subst n. exists c'. split; [exists c'; auto|exact LC].
Qed.
(* Standard input, in whatever pieces it arrives: what is encoded is a part of it from the beginning, and it is all of it if and only if every payload is made of parts of
   at most five pieces. *)
Theorem c35_stdin_complete_iff H rs p cpus script mx n :
  enc_ok H rs cpus p -> meta_fits H p -> input_ok (SrcStdin script) -> Forall (fun x => x <> []) script ->
  ver_to_max_data_file_size (e_ver p) (e_dpb p) = ROk mx -> lenN (concat script) <= mx ->
  block_count (e_ver p) (e_dpb p) (lenN (concat script)) n -> n < U32_MAX ->
  exists out data rest, encode_file H rs cpus p (SrcStdin script) = ROk out /\ encoded H rs p data out /\ concat script = data ++ rest /\
    (data = concat script <-> at_most_five (ver_to_data_size (e_ver p)) script).
Proof.
  intros OK MF IO FU HMX HL BC HN. destruct (encode_stdin_reads H rs p cpus OK MF script mx IO HMX) as (data & rest & E1 & E2 & [(out & _ & _ & X1 & X2)|(RD & X)]).
  - exfalso. apply (f_equal lenN) in E1. rewrite lenN_app in E1. assert (lenN rest = 0) by lia. apply X2, lenN_0. assumption.
  - assert (DO : dpb_ok (e_dpb p)) by apply OK. assert (LE : lenN data <= lenN (concat script)) by (rewrite E1, lenN_app; lia). destruct (fewer_blocks _ _ _ _ n DO LE BC) as (m & BM & LM).
    destruct (X m BM ltac:(lia)) as (out & EO & EN). exists out, data, rest. split; [exact EO|]. split; [exact EN|]. split; [exact E1|].
    destruct (data_size_pos (e_ver p)) as [DS _]. rewrite <- (reads_iff _ _ _ _ DS RD script eq_refl FU), E1. split.
    + intro Z. apply (app_inv_head data). rewrite app_nil_r. symmetry. exact Z.
    + intros ->. symmetry. apply app_nil_r.
Qed.
Print Assumptions c35_stdin_complete_iff.
(* 600 bytes, the payload being 496: five pieces in the first payload are fine, six are not *)
Example c35_five : at_most_five 496 [repN 100 1; repN 100 2; repN 100 3; repN 100 4; repN 200 5] /\ ~ at_most_five 496 [repN 90 1; repN 90 2; repN 90 3; repN 90 4; repN 90 5; repN 150 6].
Proof.
  split.
  - intro q. destruct (N.eq_dec q 0) as [->|NQ]; [vm_compute; discriminate|].
    unfold inside. change (joints 0 _) with [100; 200; 300; 400]. cbn [filter].
    replace (q * 496 <? 100) with false by (symmetry; apply N.ltb_ge; nia). replace (q * 496 <? 200) with false by (symmetry; apply N.ltb_ge; nia).
    replace (q * 496 <? 300) with false by (symmetry; apply N.ltb_ge; nia). replace (q * 496 <? 400) with false by (symmetry; apply N.ltb_ge; nia). exact (N.le_0_l _).
  - intro A. specialize (A 0). vm_compute in A. apply A. reflexivity.
Qed.
Example c35_run :
  let go script := match encode_file toy_hash toy_rs 1 (toy_p V1 None) (SrcStdin script) with ROk out => Some (eo_err out, match eo_hash out with Some (_, x :: _) => x | _ => 999 end) | _ => None end in
  go [repN 20 1; repN 20 2; repN 20 3; repN 20 4; repN 20 5] = Some (false, 100) /\ go [repN 20 1; repN 20 2; repN 20 3; repN 20 4; repN 20 5; repN 20 6] = Some (false, 100).
Proof. split; vm_compute; reflexivity. Qed.
