(* Repairing, part 1: re-writing the reference block, one metadata position, one set. *)
From Verif Require Import M_Base M_Specs M_Crc M_Header M_Multihash M_Metadata M_Block M_Index M_FileUtils M_Buffer M_Ranges M_Encode M_Scan M_Loop M_Decode M_Repair
  S_Crc S_Meta S_Block S_Index S_Container S_Scan S_Decode S_Encode S_Repair
  L_Base L_Crc L_File L_Header L_Meta L_Block L_Block2 L_Index L_Index2 L_Buffer L_Encode L_Loop L_Scan L_Container L_Decode L_Decode2 L_Ref L_Lot L_Sort2 L_Intact.
Ltac Zify.zify_post_hook ::= idtac.

(* ---- what is parsed fits where it was parsed from ---- *)
Lemma single_meta_size bs m r : single_meta_p bs = Some (m, r) -> field_size m + lenN r <= lenN bs.
Proof.
  unfold single_meta_p, alt_p.
  assert (STR : forall id mk, str_p id mk bs = Some (m, r) -> exists s, m = mk s /\ lenN bs = 4 + lenN s + lenN r).
  { intros id mk H. apply str_p_inv in H as (s & -> & -> & H). exists s. split; [reflexivity|]. destruct id; rewrite !lenN_app; cbn [id_to_bytes]; unfold lenN; cbn [length]; lia. }
  assert (NUM : forall id w mk, num_p id w mk bs = Some (m, r) -> exists x, m = mk x /\ lenN bs = 4 + w + lenN r).
  { intros id w mk H. apply num_p_inv in H as (s & -> & -> & H). exists (be_val s). split; [reflexivity|].
    rewrite <- H. destruct id; rewrite !lenN_app; cbn [id_to_bytes]; unfold lenN; cbn [length]; lia. }
  destruct (str_p IFNM FNM bs) as [q|] eqn:E1.
  { intro H; injection H as ->. apply STR in E1 as (s & -> & E). unfold field_size. lia. }
  destruct (str_p ISNM SNM bs) as [q|] eqn:E2.
  { intro H; injection H as ->. apply STR in E2 as (s & -> & E). unfold field_size. lia. }
  destruct (num_p IFSZ 8 FSZ bs) as [q|] eqn:E3.
  { intro H; injection H as ->. apply NUM in E3 as (s & -> & E). unfold field_size. lia. }
  destruct (num_p IFDT 8 _ bs) as [q|] eqn:E4.
  { intro H; injection H as ->. apply NUM in E4 as (s & -> & E). unfold field_size. lia. }
  destruct (num_p ISDT 8 _ bs) as [q|] eqn:E5.
  { intro H; injection H as ->. apply NUM in E5 as (s & -> & E). unfold field_size. lia. }
  destruct (hsh_p bs) as [q|] eqn:E6.
  { intro H; injection H as ->. unfold hsh_p in E6. destruct (tag_p _ bs) as [r1|] eqn:T; [|discriminate].
    destruct (multihash_w_len_p r1) as [[h r2]|] eqn:M; [|discriminate]. injection E6 as <- <-.
    apply tag_p_inv in T. subst bs. apply multihash_sound in M as (_ & HL & ->). destruct h as [t d]. cbn [fst snd] in *.
    rewrite !lenN_app. unfold field_size; cbn [id_to_bytes]. rewrite <- HL. change (lenN [?a]) with 1. generalize (lenN (hash_code t)). intro. unfold lenN; cbn [length]. lia. }
  destruct (num_p IRSD 1 RSD bs) as [q|] eqn:E7.
  { intro H; injection H as ->. apply NUM in E7 as (s & -> & E). unfold field_size. lia. }
  intro E8. apply NUM in E8 as (s & -> & E). unfold field_size. lia.
Qed.
Lemma many0_size fuel bs : fields_size (many0_meta fuel bs) <= lenN bs.
Proof.
  revert bs. induction fuel as [|fuel IH]; intro bs; cbn [many0_meta]; [cbn; lia|].
  destruct (single_meta_p bs) as [[m r]|] eqn:E; [|cbn; lia]. apply single_meta_size in E. cbn [fields_size fold_right]. fold (fields_size (many0_meta fuel r)).
  specialize (IH r). lia.
Qed.
Lemma fields_size_filter g ms : fields_size (filter g ms) <= fields_size ms.
Proof.
  induction ms as [|m ms IH]; cbn [filter]; [lia|]. cbn [fields_size fold_right]. fold (fields_size ms).
  destruct (g m); cbn [fields_size fold_right]; fold (fields_size (filter g ms)); lia.
Qed.
Lemma parsed_size bs : fields_size (metas_from_bytes bs) <= lenN bs.
Proof.
  unfold metas_from_bytes, filter_invalid_metadata, meta_p. pose proof (many0_size (length bs) bs) as S. set (ms := many0_meta _ _) in *.
  pose proof (fields_size_filter keep_meta ms). pose proof (fields_size_filter (fun m => negb (is_rs_meta m)) (filter keep_meta ms)).
  destruct (first_rsd ms); [destruct (first_rsp ms); [destruct (_ <? _)|]|]; lia.
Qed.

Lemma write_bytes_ok w p d : bytes_ok w = true -> bytes_ok d = true -> bytes_ok (file_write w p d) = true.
Proof.
  rewrite !bytes_ok_Forall, !Forall_forall. intros H1 H2 x Hx. apply In_nth with (d := 0) in Hx as (j & _ & <-).
  assert (E : nth j (file_write w p d) 0 = nthN (file_write w p d) (N.of_nat j)) by (unfold nthN; rewrite Nnat.Nat2N.id; reflexivity).
  assert (G : forall l, (forall y, In y l -> y < 256) -> forall i, nthN l i < 256).
  { intros l Hl i. unfold nthN. destruct (nth_in_or_default (N.to_nat i) l 0) as [H| ->]; [apply Hl, H|lia]. }
  rewrite E, nthN_file_write. destruct (_ && _); apply G; assumption.
Qed.
(* ---- lists of whole-block writes ---- *)
Section Puts.
Variable bs : N.
Hypothesis BS : 1 <= bs.
Lemma put_value L f a b i : sized bs L -> In (a, b) L -> (forall b', In (a, b') L -> b' = b) -> i / bs = a ->
  nthN (put_blocks bs L f) i = nthN b (i mod bs).
Proof.
  revert f. induction L as [|[a0 b0] L IH]; intros f HS HI HF E; [destruct HI|].
  pose proof (Forall_inv HS) as H1. pose proof (Forall_inv_tail HS) as H2. cbn [snd] in H1. subst a. change (put_blocks bs ((a0, b0) :: L) f) with (put_blocks bs L (file_write f (a0 * bs) b0)).
  destruct (in_dec (fun x y => N.eq_dec x y) (i / bs) (map fst L)) as [Y|NO].
  - apply in_map_iff in Y as ([a1 b1] & E1 & Y). cbn [fst] in E1. subst a1. pose proof (HF b1 (or_intror Y)). subst b1.
    apply IH; auto. intros b' Hb. apply HF. right. exact Hb.
  - destruct HI as [HI|HI].
    + apply pair_inj in HI as [-> ->]. rewrite put_other; [|exact BS|exact H2|].
      * rewrite nth_write_block by assumption. rewrite N.eqb_refl. reflexivity.
      * intros b' Hb. apply NO. apply in_map_iff. exists (i / bs, b'). split; [reflexivity|exact Hb].
    + exfalso. apply NO. apply in_map_iff. exists (i / bs, b). split; [reflexivity|exact HI].
Qed.
Lemma put_bytes L f : bytes_ok f = true -> (forall a b, In (a, b) L -> bytes_ok b = true) -> bytes_ok (put_blocks bs L f) = true.
Proof.
  revert f. induction L as [|[a0 b0] L IH]; intros f HB HL; [exact HB|].
  change (put_blocks bs ((a0, b0) :: L) f) with (put_blocks bs L (file_write f (a0 * bs) b0)). apply IH.
  - apply write_bytes_ok; [exact HB|]. apply (HL a0). left. reflexivity.
  - intros a b H. apply (HL a). right. exact H.
Qed.
End Puts.

(* ---- a block not written to, read later ---- *)
Lemma lenN_div_le a n b : 1 <= b -> a * b <= n -> a <= n / b.
Proof. intros. apply N.div_le_lower_bound; lia. Qed.
Lemma same_slice v f w a : same_block v f w a -> lenN f <= lenN w ->
  sliceN (a * ver_to_block_size v) (ver_to_block_size v) w
  = sliceN (a * ver_to_block_size v) (ver_to_block_size v) (f ++ repN (lenN w - lenN f) 0).
Proof.
  intros H L. apply list_ext_N.
  - rewrite !lenN_slice, lenN_app, lenN_rep. f_equal. lia.
  - intros i Hi. rewrite lenN_slice in Hi. rewrite !nthN_slice. destruct (N.ltb_spec i (ver_to_block_size v)) as [HL|HL]; [|lia].
    rewrite H.
    + rewrite nthN_app. destruct (N.ltb_spec (a * ver_to_block_size v + i) (lenN f)); [reflexivity|]. rewrite nthN_rep0. apply nthN_out. lia.
    + symmetry. apply N.div_unique with (r := i); lia.
Qed.
Lemma same_slice_full v f w a : same_block v f w a -> lenN f <= lenN w -> (a + 1) * ver_to_block_size v <= lenN f ->
  sliceN (a * ver_to_block_size v) (ver_to_block_size v) w = sliceN (a * ver_to_block_size v) (ver_to_block_size v) f.
Proof. intros H L F. rewrite (same_slice v f w a H L). apply slice_app_l. lia. Qed.
Lemma block_at_len v uid f pos seq pl : block_at v uid f pos seq pl -> pos + ver_to_block_size v <= lenN f.
Proof.
  intros (h & W & V & _). apply wf_len in W. rewrite V, lenN_slice in W. pose proof (block_size_pos v). lia.
Qed.
Lemma block_at_same v uid f w a seq pl : same_block v f w a -> lenN f <= lenN w ->
  block_at v uid f (a * ver_to_block_size v) seq pl -> block_at v uid w (a * ver_to_block_size v) seq pl.
Proof.
  intros H L BA. pose proof (block_at_len _ _ _ _ _ _ BA) as BL. destruct BA as (h & W & X). exists h. split; [|exact X].
  rewrite (same_slice_full v f w a H L) by lia. exact W.
Qed.
Lemma block_at_ext v uid f w a seq pl : same_block v f w a -> lenN f <= lenN w ->
  block_at v uid w (a * ver_to_block_size v) seq pl <-> block_at v uid (f ++ repN (lenN w - lenN f) 0) (a * ver_to_block_size v) seq pl.
Proof. intros H L. unfold block_at. rewrite (same_slice v f w a H L). reflexivity. Qed.
Lemma same_block_ext v f z a : same_block v f (f ++ repN z 0) a.
Proof.
  intros i _. rewrite nthN_app. destruct (N.ltb_spec i (lenN f)); [reflexivity|]. rewrite nthN_rep0. symmetry. apply nthN_out. assumption.
Qed.
Lemma same_block_refl v f a : same_block v f f a. Proof. intros i _. reflexivity. Qed.
Lemma same_block_trans v f g h a : same_block v f g a -> same_block v g h a -> same_block v f h a.
Proof. intros H1 H2 i E. rewrite H2, H1 by exact E. reflexivity. Qed.

(* two blocks with the same number and payload are the same bytes *)
Lemma block_at_bytes v uid f f' pos pos' seq pl : block_at v uid f pos seq pl -> block_at v uid f' pos' seq pl ->
  sliceN pos (ver_to_block_size v) f = sliceN pos' (ver_to_block_size v) f'.
Proof.
  intros (h & (A1 & A2 & A3 & A4) & V & U & S) (h' & (B1 & B2 & B3 & B4) & V' & U' & S').
  assert (h = h').
  { destruct h as [hv hc hu hs], h' as [hv' hc' hu' hs']. cbn [h_version h_uid h_seq_num h_crc] in *. subst. f_equal. eapply is_crc_unique; eassumption. }
  subst h'. rewrite V in A3, B3. rewrite take_all in A3 by (rewrite lenN_slice; lia). rewrite take_all in B3 by (rewrite lenN_slice; lia). congruence.
Qed.
