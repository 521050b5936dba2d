(* Counting lemmas for the guesses. *)
From Verif Require Import M_Base M_Specs M_Header M_Metadata M_Block M_Index M_Buffer M_Ranges M_Scan
  S_Crc S_Meta S_Block S_Index S_Decode S_Guess L_Base L_Crc L_File L_Header L_Index L_Index2 L_Block L_Scan L_Guess.

Lemma count_filter (P : N -> Prop) (g : N -> bool) K : (forall k, k < K -> g k = true <-> P k) -> count_of P K (countN g (rangeN 0 K)).
Proof.
  intro H. exists (filter g (rangeN 0 K)). split; [apply NoDup_filter, NoDup_rangeN|]. split; [|reflexivity].
  intro k. rewrite filter_In, In_rangeN. split.
  - intros [A B]. split; [lia|]. apply H; [lia|exact B].
  - intros [A B]. split; [lia|]. apply H; assumption.
Qed.
Lemma count_of_fun P K c c' : count_of P K c -> count_of P K c' -> c = c'.
Proof.
  intros (l & N1 & I1 & <-) (l' & N2 & I2 & <-). unfold lenN. f_equal. apply Nat.le_antisymm; apply NoDup_incl_length; try assumption; intros k Hk.
  - apply I2, I1, Hk.
  - apply I1, I2, Hk.
Qed.
Lemma countN_indexed {A} (g : N * A -> bool) (dflt : A) l :
  countN g (indexed l) = countN (fun k => match nth_optN l k with Some a => g (k, a) | None => false end) (rangeN 0 (lenN l)).
Proof.
  unfold indexed. assert (G : forall lo, countN g (combine (rangeN lo (lo + lenN l)) l)
    = countN (fun k => match nth_optN l (k - lo) with Some a => g (k, a) | None => false end) (rangeN lo (lo + lenN l))); [|rewrite <- (N.add_0_l (lenN l)), G; unfold countN; f_equal; apply filter_ext; intro k; rewrite N.sub_0_r; reflexivity].
  induction l as [|a l IH]; intro lo.
  - change (lenN (@nil A)) with 0. rewrite N.add_0_r. unfold rangeN. rewrite N.sub_diag. reflexivity.
  - rewrite lenN_cons. rewrite (rangeN_split lo (lo + 1) (lo + (1 + lenN l))) by lia.
    assert (E1 : rangeN lo (lo + 1) = [lo]) by (unfold rangeN; replace (lo + 1 - lo) with 1 by lia; reflexivity). rewrite E1. cbn [app combine].
    unfold countN in *. cbn [filter]. replace (lo + (1 + lenN l)) with (lo + 1 + lenN l) by lia.
    assert (T : filter (fun k => match nth_optN (a :: l) (k - lo) with Some a0 => g (k, a0) | None => false end) (rangeN (lo + 1) (lo + 1 + lenN l))
      = filter (fun k => match nth_optN l (k - (lo + 1)) with Some a0 => g (k, a0) | None => false end) (rangeN (lo + 1) (lo + 1 + lenN l))).
    { apply filter_ext_in. intros k Hk. apply In_rangeN in Hk. unfold nth_optN. replace (N.to_nat (k - lo)) with (S (N.to_nat (k - (lo + 1)))) by lia. reflexivity. }
    rewrite T. rewrite N.sub_diag. change (nth_optN (a :: l) 0) with (Some a). destruct (g (lo, a)); rewrite ?lenN_cons, IH; reflexivity.
Qed.
Lemma placed_iff d p l k seq : 1 <= d -> 1 <= p -> d + p <= 256 -> k < 1000000 -> seq < 4294967296 ->
  placed_at (Some (d, p, l)) k seq <-> calc_seq_num_at_index k None (Some (d, p, l)) = seq.
Proof.
  intros D1 P1 DP HK HS. set (o := Some (d, p, l)). assert (HO : dpb_ok o) by (cbn; auto). rewrite calc_seq_num_at_index_eq. unfold placed_at. split.
  - intros [[-> M]|[S1 <-]]; [rewrite seq_at_meta by assumption; reflexivity|]. rewrite seq_at_write by assumption. unfold u32. apply N.mod_small. lia.
  - intro E. destruct (index_covered None o k HO) as [M|(s & S1 & W)].
    + left. rewrite seq_at_meta in E by assumption. split; [symmetry; exact E|exact M].
    + right. assert (SB : s < 4294967296).
      { clear E. unfold o in W. destruct (N.eq_dec l 0) as [->|NZ].
        - unfold calc_data_block_write_index, SBX_FIRST_DATA_SEQ_NUM in W. cbn [N.eqb] in W. lia.
        - destruct (seq_decomp d p l (s - 1) D1 ltac:(lia)) as (q & a & j & A1 & A2 & A3 & A4).
          replace s with (1 + ((d + p) * l * q + ((d + p) * a + j))) in W |- * by lia. rewrite write_index_eq in W by lia. unfold pos_of in W.
          assert ((d + p) * a <= 256 * a) by (apply N.mul_le_mono_r; lia). revert W H. generalize (mcount p q j), ((d + p) * l * q), (j * l), ((d + p) * a). intros. lia. }
      rewrite <- W, seq_at_write in E by assumption. unfold u32 in E. rewrite N.mod_small in E by lia. subst seq. auto.
Qed.
