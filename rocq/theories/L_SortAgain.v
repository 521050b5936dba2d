(* What a sorted file contains, for arbitrary input files. *)
From Verif Require Import M_Base M_Specs M_Header M_Metadata M_Block M_Index M_FileUtils M_Buffer M_Ranges M_Encode M_Scan M_Loop M_Decode M_Sort
  S_Crc S_Meta S_Block S_Index S_Scan S_Decode S_Sort
  L_Base L_File L_Crc L_Header L_Index L_Index2 L_Block L_Scan L_Decode L_Intact L_Sort2 L_Sort4.
Ltac Zify.zify_post_hook ::= idtac.

(* a chunk is held by blocks of one sequence number only *)
Lemma is_chunk_inj o seq seq' j : is_chunk o seq j -> is_chunk o seq' j -> seq = seq'.
Proof.
  destruct o as [[[d q] B]|]; unfold is_chunk.
  - intros (s & k & K & E & J) (s' & k' & K' & E' & J'). rewrite J in J'. destruct (N.div_mod_unique d s s' k k' K K') as [-> ->]; [lia|]. congruence.
  - lia.
Qed.
Lemma is_chunk_pos o seq j : is_chunk o seq j -> 1 <= seq.
Proof. destruct o as [[[d q] B]|]; unfold is_chunk; [intros (s & k & K & -> & J)|intros [A _]]; lia. Qed.
Lemma zeros_no_block v uid w p seq pl : (forall r, r < ver_to_block_size v -> nthN w (p + r) = 0) -> ~ block_at v uid w p seq pl.
Proof.
  intros Z (h & (A1 & A2 & A3 & A4) & HV & _). rewrite HV in A3. pose proof (block_size_pos v) as BP.
  apply (f_equal (fun l => nthN l 0)) in A3. rewrite take_all in A3 by (rewrite lenN_slice; apply N.le_min_l). rewrite nthN_slice in A3.
  destruct (N.ltb_spec 0 (ver_to_block_size v)); [|lia]. rewrite Z in A3 by lia. revert A3. clear. intro A3. vm_compute in A3. discriminate A3.
Qed.

Section Again.
Variables (ref : block) (o : dpb) (f : file) (lo len : N) (w : file).
Hypothesis HB : bytes_ok f = true.
Hypothesis HO : dpb_ok o.
Let v := b_version ref.
Let uid := b_uid ref.
Let bs := ver_to_block_size v.
Hypothesis SR : sort_result v uid o f lo len [] w.

Lemma sa_belongs_dec i : (exists seq k, belongs v uid o f lo len i seq k) \/ (forall seq k, ~ belongs v uid o f lo len i seq k).
Proof using HB HO.
  pose proof (block_size_pos v) as BP. fold bs in BP.
  set (g := fun k => match accept ref (sliceN (lo + k * bs) bs f) with
                     | Some b => if b_seq_num b =? 0 then existsb (N.eqb i) (midx ref o) else i =? calc_data_block_write_index (b_seq_num b) (Some true) o
                     | None => false end).
  assert (G : forall k, k < nvisit bs f lo len -> (g k = true <-> exists seq, belongs v uid o f lo len i seq k)).
  { intros k Hk. unfold g. pose proof (accept_block_at ref f (lo + k * bs) HB) as A. fold v uid bs in A. destruct (accept ref _) as [b|].
    - destruct A as (A & _). assert (V : visited bs f lo len k) by (apply visited_iff; [lia|exact Hk]).
      assert (M : existsb (N.eqb i) (midx ref o) = true <-> meta_index (Some true) o i).
      { rewrite <- (midx_in 1 f ref o lo len (N.le_refl 1) HO i). rewrite existsb_exists. split; [intros (x & X & E); apply N.eqb_eq in E; subst x; exact X|intro X; exists i; split; [exact X|apply N.eqb_refl]]. }
      split.
      + intro E. exists (b_seq_num b). split; [exact V|]. split; [eauto|]. destruct (N.eqb_spec (b_seq_num b) 0) as [Z|Z].
        * right. split; [exact Z|]. apply M, E.
        * left. split; [lia|]. apply N.eqb_eq, E.
      + intros (seq & _ & (pl & A') & C). fold bs in A'. destruct (block_at_unique _ _ _ _ _ _ _ _ A A') as [E _]. rewrite E.
        destruct C as [[C1 C2]|[C1 C2]]; destruct (N.eqb_spec seq 0); [lia|apply N.eqb_eq, C2|apply M, C2|lia].
    - split; [discriminate|]. intros (seq & _ & (pl & A') & _). elim (A _ _ A'). }
  destruct (existsb g (rangeN 0 (nvisit bs f lo len))) eqn:E.
  - left. apply existsb_exists in E as (k & I & E). apply In_rangeN in I. apply G in E as (seq & B); [|lia]. eauto.
  - right. intros seq k B. assert (L : k < nvisit bs f lo len) by (apply visited_iff; [lia|apply B]).
    assert (X : g k = true) by (apply (G k L); eauto).
    assert (Y : existsb g (rangeN 0 (nvisit bs f lo len)) = true) by (apply existsb_exists; exists k; split; [apply In_rangeN; lia|exact X]).
    congruence.
Qed.

(* a block in the sorted file is one chosen from the input *)
Lemma sa_from i seq pl : block_at v uid w (i * bs) seq pl ->
  exists k, chosen v uid o f lo len i k /\ belongs v uid o f lo len i seq k /\ block_at v uid f (lo + k * bs) seq pl.
Proof using HB HO SR.
  intro BA. pose proof (block_size_pos v) as BP. fold bs in BP. destruct SR as (R1 & R2 & _ & _ & _). fold bs in R1, R2.
  destruct (sa_belongs_dec i) as [(seq0 & k0 & B0)|NB].
  - destruct (chosen_exists f ref o lo len HB _ _ _ B0) as (k & C & B). fold v uid in C, B. pose proof (R1 _ _ C) as E.
    assert (BF : block_at v uid f (lo + k * bs) seq pl) by (unfold block_at in BA |- *; fold bs in BA |- *; rewrite <- E; exact BA).
    exists k. split; [exact C|]. split; [|exact BF]. destruct B as (V & (pl' & BF') & X). fold bs in BF'.
    destruct (block_at_unique _ _ _ _ _ _ _ _ BF BF') as [<- _]. split; [exact V|]. split; [eauto|exact X].
  - exfalso. revert BA. apply zeros_no_block. intros r Hr. fold bs in Hr. rewrite R2; [unfold nthN; destruct (N.to_nat _); reflexivity|].
    rewrite N.div_add_l by lia. rewrite (N.div_small r bs Hr), N.add_0_r. exact NB.
Qed.
(* and each block of the input that belongs at an index is there, or another of the same number is *)
Lemma sa_to i seq k0 : belongs v uid o f lo len i seq k0 -> (i + 1) * bs <= lenN w /\
  exists k pl, chosen v uid o f lo len i k /\ belongs v uid o f lo len i seq k /\ block_at v uid f (lo + k * bs) seq pl /\ block_at v uid w (i * bs) seq pl.
Proof using HB HO SR.
  intro B0. destruct SR as (R1 & R2 & _ & R4 & _). fold bs in R1, R2, R4. split; [exact (R4 _ _ _ B0)|].
  destruct (chosen_exists f ref o lo len HB _ _ _ B0) as (k & C & B). fold v uid in C, B. pose proof (R1 _ _ C) as E.
  pose proof B as (_ & (pl & BF) & _). fold bs in BF. exists k, pl. split; [exact C|]. split; [exact B|]. split; [exact BF|].
  unfold block_at in BF |- *. fold bs in BF |- *. rewrite E. exact BF.
Qed.
Lemma sa_bytes : bytes_ok w = true.
Proof using HB HO SR.
  pose proof (block_size_pos v) as BP. fold bs in BP. apply bytes_ok_nth. intros j Hj. destruct SR as (R1 & R2 & _ & _ & _). fold bs in R1, R2.
  pose proof (N.div_mod' j bs) as DM. pose proof (N.mod_lt j bs ltac:(lia)) as ML.
  destruct (sa_belongs_dec (j / bs)) as [(seq0 & k0 & B0)|NB].
  - destruct (chosen_exists f ref o lo len HB _ _ _ B0) as (k & C & B). fold v uid in C, B. pose proof (R1 _ _ C) as E.
    apply (f_equal (fun l => nthN l (j mod bs))) in E. rewrite nthN_slice in E. destruct (N.ltb_spec (j mod bs) bs); [|lia].
    replace (j / bs * bs + j mod bs) with j in E by lia. rewrite E. apply nthN_byte, bytes_ok_slice, HB.
  - rewrite (R2 j NB). unfold nthN. destruct (N.to_nat j); reflexivity.
Qed.

(* reading a chunk from the sorted file gives what reading it from the input gives *)
Lemma sa_restored o' len' i x y : lenN w <= len' -> (forall seq j, is_chunk o seq j <-> is_chunk o' seq j) ->
  restored v uid o f lo len [] i x -> restored v uid o' w 0 len' [] i y -> x = y.
Proof using HB HO SR.
  intros LL IC R R'. pose proof (block_size_pos v) as BP. fold bs in BP. unfold restored in R, R'. cbv zeta in R, R'. fold bs in R, R'.
  destruct R' as [(k' & seq' & pl' & V' & B' & C' & -> & _)|[N' ->]].
  - rewrite N.add_0_l in B'. apply IC in C'. destruct (sa_from _ _ _ B') as (k & (sq & CB & CL) & B & BA).
    assert (sq = seq') by (apply (belongs_seq f ref o lo len HO k' sq k seq' k); assumption). subst sq.
    destruct R as [(k1 & seq1 & pl1 & V1 & B1 & C1 & -> & L1)|[N1 ->]].
    + assert (seq1 = seq') by (exact (is_chunk_inj _ _ _ _ C1 C')). subst seq1. pose proof (is_chunk_pos _ _ _ C') as SP.
      assert (G1 : belongs v uid o f lo len k' seq' k1) by (split; [exact V1|]; split; [eauto|]; exact (proj2 (proj2 B))).
      specialize (CL _ G1). destruct (N.eqb_spec seq' 0); [lia|]. destruct (N.lt_trichotomy k1 k) as [H|[H|H]]; [|subst k1|lia].
      * elim (L1 k seq' pl' H (proj1 B) BA C').
      * destruct (block_at_unique _ _ _ _ _ _ _ _ B1 BA) as [_ ->]. reflexivity.
    + elim (N1 k seq' pl' (proj1 B) BA C').
  - destruct R as [(k1 & seq1 & pl1 & V1 & B1 & C1 & -> & L1)|[N1 ->]]; [|reflexivity]. exfalso. pose proof (is_chunk_pos _ _ _ C1) as SP.
    assert (G1 : belongs v uid o f lo len (calc_data_block_write_index seq1 (Some true) o) seq1 k1) by (split; [exact V1|]; split; [eauto|]; left; auto).
    destruct (sa_to _ _ _ G1) as (LW & k & pl & _ & _ & _ & BW). refine (N' (calc_data_block_write_index seq1 (Some true) o) seq1 pl _ _ (proj1 (IC _ _) C1)); [split; lia|exact BW].
Qed.
Lemma sa_extent o' len' n n' : lenN w <= len' -> (forall seq j, is_chunk o seq j <-> is_chunk o' seq j) ->
  extent v uid o f lo len [] n -> extent v uid o' w 0 len' [] n' -> n = n'.
Proof using HB HO SR.
  intros LL IC (_ & A & B) (_ & A' & B'). pose proof (block_size_pos v) as BP. fold bs in BP, A, B, A', B'. apply N.le_antisymm.
  - destruct B as [->|(k & seq & pl & j & V & BA & C & ->)]; [apply N.le_0_l|]. pose proof (is_chunk_pos _ _ _ C) as SP.
    assert (G1 : belongs v uid o f lo len (calc_data_block_write_index seq (Some true) o) seq k) by (split; [exact V|]; split; [eauto|]; left; auto).
    destruct (sa_to _ _ _ G1) as (LW & k' & pl' & _ & _ & _ & BW). refine (A' (calc_data_block_write_index seq (Some true) o) seq pl' j _ _ (proj1 (IC _ _) C)); [split; lia|exact BW].
  - destruct B' as [->|(k & seq & pl & j & V & BA & C & ->)]; [apply N.le_0_l|]. rewrite N.add_0_l in BA. destruct (sa_from _ _ _ BA) as (k' & _ & B1 & BA').
    exact (A k' seq pl j (proj1 B1) BA' (proj2 (IC _ _) C)).
Qed.
(* a block of the sorted file belongs where it is *)
Lemma sa_place len' i seq k : lenN w <= len' -> belongs v uid o w 0 len' i seq k ->
  (exists k0, belongs v uid o f lo len i seq k0) /\ sliceN (i * bs) bs w = sliceN (k * bs) bs w.
Proof using HB HO SR.
  intros LL (V & (pl & BA) & X). fold bs in BA. rewrite N.add_0_l in BA. destruct (sa_from _ _ _ BA) as (k1 & (sq & CB & CL) & B1 & BA1).
  assert (sq = seq) by (apply (belongs_seq f ref o lo len HO k sq k1 seq k1); assumption). subst sq.
  assert (G : belongs v uid o f lo len i seq k1) by (split; [exact (proj1 B1)|]; split; [eauto|exact X]).
  split; [exists k1; exact G|]. destruct X as [[SP E]|[-> M]].
  - assert (k = i) as ->; [|reflexivity]. rewrite E. destruct B1 as (_ & _ & [[_ E1]|[-> _]]); [exact E1|lia].
  - destruct SR as (R1 & _). fold bs in R1. rewrite (R1 i k1), (R1 k k1); [reflexivity|exists 0; auto|]. exists 0. split; [exact G|].
    intros k' B'. cbn. apply (CL k'). split; [exact (proj1 B')|]. split; [exact (proj1 (proj2 B'))|]. exact (proj2 (proj2 B1)).
Qed.
Lemma sa_again len' w' : lenN w <= len' -> sort_result v uid o w 0 len' [] w' -> w' = w.
Proof using HB HO SR.
  intros LL (Q1 & Q2 & _ & Q4 & Q5). fold bs in Q1, Q2, Q4, Q5. pose proof (block_size_pos v) as BP. fold bs in BP. pose proof sa_bytes as HW.
  destruct SR as (R1 & R2 & _ & R4 & R5). fold bs in R1, R2, R4, R5.
  assert (BW : forall i seq k, belongs v uid o f lo len i seq k -> belongs v uid o w 0 len' i seq i).
  { intros i seq k B. destruct (sa_to _ _ _ B) as (LW & _ & pl & _ & _ & _ & BA). split; [split; lia|]. rewrite N.add_0_l. split; [eauto|]. exact (proj2 (proj2 B)). }
  assert (LE : lenN w' = lenN w).
  { apply N.le_antisymm.
    - destruct Q5 as [->|(i & seq & k & B & ->)]; [apply N.le_0_l|]. destruct (sa_place _ _ _ _ LL B) as ((k0 & B0) & _). exact (R4 _ _ _ B0).
    - destruct R5 as [->|(i & seq & k & B & ->)]; [apply N.le_0_l|]. exact (Q4 _ _ _ (BW _ _ _ B)). }
  apply list_ext_N; [exact LE|]. intros j Hj. pose proof (N.div_mod' j bs) as DM. pose proof (N.mod_lt j bs ltac:(lia)) as ML.
  destruct (sa_belongs_dec (j / bs)) as [(seq & k & B)|NB].
  - destruct (chosen_exists w ref o 0 len' HW _ _ _ (BW _ _ _ B)) as (k1 & C1 & B1). fold v uid in C1, B1. pose proof (Q1 _ _ C1) as E. rewrite N.add_0_l in E.
    destruct (sa_place _ _ _ _ LL B1) as (_ & E1). rewrite <- E1 in E.
    apply (f_equal (fun l => nthN l (j mod bs))) in E. rewrite !nthN_slice in E. destruct (N.ltb_spec (j mod bs) bs); [|lia]. replace (j / bs * bs + j mod bs) with j in E by lia. exact E.
  - rewrite (R2 j NB). apply Q2. intros seq k B. destruct (sa_place _ _ _ _ LL B) as ((k0 & B0) & _). exact (NB _ _ B0).
Qed.
End Again.
