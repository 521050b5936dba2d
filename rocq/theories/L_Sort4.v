(* Sorting a shuffled container rebuilds it. *)
From Verif Require Import M_Base M_Specs M_Header M_Metadata M_Block M_Index M_FileUtils M_Buffer M_Ranges M_Encode M_Scan M_Loop M_Decode M_Sort
  S_Crc S_Meta S_Block S_Index S_Container S_Encode S_Scan S_Decode S_Sort
  L_Base L_Crc L_File L_Header L_Index L_Index2 L_Block L_Scan L_Container L_Decode L_Intact L_Intact2 L_Sort2.
Ltac Zify.zify_post_hook ::= idtac.

(* a block is determined by version, UID, sequence number and payload *)
Lemma block_bytes_eq v uid f g p q seq pl : block_at v uid f p seq pl -> block_at v uid g q seq pl ->
  sliceN p (ver_to_block_size v) f = sliceN q (ver_to_block_size v) g.
Proof.
  intros (h & (A1 & A2 & A3 & A4) & HV & HU & HS) (h' & (B1 & B2 & B3 & B4) & HV' & HU' & HS').
  rewrite HV in A2, A3, A4. rewrite HV' in B2, B3, B4. rewrite HU, HS in A4. rewrite HU', HS' in B4.
  pose proof (is_crc_unique _ _ _ _ A4 B4) as CE. assert (h = h') as -> by (destruct h, h'; cbn in *; congruence).
  rewrite <- B3 in A3. rewrite !take_all in A3 by (rewrite lenN_slice; apply N.le_min_l). exact A3.
Qed.

(* the first and the last number below m with a property *)
Lemma least_below (g : N -> bool) m : (exists k, k < m /\ g k = true) -> exists k, k < m /\ g k = true /\ forall k', k' < m -> g k' = true -> k <= k'.
Proof.
  induction m as [|m IH] using N.peano_ind; intros (k & Hk & G); [lia|]. rewrite <- N.add_1_r in *.
  destruct (existsb g (rangeN 0 m)) eqn:E.
  - apply existsb_exists in E as (x & Hx & Gx). apply In_rangeN in Hx. destruct IH as (k0 & H0 & G0 & L0); [exists x; split; [lia|exact Gx]|].
    exists k0. split; [lia|]. split; [exact G0|]. intros k' Hk' G'. destruct (N.eq_dec k' m) as [->|]; [lia|]. apply L0; [lia|exact G'].
  - assert (N0 : forall x, x < m -> g x = false).
    { intros x Hx. destruct (g x) eqn:Gx; [|reflexivity]. rewrite <- E. symmetry. apply existsb_exists. exists x. split; [apply In_rangeN; lia|exact Gx]. }
    assert (k = m) as -> by (destruct (N.eq_dec k m); [assumption|]; rewrite N0 in G by lia; discriminate).
    exists m. split; [lia|]. split; [exact G|]. intros k' Hk' G'. destruct (N.lt_ge_cases k' m) as [L|L]; [rewrite N0 in G' by exact L; discriminate|exact L].
Qed.
Lemma greatest_below (g : N -> bool) m : (exists k, k < m /\ g k = true) -> exists k, k < m /\ g k = true /\ forall k', k' < m -> g k' = true -> k' <= k.
Proof.
  induction m as [|m IH] using N.peano_ind; intros (k & Hk & G); [lia|]. rewrite <- N.add_1_r in *.
  destruct (g m) eqn:GM; [exists m; split; [lia|]; split; [exact GM|]; intros; lia|].
  destruct IH as (k0 & H0 & G0 & L0). { exists k. split; [|exact G]. destruct (N.eq_dec k m) as [->|]; [congruence|lia]. }
  exists k0. split; [lia|]. split; [exact G0|]. intros k' Hk' G'. destruct (N.eq_dec k' m) as [->|]; [congruence|]. apply L0; [lia|exact G'].
Qed.

Section Chosen.
Variables (f : file) (ref : block) (o : dpb) (lo len : N).
Hypothesis HB : bytes_ok f = true.
Let v := b_version ref.
Let uid := b_uid ref.
Let bs := ver_to_block_size v.
Lemma chosen_exists i seq k0 : belongs v uid o f lo len i seq k0 -> exists k, chosen v uid o f lo len i k /\ belongs v uid o f lo len i seq k.
Proof.
  intro B0. pose proof (block_size_pos v) as BP. fold bs in BP.
  set (g := fun k => match accept ref (sliceN (lo + k * bs) bs f) with Some b => b_seq_num b =? seq | None => false end).
  assert (G : forall k, k < nvisit bs f lo len -> (g k = true <-> belongs v uid o f lo len i seq k)).
  { intros k Hk. unfold g. pose proof (accept_block_at ref f (lo + k * bs) HB) as A. fold v uid bs in A. destruct (accept ref _) as [b|].
    - destruct A as (A & _). rewrite N.eqb_eq. split.
      + intros <-. split; [apply visited_iff; [lia|exact Hk]|]. split; [eauto|apply B0].
      + intros (_ & (pl & A') & _). fold bs in A'. destruct (block_at_unique _ _ _ _ _ _ _ _ A A') as [E _]. exact E.
    - split; [discriminate|]. intros (_ & (pl & A') & _). elim (A _ _ A'). }
  assert (EX : exists k, k < nvisit bs f lo len /\ g k = true).
  { exists k0. assert (L : k0 < nvisit bs f lo len) by (apply visited_iff; [lia|apply B0]). split; [exact L|]. apply G; assumption. }
  destruct (N.eqb_spec seq 0) as [Z|Z].
  - apply least_below in EX as (k & Hk & Gk & L). exists k. apply (G k Hk) in Gk. split; [|exact Gk]. exists seq. split; [exact Gk|].
    intros k' B'. destruct (N.eqb_spec seq 0); [|congruence]. assert (Hk' : k' < nvisit bs f lo len) by (apply visited_iff; [lia|apply B']). apply L; [exact Hk'|]. apply G; assumption.
  - apply greatest_below in EX as (k & Hk & Gk & L). exists k. apply (G k Hk) in Gk. split; [|exact Gk]. exists seq. split; [exact Gk|].
    intros k' B'. destruct (N.eqb_spec seq 0); [congruence|]. assert (Hk' : k' < nvisit bs f lo len) by (apply visited_iff; [lia|apply B']). apply L; [exact Hk'|]. apply G; assumption.
Qed.
End Chosen.

Section Rebuild.
Variables (ref : block) (o : dpb) (rs : codec) (ms : list metadata) (data f0 : list N) (n : N) (f : file) (lo len : N) (w : file).
Let v := b_version ref.
Let uid := b_uid ref.
Let bs := ver_to_block_size v.
Hypothesis IT : intact v uid true o rs ms data f0 n.
Hypothesis HB : bytes_ok f = true.
Hypothesis SB : same_blocks v uid f lo len f0 0 (lenN f0).
Hypothesis SR : sort_result v uid o f lo len [] w.

Lemma rb_used i seq k : belongs v uid o f lo len i seq k -> used_index true o n i /\
  exists pl, block_at v uid f0 (i * bs) seq pl /\ block_at v uid f (lo + k * bs) seq pl.
Proof.
  intros (V & (pl & B) & C). destruct (proj1 (SB seq pl)) as (k0 & _ & B0); [exists k; auto|]. fold bs in B, B0. rewrite N.add_0_l in B0.
  destruct (block_inv _ _ _ _ _ _ _ _ _ IT _ _ _ B0) as [[-> M]|(Hs & -> & E)].
  - destruct C as [[C _]|[_ M']]; [lia|]. split; [left; exact M'|]. exists pl. split; [|exact B].
    destruct (parts _ _ _ _ _ _ _ _ _ IT) as (meta & _ & _ & I2 & _). pose proof (I2 _ M) as E1. rewrite <- (I2 _ M') in E1.
    unfold block_at in *. fold bs. fold bs in E1, B0. rewrite <- E1. exact B0.
  - destruct C as [[_ ->]|[-> _]]; [|lia]. split; [right; exists seq; auto|]. exists pl. split; [exact B0|exact B].
Qed.
Lemma rb_belongs i : used_index true o n i -> exists seq k, belongs v uid o f lo len i seq k.
Proof.
  intro U. pose proof (I4 _ _ _ _ _ _ _ _ _ IT i U) as L. fold bs in L. pose proof (block_size_pos v) as BP. fold bs in BP.
  assert (V0 : visited bs f0 0 (lenN f0) i) by (split; lia).
  destruct U as [M|(seq & Hs & E)].
  - destruct (meta_block_at _ _ _ _ _ _ _ _ _ IT i M) as (pl & B0). destruct (proj2 (SB 0 pl)) as (k & V & B); [exists i; rewrite N.add_0_l; auto|].
    exists 0, k. split; [exact V|]. split; [eauto|]. right. auto.
  - destruct (data_block _ _ _ _ _ _ _ _ _ IT seq Hs) as [B0 _]. rewrite E in B0. destruct (proj2 (SB seq (payload_of v o rs data seq))) as (k & V & B); [exists i; rewrite N.add_0_l; eauto|].
    exists seq, k. split; [exact V|]. split; [eauto|]. left. split; [lia|congruence].
Qed.
Lemma rebuilt : w = f0.
Proof.
  pose proof (block_size_pos v) as BP. fold bs in BP. destruct SR as (R1 & R2 & R3 & R4 & R5). fold bs in R1, R2, R4, R5.
  destruct (whole_blocks _ _ _ _ _ _ _ _ _ IT) as (K & EK & UK). fold bs in EK.
  assert (LE : lenN w = lenN f0).
  { apply N.le_antisymm.
    - destruct R5 as [E|(i & seq & k & B & E)]; [rewrite E; apply N.le_0_l|]. rewrite E, EK. apply N.mul_le_mono_r. destruct (rb_used _ _ _ B) as [U _]. apply UK in U. lia.
    - destruct (I5 _ _ _ _ _ _ _ _ _ IT) as [E|(i & U & E)]; [rewrite E; apply N.le_0_l|]. fold bs in E. rewrite E. destruct (rb_belongs i U) as (seq & k & B). exact (R4 _ _ _ B). }
  apply list_ext_N; [exact LE|]. intros j Hj. pose proof (N.div_mod' j bs) as DM. pose proof (N.mod_lt j bs ltac:(lia)) as ML.
  assert (D : used_index true o n (j / bs) \/ ~ used_index true o n (j / bs)).
  { destruct (index_cases _ _ _ _ _ _ _ _ _ IT (j / bs)) as [M|[S|U]]; [left; left; exact M|left; right; exact S|right; exact U]. }
  destruct D as [U|U].
  - destruct (rb_belongs _ U) as (seq & k0 & B0). destruct (chosen_exists f ref o lo len HB _ _ _ B0) as (k & C & B). pose proof (R1 _ _ C) as E.
    destruct (rb_used _ _ _ B) as (_ & pl & X0 & X). pose proof (block_bytes_eq _ _ _ _ _ _ _ _ X0 X) as Q. fold bs in Q. rewrite <- Q in E.
    apply (f_equal (fun l => nthN l (j mod bs))) in E. rewrite !nthN_slice in E. destruct (N.ltb_spec (j mod bs) bs); [|lia]. replace (j / bs * bs + j mod bs) with j in E by lia. exact E.
  - rewrite (I3 _ _ _ _ _ _ _ _ _ IT j U). rewrite R2; [unfold nthN; destruct (N.to_nat j); reflexivity|]. intros seq k B. apply U. apply (rb_used _ _ _ B).
Qed.
End Rebuild.
