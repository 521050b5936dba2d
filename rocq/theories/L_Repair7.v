(* Repairing, part 7: what the command leaves alone and what it repairs; repairing twice; repairing a damaged container. *)
From Verif Require Import M_Base M_Specs M_Crc M_Header M_Multihash M_Metadata M_Block M_Index M_FileUtils M_Buffer M_Ranges M_Encode M_Scan M_Loop M_Decode M_Repair
  S_Crc S_Meta S_Block S_Index S_Container S_Scan S_Decode S_Encode S_Repair
  L_Base L_Crc L_File L_Header L_Meta L_Block L_Block2 L_Index L_Index2 L_Buffer L_Encode L_Loop L_Scan L_Container L_Ranges L_Decode L_Decode2 L_Ref L_Lot L_Sort2 L_Intact L_Repair L_Repair2 L_Repair3 L_Repair4 L_Repair5 L_Repair6.
Ltac Zify.zify_post_hook ::= idtac.

Lemma at_least_impl d p c (P Q : N -> Prop) k : (forall s, P s -> Q s) -> at_least d p c P k -> at_least d p c Q k.
Proof. intros H (l & N & L & X). exists l. split; [exact N|]. split; [exact L|]. intros s Hs. destruct (X s Hs) as (A & C & E). auto. Qed.
Lemma in_place_ext v uid d p B f z s : in_place v uid d p B f s -> in_place v uid d p B (f ++ repN z 0) s.
Proof.
  intros (pl & X). exists pl. apply (block_at_same v uid f _ _ s pl); [apply same_block_ext|rewrite lenN_app; lia|exact X].
Qed.

Lemma seqs_in7 d p k s : 1 <= d -> In s (seqs_of_set d p k) <-> 1 <= s /\ set_of d p s = k.
Proof.
  intro D1. split.
  - intro H. assert (1 <= s). { unfold seqs_of_set in H. apply in_map_iff in H as (j & <- & _). lia. } split; [assumption|]. apply set_members; assumption.
  - intros [H1 H2]. apply set_members; assumption.
Qed.

Section Main.
Variables (rs : codec) (rc : recon) (burst : option N) (f : file) (ref : block) (d p B m : N).
Hypothesis HR : recon_ok rs rc d p.
Hypothesis HB : bytes_ok f = true.
Hypothesis HL : lenN f < 18446744073709551616.
Hypothesis SU : repair_setup burst f ref d p B m.
Let v := b_version ref.
Let uid := b_uid ref.
Let bs := ver_to_block_size v.
Let o := Some (d, p, B).
Let widx seq := calc_data_block_write_index seq (Some true) o.

Lemma HO7 : dpb_ok o. Proof. exact (proj1 (setup_facts burst f ref d p B m HB HL SU)). Qed.
Lemma ext_bytes z : bytes_ok (f ++ repN z 0) = true.
Proof. rewrite bytes_ok_app, HB, bytes_ok_rep by lia. reflexivity. Qed.
Lemma final_no_harm ms w : Final rs f ref d p B m ms w -> no_harm v uid d p B m f w /\ all_repaired v uid d p B m f w.
Proof.
  intros (F1 & F2 & F3 & F4 & _ & F6 & F7 & F8). pose proof HO7 as HO. pose proof HO as (D1 & D2 & D3).
  split; [split; [|split; [|split; [|split; [|split]]]]|split].
  - exact F3.
  - intros s S1 IP. destruct (N.le_gt_cases (m / (d + p)) (set_of d p s)) as [L|L]; [apply F6; assumption|].
    destruct (F7 _ L) as (z & X). cbv zeta in X. assert (Hs : In s (seqs_of_set d p (set_of d p s))) by (apply seqs_in7; auto).
    destruct (d <=? _); [|apply X, Hs]. destruct X as (_ & X & _). apply X; [exact Hs|]. apply (mark_iff ref d p B); [apply ext_bytes|]. apply in_place_ext. exact IP.
  - intros s S1 NA. destruct (N.le_gt_cases (m / (d + p)) (set_of d p s)) as [L|L]; [apply F6; assumption|].
    destruct (F7 _ L) as (z & X). cbv zeta in X. assert (Hs : In s (seqs_of_set d p (set_of d p s))) by (apply seqs_in7; auto).
    destruct (N.leb_spec d (held ref d p B (f ++ repN z 0) (set_of d p s))) as [G|G]; [|apply X, Hs].
    exfalso. apply NA. apply (held_at_least_gen ref d p B _ _ HO (ext_bytes z)) in G. revert G. apply at_least_impl. intros s' H. exists z. exact H.
  - intros s S1 L. apply F6; [exact S1|]. assert (m / (d + p) < set_of d p s + 1); [|lia]. apply N.div_lt_upper_bound; lia.
  - exact F1.
  - apply (grown_more f ref d p B HL _ m) in F8; [exact F8|]. rewrite N.mul_comm. apply N.mul_div_le. lia.
  - exact F4.
  - intros s S1 C A. assert (L : set_of d p s < m / (d + p)).
    { assert (set_of d p s + 1 <= m / (d + p)); [|lia]. apply N.div_le_lower_bound; lia. }
    destruct (F7 _ L) as (z & X). cbv zeta in X. assert (Hs : In s (seqs_of_set d p (set_of d p s))) by (apply seqs_in7; auto).
    destruct (N.leb_spec d (held ref d p B (f ++ repN z 0) (set_of d p s))) as [G|G]; [apply X, Hs|]. exfalso.
    assert (d <= held ref d p B (f ++ repN z 0) (set_of d p s)); [|lia]. apply (held_at_least_gen ref d p B _ _ HO (ext_bytes z)).
    revert A. apply at_least_impl. intros s'. apply in_place_ext.
Qed.
Lemma repair_safe : exists t w, repair_file rc false burst f = ROk (Some (t, w)) /\ no_harm v uid d p B m f w /\ all_repaired v uid d p B m f w.
Proof.
  destruct (repair_result rs rc burst f ref d p B m HR HB HL SU) as (ms & w & t & _ & _ & _ & E & F). exists t, w. split; [exact E|]. apply (final_no_harm ms w F).
Qed.

(* ---- a second run changes nothing ---- *)
Lemma mrun_idle r ms l w : (forall i, In i l -> mmark r w i = true) -> forall t, fst (mrun r ms false l (w, t)) = w.
Proof.
  intro H. induction l as [|i l IH]; intro t; [reflexivity|].
  change (mrun r ms false (i :: l) (w, t)) with (mrun r ms false l (mput r ms false w i, add_meta (mmark r w i) t)).
  unfold mput. rewrite (H i (or_introl eq_refl)). apply IH. intros. apply H. right. assumption.
Qed.
Lemma sets_idle r w t0 k w' t : (forall k', k' < k -> held r d p B w k' < d \/ forall s, In s (seqs_of_set d p k') -> mark r d p B w s = true) ->
  Sets rs r d p B false w t0 k w' t -> w' = w.
Proof.
  intros H SS. induction SS as [|k w' t ws SS IH ST]; [reflexivity|].
  rewrite IH in ST by (intros; apply H; lia). assert (ws = []).
  { unfold SetStep in ST. destruct (N.leb_spec d (held r d p B w k)) as [L|L]; [|exact ST].
    destruct (H k ltac:(lia)) as [X|X]; [lia|]. destruct ws as [|[a b] ws]; [reflexivity|]. destruct ST as (_ & _ & ST).
    destruct (ST a b (or_introl eq_refl)) as (s & pl & S1 & S2 & _). rewrite X in S2 by exact S1. discriminate. }
  subst ws. cbn. apply IH. intros. apply H. lia.
Qed.
Lemma repair_twice rc' burst' ref' t w : lenN f mod bs = 0 -> recon_ok rs rc' d p ->
  repair_file rc false burst f = ROk (Some (t, w)) -> lenN w < 18446744073709551616 ->
  repair_setup burst' w ref' d p B m -> b_version ref' = v -> b_uid ref' = uid ->
  exists t', repair_file rc' false burst' w = ROk (Some (t', w)).
Proof.
  intros WH HR' E LW SU' EV EU. destruct (repair_result rs rc burst f ref d p B m HR HB HL SU) as (ms & w0 & t0 & _ & _ & _ & E0 & F).
  rewrite E in E0. apply ROk_inj, Some_inj, pair_inj in E0 as [_ <-].
  pose proof F as (F1 & F2 & F3 & F4 & _ & F6 & F7 & _). pose proof HO7 as HO.
  destruct (repair_runs rs rc' burst' w ref' d p B m HR' F2 LW SU' false) as (ms' & w' & t' & _ & _ & _ & SS & E'). cbv zeta in *.
  assert (EX : fst (mrun ref' ms' false (midx ref' o) (w, no_pstats)) = w).
  { apply mrun_idle. intros i Hi. apply (mi_in burst' w ref' d p B m F2 LW SU') in Hi. apply mmark_iff; [exact F2|]. rewrite EV, EU. apply F4. exact Hi. }
  fold o in SS. rewrite EX in SS. eexists. rewrite E'.
  apply sets_idle in SS; [rewrite SS; reflexivity|]. intros k Hk.
  destruct (F7 k Hk) as (z & X). cbv zeta in X.
  assert (MK : forall s, mark ref' d p B w s = mark ref d p B w s).
  { intro s. apply bool_iff. rewrite !mark_iff by exact F2. rewrite EV, EU. reflexivity. }
  assert (MZ : forall s, mark ref d p B (f ++ repN z 0) s = mark ref d p B f s).
  { intro s. apply bool_iff. rewrite !mark_iff by (try exact HB; apply ext_bytes). split.
    - intros (pl & Y). exists pl. apply (whole_block f ref d p B false HL (or_intror WH) f z _ _ _ WH Y).
    - apply in_place_ext. }
  destruct (N.leb_spec d (held ref d p B (f ++ repN z 0) k)) as [G|G].
  - right. intros s Hs. rewrite MK. apply mark_iff; [exact F2|]. apply X, Hs.
  - left. replace (held ref' d p B w k) with (held ref d p B (f ++ repN z 0) k); [exact G|]. apply countN_ext. intros s Hs. rewrite MZ, MK.
    symmetry. apply bool_iff. rewrite !mark_iff by assumption. split; intros (pl & Y); exists pl; apply (whole_same f ref d p B false HL (or_intror WH) f w _ _ _ WH F1 (X s Hs)); exact Y.
Qed.
End Main.
