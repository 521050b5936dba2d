(* Guessing the burst level. *)
From Verif Require Import M_Base M_Specs M_Header M_Metadata M_Block M_Index M_Buffer M_Ranges M_Scan
  S_Crc S_Meta S_Block S_Index S_Decode L_Base L_Crc L_File L_Header L_Index L_Index2 L_Block L_Scan.

(* ---- the blocks sampled ---- *)
Definition nsample (bs : N) (f : file) (pos count : N) : N := N.min count ((lenN f - pos) / bs).
Lemma sample_ok ref f : bytes_ok f = true -> let bs := ver_to_block_size (b_version ref) in
  forall count pos, sample_blocks count f pos ref =
    ROk (map (fun k => accept ref (sliceN (pos + k * bs) bs f)) (rangeN 0 (nsample bs f pos (N.of_nat count)))).
Proof.
  intros HB bs. pose proof (block_size_pos (b_version ref)) as BP. fold bs in BP.
  induction count as [|count IH]; intro pos; [unfold nsample; change (N.of_nat 0) with 0; rewrite N.min_0_l; reflexivity|].
  cbn [sample_blocks]. fold bs. rewrite short_read by lia. unfold nsample. rewrite Nnat.Nat2N.inj_succ.
  destruct (N.ltb_spec (lenN f) (pos + bs)) as [H|H].
  - rewrite (N.div_small (lenN f - pos) bs) by lia. rewrite N.min_0_r. reflexivity.
  - assert (LD : ver_to_block_size (b_version ref) <= lenN (file_read f pos bs)) by (unfold file_read; rewrite lenN_slice; fold bs; lia).
    assert (E : match sync_from_buffer block_dummy (file_read f pos bs) (header_pred_same_ver_uid ref) no_pred with
                | ROk b => ROk (Some b) | RErr _ => ROk None | RPanic => RPanic end = ROk (accept ref (file_read f pos bs))).
    { pose proof (accept_cases ref block_dummy (file_read f pos bs) LD) as A. destruct (accept _ _); [rewrite A; reflexivity|]. destruct A as [e ->]. reflexivity. }
    rewrite E. cbn [rbind]. rewrite IH. cbn [rbind]. f_equal.
    replace (N.min (N.succ (N.of_nat count)) ((lenN f - pos) / bs)) with (1 + nsample bs f (pos + bs) (N.of_nat count)).
    2: { unfold nsample. replace (lenN f - pos) with (lenN f - (pos + bs) + 1 * bs) by lia. rewrite N.div_add by lia. lia. }
    rewrite (rangeN_split 0 1 (1 + nsample bs f (pos + bs) (N.of_nat count))) by lia. rewrite map_app. change (rangeN 0 1) with [0]. cbn [map app]. f_equal.
    + unfold file_read. f_equal. f_equal. lia.
    + set (m := nsample bs f (pos + bs) (N.of_nat count)). apply list_ext. intro i. rewrite !nth_optN_map.
      destruct (N.lt_ge_cases i m) as [Hi|Hi].
      * rewrite !nth_optN_range by lia. cbn [option_map]. do 3 f_equal. lia.
      * rewrite !(proj2 (nth_optN_None _ _)) by (rewrite lenN_range; lia). reflexivity.
Qed.

(* ---- the level chosen ---- *)
Lemma best_spec m : m <> [] -> let b := best_level m in
  b < lenN m /\ (forall x, x < lenN m -> nthN m b <= nthN m x) /\ (forall x, x < b -> nthN m b < nthN m x).
Proof.
  intro NE. unfold best_level.
  assert (G : forall k, k <= lenN m -> let b := fold_left (fun best level => if nthN m level <? nthN m best then level else best) (rangeN 0 k) 0 in
    (b < k \/ (k = 0 /\ b = 0)) /\ (forall x, x < k -> nthN m b <= nthN m x) /\ (forall x, x < b -> nthN m b < nthN m x)).
  { induction k as [|k IH] using N.peano_ind; intro HK; cbv zeta.
    - change (rangeN 0 0) with (@nil N). cbn [fold_left]. split; [right; auto|]. split; intros x Hx; lia.
    - rewrite <- N.add_1_r in *. rewrite rangeN_snoc by lia. rewrite fold_left_app. cbn [fold_left]. cbv zeta in IH. specialize (IH ltac:(lia)).
      destruct IH as (A & B & C). set (b := fold_left _ (rangeN 0 k) 0) in *. destruct (N.ltb_spec (nthN m k) (nthN m b)) as [H|H].
      + split; [left; lia|]. split; intros x Hx.
        * destruct (N.eq_dec x k) as [->|]; [lia|]. specialize (B x ltac:(lia)). lia.
        * specialize (B x ltac:(lia)). lia.
      + split; [lia|]. split; [|exact C]. intros x Hx. destruct (N.eq_dec x k) as [->|]; [lia|]. apply B. lia. }
  destruct (G (lenN m) ltac:(lia)) as (A & B & C). cbv zeta. split; [|split; assumption].
  destruct A as [A|[A _]]; [exact A|]. destruct m; [congruence|]. rewrite lenN_cons in A. lia.
Qed.
Lemma countN_all {A} (g : A -> bool) l : countN g l = lenN l <-> forall x, In x l -> g x = true.
Proof.
  unfold countN. induction l as [|x l IH]; [split; [intros _ y []|reflexivity]|]. cbn [filter]. split.
  - intros E y [<-|Hy]; destruct (g x) eqn:G; try reflexivity.
    + rewrite lenN_cons in E. assert (lenN (filter g l) <= lenN l) by (clear; induction l as [|a l IH]; [apply N.le_refl|cbn [filter]; destruct (g a); rewrite ?lenN_cons; lia]). lia.
    + apply IH; [|exact Hy]. rewrite !lenN_cons in E. lia.
    + apply IH; [|exact Hy]. rewrite lenN_cons in E. assert (lenN (filter g l) <= lenN l) by (clear; induction l as [|a l IH]; [apply N.le_refl|cbn [filter]; destruct (g a); rewrite ?lenN_cons; lia]). lia.
  - intro H. rewrite (H x) by (left; reflexivity). rewrite !lenN_cons. f_equal. apply IH. intros y Hy. apply H. right. exact Hy.
Qed.
Lemma countN_zero {A} (g : A -> bool) l : countN g l = 0 <-> forall x, In x l -> g x = false.
Proof.
  unfold countN. induction l as [|x l IH]; [split; [intros _ y []|reflexivity]|]. cbn [filter]. split.
  - intros E y Hy. destruct (g x) eqn:G; [rewrite lenN_cons in E; lia|]. destruct Hy as [<-|Hy]; [exact G|]. apply IH; assumption.
  - intro H. rewrite (H x) by (left; reflexivity). apply IH. intros y Hy. apply H. right. exact Hy.
Qed.
Lemma nthN_map_range (g : N -> N) K x : x < K -> nthN (map g (rangeN 0 K)) x = g x.
Proof. intro H. rewrite nthN_opt, nth_optN_map, nth_optN_range by lia. reflexivity. Qed.

Lemma mismatches_def d p samples l : mismatches d p samples l =
  countN (fun x => match snd x with Some seq => negb (seq =? calc_seq_num_at_index (fst x) None (Some (d, p, l))) | None => false end) (indexed samples).
Proof.
  unfold mismatches, mismatches_of, found_samples, countN. induction (indexed samples) as [|[i [s|]] t IH]; [reflexivity| |exact IH].
  cbn [flat_map filter fst snd app]. destruct (negb _); [rewrite !lenN_cons, IH|]; auto.
Qed.
Definition LEVELS : N := SBX_MAX_BURST_ERR_RESISTANCE + 1.
Lemma pick_spec d p samples :
  match pick_level d p samples with
  | Some g => g < LEVELS /\ (forall l, l < LEVELS -> mismatches d p samples g <= mismatches d p samples l) /\
              (forall l, l < g -> mismatches d p samples g < mismatches d p samples l)
  | None => forall l l', l < LEVELS -> l' < LEVELS -> mismatches d p samples l = mismatches d p samples l'
  end.
Proof.
  unfold pick_level. fold LEVELS. cbv zeta. change (mismatches_of d p (found_samples samples)) with (mismatches d p samples).
  set (m := map (mismatches d p samples) (rangeN 0 LEVELS)).
  assert (LM : lenN m = LEVELS) by (unfold m; rewrite lenN_map, lenN_range; apply N.sub_0_r).
  assert (NE : m <> []) by (intro E; rewrite E in LM; vm_compute in LM; discriminate).
  destruct (best_spec m NE) as (A & B & C). cbv zeta in A, B, C. rewrite LM in *. set (b := best_level m) in *.
  assert (NM : forall x, x < LEVELS -> nthN m x = mismatches d p samples x) by (intros x Hx; apply nthN_map_range, Hx).
  destruct (N.eqb_spec (countN (fun x => x =? nthN m b) m) LEVELS) as [E|E].
  - rewrite <- LM in E.
    assert (K : forall l, l < LEVELS -> mismatches d p samples l = nthN m b).
    { intros l Hl. rewrite <- NM by exact Hl. apply N.eqb_eq. apply (proj1 (countN_all _ _) E). unfold nthN. apply nth_In. unfold lenN in LM. lia. }
    intros l l' H H'. rewrite !K by assumption. reflexivity.
  - rewrite <- (NM b) by exact A. split; [exact A|]. split; intros l Hl; rewrite <- NM by lia; auto.
Qed.

Lemma mismatch_zero d p samples l : mismatches d p samples l = 0 <->
  forall k s, nth_optN samples k = Some (Some s) -> s = calc_seq_num_at_index k None (Some (d, p, l)).
Proof.
  rewrite mismatches_def, countN_zero. split.
  - intros H k s E. assert (I : In (k, Some s) (indexed samples)).
    { unfold indexed. assert (L : k < lenN samples) by (apply N.nle_gt; intro L; apply nth_optN_None in L; congruence).
      apply (nth_error_In _ (N.to_nat k)).
      assert (G : forall (a : list N) (b : list (option N)) i x y, nth_error a i = Some x -> nth_error b i = Some y -> nth_error (combine a b) i = Some (x, y)).
      { clear. induction a as [|a0 a IH]; intros b i x y; [destruct i; discriminate|]. destruct b as [|b0 b]; [destruct i; discriminate|]. destruct i; cbn; [congruence|]. apply IH. }
      apply G; [|exact E]. change (nth_optN (rangeN 0 (lenN samples)) k = Some k). rewrite nth_optN_range by lia. reflexivity. }
    specialize (H _ I). cbn [fst snd] in H. apply negb_false_iff, N.eqb_eq in H. exact H.
  - intros H [k [s|]] I; [|reflexivity]. cbn [fst snd]. apply negb_false_iff, N.eqb_eq. apply H. unfold indexed in I.
    apply (In_nth_error) in I as (i & E).
    assert (G : forall (a : list N) (b : list (option N)) i x y, nth_error (combine a b) i = Some (x, y) -> nth_error a i = Some x /\ nth_error b i = Some y).
    { clear. induction a as [|a0 a IH]; intros b i x y; [destruct i; discriminate|]. destruct b as [|b0 b]; [destruct i; discriminate|]. destruct i; cbn; [intro E; injection E as -> ->; auto|]. apply IH. }
    apply G in E as [E1 E2].
    assert (L : (i < length samples)%nat) by (apply nth_error_Some; congruence).
    assert (K : nth_optN (rangeN 0 (lenN samples)) (N.of_nat i) = Some k) by (unfold nth_optN; rewrite Nnat.Nat2N.id; exact E1).
    rewrite nth_optN_range in K by (unfold lenN; lia). apply Some_inj in K. subst k. unfold nth_optN. rewrite N.add_0_l, Nnat.Nat2N.id. exact E2.
Qed.

(* ---- the samples that are blocks ---- *)
Lemma in_indexed {A} (l : list A) k x : In (k, x) (indexed l) <-> nth_optN l k = Some x.
Proof.
  unfold indexed. split.
  - intros I. apply (In_nth_error) in I as (i & E).
    assert (G : forall (a : list N) (b : list A) i x y, nth_error (combine a b) i = Some (x, y) -> nth_error a i = Some x /\ nth_error b i = Some y).
    { clear. induction a as [|a0 a IH]; intros b i x y; [destruct i; discriminate|]. destruct b as [|b0 b]; [destruct i; discriminate|]. destruct i; cbn; [intro E; injection E as -> ->; auto|]. apply IH. }
    apply G in E as [E1 E2].
    assert (L : (i < length l)%nat) by (apply nth_error_Some; congruence).
    assert (K : nth_optN (rangeN 0 (lenN l)) (N.of_nat i) = Some k) by (unfold nth_optN; rewrite Nnat.Nat2N.id; exact E1).
    rewrite nth_optN_range in K by (unfold lenN; lia). apply Some_inj in K. subst k. unfold nth_optN. rewrite N.add_0_l, Nnat.Nat2N.id. exact E2.
  - intros E. assert (L : k < lenN l) by (apply N.nle_gt; intro L; apply nth_optN_None in L; congruence).
    apply (nth_error_In _ (N.to_nat k)).
    assert (G : forall (a : list N) (b : list A) i x y, nth_error a i = Some x -> nth_error b i = Some y -> nth_error (combine a b) i = Some (x, y)).
    { clear. induction a as [|a0 a IH]; intros b i x y; [destruct i; discriminate|]. destruct b as [|b0 b]; [destruct i; discriminate|]. destruct i; cbn; [congruence|]. apply IH. }
    apply G; [|exact E]. change (nth_optN (rangeN 0 (lenN l)) k = Some k). rewrite nth_optN_range by lia. reflexivity.
Qed.
Lemma in_found samples k s : In (k, s) (found_samples samples) <-> nth_optN samples k = Some (Some s).
Proof.
  unfold found_samples. rewrite in_flat_map, <- in_indexed. split.
  - intros ([i [x|]] & I & E); [|destruct E]. destruct E as [E|[]]. cbn [fst] in E. injection E as -> ->. exact I.
  - intro I. exists (k, Some s). split; [exact I|left; reflexivity].
Qed.
Lemma found_nodup samples : NoDup (found_samples samples).
Proof.
  unfold found_samples, indexed. assert (ND : NoDup (rangeN 0 (lenN samples))) by apply NoDup_rangeN.
  revert ND. generalize (rangeN 0 (lenN samples)). intro l. revert samples. induction l as [|i l IH]; intros samples ND; [constructor|].
  destruct samples as [|[s|] samples]; [constructor| |]; cbn [combine flat_map fst snd app]; apply NoDup_cons_iff in ND as [N1 N2]; [|apply IH, N2].
  constructor; [|apply IH, N2]. intro I. apply in_flat_map in I as ([j [y|]] & I & E); [|destruct E]. destruct E as [E|[]]. cbn [fst] in E. injection E as -> ->.
  apply N1. apply in_combine_l in I. exact I.
Qed.
Lemma count_both {A} (g : A -> bool) l : countN g l + countN (fun x => negb (g x)) l = lenN l.
Proof. unfold countN. induction l as [|x l IH]; [reflexivity|]. cbn [filter]. destruct (g x); cbn [negb]; rewrite !lenN_cons; lia. Qed.
Definition at_level (d p l : N) (x : N * N) : bool := snd x =? calc_seq_num_at_index (fst x) None (Some (d, p, l)).
Lemma pick_none d p samples : pick_level d p samples = None <-> forall l, l < LEVELS -> countN (at_level d p l) (found_samples samples) = countN (at_level d p 0) (found_samples samples).
Proof.
  assert (MM : forall l, countN (at_level d p l) (found_samples samples) + mismatches d p samples l = lenN (found_samples samples)) by (intro l; apply count_both).
  pose proof (pick_spec d p samples) as PS. split.
  - intros E l Hl. rewrite E in PS. specialize (PS l 0 Hl eq_refl). pose proof (MM l). pose proof (MM 0). lia.
  - intro H. unfold pick_level. fold LEVELS. cbv zeta. change (mismatches_of d p (found_samples samples)) with (mismatches d p samples).
    set (m := map (mismatches d p samples) (rangeN 0 LEVELS)).
    assert (LM : lenN m = LEVELS) by (unfold m; rewrite lenN_map, lenN_range; apply N.sub_0_r).
    assert (K : forall x, In x m -> x = mismatches d p samples 0).
    { intros x I. unfold m in I. apply in_map_iff in I as (l & <- & I). apply In_rangeN in I. specialize (H l ltac:(lia)). pose proof (MM l). pose proof (MM 0). lia. }
    assert (NE : m <> []) by (intro E; rewrite E in LM; vm_compute in LM; discriminate).
    destruct (best_spec m NE) as (A & _).
    assert (E : countN (fun x => x =? nthN m (best_level m)) m = lenN m).
    { apply countN_all. intros x I. apply N.eqb_eq. rewrite (K x I). symmetry. apply K. unfold nthN. apply nth_In. unfold lenN in A. lia. }
    rewrite E, N.eqb_refl. reflexivity.
Qed.
