(* The multi-lot buffers behave as a flat sequence of slots. *)
From Verif Require Import M_Base M_Specs M_Header M_Block M_Index M_Buffer L_Base L_File L_Block.

Ltac Zify.zify_post_hook ::= idtac.

Section Lists.
Context {A : Type}.
Implicit Types l : list A.
Lemma getN_opt l i : getN l i = nth_optN l i. Proof. reflexivity. Qed.
Lemma set_nat_split l i x : (i < length l)%nat -> set_nat l i x = firstn i l ++ x :: skipn (S i) l.
Proof.
  revert i. induction l as [|a l IH]; intros [|i] H; cbn in *; try lia; [reflexivity|].
  rewrite IH by lia. reflexivity.
Qed.
Lemma setN_split l i x : i < lenN l -> setN l i x = takeN i l ++ x :: dropN (i + 1) l.
Proof.
  intro H. unfold setN, takeN, dropN, lenN in *. rewrite set_nat_split by lia.
  do 3 f_equal. lia.
Qed.
Lemma lenN_setN l i x : lenN (setN l i x) = lenN l.
Proof.
  unfold lenN, setN. f_equal. generalize (N.to_nat i). intro n. revert n.
  induction l as [|a l IH]; intros [|n]; cbn; auto.
Qed.
Lemma nth_error_set_nat l i x j :
  nth_error (set_nat l i x) j = if Nat.eqb i j then (match nth_error l j with Some _ => Some x | None => None end) else nth_error l j.
Proof.
  revert i j. induction l as [|a l IH]; intros [|i] [|j]; cbn; auto.
  - destruct (Nat.eqb i j); reflexivity.
Qed.
Lemma getN_setN_same l i x : i < lenN l -> getN (setN l i x) i = Some x.
Proof.
  intro H. unfold getN, setN. rewrite nth_error_set_nat, Nat.eqb_refl.
  destruct (nth_error l (N.to_nat i)) eqn:E; [reflexivity|].
  apply nth_error_None in E. unfold lenN in H. lia.
Qed.
Lemma getN_setN_other l i x j : i <> j -> getN (setN l i x) j = getN l j.
Proof.
  intro H. unfold getN, setN. rewrite nth_error_set_nat.
  destruct (Nat.eqb_spec (N.to_nat i) (N.to_nat j)); [lia|reflexivity].
Qed.
Lemma setN_setN l i x y : setN (setN l i x) i y = setN l i y.
Proof.
  unfold setN. generalize (N.to_nat i). intro n. revert n.
  induction l as [|a l IH]; intros [|n]; cbn; auto. rewrite IH. reflexivity.
Qed.
Lemma drop_getN l i x : getN l i = Some x -> dropN i l = x :: dropN (i + 1) l.
Proof.
  unfold getN, dropN. replace (N.to_nat (i + 1)) with (S (N.to_nat i)) by lia.
  generalize (N.to_nat i). intro n. revert l. induction n as [|n IH]; intros [|a l] H; cbn in *; try discriminate.
  - injection H as ->. reflexivity.
  - apply IH, H.
Qed.
Lemma getN_lt l i x : getN l i = Some x -> i < lenN l.
Proof. intro H. destruct (N.lt_ge_cases i (lenN l)) as [L|L]; [exact L|]. apply nth_optN_None in L. unfold nth_optN in L. unfold getN in H. congruence. Qed.
Lemma getN_in l i : i < lenN l -> exists x, getN l i = Some x.
Proof. intro H. unfold getN. apply (nth_optN_Some l i H). Qed.
Lemma take_getN l i x : getN l i = Some x -> takeN (i + 1) l = takeN i l ++ [x].
Proof.
  intro H. rewrite take_add. f_equal. rewrite (drop_getN _ _ _ H). reflexivity.
Qed.
Lemma take_setN_lt l i x n : n <= i -> takeN n (setN l i x) = takeN n l.
Proof.
  intro H. destruct (N.lt_ge_cases i (lenN l)) as [L|L].
  - rewrite setN_split by exact L. rewrite take_app, take_take, lenN_take.
    replace (n - N.min i (lenN l)) with 0 by lia. rewrite take_0, app_nil_r. f_equal. lia.
  - assert (E : setN l i x = l).
    { unfold setN. assert (L' : (length l <= N.to_nat i)%nat) by (unfold lenN in L; lia).
      revert L'. generalize (N.to_nat i). clear. intro n. revert n.
      induction l as [|a l IH]; intros [|n] H; cbn in *; auto; [lia|]. rewrite IH by lia. reflexivity. }
    rewrite E. reflexivity.
Qed.
Lemma drop_setN_ge l i x n : i < n -> dropN n (setN l i x) = dropN n l.
Proof.
  intro H. destruct (N.lt_ge_cases i (lenN l)) as [L|L].
  - rewrite setN_split by exact L. rewrite drop_app, drop_all by (rewrite lenN_take; lia). cbn [app].
    rewrite lenN_take. replace (n - N.min i (lenN l)) with (1 + (n - i - 1)) by lia. rewrite drop_cons, drop_drop.
    f_equal. lia.
  - assert (E : lenN (setN l i x) <= n) by (rewrite lenN_setN; lia).
    rewrite (drop_all _ _ E), drop_all by lia. reflexivity.
Qed.
Lemma slice_snoc_in l x w i : 0 < w -> i = lenN l / w ->
  sliceN (i * w) w (l ++ [x]) = sliceN (i * w) w l ++ [x].
Proof.
  intros Hw ->. pose proof (N.div_mod' (lenN l) w). pose proof (N.mod_lt (lenN l) w ltac:(lia)).
  unfold sliceN. rewrite drop_app. rewrite take_app, lenN_drop.
  f_equal. replace (lenN l / w * w - lenN l) with 0 by nia. rewrite drop_0. apply take_all.
  rewrite lenN_cons, lenN_nil. nia.
Qed.
Lemma slice_snoc_out l x w i : 0 < w -> i <> lenN l / w ->
  sliceN (i * w) w (l ++ [x]) = sliceN (i * w) w l.
Proof.
  intros Hw Hi. pose proof (N.div_mod' (lenN l) w). pose proof (N.mod_lt (lenN l) w ltac:(lia)).
  unfold sliceN. rewrite drop_app, take_app, lenN_drop.
  assert (C : i + 1 <= lenN l / w \/ lenN l / w + 1 <= i) by lia. destruct C as [C|C].
  - replace (w - (lenN l - i * w)) with 0 by nia. rewrite take_0, app_nil_r. reflexivity.
  - assert (HH : i * w - lenN l >= 1) by nia.
    rewrite (drop_all (i * w - lenN l)) by (rewrite lenN_cons, lenN_nil; lia). rewrite take_nil, app_nil_r. reflexivity.
Qed.
End Lists.
Lemma take_rep_all {A} n (a : A) : takeN n (repN n a) = repN n a.
Proof. apply take_all. rewrite lenN_rep. lia. Qed.
Lemma getN_rep {A} n (a : A) i : i < n -> getN (repN n a) i = Some a.
Proof. apply nth_optN_rep. Qed.
Lemma Forall_rep {A} (P : A -> Prop) n a : P a -> Forall P (repN n a).
Proof. intro H. unfold repN. apply Forall_forall. intros x Hx. apply repeat_spec in Hx. subst; exact H. Qed.

Lemma div_full n w k : 1 <= w -> n <= k * w -> (n / w =? k) = (n =? k * w).
Proof.
  intros Hw Hn. destruct (N.eqb_spec n (k * w)) as [->|E].
  - rewrite N.div_mul by lia. apply N.eqb_refl.
  - apply N.eqb_neq. intro E'. pose proof (N.mul_div_le n w ltac:(lia)). rewrite E' in H. rewrite N.mul_comm in H. lia.
Qed.
Lemma div_succ n w : 1 <= w -> (n + 1) / w = if n mod w + 1 =? w then n / w + 1 else n / w.
Proof.
  intro Hw. pose proof (N.div_mod' n w). pose proof (N.mod_lt n w ltac:(lia)).
  destruct (N.eqb_spec (n mod w + 1) w); symmetry.
  - apply (N.div_unique _ _ _ 0); lia.
  - apply (N.div_unique _ _ _ (n mod w + 1)); lia.
Qed.
Lemma next_lot_empty n w : 1 <= w -> n mod w + 1 = w -> n - (n / w + 1) * w = 0.
Proof. intros Hw E. pose proof (N.div_mod' n w). rewrite N.mul_add_distr_r. lia. Qed.
Lemma next_lot_lt n w k : 1 <= w -> n mod w + 1 = w -> n + 1 <= k * w -> n + 1 <> k * w -> n / w + 1 < k.
Proof.
  intros Hw E H1 H2. pose proof (N.div_mod' n w). apply (N.mul_lt_mono_pos_r w); [lia|]. rewrite N.mul_add_distr_r. lia.
Qed.
Lemma not_full_mid n w k : 1 <= w -> n mod w + 1 <> w -> n + 1 <> k * w.
Proof.
  intros Hw E H. pose proof (N.div_mod' n w). pose proof (N.mod_lt n w ltac:(lia)).
  assert (A : (n + 1) mod w = 0) by (rewrite H; apply N.mod_mul; lia).
  assert (B : (n + 1) mod w = n mod w + 1) by (symmetry; apply (N.mod_unique _ _ (n / w)); lia). lia.
Qed.

Definition cfg_ok (c : cfg) : Prop :=
  1 <= dws c /\ dws c <= lot_size c /\ 1 <= c_lots c.

Section Rep.
Variable c : cfg.
Context {X : Type}.
Variable R : X -> slot -> Prop.
Variable Fresh : slot -> Prop.
Hypothesis COK : cfg_ok c.

Definition lot_rep (xs : list X) (l : lot) : Prop :=
  lenN (l_slots l) = lot_size c /\ l_used l = lenN xs /\ lenN xs <= dws c /\ l_padbytes l = 0 /\
  Forall2 R xs (takeN (lenN xs) (l_slots l)) /\ Forall Fresh (dropN (lenN xs) (l_slots l)).
Definition cap : N := c_lots c * dws c.
Definition buf_rep (xs : list X) (b : dbuf) : Prop :=
  lenN (d_lots b) = c_lots c /\ d_used b = lenN xs / dws c /\ lenN xs <= cap /\
  forall i, i < c_lots c -> exists l, getN (d_lots b) i = Some l /\ lot_rep (sliceN (i * dws c) (dws c) xs) l.

Lemma rep_new i : Fresh (slot_new c) -> buf_rep [] (dbuf_new c i).
Proof.
  intro HF. destruct COK as (H1 & H2 & H3). unfold buf_rep, dbuf_new; cbn [d_lots d_used].
  rewrite lenN_rep. change (lenN (@nil X)) with 0. split; [reflexivity|]. split; [rewrite N.div_0_l by lia; reflexivity|].
  split; [lia|]. intros j Hj. exists (lot_new c). split; [apply getN_rep, Hj|].
  unfold sliceN. rewrite drop_nil, take_nil. unfold lot_rep, lot_new; cbn [l_slots l_used l_padbytes].
  rewrite lenN_rep. change (lenN (@nil X)) with 0. repeat split; try lia; [constructor|].
  rewrite drop_0. apply Forall_rep, HF.
Qed.

Lemma rep_reset xs b : (forall l, In l (d_lots b) -> lenN (l_slots l) = lot_size c) ->
  (forall l s, In l (d_lots b) -> In s (l_slots l) -> Fresh (reset_slot c s)) ->
  lenN (d_lots b) = c_lots c -> xs = [] ->
  buf_rep xs (dbuf_reset c b).
Proof.
  intros HS HF HL ->. destruct COK as (H1 & H2 & H3). unfold buf_rep, dbuf_reset; cbn [d_lots d_used].
  rewrite lenN_map. change (lenN (@nil X)) with 0. split; [exact HL|]. split; [rewrite N.div_0_l by lia; reflexivity|].
  split; [lia|]. intros j Hj. destruct (getN_in (d_lots b) j ltac:(lia)) as [l El].
  exists (lot_reset c l). split.
  - unfold getN in *. rewrite nth_error_map, El. reflexivity.
  - assert (IL : In l (d_lots b)) by (eapply nth_error_In; exact El).
    unfold sliceN. rewrite drop_nil, take_nil. unfold lot_rep, lot_reset; cbn [l_slots l_used l_padbytes].
    rewrite lenN_map. change (lenN (@nil X)) with 0. split; [apply HS, IL|]. split; [reflexivity|]. split; [lia|]. split; [reflexivity|].
    split; [constructor|]. rewrite drop_0. apply Forall_forall. intros s Hs. apply in_map_iff in Hs as (s0 & <- & Hs0).
    eapply HF; eauto.
Qed.

Lemma rep_full xs b : buf_rep xs b -> is_full b = (lenN xs =? cap).
Proof.
  intros (HL & HU & HC & _). destruct COK as (H1 & H2 & H3). unfold is_full. rewrite HL, HU. apply div_full; [lia|exact HC].
Qed.

Lemma rep_push xs b : buf_rep xs b -> lenN xs < cap ->
  exists b1 loc s, get_slot c b = Some (b1, loc) /\ slot_at b1 loc = Some s /\ Fresh s /\
    (forall s', d_start (put_slot b1 loc s') = d_start b) /\
    (forall x s', R x s' -> buf_rep (xs ++ [x]) (put_slot b1 loc s')) /\
    (forall s', Fresh (reset_slot c s') ->
       exists b2, cancel_slot c (put_slot b1 loc s') = ROk b2 /\ buf_rep xs b2 /\ d_start b2 = d_start b).
Proof.
  intros HB Hn. pose proof HB as (HL & HU & HC & HI). destruct COK as (H1 & H2 & H3). unfold cap in *.
  set (n := lenN xs) in *. set (w := dws c) in *.
  pose proof (N.div_mod' n w) as DM. pose proof (N.mod_lt n w ltac:(lia)) as ML.
  assert (Hi : n / w < c_lots c) by (apply N.div_lt_upper_bound; lia).
  destruct (HI _ Hi) as (l & El & (L1 & L2 & L3 & L4 & L5 & L6)).
  assert (LS : lenN (sliceN (n / w * w) w xs) = n mod w).
  { rewrite lenN_slice. fold n. lia. }
  rewrite LS in *.
  destruct (getN_in (l_slots l) (n mod w) ltac:(lia)) as [s Es].
  pose (u := n mod w). pose (i := n / w).
  set (l1 := mkLot (l_slots l) (l_used l + 1) (l_padbytes l)).
  set (used' := if l_used l1 =? w then d_used b + 1 else d_used b).
  set (b1 := mkDbuf (setN (d_lots b) (d_used b) l1) used' (d_start b)).
  assert (EU : used' = (n + 1) / w).
  { unfold used', l1. cbn [l_used]. rewrite L2, HU. symmetry. apply div_succ. lia. }
  assert (Hil : d_used b < lenN (d_lots b)) by (rewrite HU, HL; exact Hi).
  assert (G1 : getN (d_lots b1) (d_used b) = Some l1) by (apply getN_setN_same, Hil).
  exists b1, (d_used b, l_used l), s.
  assert (PS : forall s', put_slot b1 (d_used b, l_used l) s' =
     mkDbuf (setN (d_lots b) (d_used b) (mkLot (setN (l_slots l) u s') (u + 1) (l_padbytes l))) used' (d_start b)).
  { intro s'. unfold put_slot. cbn [fst snd]. rewrite G1. cbn [b1 d_lots d_used d_start l1 l_slots l_used l_padbytes].
    rewrite setN_setN, L2. reflexivity. }
  split; [|split; [|split; [|split; [|split]]]].
  - unfold get_slot. destruct (N.eqb_spec (d_used b) (lenN (d_lots b))); [lia|]. rewrite HU at 1. rewrite El.
    destruct (N.ltb_spec (l_used l) w) as [HH|HH]; [|exfalso; lia]. fold w.
    destruct (N.ltb_spec (l_used l) w); [|lia]. reflexivity.
  - unfold slot_at. cbn [fst snd]. rewrite G1. cbn [l_slots l1]. rewrite L2. exact Es.
  - rewrite (drop_getN _ _ _ Es) in L6. inversion L6; assumption.
  - intro s'. rewrite PS. reflexivity.
  - intros x s' HR. rewrite PS. unfold buf_rep. cbn [d_lots d_used]. rewrite lenN_setN, lenN_app, lenN_cons, lenN_nil.
    split; [exact HL|]. split; [rewrite EU; f_equal; lia|]. split; [unfold cap; fold w; fold n; lia|].
    intros j Hj. destruct (N.eq_dec j (n / w)) as [->|Nj].
    + eexists. split; [rewrite HU; apply getN_setN_same; lia|].
      rewrite slice_snoc_in by (try lia; reflexivity). unfold lot_rep. cbn [l_slots l_used l_padbytes].
      rewrite lenN_app, lenN_cons, lenN_nil. fold w. rewrite LS. replace (n mod w + (1 + 0)) with (u + 1) by (unfold u; lia).
      rewrite lenN_setN. split; [exact L1|]. split; [reflexivity|]. split; [unfold u; lia|]. split; [exact L4|].
      split.
      * rewrite take_add, take_setN_lt by lia. apply Forall2_app; [exact L5|].
        rewrite setN_split by (unfold u; lia). rewrite drop_app_exact by (rewrite lenN_take; unfold u; lia).
        change (takeN 1 (s' :: dropN (u + 1) (l_slots l))) with [s']. constructor; [exact HR|constructor].
      * rewrite drop_setN_ge by lia. rewrite (drop_getN _ _ _ Es) in L6. inversion L6; assumption.
    + destruct (HI j Hj) as (lj & Ej & Rj). exists lj. split.
      * rewrite getN_setN_other by (rewrite HU; lia). exact Ej.
      * fold w. rewrite slice_snoc_out by (try lia; exact Nj). exact Rj.
  - intros s' HF. rewrite PS.
    set (l2 := mkLot (setN (l_slots l) u s') (u + 1) (l_padbytes l)).
    set (bb := mkDbuf (setN (d_lots b) (d_used b) l2) used' (d_start b)).
    set (l3 := mkLot (setN (l_slots l) u (reset_slot c s')) u (l_padbytes l)).
    assert (LC : lot_cancel c l2 = ROk l3).
    { unfold lot_cancel. cbn [l2 l_used l_slots l_padbytes].
      destruct (N.ltb_spec 0 (u + 1)); [|lia]. destruct (N.leb_spec (u + 1) (dws c)) as [HH|HH]; [|exfalso; unfold u in HH; fold w in HH; lia].
      cbn [andb]. replace (u + 1 - 1) with u by lia. rewrite getN_setN_same by (unfold u; lia). rewrite setN_setN. reflexivity. }
    exists (mkDbuf (setN (d_lots b) (d_used b) l3) (d_used b) (d_start b)). split; [|split].
    + assert (GU : getN (setN (d_lots b) (d_used b) l2) (d_used b) = Some l2) by (apply getN_setN_same, Hil).
      assert (FU : is_full bb = (n + 1 =? c_lots c * w)).
      { unfold is_full, bb; cbn [d_used d_lots]. rewrite lenN_setN, HL, EU. apply div_full; [exact H1|lia]. }
      unfold cancel_slot. rewrite FU. cbn [bb d_lots d_used d_start]. clear FU.
      rewrite EU, div_succ by exact H1. destruct (N.eqb_spec (n mod w + 1) w) as [EW|NW].
      * destruct (N.ltb_spec 0 (n / w + 1)) as [_|]; [|lia]. cbn [orb negb].
        assert (SH : (n + 1 =? c_lots c * w) || match (match getN (setN (d_lots b) (d_used b) l2) (n / w + 1) with Some l => Some (l_used l) | None => None end) with Some u => u =? 0 | None => true end = true).
        { destruct (N.eqb_spec (n + 1) (c_lots c * w)) as [E|E]; [reflexivity|]. cbn [orb].
          rewrite getN_setN_other by (rewrite HU; lia).
          pose proof (next_lot_lt n w (c_lots c) H1 EW ltac:(lia) E) as HJ.
          destruct (HI _ HJ) as (lj & Ej & (_ & J2 & _)). rewrite Ej, J2. rewrite lenN_slice. fold n.
          rewrite next_lot_empty by assumption. rewrite N.min_0_r. reflexivity. }
        rewrite SH. replace (n / w + 1 - 1) with (d_used b) by lia.
        rewrite GU, LC. cbn [rbind]. rewrite setN_setN. reflexivity.
      * rewrite <- HU. rewrite GU. cbn [l2 l_used].
        destruct (N.ltb_spec 0 (u + 1)); [|lia]. rewrite orb_true_r. cbn [negb].
        pose proof (not_full_mid n w (c_lots c) H1 NW) as NF.
        destruct (N.eqb_spec (n + 1) (c_lots c * w)); [contradiction|].
        destruct (N.eqb_spec (u + 1) 0); [lia|]. cbn [orb]. fold l2. rewrite GU, LC. cbn [rbind]. rewrite setN_setN. reflexivity.
    + unfold buf_rep. cbn [d_lots d_used]. rewrite lenN_setN. split; [exact HL|]. split; [exact HU|]. split; [unfold cap; fold w n; lia|].
      intros j Hj. destruct (N.eq_dec j (n / w)) as [->|Nj].
      * eexists. split; [rewrite HU; apply getN_setN_same; lia|]. unfold lot_rep. cbn [l3 l_slots l_used l_padbytes]. fold w. rewrite LS.
        rewrite lenN_setN. fold u. split; [exact L1|]. split; [reflexivity|]. split; [unfold u; lia|]. split; [exact L4|]. split.
        -- rewrite take_setN_lt by lia. exact L5.
        -- rewrite setN_split by (unfold u; lia). rewrite drop_app_exact by (rewrite lenN_take; unfold u; lia).
           constructor; [exact HF|]. rewrite (drop_getN _ _ _ Es) in L6. inversion L6; assumption.
      * destruct (HI j Hj) as (lj & Ej & Rj). exists lj. split; [|exact Rj]. rewrite getN_setN_other by (rewrite HU; lia). exact Ej.
    + reflexivity.
Qed.

(* the fill loop on a flat sequence *)
Section Fill.
Context {St : Type}.
Variable pre : St -> bool.
Variable step : St -> slot -> result (St * action * bool).
Variable fstep : St -> St * option X * bool.
Variable I : St -> Prop.
Hypothesis HST : forall st s, I st -> pre st = false -> Fresh s ->
  match fstep st with
  | (st', Some x, stop) => exists s', step st s = ROk (st', Keep s', stop) /\ R x s' /\ (stop = false -> I st')
  | (st', None, stop) => exists s', step st s = ROk (st', Cancel s', stop) /\ Fresh (reset_slot c s') /\ (stop = false -> I st')
  end.

Fixpoint ffill (fuel : nat) (st : St) (k : N) : option (St * list X * bool) :=
  if k =? 0 then Some (st, [], true)
  else match fuel with
  | O => None
  | S fuel' =>
      if pre st then Some (st, [], false)
      else match fstep st with
           | (st', o, true) => Some (st', match o with Some x => [x] | None => [] end, false)
           | (st', Some x, false) =>
               match ffill fuel' st' (k - 1) with
               | Some (st'', xs, run) => Some (st'', x :: xs, run)
               | None => None
               end
           | (st', None, false) => ffill fuel' st' k
           end
  end.

Lemma fill_flat fuel : forall st xs b, I st -> buf_rep xs b ->
  match ffill fuel st (cap - lenN xs) with
  | Some (st', ys, run) =>
      exists b', fill c pre step fuel st b = ROk (st', b', run) /\ buf_rep (xs ++ ys) b' /\ d_start b' = d_start b /\ (run = true -> I st')
  | None => True
  end.
Proof.
  induction fuel as [|fuel IH]; intros st xs b HIs HB; cbn [ffill fill];
    pose proof (rep_full xs b HB) as EF; pose proof HB as (_ & _ & HC & _).
  - destruct (N.eqb_spec (cap - lenN xs) 0) as [E|E]; [|exact Logic.I].
    exists b. rewrite EF. destruct (N.eqb_spec (lenN xs) cap); [|lia]. rewrite app_nil_r. repeat split; auto; apply HB.
  - destruct (N.eqb_spec (cap - lenN xs) 0) as [E|E].
    + exists b. rewrite EF. destruct (N.eqb_spec (lenN xs) cap); [|lia]. rewrite app_nil_r. repeat split; auto; apply HB.
    + rewrite EF. destruct (N.eqb_spec (lenN xs) cap); [lia|].
      destruct (pre st) eqn:EP; [exists b; rewrite app_nil_r; repeat split; auto; apply HB|].
      destruct (rep_push xs b HB ltac:(lia)) as (b1 & loc & s & G1 & G2 & G3 & G4 & G5 & G6).
      rewrite G1, G2. specialize (HST st s HIs EP G3).
      destruct (fstep st) as [[st' [x|]] [|]]; destruct HST as (s' & ES & HS & HI'); rewrite ES; cbn [rbind].
      * eexists. split; [reflexivity|]. split; [apply G5, HS|]. split; [apply G4|intro; discriminate].
      * specialize (IH st' (xs ++ [x]) (put_slot b1 loc s') (HI' eq_refl) (G5 _ _ HS)).
        rewrite lenN_app, lenN_cons, lenN_nil in IH. replace (cap - (lenN xs + (1 + 0))) with (cap - lenN xs - 1) in IH by lia.
        destruct (ffill fuel st' (cap - lenN xs - 1)) as [[[st'' ys] run]|]; [|exact Logic.I].
        destruct IH as (b' & F1 & F2 & F3 & F4). exists b'. split; [exact F1|]. split; [|split; [rewrite F3; apply G4|exact F4]].
        rewrite <- app_assoc in F2. exact F2.
      * destruct (G6 s' HS) as (b2 & C1 & C2 & C3). rewrite C1. cbn [rbind]. exists b2. rewrite app_nil_r.
        split; [reflexivity|]. split; [exact C2|]. split; [exact C3|intro; discriminate].
      * destruct (G6 s' HS) as (b2 & C1 & C2 & C3). rewrite C1. cbn [rbind].
        specialize (IH st' xs b2 (HI' eq_refl) C2). destruct (ffill fuel st' (cap - lenN xs)) as [[[st'' ys] run]|]; [|exact Logic.I].
        destruct IH as (b' & F1 & F2 & F3 & F4). exists b'. split; [exact F1|]. split; [exact F2|]. split; [congruence|exact F4].
Qed.
End Fill.
End Rep.
