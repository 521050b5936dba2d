(* The buffer loops behave as a loop over a flat sequence of slots. *)
From Verif Require Import M_Base M_Specs M_Header M_Block M_Index M_Buffer M_Loop
  L_Base L_File L_Block L_Buffer L_Encode.
Ltac Zify.zify_post_hook ::= idtac.

Lemma rmap_ok {A B} (f : A -> result B) (g : A -> B) l :
  (forall x, In x l -> f x = ROk (g x)) -> rmap f l = ROk (map g l).
Proof.
  induction l as [|a l IH]; intro H; [reflexivity|]. cbn [rmap map].
  rewrite H by (left; reflexivity). cbn [rbind]. rewrite IH by (intros; apply H; right; assumption). reflexivity.
Qed.
Lemma rfold_app {A B} (f : B -> A -> result B) l1 l2 b :
  rfold f (l1 ++ l2) b = do! b' <- rfold f l1 b; rfold f l2 b'.
Proof.
  revert b. induction l1 as [|a l1 IH]; intro b; cbn [app rfold]; [reflexivity|].
  destruct (f b a); cbn [rbind]; auto.
Qed.
Lemma rfold_concat {A B C} (f : B -> A -> result B) (g : C -> list A) ls b :
  rfold (fun b l => rfold f (g l) b) ls b = rfold f (concat (map g ls)) b.
Proof.
  revert b. induction ls as [|l ls IH]; intro b; cbn [map concat rfold]; [reflexivity|].
  rewrite rfold_app. destruct (rfold f (g l) b); cbn [rbind]; auto.
Qed.
Lemma rfold_ext {A B} (f g : B -> A -> result B) l b : (forall b x, In x l -> f b x = g b x) -> rfold f l b = rfold g l b.
Proof.
  revert b. induction l as [|a l IH]; intros b H; cbn [rfold]; [reflexivity|]. rewrite H by (left; reflexivity).
  destruct (g b a); cbn [rbind]; auto. apply IH. intros; apply H; right; assumption.
Qed.
Lemma rfold_map {A B C} (f : B -> A -> result B) (h : C -> A) l b : rfold f (map h l) b = rfold (fun b x => f b (h x)) l b.
Proof. revert b. induction l as [|a l IH]; intro b; cbn [map rfold]; [reflexivity|]. destruct (f b (h a)); cbn [rbind]; auto. Qed.
Lemma rfold_left {A B} (f : B -> A -> result B) (g : B -> A -> B) l b :
  (forall b x, In x l -> f b x = ROk (g b x)) -> rfold f l b = ROk (fold_left g l b).
Proof.
  revert b. induction l as [|a l IH]; intros b H; cbn [rfold fold_left]; [reflexivity|].
  rewrite H by (left; reflexivity). cbn [rbind]. apply IH. intros; apply H; right; assumption.
Qed.

Lemma concat_flat {A B C} (f : A -> list C) (g : B -> list A) ls :
  concat (map (fun l => concat (map f (g l))) ls) = concat (map f (concat (map g ls))).
Proof.
  induction ls as [|l ls IH]; [reflexivity|]. cbn [map concat]. rewrite map_app, concat_app, IH. reflexivity.
Qed.

Section Loop.
Variable c : cfg.
Hypothesis COK : cfg_ok c.
Let bs := ver_to_block_size (c_ver c).
(* a slot ready to be handed out: only its bytes are left from before *)
Definition Fresh (s : slot) : Prop :=
  lenN (s_buf s) = bs /\ s_rpos s = None /\ s_wpos s = None /\ s_clen s = None /\ s_pad s = false.
Definition Holds (x s : slot) : Prop := x = s /\ lenN (s_buf s) = bs.
Definition shape (b : dbuf) : Prop :=
  lenN (d_lots b) = c_lots c /\
  forall l, In l (d_lots b) -> lenN (l_slots l) = lot_size c /\ forall s, In s (l_slots l) -> lenN (s_buf s) = bs.

Lemma fresh_new : Fresh (slot_new c).
Proof. unfold Fresh, slot_new; cbn. rewrite lenN_rep. repeat split. Qed.
Lemma fresh_reset s : lenN (s_buf s) = bs -> Fresh (reset_slot c s).
Proof. intro H. unfold Fresh, reset_slot; cbn. repeat split. exact H. Qed.
Lemma rep_reset_shape b : shape b -> buf_rep c Holds Fresh [] (dbuf_reset c b).
Proof.
  intros [H1 H2]. apply (rep_reset c Holds Fresh COK []); auto.
  - intros l Hl. apply H2, Hl.
  - intros l s Hl Hs. apply fresh_reset. eapply H2; eassumption.
Qed.
Lemma in_getN {A} (l : list A) x : In x l -> exists i, i < lenN l /\ getN l i = Some x.
Proof.
  intro H. apply In_nth_error in H as [n H]. exists (N.of_nat n). unfold getN, lenN. rewrite Nnat.Nat2N.id. split; [|exact H].
  apply nth_error_Some_lt in H || (assert (nth_error l n <> None) by congruence; apply nth_error_Some in H0; lia).
Qed.
Lemma F2_eq ys zs : Forall2 Holds ys zs -> ys = zs.
Proof. induction 1 as [|y z ys zs [E L] H IH]; [reflexivity|]. subst. reflexivity. Qed.
Lemma F2_len ys zs s : Forall2 Holds ys zs -> In s zs -> lenN (s_buf s) = bs.
Proof. induction 1 as [|y z ys zs [E L] H IH]; intros []; [subst; exact L|auto]. Qed.
Lemma F2_good (G : slot -> Prop) ys zs s : Forall2 (fun x s => Holds x s /\ G x) ys zs -> In s zs -> G s.
Proof. induction 1 as [|y z ys zs [[E L] HG] H IH]; intros []; [subst; exact HG|auto]. Qed.
Lemma rep_shape xs b : buf_rep c Holds Fresh xs b -> shape b.
Proof.
  intros (H1 & H2 & H3 & H4). split; [exact H1|]. intros l Hl.
  destruct (in_getN _ _ Hl) as (i & Hi & Ei). rewrite H1 in Hi. destruct (H4 i Hi) as (l' & El & (L1 & L2 & L3 & L4 & L5 & L6)).
  rewrite Ei in El. injection El as <-. split; [exact L1|]. intros s Hs.
  rewrite <- (take_drop (lenN (sliceN (i * dws c) (dws c) xs)) (l_slots l)) in Hs. apply in_app_or in Hs as [Hs|Hs].
  - eapply F2_len; eassumption.
  - rewrite Forall_forall in L6. apply L6 in Hs. apply Hs.
Qed.
Lemma rep_used xs b : buf_rep c Holds Fresh xs b ->
  concat (map (fun l => takeN (l_used l) (l_slots l)) (d_lots b)) = xs.
Proof.
  intros (H1 & H2 & H3 & H4). destruct COK as (W1 & W2 & W3). unfold cap in H3.
  assert (H5 : forall i, i < c_lots c -> exists l, getN (d_lots b) i = Some l /\
     takeN (l_used l) (l_slots l) = sliceN (i * dws c) (dws c) xs).
  { intros i Hi. destruct (H4 i Hi) as (l & El & (L1 & L2 & L3 & L4 & L5 & L6)). exists l. split; [exact El|].
    rewrite L2. symmetry. apply F2_eq, L5. }
  clear H4 H2. revert H1 H3 H5. generalize (c_lots c). generalize (d_lots b). clear - W1.
  intro ls. revert xs. induction ls as [|l ls IH]; intros xs n HN HL H.
  - change (lenN (@nil lot)) with 0 in HN. subst n. cbn [map concat]. rewrite N.mul_0_l in HL. symmetry. apply lenN_0. lia.
  - rewrite lenN_cons in HN. destruct (H 0 ltac:(lia)) as (l0 & E0 & T0). injection E0 as <-.
    cbn [map concat]. rewrite T0. rewrite N.mul_0_l. unfold sliceN. rewrite drop_0.
    rewrite (IH (dropN (dws c) xs) (n - 1)); [apply take_drop|lia|rewrite lenN_drop; nia|].
    intros i Hi. destruct (H (i + 1) ltac:(lia)) as (l1 & E1 & T1). exists l1. split.
    + revert E1. unfold getN. replace (N.to_nat (i + 1)) with (S (N.to_nat i)) by lia. cbn [nth_error]. auto.
    + rewrite T1. unfold sliceN. rewrite drop_drop. do 2 f_equal. lia.
Qed.

(* one slot, written to a file *)
Definition with_wpos (s : slot) (p : option N) : slot :=
  mkSlot (s_block s) (s_buf s) (s_rpos s) p (s_clen s) (s_pad s).
Definition wpos_of (s : slot) : option N := match slot_write_pos c s with ROk p => p | _ => None end.
Definition slot_put (f : file) (s : slot) : result file := write_slot c f (with_wpos s (wpos_of s)).

Lemma lot_pos_eq l : (forall s, In s (takeN (l_used l) (l_slots l)) -> exists p, slot_write_pos c s = ROk p) ->
  lot_calc_write_pos c l = ROk (mkLot (map (fun s => with_wpos s (wpos_of s)) (takeN (l_used l) (l_slots l)) ++ dropN (l_used l) (l_slots l)) (l_used l) (l_padbytes l)).
Proof.
  intro H. unfold lot_calc_write_pos. rewrite (rmap_ok _ (fun s => with_wpos s (wpos_of s))); [reflexivity|].
  intros s Hs. destruct (H s Hs) as [p Ep]. unfold wpos_of. rewrite Ep. reflexivity.
Qed.
Definition posd (l : lot) : lot :=
  mkLot (map (fun s => with_wpos s (wpos_of s)) (takeN (l_used l) (l_slots l)) ++ dropN (l_used l) (l_slots l)) (l_used l) (l_padbytes l).
Lemma shape_posd b : shape b -> shape (mkDbuf (map posd (d_lots b)) (d_used b) (d_start b)).
Proof.
  intros [H1 H2]. split; cbn [d_lots]; [rewrite lenN_map; exact H1|]. intros l Hl. apply in_map_iff in Hl as (l0 & <- & Hl).
  destruct (H2 _ Hl) as [L1 L2]. unfold posd; cbn [l_slots]. split.
  - rewrite lenN_app, lenN_map, <- L1. rewrite <- (take_drop (l_used l0) (l_slots l0)) at 3. rewrite lenN_app. reflexivity.
  - intros s Hs. apply in_app_or in Hs as [Hs|Hs].
    + apply in_map_iff in Hs as (s0 & <- & Hs). cbn. apply L2. eapply In_take; exact Hs.
    + apply L2. eapply In_drop; exact Hs.
Qed.
Lemma used_posd l : l_used l <= lenN (l_slots l) ->
  takeN (l_used (posd l)) (l_slots (posd l)) = map (fun s => with_wpos s (wpos_of s)) (takeN (l_used l) (l_slots l)).
Proof.
  intro H. unfold posd; cbn [l_used l_slots]. apply take_app_exact. rewrite lenN_map, lenN_take. lia.
Qed.
Lemma rep_used_le xs b l : buf_rep c Holds Fresh xs b -> In l (d_lots b) -> l_used l <= lenN (l_slots l).
Proof.
  intros (H1 & H2 & H3 & H4) Hl. destruct COK as (W1 & W2 & W3). destruct (in_getN _ _ Hl) as (i & Hi & Ei). rewrite H1 in Hi.
  destruct (H4 i Hi) as (l' & El & (L1 & L2 & L3 & _)). rewrite Ei in El. injection El as <-. lia.
Qed.
Lemma in_used xs b l s : buf_rep c Holds Fresh xs b -> In l (d_lots b) -> In s (takeN (l_used l) (l_slots l)) -> In s xs.
Proof.
  intros HB Hl Hs. rewrite <- (rep_used _ _ HB). apply in_concat. eexists. split; [|exact Hs].
  apply (in_map (fun l => takeN (l_used l) (l_slots l))), Hl.
Qed.
Lemma calc_pos_flat xs b : buf_rep c Holds Fresh xs b -> (forall x, In x xs -> exists p, slot_write_pos c x = ROk p) ->
  rmap (lot_calc_write_pos c) (d_lots b) = ROk (map posd (d_lots b)) /\
  concat (map (fun l => takeN (l_used l) (l_slots l)) (map posd (d_lots b))) = map (fun s => with_wpos s (wpos_of s)) xs.
Proof.
  intros HB HP. split.
  - apply rmap_ok. intros l Hl. apply lot_pos_eq. intros s Hs. apply HP. eapply in_used; eassumption.
  - rewrite <- (rep_used _ _ HB) at 1. rewrite concat_map, !map_map. f_equal. apply map_ext_in. intros l Hl.
    apply used_posd. eapply rep_used_le; eassumption.
Qed.
Lemma write_flat xs b f : buf_rep c Holds Fresh xs b -> c_out c <> OutDisabled ->
  (forall x, In x xs -> exists p, slot_write_pos c x = ROk p) ->
  forall f', rfold slot_put xs f = ROk f' ->
  exists b', dbuf_write c f b = ROk (b', f') /\ shape b'.
Proof.
  intros HB HO HP f' HF. destruct (calc_pos_flat xs b HB HP) as [E1 E2].
  exists (mkDbuf (map posd (d_lots b)) (d_used b) (d_start b)). split; [|apply shape_posd, (rep_shape xs), HB].
  unfold dbuf_write. rewrite E1. cbn [rbind].
  rewrite (rfold_ext _ (fun f l => rfold (write_slot c) (takeN (l_used l) (l_slots l)) f)).
  - rewrite rfold_concat, E2, rfold_map. change (rfold _ xs f) with (rfold slot_put xs f). rewrite HF. reflexivity.
  - intros f0 l _. unfold lot_write. destruct (c_out c); congruence.
Qed.

(* one slot, to standard output *)
Definition hbytes (s : slot) : list N := match slot_hash_bytes c s with ROk d => d | _ => [] end.
Definition obytes (s : slot) : list N := match slot_append c (with_wpos s (wpos_of s)) with ROk d => d | _ => [] end.
Lemma hash_flat xs b : buf_rep c Holds Fresh xs b -> c_in c <> InBlock Unordered ->
  (forall x, In x xs -> exists p, slot_hash_bytes c x = ROk p) -> dbuf_hash c b = ROk (concat (map hbytes xs)).
Proof.
  intros HB HI HP. unfold dbuf_hash. rewrite (rmap_ok _ (fun l => concat (map hbytes (takeN (l_used l) (l_slots l))))).
  - cbn [rbind]. rewrite (concat_flat hbytes (fun l => takeN (l_used l) (l_slots l))), (rep_used _ _ HB). reflexivity.
  - intros l Hl. unfold lot_hash. rewrite (rmap_ok _ hbytes).
    + destruct (c_in c) as [|[]]; try reflexivity; congruence.
    + intros s Hs. destruct (HP s (in_used _ _ _ _ HB Hl Hs)) as [p Ep]. unfold hbytes. rewrite Ep. reflexivity.
Qed.
Lemma append_flat xs b : buf_rep c Holds Fresh xs b ->
  (forall x, In x xs -> exists p, slot_write_pos c x = ROk p) ->
  (forall x, In x xs -> exists d, slot_append c (with_wpos x (wpos_of x)) = ROk d) ->
  exists b', dbuf_write_no_seek c b = ROk (b', concat (map obytes xs)) /\ shape b'.
Proof.
  intros HB HP HA. destruct (calc_pos_flat xs b HB HP) as [E1 E2].
  exists (mkDbuf (map posd (d_lots b)) (d_used b) (d_start b)). split; [|apply shape_posd, (rep_shape xs), HB].
  unfold dbuf_write_no_seek. rewrite E1. cbn [rbind].
  set (ob := fun s => match slot_append c s with ROk d => d | _ => [] end).
  rewrite (rmap_ok _ (fun l => concat (map ob (takeN (l_used l) (l_slots l))))).
  - cbn [rbind]. rewrite (concat_flat ob (fun l => takeN (l_used l) (l_slots l))), E2, map_map. reflexivity.
  - intros l Hl. unfold lot_append. rewrite (rmap_ok _ ob); [reflexivity|]. intros s Hs.
    assert (HS : In s (map (fun s => with_wpos s (wpos_of s)) xs)).
    { rewrite <- E2. apply in_concat. eexists. split; [|exact Hs]. apply (in_map (fun l => takeN (l_used l) (l_slots l))), Hl. }
    apply in_map_iff in HS as (x & <- & Hx). destruct (HA x Hx) as [d Ed]. unfold ob. rewrite Ed. reflexivity.
Qed.

(* the whole loop *)
Section Run.
Context {St W : Type}.
Variable pre : St -> bool.
Variable step : St -> slot -> result (St * action * bool).
Variable fstep : St -> St * option slot * bool.
Variable consume : W -> dbuf -> result (dbuf * W).
Variable g : W -> slot -> W.
Variable I : St -> Prop.
Variable Good : slot -> Prop.
Hypothesis HST : forall st s, I st -> pre st = false -> Fresh s ->
  match fstep st with
  | (st', Some x, stop) => step st s = ROk (st', Keep x, stop) /\ lenN (s_buf x) = bs /\ Good x /\ (stop = false -> I st')
  | (st', None, stop) => exists s', step st s = ROk (st', Cancel s', stop) /\ lenN (s_buf s') = bs /\ (stop = false -> I st')
  end.
Hypothesis HC : forall w xs b, buf_rep c Holds Fresh xs b -> Forall Good xs ->
  exists b', consume w b = ROk (b', fold_left g xs w) /\ shape b'.

Lemma step_holds st s : I st -> pre st = false -> Fresh s ->
  match fstep st with
  | (st', Some x, stop) => exists s', step st s = ROk (st', Keep s', stop) /\ (Holds x s' /\ Good x) /\ (stop = false -> I st')
  | (st', None, stop) => exists s', step st s = ROk (st', Cancel s', stop) /\ Fresh (reset_slot c s') /\ (stop = false -> I st')
  end.
Proof.
  intros HI HP HF. specialize (HST st s HI HP HF). destruct (fstep st) as [[st' [x|]] stop].
  - destruct HST as (E & L & G & J). exists x. repeat split; auto.
  - destruct HST as (s' & E & L & J). exists s'. repeat split; auto; apply fresh_reset; exact L.
Qed.
Lemma rep_weaken (R R' : slot -> slot -> Prop) xs b : (forall x s, R x s -> R' x s) ->
  buf_rep c R Fresh xs b -> buf_rep c R' Fresh xs b.
Proof.
  intros HR (H1 & H2 & H3 & H4). split; [exact H1|]. split; [exact H2|]. split; [exact H3|]. intros i Hi.
  destruct (H4 i Hi) as (l & El & (L1 & L2 & L3 & L4 & L5 & L6)). exists l. split; [exact El|].
  repeat split; auto. clear - L5 HR. induction L5; constructor; auto.
Qed.
Lemma rep_good xs b : buf_rep c (fun x s => Holds x s /\ Good x) Fresh xs b -> Forall Good xs.
Proof.
  intro HB. assert (HB' : buf_rep c Holds Fresh xs b) by (revert HB; apply rep_weaken; intros x s [H _]; exact H).
  rewrite <- (rep_used _ _ HB'). apply Forall_forall. intros x Hx. apply in_concat in Hx as (ys & Hy & Hx).
  apply in_map_iff in Hy as (l & <- & Hl). destruct HB as (H1 & H2 & H3 & H4).
  destruct (in_getN _ _ Hl) as (i & Hi & Ei). rewrite H1 in Hi. destruct (H4 i Hi) as (l' & El & (L1 & L2 & L3 & L4 & L5 & L6)).
  rewrite Ei in El. injection El as <-. rewrite L2 in Hx.
  eapply F2_good; eassumption.
Qed.

Lemma loop_flat ffuel : forall n fuel st w q st' ys, I st -> q <> [] ->
  Forall (buf_rep c Holds Fresh []) q -> (n <= ffuel)%nat -> (n <= fuel)%nat ->
  frun pre fstep n st = Some (st', ys) ->
  buf_loop c pre step consume ffuel fuel q st w = ROk (st', fold_left g ys w).
Proof.
  destruct COK as (W1 & W2 & W3).
  assert (CAP : cap c <> 0) by (unfold cap; nia).
  induction n as [n IH] using (well_founded_induction lt_wf); intros fuel st w q st' ys HI HQ HR HF1 HF2 HR2.
  destruct n as [|n]; [discriminate HR2|]. destruct fuel as [|fuel]; [lia|]. destruct q as [|b q]; [congruence|].
  cbn [buf_loop]. inversion HR as [|? ? HB HR']; subst.
  destruct (frun_ffill pre fstep (S n) st (cap c) st' ys HR2) as (st1 & run & E & HT & HFa).
  assert (HB0 : buf_rep c (fun x s => Holds x s /\ Good x) Fresh [] b).
  { destruct HB as (B1 & B2 & B3 & B4). split; [exact B1|]. split; [exact B2|]. split; [exact B3|]. intros i Hi.
    destruct (B4 i Hi) as (l & El & HL). exists l. split; [exact El|]. revert HL. unfold sliceN. rewrite drop_nil, take_nil.
    intros (L1 & L2 & L3 & L4 & L5 & L6). repeat split; auto. change (lenN (@nil slot)) with 0. rewrite take_0. constructor. }
  pose proof (fill_flat c (fun x s => Holds x s /\ Good x) Fresh COK pre step fstep I step_holds ffuel st [] b HI HB0) as FF.
  change (lenN (@nil slot)) with 0 in FF. rewrite N.sub_0_r in FF.
  rewrite (ffill_mono pre fstep ffuel (S n) st (cap c) _ HF1 E) in FF.
  destruct FF as (b1 & EF & HB1 & _ & HI1). rewrite EF. cbn [rbind]. cbn [app] in HB1.
  assert (HB2 : buf_rep c Holds Fresh (takeN (cap c) ys) b1) by (revert HB1; apply rep_weaken; intros x s [H _]; exact H).
  destruct (HC w _ _ HB2 (rep_good _ _ HB1)) as (b2 & EC & SH). rewrite EC. cbn [rbind].
  destruct run.
  - destruct (HT eq_refl) as (HL & m & Em & Hm1 & Hm2). specialize (Hm1 CAP).
    rewrite (IH m Hm1 fuel st1 (fold_left g (takeN (cap c) ys) w) (q ++ [dbuf_reset c b2]) st' (dropN (cap c) ys)).
    + rewrite <- fold_left_app, take_drop. reflexivity.
    + apply HI1; reflexivity.
    + destruct q; discriminate.
    + apply Forall_app. split; [exact HR'|]. constructor; [|constructor]. apply rep_reset_shape, SH.
    + lia.
    + lia.
    + exact Em.
  - destruct (HFa eq_refl) as [-> HL]. rewrite take_all by exact HL. reflexivity.
Qed.
End Run.
Lemma init_queue_rep : 1 <= c_bufs c -> dbuf_new_multi c <> [] /\ Forall (buf_rep c Holds Fresh []) (dbuf_new_multi c).
Proof.
  intro H. unfold dbuf_new_multi. split.
  - rewrite rangeN_cons by lia. discriminate.
  - apply Forall_forall. intros b Hb. apply in_map_iff in Hb as (i & <- & _). apply rep_new; [exact COK|exact fresh_new].
Qed.
End Loop.
