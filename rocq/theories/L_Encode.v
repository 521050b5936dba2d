(* The encoding loop: independent of buffers and lots, it writes the blocks of the chunks read. *)
From Verif Require Import M_Base M_Specs M_Crc M_Header M_Block M_Index M_Buffer M_Encode
  S_Crc S_Index S_Container L_Base L_File L_Crc L_Header L_Block L_Index L_Index2 L_Buffer L_Lot.
Ltac Zify.zify_post_hook ::= idtac.

(* ---- flat runs ---- *)
Section Flat.
Context {St X : Type}.
Variable pre : St -> bool.
Variable fstep : St -> St * option X * bool.
Fixpoint frun (fuel : nat) (st : St) : option (St * list X) :=
  match fuel with
  | O => None
  | S fuel' =>
      if pre st then Some (st, [])
      else match fstep st with
           | (st', o, true) => Some (st', match o with Some x => [x] | None => [] end)
           | (st', Some x, false) =>
               match frun fuel' st' with Some (st'', xs) => Some (st'', x :: xs) | None => None end
           | (st', None, false) => frun fuel' st'
           end
  end.
Lemma ffill_mono m n st k r : (n <= m)%nat -> ffill pre fstep n st k = Some r -> ffill pre fstep m st k = Some r.
Proof.
  revert m st k r. induction n as [|n IH]; intros m st k r HL.
  - cbn [ffill]. destruct m; cbn [ffill]; destruct (k =? 0); congruence.
  - destruct m as [|m]; [lia|]. cbn [ffill]. destruct (k =? 0); [auto|]. destruct (pre st); [auto|].
    destruct (fstep st) as [[st' [x|]] [|]]; auto.
    + destruct (ffill pre fstep n st' (k - 1)) as [[[a b] e]|] eqn:E; [|discriminate]. rewrite (IH m st' (k - 1) (a, b, e)) by (try lia; exact E). auto.
    + intro E. apply IH; [lia|exact E].
Qed.
Lemma frun_ffill n : forall st k st' ys, frun n st = Some (st', ys) ->
  exists st1 run, ffill pre fstep n st k = Some (st1, takeN k ys, run) /\
    (run = true -> k <= lenN ys /\ exists m, frun m st1 = Some (st', dropN k ys) /\ (k <> 0 -> (m < n)%nat) /\ (m <= n)%nat) /\
    (run = false -> st1 = st' /\ lenN ys <= k).
Proof.
  induction n as [|n IH]; intros st k st' ys H; [discriminate|].
  destruct (N.eqb_spec k 0) as [->|NK].
  { exists st, true. cbn [ffill N.eqb]. rewrite take_0. split; [reflexivity|]. split; [|discriminate]. intros _. split; [lia|].
    exists (S n). rewrite drop_0. split; [exact H|]. split; [congruence|lia]. }
  cbn [frun] in H. cbn [ffill]. destruct (N.eqb_spec k 0); [contradiction|].
  destruct (pre st).
  { injection H as <- <-. exists st, false. rewrite take_nil. split; [reflexivity|]. split; [discriminate|]. intros _. split; [reflexivity|]. change (lenN (@nil X)) with 0. lia. }
  destruct (fstep st) as [[s1 [x|]] [|]].
  - injection H as <- <-. exists s1, false. rewrite take_all by (change (lenN [x]) with 1; lia). split; [reflexivity|]. split; [discriminate|]. intros _. split; [reflexivity|]. change (lenN [x]) with 1. lia.
  - destruct (frun n s1) as [[s2 xs]|] eqn:E; [|discriminate]. injection H as <- <-.
    destruct (IH s1 (k - 1) s2 xs E) as (st1 & run & F1 & F2 & F3). rewrite F1. exists st1, run.
    assert (ET : takeN k (x :: xs) = x :: takeN (k - 1) xs) by (replace k with (1 + (k - 1)) at 1 by lia; apply take_cons).
    assert (ED : dropN k (x :: xs) = dropN (k - 1) xs) by (replace k with (1 + (k - 1)) at 1 by lia; apply drop_cons).
    rewrite ET, ED, lenN_cons. split; [reflexivity|]. split.
    + intro Hr. destruct (F2 Hr) as (L & m & M1 & M2 & M3). split; [lia|]. exists m. split; [exact M1|]. split; lia.
    + intro Hr. destruct (F3 Hr) as [-> L]. split; [reflexivity|lia].
  - injection H as <- <-. exists s1, false. rewrite take_nil. split; [reflexivity|]. split; [discriminate|]. intros _. split; [reflexivity|]. change (lenN (@nil X)) with 0. lia.
  - destruct (IH s1 k st' ys H) as (st1 & run & F1 & F2 & F3). rewrite F1. exists st1, run. split; [reflexivity|]. split; [|exact F3].
    intro Hr. destruct (F2 Hr) as (L & m & M1 & M2 & M3). split; [exact L|]. exists m. split; [exact M1|]. split; lia.
Qed.
End Flat.

Lemma seq_next s last d p q : 1 <= d -> last = q * (d + p) + d -> last + p <= U32_MAX -> s < last -> s mod (d + p) < d ->
  if s mod (d + p) =? d - 1
  then s + 1 + p <= U32_MAX /\ (s + 1 = last \/ s + 1 + p < last /\ (s + 1 + p) mod (d + p) < d)
  else s + 1 < last /\ (s + 1) mod (d + p) < d.
Proof.
  intros Hd E HM HS Hm. pose proof (N.div_mod' s (d + p)) as DM. set (qq := s / (d + p)) in *. set (mm := s mod (d + p)) in *.
  destruct (N.eqb_spec mm (d - 1)) as [EM|NM].
  - rewrite EM in DM. destruct (N.eq_dec qq q) as [->|NE].
    + split; [lia|]. left; lia.
    + assert (qq < q) by (apply N.nle_gt; intro; assert ((d + p) * (q + 1) <= (d + p) * qq) by (apply N.mul_le_mono_l; lia); lia).
      assert ((d + p) * (qq + 1) <= (d + p) * q) by (apply N.mul_le_mono_l; lia). split; [lia|]. right. split; [lia|].
      replace (s + 1 + p) with ((qq + 1) * (d + p)) by lia. rewrite N.mod_mul by lia. lia.
  - assert (s + 1 <> last).
    { intro E2. assert (HH : s mod (d + p) = d - 1); [|unfold mm in NM; congruence].
      replace s with (d - 1 + q * (d + p)) by lia. rewrite N.mod_add by lia. apply N.mod_small. lia. }
    split; [lia|]. replace (s + 1) with (mm + 1 + qq * (d + p)) by lia. rewrite N.mod_add by lia. rewrite N.mod_small by lia. lia.
Qed.
Lemma sumN_add {A} (f g : A -> N) l : sumN (map f l) + sumN (map g l) = sumN (map (fun x => f x + g x) l).
Proof. induction l; cbn [map sumN fold_right]; unfold sumN in *; lia. Qed.
Lemma sumN_app a b : sumN (a ++ b) = sumN a + sumN b.
Proof. induction a; cbn [app sumN fold_right]; unfold sumN in *; lia. Qed.
Lemma sumN_mul {A} (f : A -> N) l k : sumN (map f l) * k = sumN (map (fun x => f x * k) l).
Proof. induction l; cbn [map sumN fold_right]; unfold sumN in *; lia. Qed.
Lemma sumN_ext {A} (f g : A -> N) l : (forall x, In x l -> f x = g x) -> sumN (map f l) = sumN (map g l).
Proof. intro H. f_equal. apply map_ext_in. exact H. Qed.

Definition src_bytes (s : source) : list N := match s with SrcFile r => r | SrcStdin ps => concat ps end.
Lemma os_read_ok ps n : let '(d, ps') := os_read ps n in lenN d <= n /\ concat ps = d ++ concat ps'.
Proof.
  unfold os_read. destruct ps as [|p ps]; [split; [change (lenN (@nil N)) with 0; lia|reflexivity]|].
  destruct (N.leb_spec (lenN p) n) as [H|H]; [split; [exact H|reflexivity]|].
  split; [rewrite lenN_take; lia|]. cbn [concat]. rewrite app_assoc, take_drop. reflexivity.
Qed.
Lemma read_tries_ok t : forall ps n, let '(d, ps') := read_tries t ps n in lenN d <= n /\ concat ps = d ++ concat ps'.
Proof.
  induction t as [|t IH]; intros ps n; cbn [read_tries]; [split; [change (lenN (@nil N)) with 0; lia|reflexivity]|].
  destruct (N.eqb_spec n 0) as [->|]; [split; [change (lenN (@nil N)) with 0; lia|reflexivity]|].
  pose proof (os_read_ok ps n) as H. destruct (os_read ps n) as [d1 s1]. specialize (IH s1 (n - lenN d1)).
  destruct (read_tries t s1 (n - lenN d1)) as [d2 s2]. destruct H as [H1 H2], IH as [I1 I2].
  split; [rewrite lenN_app; lia|]. rewrite H2, I2, app_assoc. reflexivity.
Qed.
Lemma src_read_ok s n : let '(d, s') := src_read s n in lenN d <= n /\ src_bytes s = d ++ src_bytes s'.
Proof.
  destruct s as [r|ps]; cbn [src_read].
  - split; [rewrite lenN_take; lia|]. cbn [src_bytes]. symmetry. apply take_drop.
  - pose proof (read_tries_ok READ_RETRIES ps n) as H. destruct (read_tries READ_RETRIES ps n) as [d ps']. exact H.
Qed.

Section Enc.
Variable c : cfg.
Variable rs : codec.
Let v := c_ver c.
Let uid := c_uid c.
Let bs := ver_to_block_size v.
Let ds := ver_to_data_size v.
Let ls := lot_size c.
Let w := dws c.
Hypothesis CIN : c_in c = InData.
Hypothesis COUT : c_out c = OutBlock.
Hypothesis CSK : c_skip_good c = false.
Hypothesis CUID : lenN uid = 6 /\ bytes_ok uid = true.
Hypothesis CO : dpb_ok (c_dpb c).
Hypothesis CRS : codec_ok rs (c_dpb c).
Hypothesis CLOTS : 1 <= c_lots c.
Hypothesis CEVEN : N.even (c_lots c) = true.
Hypothesis CBUFS : 1 <= c_bufs c.
Hypothesis CINC : c_lots c * lot_size c * c_bufs c < 4294967296.

Lemma enc_cfg_ok : cfg_ok c.
Proof.
  unfold cfg_ok, dws, lot_size. rewrite CIN. unfold DEFAULT_SINGLE_LOT_SIZE.
  pose proof CO as CO'. unfold dpb_ok in CO'. destruct (c_dpb c) as [[[d p] b]|]; lia.
Qed.

Definition lotx (xs : list (list N)) (j : N) : list (list N) := sliceN (j * w) w xs.
Definition blocks (start : N) (xs : list (list N)) (lo hi : N) : list (N * list N * bool) :=
  flat_map (fun j => number c (start + j * ls) (group c rs (lotx xs j))) (rangeN lo hi).
Definition wr (f : file) (bl : list (N * list N * bool)) : file :=
  fold_left (fun f x => file_write f (calc_data_block_write_pos v (fst (fst x)) (Some (c_meta c)) (c_dpb c)) (snd (fst x))) bl f.
Lemma wr_app f a b : wr f (a ++ b) = wr (wr f a) b.
Proof. apply fold_left_app. Qed.

(* lot j of an encoded buffer *)
Definition enclot (start : N) (xs : list (list N)) (j : N) (l : lot) : Prop :=
  lenN (l_slots l) = lot_size c /\ l_used l = lenN (group c rs (lotx xs j)) /\
  Forall2 (sealed c) (number c (start + j * ls) (group c rs (lotx xs j))) (takeN (l_used l) (l_slots l)) /\
  Forall (fun s => lenN (s_buf s) = bs) (l_slots l) /\ l_padbytes l = padsum c (lotx xs j).

Lemma gl_pos xs : xs <> [] -> 1 <= gl c xs.
Proof.
  intro H. unfold gl. destruct xs as [|x r]; [congruence|]. pose proof CO as CO'. unfold dpb_ok in CO'.
  destruct (c_dpb c) as [[[d p] b]|]; [lia|]. rewrite lenN_cons. lia.
Qed.
Lemma encode_lots_ok start xs : forall n j0 lots,
  Forall2 (fun j l => lot_rep c (holds c) (fresh c) (lotx xs j) l) (seqN j0 n) lots ->
  (forall j, lotx xs j <> [] -> 1 <= start /\ start + j * ls + gl c (lotx xs j) <= U32_MAX + 1) ->
  exists lots', encode_lots c rs start j0 lots = ROk lots' /\ Forall2 (enclot start xs) (seqN j0 n) lots'.
Proof.
  induction n as [|n IH]; intros j0 lots HF HB; cbn [seqN] in *; inversion HF as [|? l ? lots0 HL HF0]; subst; cbn [encode_lots].
  - exists []. split; [reflexivity|constructor].
  - destruct (IH (j0 + 1) lots0 HF0 HB) as (ls' & E1 & E2).
    destruct (lot_encode_ok c rs CIN CUID CO CRS (u32 (start + u32 (j0 * lot_size c))) (lotx xs j0) l HL) as (l' & L1 & L2 & L3 & L4 & L5 & L6).
    { intro HN. destruct (HB j0 HN) as [B1 B2]. fold ls. unfold u32. unfold U32_MAX in *. rewrite (N.mod_small (j0 * ls)) by lia.
      pose proof (gl_pos (lotx xs j0) HN) as GP.
      rewrite N.mod_small by lia. destruct HL as (_ & _ & HD & _ & HH & _).
      destruct (group_len c rs CIN CRS (lotx xs j0)) as [G _]; [eapply holds_len, HH|exact HD|]. rewrite G. split; lia. }
    rewrite L1. cbn [rbind]. rewrite E1. cbn [rbind]. eexists. split; [reflexivity|]. constructor; [|exact E2].
    unfold enclot. split; [exact L2|]. split; [exact L3|]. split; [|split; [exact L5|exact L6]].
    destruct (list_eq_dec (list_eq_dec N.eq_dec) (lotx xs j0) []) as [EN|NN].
    + rewrite EN in *. rewrite L3. cbn [group number]. change (lenN (@nil (list N * bool))) with 0. rewrite take_0. constructor.
    + replace (u32 (start + u32 (j0 * lot_size c))) with (start + j0 * ls) in L4; [exact L4|]. destruct (HB j0 NN) as [B1 B2].
      fold ls. unfold u32. unfold U32_MAX in *. 
      pose proof (gl_pos (lotx xs j0) NN) as GP.
      rewrite (N.mod_small (j0 * ls)) by lia. rewrite N.mod_small by lia. reflexivity.
Qed.

Lemma number_seq_ge start pls x : In x (number c start pls) -> start <= fst (fst x).
Proof.
  revert start. induction pls as [|[pl fl] r IH]; intros start H; [destruct H|]. cbn [number] in H. destruct H as [<-|H].
  - cbn [fst]. lia.
  - specialize (IH _ H). lia.
Qed.

Definition placed (x : N * list N * bool) (s : slot) : Prop :=
  s_buf s = snd (fst x) /\ s_wpos s = Some (calc_data_block_write_pos v (fst (fst x)) (Some (c_meta c)) (c_dpb c)).
Lemma calc_pos_ok nb l : Forall2 (sealed c) nb (takeN (l_used l) (l_slots l)) -> (forall x, In x nb -> 1 <= fst (fst x)) ->
  l_used l <= lenN (l_slots l) -> Forall (fun s => lenN (s_buf s) = bs) (l_slots l) ->
  exists l', lot_calc_write_pos c l = ROk l' /\ l_used l' = l_used l /\ lenN (l_slots l') = lenN (l_slots l) /\
   Forall2 placed nb (takeN (l_used l') (l_slots l')) /\ Forall (fun s => lenN (s_buf s) = bs) (l_slots l').
Proof.
  intros HF HP HU HB. unfold lot_calc_write_pos.
  assert (H : exists ss, rmap (fun s => do! p <- slot_write_pos c s; ROk (mkSlot (s_block s) (s_buf s) (s_rpos s) p (s_clen s) (s_pad s))) (takeN (l_used l) (l_slots l)) = ROk ss
     /\ Forall2 (fun x s => placed x s /\ lenN (s_buf s) = bs) nb ss).
  { apply Forall_take with (n := l_used l) in HB. clear HU. revert HB. induction HF as [|x s nb' ss (SH & E1 & E2 & E3) HF IH]; intro HB; cbn [rmap].
    - exists []. split; [reflexivity|constructor].
    - inversion HB; subst. destruct IH as (ss' & R1 & R2); [intros; apply HP; right; assumption|assumption|].
      unfold slot_write_pos at 1. rewrite COUT, E1. destruct (N.eqb_spec (fst (fst x)) 0) as [Z|_]; [specialize (HP x (or_introl eq_refl)); lia|].
      cbn [rbind]. rewrite R1. cbn [rbind]. eexists. split; [reflexivity|]. constructor; [|exact R2]. unfold placed. cbn [s_buf s_wpos]. auto. }
  destruct H as (ss & R1 & R2). rewrite R1. cbn [rbind]. eexists. split; [reflexivity|]. cbn [l_used l_slots].
  assert (LS : lenN ss = l_used l).
  { rewrite <- (Forall2_len _ _ _ R2), (Forall2_len _ _ _ HF), lenN_take. lia. }
  split; [reflexivity|]. split; [rewrite lenN_app, lenN_drop; lia|]. split.
  - rewrite take_app_exact by (symmetry; exact LS). eapply Forall2_impl_in; [|exact R2]. intros a b [H _]; exact H.
  - apply Forall_app. split; [|apply Forall_drop, HB]. clear - R2. induction R2 as [|? ? ? ? [_ H]]; constructor; auto.
Qed.
Lemma write_slots_ok nb ss f : Forall2 placed nb ss -> rfold (write_slot c) ss f = ROk (wr f nb).
Proof.
  intro HF. revert f. induction HF as [|x s nb ss [E1 E2] HF IH]; intro f; cbn [rfold]; [reflexivity|].
  unfold write_slot at 1. rewrite E2. unfold do_write. rewrite CSK. unfold slot_out. rewrite COUT. cbn [rbind]. rewrite E1. apply IH.
Qed.

Definition lot_data (xs : list (list N)) (j : N) : N := lenN (lotx xs j) + padcount c (lotx xs j).
Definition lot_par (xs : list (list N)) (j : N) : N := lenN (group c rs (lotx xs j)) - lot_data xs j.
Definition lot_pb (xs : list (list N)) (j : N) : N := padsum c (lotx xs j) + padcount c (lotx xs j) * ds.

Lemma dbuf_step b xs start stats f :
  buf_rep c (holds c) (fresh c) xs b -> d_start b = Some start ->
  (forall j, lotx xs j <> [] -> 1 <= start /\ start + j * ls + gl c (lotx xs j) <= U32_MAX + 1) ->
  1 <= start ->
  exists b2 b3, enc_encode c rs stats b =
    ROk (b2, mkEstats (st_meta stats) (st_data stats + sumN (map (lot_data xs) (rangeN 0 (c_lots c))))
               (st_parity stats + sumN (map (lot_par xs) (rangeN 0 (c_lots c))))
               (st_padbytes stats + sumN (map (lot_pb xs) (rangeN 0 (c_lots c))))) /\
  dbuf_write c f b2 = ROk (b3, wr f (blocks start xs 0 (c_lots c))) /\
  buf_rep c (holds c) (fresh c) [] (dbuf_reset c b3) /\
  d_start (dbuf_reset c b3) = (if is_full b && negb (U32_MAX - seq_num_incre c <? start) then Some (start + seq_num_incre c) else None).
Proof.
  intros HB HS HBD HS1. pose proof HB as (HL & HU & HC & HI).
  assert (HF : Forall2 (fun j l => lot_rep c (holds c) (fresh c) (lotx xs j) l) (seqN 0 (length (d_lots b))) (d_lots b)).
  { assert (HI' : forall i, i < lenN (d_lots b) -> exists l, getN (d_lots b) i = Some l /\ lot_rep c (holds c) (fresh c) (lotx xs (0 + i)) l).
    { intros i Hi. rewrite N.add_0_l. apply HI. lia. }
    clear - HI'. revert HI'. generalize 0 as j0. induction (d_lots b) as [|l r IH]; intros j0 HI; cbn [length seqN]; constructor.
    - destruct (HI 0) as (l' & E & R); [rewrite lenN_cons; lia|]. cbn in E. injection E as <-. rewrite N.add_0_r in R. exact R.
    - apply IH. intros i Hi. destruct (HI (i + 1)) as (l' & E & R); [rewrite lenN_cons; lia|]. exists l'. split.
      + unfold getN in *. replace (N.to_nat (i + 1)) with (S (N.to_nat i)) in E by lia. exact E.
      + replace (j0 + 1 + i) with (j0 + (i + 1)) by lia. exact R. }
  destruct (encode_lots_ok start xs _ _ _ HF HBD) as (lots & E1 & E2).
  assert (ER : seqN 0 (length (d_lots b)) = rangeN 0 (c_lots c)).
  { unfold rangeN. f_equal. unfold lenN in HL. lia. }
  rewrite ER in HF, E2.
  unfold enc_encode, dbuf_encode. rewrite HS. rewrite E1. cbn [rbind].
  set (b2 := mkDbuf lots (d_used b) (if is_full b && negb (U32_MAX - seq_num_incre c <? start) then Some (start + seq_num_incre c) else None)).
  assert (CNT : map (lot_counts c) lots = map (fun j => (lot_data xs j, padcount c (lotx xs j), lot_par xs j)) (rangeN 0 (c_lots c))).
  { symmetry. apply Forall2_eq_map. clear - HF E2 CIN CRS. revert HF. generalize (d_lots b). induction E2 as [|j l js lots' HE E2 IH]; intros lots0 HF; [constructor|].
    inversion HF as [|? l0 ? r0 HR HF']; subst. constructor; [|eapply IH, HF'].
    destruct HE as (L1 & L2 & L3 & L4 & L5). destruct HR as (_ & _ & HD & _ & HH & _). symmetry.
    eapply lot_counts_ok; [exact CIN|exact CRS|symmetry; exact L2|exact L3|eapply holds_len, HH|exact HD]. }
  assert (PBS : map l_padbytes lots = map (fun j => padsum c (lotx xs j)) (rangeN 0 (c_lots c))).
  { symmetry. apply Forall2_eq_map. eapply Forall2_impl_in; [|exact E2]. intros j l H. symmetry. apply H. }
  assert (WP : exists lots2, rmap (lot_calc_write_pos c) lots = ROk lots2 /\
     Forall2 (fun j l => lenN (l_slots l) = lot_size c /\ Forall2 placed (number c (start + j * ls) (group c rs (lotx xs j))) (takeN (l_used l) (l_slots l)) /\ Forall (fun s => lenN (s_buf s) = bs) (l_slots l)) (rangeN 0 (c_lots c)) lots2).
  { apply rmap_Forall2 with (R := fun j l => lot_rep c (holds c) (fresh c) (lotx xs j) l /\ False \/ enclot start xs j l /\ l_used l <= lenN (l_slots l)).
    - intros j l [[_ []]|[(L1 & L2 & L3 & L4 & L5) LU]].
      destruct (calc_pos_ok _ l L3) as (l' & P1 & P2 & P3 & P4 & P5).
      + intros x Hx. apply number_seq_ge in Hx. lia.
      + exact LU.
      + exact L4.
      + exists l'. split; [exact P1|]. split; [lia|]. split; assumption.
    - clear - HF E2 CIN CRS CO. revert HF. generalize (d_lots b). induction E2 as [|j l js lots' HE E2 IH]; intros lots0 HF; [constructor|].
      inversion HF as [|? l0 ? r0 HR HF']; subst. constructor; [|eapply IH, HF']. right. split; [exact HE|].
      destruct HE as (L1 & L2 & L3 & L4 & L5). destruct HR as (_ & _ & HD & _ & HH & _).
      destruct (group_len c rs CIN CRS (lotx xs j)) as [G _]; [eapply holds_len, HH|exact HD|].
      rewrite L2, G, L1. pose proof (cfg_lot c CIN) as [C1 C2]. unfold gl. destruct (lotx xs j); [lia|]. destruct (c_dpb c) as [[[d p] bb]|]; lia. }
  destruct WP as (lots2 & W1 & W2).
  exists b2, (mkDbuf lots2 (d_used b2) (d_start b2)).
  split; [|split; [|split]].
  - unfold dbuf_counts, dbuf_padbytes. cbn [b2 d_lots]. fold b2. rewrite CNT, PBS. rewrite !map_map. cbn [fst snd]. f_equal. f_equal. f_equal.
    rewrite sumN_mul, sumN_add. reflexivity.
  - unfold dbuf_write. cbn [b2 d_lots d_used d_start]. rewrite W1. cbn [rbind].
    assert (RF : rfold (lot_write c) lots2 f = ROk (wr f (blocks start xs 0 (c_lots c)))).
    { unfold blocks. clear - W2 COUT CSK. revert f. induction W2 as [|j l js lots' (_ & H & _) W2 IH]; intro f; cbn [rfold flat_map]; [reflexivity|].
      unfold lot_write at 1. rewrite COUT. rewrite (write_slots_ok _ _ f H). cbn [rbind]. rewrite IH. rewrite wr_app. reflexivity. }
    rewrite RF. reflexivity.
  - assert (HIN : forall l, In l lots2 -> lenN (l_slots l) = lot_size c /\ Forall (fun s => lenN (s_buf s) = bs) (l_slots l)).
    { clear - W2. induction W2 as [|j l js lots' (H1 & _ & H2) W2 IH]; intros l0 Hl; [destruct Hl|]. destruct Hl as [<-|Hl]; [auto|]. apply IH, Hl. }
    apply rep_reset; cbn [d_lots].
    + exact enc_cfg_ok.
    + intros l Hl. apply HIN, Hl.
    + intros l s Hl Hs. apply fresh_reset. destruct (HIN l Hl) as [_ HH]. rewrite Forall_forall in HH. apply HH, Hs.
    + rewrite <- (Forall2_len _ _ _ W2), lenN_range. lia.
    + reflexivity.
  - reflexivity.
Qed.

Variable required_len : option N.
Variable last_seq : N.

Definition enc_fstep (st : estate) : estate * option (list N) * bool :=
  let '(d, src') := src_read (es_src st) ds in
  let bytes := es_bytes st + lenN d in
  if lenN d =? 0 then (mkEstate src' bytes (es_seq st) (es_last st) (es_hashed st) (es_err st), None, true)
  else if es_last st || (es_seq st =? U32_MAX) then
    (mkEstate src' bytes (es_seq st) (es_last st) (es_hashed st) true, None, true)
  else
    let seq := es_seq st + 1 in
    let hashed := es_hashed st ++ d in
    if lenN d <? ds then (mkEstate src' bytes seq (es_last st) hashed (es_err st), Some d, true)
    else
      let last := es_last st || (seq =? last_seq) in
      match c_dpb c with
      | Some (data, parity, _) =>
          if (seq - 1) mod (data + parity) =? data - 1
          then (mkEstate src' bytes (seq + parity) last hashed (es_err st), Some d, false)
          else (mkEstate src' bytes seq last hashed (es_err st), Some d, false)
      | None => (mkEstate src' bytes seq last hashed (es_err st), Some d, false)
      end.

(* what holds while reading *)
Definition enc_inv (st : estate) : Prop :=
  bytes_ok (src_bytes (es_src st)) = true /\
  (es_last st = true \/ es_seq st < last_seq /\
     match c_dpb c with Some (d, p, _) => es_seq st mod (d + p) < d | None => True end).
Hypothesis HLAST : last_seq <= U32_MAX /\
  match c_dpb c with Some (d, p, _) => exists q, last_seq = q * (d + p) + d /\ last_seq + p <= U32_MAX | None => True end.

Lemma enc_step_flat st s : enc_inv st -> enc_pre required_len st = false -> fresh c s ->
  match enc_fstep st with
  | (st', Some x, stop) => exists s', enc_step c last_seq st s = ROk (st', Keep s', stop) /\ holds c x s' /\ (stop = false -> enc_inv st')
  | (st', None, stop) => exists s', enc_step c last_seq st s = ROk (st', Cancel s', stop) /\ fresh c (reset_slot c s') /\ (stop = false -> enc_inv st')
  end.
Proof.
  intros [HSB HSQ] _ ((HL & HV & HU & HD) & HCL & HPD). unfold enc_fstep, enc_step.
  assert (SVL : slot_view_len c = ds) by (unfold slot_view_len; rewrite CIN; reflexivity). rewrite SVL. fold v. fold ds.
  pose proof (src_read_ok (es_src st) ds) as HR. destruct (src_read (es_src st) ds) as [d src'].
  destruct HR as [HLd HSrc]. rewrite HSrc, bytes_ok_app in HSB. apply andb_true_iff in HSB as [HBd HBs].
  pose proof (bs_ds c) as EB. fold v in EB. fold bs ds in EB. fold v in HL. fold bs in HL.
  assert (SVO : slot_view_off c = 16) by (unfold slot_view_off; rewrite CIN; reflexivity).
  assert (LP : lenN (put_at (s_buf s) 16 d) = bs) by (rewrite lenN_put_at by lia; exact HL).
  assert (FR : fresh c (reset_slot c (fill_view c s d))).
  { apply fresh_reset. unfold fill_view. cbn [s_buf]. rewrite SVO. exact LP. }
  destruct (N.eqb_spec (lenN d) 0) as [Z|NZ].
  { eexists. split; [reflexivity|]. split; [exact FR|discriminate]. }
  destruct (es_last st) eqn:EL; cbn [orb].
  { eexists. split; [reflexivity|]. split; [exact FR|discriminate]. }
  destruct HSQ as [|[SQ1 SQ2]]; [discriminate|]. destruct HLAST as [HL1 HL2].
  destruct (N.eqb_spec (es_seq st) U32_MAX) as [EM|_]; [lia|].
  assert (SHP : forall cl, shaped c (mkSlot (s_block (fill_view c s d)) (s_buf (fill_view c s d)) (s_rpos (fill_view c s d)) (s_wpos (fill_view c s d)) cl (s_pad (fill_view c s d)))).
  { intro cl. unfold shaped, fill_view. cbn [s_buf s_block]. rewrite SVO. repeat split; auto. }
  assert (PLD : takeN (lenN d) (payload c (fill_view c s d)) = d).
  { unfold payload, fill_view. cbn [s_buf]. rewrite SVO. fold v. fold ds. unfold sliceN. rewrite take_take. replace (N.min (lenN d) ds) with (lenN d) by lia.
    apply slice_put_eq; lia. }
  destruct (N.ltb_spec (lenN d) ds) as [LT|GE].
  { eexists. split; [reflexivity|]. split; [|discriminate]. unfold holds. cbn [s_pad s_clen fill_view]. split; [apply SHP|]. split; [exact HPD|].
    split; [fold v; fold ds; lia|]. split; [exact HBd|]. fold v. fold ds. destruct (N.ltb_spec (lenN d) ds); [|lia]. split; [reflexivity|]. exact PLD. }
  assert (HH : holds c d (fill_view c s d)).
  { unfold holds. split; [exact (SHP (s_clen (fill_view c s d)))|]. split; [exact HPD|]. fold v. fold ds. split; [lia|]. split; [exact HBd|].
    destruct (N.ltb_spec (lenN d) ds); [lia|]. split; [exact HCL|exact PLD]. }
  unfold enc_inv. case_eq (c_dpb c); [intros [[dd p] b] EO|intro EO]; rewrite EO in SQ2, HL2.
  - destruct HL2 as (q & Q1 & Q2). pose proof CO as CO'. unfold dpb_ok in CO'. rewrite EO in CO'. destruct CO' as (D1 & D2 & D3).
    replace (es_seq st + 1 - 1) with (es_seq st) by lia.
    pose proof (seq_next (es_seq st) last_seq dd p q D1 Q1 Q2 SQ1 SQ2) as SN.
    destruct (es_seq st mod (dd + p) =? dd - 1).
    + destruct SN as [SN1 SN2].
      destruct (N.ltb_spec U32_MAX (es_seq st + 1 + p)) as [HC|_]; [exfalso; clear - SN1 HC; lia|].
      eexists. split; [reflexivity|]. split; [exact HH|]. intros _. cbn [es_src es_last es_seq]. split; [exact HBs|].
      destruct SN2 as [SN2|SN2]; [left; apply N.eqb_eq, SN2|right; exact SN2].
    + eexists. split; [reflexivity|]. split; [exact HH|]. intros _. cbn [es_src es_last es_seq]. split; [exact HBs|]. right; exact SN.
  - eexists. split; [reflexivity|]. split; [exact HH|]. intros _. cbn [es_src es_last es_seq]. split; [exact HBs|].
    destruct (N.eqb_spec (es_seq st + 1) last_seq); [left; reflexivity|right]. split; [lia|exact I].
Qed.

Let T := c_lots c * ls.
Definition queue_ok (k : N) (q : list dbuf) : Prop :=
  lenN q = c_bufs c /\ forall j, j < c_bufs c -> exists b, getN q j = Some b /\ buf_rep c (holds c) (fresh c) [] b /\
    (1 + (k + j) * T <= U32_MAX -> d_start b = Some (1 + (k + j) * T)).
(* block numbers stay within 32 bits *)
Definition fits (xs : list (list N)) : Prop :=
  forall j, lotx xs j <> [] -> 1 + j * ls + gl c (lotx xs j) <= U32_MAX + 1.

Lemma lotx_shift xs k j : j < c_lots c ->
  lotx (takeN (c_lots c * w) (dropN (k * (c_lots c * w)) xs)) j = lotx xs (k * c_lots c + j).
Proof.
  intro Hj. unfold lotx, sliceN. rewrite drop_take, take_take, drop_drop.
  replace (N.min w (c_lots c * w - j * w)) with w by nia. f_equal. f_equal. lia.
Qed.
Lemma lotx_beyond xs k j : c_lots c <= j -> lotx (takeN (c_lots c * w) (dropN (k * (c_lots c * w)) xs)) j = [].
Proof.
  intro Hj. unfold lotx, sliceN. rewrite drop_take. replace (c_lots c * w - j * w) with 0 by nia. rewrite take_0, take_nil. reflexivity.
Qed.
Lemma range_shift lo n k : rangeN (lo + k) (lo + n) = map (fun j => lo + j) (rangeN k n).
Proof.
  unfold rangeN. replace (N.to_nat (lo + n - (lo + k))) with (N.to_nat (n - k)) by lia.
  generalize (N.to_nat (n - k)) as m. intro m. revert k. induction m as [|m IH]; intro k; [reflexivity|]. cbn [seqN map]. f_equal.
  rewrite <- IH. f_equal. lia.
Qed.
Lemma flat_map_map {A B C} (f : A -> B) (g : B -> list C) l : flat_map g (map f l) = flat_map (fun x => g (f x)) l.
Proof. induction l; cbn; congruence. Qed.
Lemma flat_map_eq_in {A B} (f g : A -> list B) l : (forall x, In x l -> f x = g x) -> flat_map f l = flat_map g l.
Proof. induction l as [|a l IH]; intro H; [reflexivity|]. cbn [flat_map]. rewrite H by (left; reflexivity). f_equal. apply IH. intros; apply H; right; assumption. Qed.
Lemma sub_range k : rangeN (k * c_lots c) ((k + 1) * c_lots c) = map (fun j => k * c_lots c + j) (rangeN 0 (c_lots c)).
Proof. rewrite <- range_shift. f_equal; lia. Qed.
Lemma blocks_shift xs k :
  blocks (1 + k * T) (takeN (c_lots c * w) (dropN (k * (c_lots c * w)) xs)) 0 (c_lots c) = blocks 1 xs (k * c_lots c) ((k + 1) * c_lots c).
Proof.
  unfold blocks. rewrite sub_range, flat_map_map. apply flat_map_eq_in. intros j Hj. apply In_rangeN in Hj.
  rewrite lotx_shift by lia. f_equal. unfold T. lia.
Qed.
Lemma sum_shift (F : list (list N) -> N -> N) xs k : (forall a b i j, lotx a i = lotx b j -> F a i = F b j) ->
  sumN (map (F (takeN (c_lots c * w) (dropN (k * (c_lots c * w)) xs))) (rangeN 0 (c_lots c))) = sumN (map (F xs) (rangeN (k * c_lots c) ((k + 1) * c_lots c))).
Proof.
  intro HF. rewrite sub_range, map_map. apply sumN_ext. intros j Hj. apply In_rangeN in Hj. apply HF, lotx_shift. lia.
Qed.

Lemma T_pos : 1 <= T.
Proof. destruct enc_cfg_ok as (H1 & H2 & H3). unfold T, ls. nia. Qed.
Lemma T_even m : m * T <> U32_MAX.
Proof.
  intro H. assert (N.even (m * T) = true).
  { unfold T. rewrite !N.even_mul, CEVEN. rewrite orb_true_r. reflexivity. }
  rewrite H in H0. discriminate.
Qed.

Definition add_stats (s : estats) (xs : list (list N)) (lo hi : N) : estats :=
  mkEstats (st_meta s) (st_data s + sumN (map (lot_data xs) (rangeN lo hi)))
    (st_parity s + sumN (map (lot_par xs) (rangeN lo hi)))
    (st_padbytes s + sumN (map (lot_pb xs) (rangeN lo hi))).

Lemma enc_loop_ok ffuel : forall fuel n k st stats f q xs0 ys st',
  frun (enc_pre required_len) enc_fstep n st = Some (st', ys) -> (n < fuel)%nat -> (n <= ffuel)%nat ->
  lenN xs0 = k * (c_lots c * w) -> queue_ok k q -> enc_inv st -> fits (xs0 ++ ys) ->
  exists m, k < m /\ lenN (xs0 ++ ys) <= m * (c_lots c * w) /\
  enc_loop c rs required_len last_seq ffuel fuel q st stats f =
    ROk (st', add_stats stats (xs0 ++ ys) (k * c_lots c) (m * c_lots c), wr f (blocks 1 (xs0 ++ ys) (k * c_lots c) (m * c_lots c))).
Proof.
  destruct enc_cfg_ok as (W1 & W2 & W3). fold w ls in W1, W2. pose proof T_pos as TP.
  assert (CP : 1 <= c_lots c * w) by nia.
  induction fuel as [|fuel IH]; intros n k st stats f q xs0 ys st' HR HN HNF HX HQ HI HFT; [lia|].
  destruct HQ as [Q1 Q2]. cbn [enc_loop]. destruct q as [|b q']; [change (lenN (@nil dbuf)) with 0 in Q1; lia|].
  destruct (Q2 0 ltac:(lia)) as (b' & G0 & R0 & S0). cbn in G0. injection G0 as <-. rewrite N.add_0_r in S0.
  assert (KT : k * T <= U32_MAX).
  { destruct (N.eq_dec k 0) as [->|NK]; [lia|]. pose (jl := k * c_lots c - 1).
    assert (JL : 1 <= k * c_lots c) by nia.
    assert (LX : lenN (lotx (xs0 ++ ys) jl) = w).
    { unfold lotx. rewrite lenN_slice, lenN_app, HX. unfold jl. nia. }
    assert (NE : lotx (xs0 ++ ys) jl <> []) by (intro E; rewrite E in LX; change (lenN (@nil (list N))) with 0 in LX; lia).
    specialize (HFT jl NE).
    assert (GL : gl c (lotx (xs0 ++ ys) jl) = ls).
    { unfold gl. destruct (lotx (xs0 ++ ys) jl) as [|x0 r] eqn:EL; [congruence|]. rewrite <- EL in *. clear EL.
      pose proof (cfg_lot c CIN) as [_ CC]. fold ls w in CC. destruct (c_dpb c) as [[[d p] bb]|]; lia. }
    unfold T, jl in *. nia. }
  pose proof (T_even k) as TE. specialize (S0 ltac:(lia)).
  destruct (frun_ffill _ _ n st (c_lots c * w) st' ys HR) as (st1 & run & F1 & F2 & F3).
  apply (ffill_mono _ _ ffuel) in F1; [|exact HNF].
  pose proof (fill_flat c (holds c) (fresh c) enc_cfg_ok (enc_pre required_len) (enc_step c last_seq) enc_fstep enc_inv enc_step_flat ffuel st [] b HI R0) as FF.
  unfold cap in FF. change (lenN (@nil (list N))) with 0 in FF. rewrite N.sub_0_r in FF. fold w in FF. rewrite F1 in FF.
  destruct FF as (b1 & E1 & RB & SB & IB). cbn [app] in RB. rewrite E1. cbn [rbind].
  assert (XS : takeN (c_lots c * w) ys = takeN (c_lots c * w) (dropN (k * (c_lots c * w)) (xs0 ++ ys))).
  { rewrite drop_app_exact by (symmetry; exact HX). reflexivity. }
  rewrite XS in RB. set (XX := xs0 ++ ys) in *.
  destruct (dbuf_step b1 _ (1 + k * T) stats f RB) as (b2 & b3 & D1 & D2 & D3 & D4).
  { rewrite SB. exact S0. }
  { intros j Hj. split; [lia|]. destruct (N.lt_ge_cases j (c_lots c)) as [LT|GE].
    - rewrite lotx_shift in * by exact LT. specialize (HFT _ Hj). unfold T in *. lia.
    - rewrite lotx_beyond in Hj by exact GE. congruence. }
  { lia. }
  rewrite D1. cbn [rbind]. rewrite D2. cbn [rbind]. rewrite blocks_shift.
  rewrite (sum_shift lot_data) by (intros ? ? ? ? E; unfold lot_data; rewrite E; reflexivity).
  rewrite (sum_shift lot_par) by (intros ? ? ? ? E; unfold lot_par, lot_data; rewrite E; reflexivity).
  rewrite (sum_shift lot_pb) by (intros ? ? ? ? E; unfold lot_pb; rewrite E; reflexivity).
  fold (add_stats stats XX (k * c_lots c) ((k + 1) * c_lots c)).
  destruct run.
  - destruct (F2 eq_refl) as (LY & m & M1 & M2 & M3).
    assert (EX : XX = (xs0 ++ takeN (c_lots c * w) ys) ++ dropN (c_lots c * w) ys).
    { unfold XX. rewrite <- app_assoc, take_drop. reflexivity. }
    destruct (IH m (k + 1) st1 (add_stats stats XX (k * c_lots c) ((k + 1) * c_lots c)) (wr f (blocks 1 XX (k * c_lots c) ((k + 1) * c_lots c)))
                (q' ++ [dbuf_reset c b3]) (xs0 ++ takeN (c_lots c * w) ys) (dropN (c_lots c * w) ys) st' M1) as (m' & K1 & K2 & K3).
    + specialize (M2 ltac:(lia)). lia.
    + lia.
    + rewrite lenN_app, lenN_take. lia.
    + split; [rewrite lenN_app; rewrite lenN_cons in Q1; change (lenN [dbuf_reset c b3]) with 1; lia|].
      rewrite lenN_cons in Q1. intros j Hj. destruct (N.eq_dec j (c_bufs c - 1)) as [->|NJ].
      * exists (dbuf_reset c b3). split; [|split; [exact D3|]].
        -- rewrite getN_opt, nth_optN_app2 by lia. replace (c_bufs c - 1 - lenN q') with 0 by lia. reflexivity.
        -- intro HB. rewrite D4. assert (FU : is_full b1 = true).
           { rewrite (rep_full c (holds c) (fresh c) enc_cfg_ok _ _ RB). apply N.eqb_eq. rewrite <- XS, lenN_take. unfold cap. fold w. lia. }
           rewrite FU. cbn [andb]. assert (SI : seq_num_incre c = T * c_bufs c).
           { unfold seq_num_incre, slots_per_buffer. fold ls. fold T. unfold u32. apply N.mod_small. unfold T, ls. exact CINC. }
           rewrite SI. replace (1 + (k + 1 + (c_bufs c - 1)) * T) with (1 + k * T + T * c_bufs c) in * by lia.
           destruct (N.ltb_spec (U32_MAX - T * c_bufs c) (1 + k * T)); [lia|]. reflexivity.
      * destruct (Q2 (j + 1) ltac:(lia)) as (bj & B1 & B2 & B3). exists bj. split; [|split; [exact B2|]].
        -- unfold getN in B1. replace (N.to_nat (j + 1)) with (S (N.to_nat j)) in B1 by lia. cbn [nth_error] in B1.
           rewrite getN_opt, nth_optN_app1 by lia. exact B1.
        -- replace (k + 1 + j) with (k + (j + 1)) by lia. exact B3.
    + apply IB. reflexivity.
    + rewrite <- EX. exact HFT.
    + rewrite <- EX in *. exists m'. split; [lia|]. split; [exact K2|]. rewrite K3. f_equal. f_equal; [f_equal|].
      * unfold add_stats. cbn [st_meta st_data st_parity st_padbytes].
        rewrite (rangeN_split (k * c_lots c) ((k + 1) * c_lots c) (m' * c_lots c)) by nia. rewrite !map_app, !sumN_app. f_equal; lia.
      * rewrite <- wr_app. f_equal. unfold blocks. rewrite <- flat_map_app, <- rangeN_split by nia. reflexivity.
  - destruct (F3 eq_refl) as [-> LY]. exists (k + 1). split; [lia|]. split; [|reflexivity]. unfold XX. rewrite lenN_app. lia.
Qed.
End Enc.
