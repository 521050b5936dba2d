(* Encoding one lot: from the chunks in it to the blocks in it. *)
From Verif Require Import M_Base M_Specs M_Crc M_Header M_Block M_Index M_Buffer
  S_Crc S_Index S_Container L_Base L_File L_Crc L_Header L_Block L_Index2 L_Buffer.
Ltac Zify.zify_post_hook ::= idtac.

Section Lists.
Context {A B C : Type}.
Lemma rmap_Forall2 (f : A -> result B) (R : C -> A -> Prop) (Q : C -> B -> Prop) xs l :
  (forall x a, R x a -> exists b, f a = ROk b /\ Q x b) -> Forall2 R xs l ->
  exists bs, rmap f l = ROk bs /\ Forall2 Q xs bs.
Proof.
  intros H HF. induction HF as [|x a xs l HR HF IH].
  - exists []. split; [reflexivity|constructor].
  - destruct (H _ _ HR) as (b & E1 & Q1). destruct IH as (bs & E2 & Q2). exists (b :: bs). cbn [rmap].
    rewrite E1. cbn [rbind]. rewrite E2. cbn [rbind]. split; [reflexivity|constructor; assumption].
Qed.
Lemma rmap_ok (f : A -> result B) (g : A -> B) l : (forall a, In a l -> f a = ROk (g a)) -> rmap f l = ROk (map g l).
Proof.
  induction l as [|a l IH]; intro H; [reflexivity|]. cbn [rmap map]. rewrite H by (left; reflexivity). cbn [rbind].
  rewrite IH by (intros; apply H; right; assumption). reflexivity.
Qed.
Lemma Forall2_len (R : A -> B -> Prop) l m : Forall2 R l m -> lenN l = lenN m.
Proof. induction 1; [reflexivity|]. rewrite !lenN_cons. congruence. Qed.
Lemma Forall2_map_r (R : A -> B -> Prop) (f : C -> B) l m : Forall2 R l (map f m) <-> Forall2 (fun a c => R a (f c)) l m.
Proof.
  revert l. induction m as [|c m IH]; intro l; cbn [map].
  - split; intro H; inversion H; subst; constructor.
  - split; intro H; inversion H; subst; constructor; auto; apply IH; assumption.
Qed.
Lemma Forall2_map_l (R : B -> A -> Prop) (f : C -> B) l m : Forall2 R (map f l) m <-> Forall2 (fun c a => R (f c) a) l m.
Proof.
  revert m. induction l as [|c l IH]; intro m; cbn [map].
  - split; intro H; inversion H; subst; constructor.
  - split; intro H; inversion H; subst; constructor; auto; apply IH; assumption.
Qed.
Lemma Forall2_impl_in (R Q : A -> B -> Prop) l m : (forall a b, R a b -> Q a b) -> Forall2 R l m -> Forall2 Q l m.
Proof. intros H HF. induction HF; constructor; auto. Qed.
Lemma Forall2_eq_map (f : A -> C) (g : B -> C) l m : Forall2 (fun a b => f a = g b) l m -> map f l = map g m.
Proof. induction 1; cbn [map]; congruence. Qed.
Lemma Forall2_const (R : A -> B -> Prop) a m : Forall (R a) m -> Forall2 R (repN (lenN m) a) m.
Proof.
  induction m as [|b m IH]; intro H; [constructor|]. inversion H; subst. rewrite lenN_cons, rep_S. constructor; auto.
Qed.
Lemma Forall_take (P : A -> Prop) n l : Forall P l -> Forall P (takeN n l).
Proof. rewrite !Forall_forall. intros H x Hx. apply H. eapply In_take, Hx. Qed.
Lemma Forall_drop (P : A -> Prop) n l : Forall P l -> Forall P (dropN n l).
Proof. rewrite !Forall_forall. intros H x Hx. apply H. eapply In_drop, Hx. Qed.
Lemma Forall_slice (P : A -> Prop) p n l : Forall P l -> Forall P (sliceN p n l).
Proof. intro H. apply Forall_take, Forall_drop, H. Qed.
End Lists.

Lemma slice_put_eq buf p n d : n = lenN d -> p + n <= lenN buf -> sliceN p n (put_at buf p d) = d.
Proof. intros -> H. apply slice_put_same. exact H. Qed.
(* x filled up with 0x1A to n bytes *)
Definition padded (n : N) (x : list N) : list N := x ++ repN (n - lenN x) 26.
Lemma lenN_padded n x : lenN x <= n -> lenN (padded n x) = n.
Proof. intro. unfold padded. rewrite lenN_app, lenN_rep. lia. Qed.
Lemma bytes_ok_padded n x : bytes_ok x = true -> bytes_ok (padded n x) = true.
Proof. intro H. unfold padded. rewrite bytes_ok_app, H. apply bytes_ok_rep. lia. Qed.
Lemma chunk_padded ds data j : chunk ds data j = padded ds (sliceN (j * ds) ds data).
Proof. reflexivity. Qed.

Lemma countN_map_eq {A B} (f : A -> bool) (g : B -> bool) l m : map f l = map g m -> countN f l = countN g m.
Proof.
  revert m. induction l as [|a l IH]; intros [|b m] H; cbn [map] in H; try discriminate; [reflexivity|].
  injection H as H1 H2. unfold countN in *. cbn [filter]. rewrite H1. specialize (IH m H2). destruct (g b); rewrite ?lenN_cons; lia.
Qed.
Lemma countN_app {A} (f : A -> bool) l m : countN f (l ++ m) = countN f l + countN f m.
Proof. unfold countN. rewrite filter_app, lenN_app. reflexivity. Qed.
Lemma countN_none {A} (f : A -> bool) l : (forall x, In x l -> f x = false) -> countN f l = 0.
Proof.
  induction l as [|a l IH]; intro H; [reflexivity|]. unfold countN in *. cbn [filter]. rewrite H by (left; reflexivity). apply IH. intros; apply H; right; assumption.
Qed.
Lemma countN_rep {A} (f : A -> bool) n a : f a = true -> countN f (repN n a) = n.
Proof.
  intro H. unfold countN, repN. rewrite <- (N2Nat.id n) at 2. induction (N.to_nat n) as [|k IH]; [reflexivity|]. cbn [repeat filter]. rewrite H, lenN_cons. lia.
Qed.

Section Lot.
Variable c : cfg.
Variable rs : codec.
Let v := c_ver c.
Let uid := c_uid c.
Let bs := ver_to_block_size v.
Let ds := ver_to_data_size v.
Hypothesis CIN : c_in c = InData.
Hypothesis CUID : lenN uid = 6 /\ bytes_ok uid = true.
Hypothesis CO : dpb_ok (c_dpb c).
Hypothesis CRS : codec_ok rs (c_dpb c).

Lemma bs_ds : bs = 16 + ds.
Proof. unfold bs, ds. destruct v; reflexivity. Qed.
Lemma ds_pos : 1 <= ds.
Proof. unfold ds. destruct v; vm_compute; congruence. Qed.

(* the payload part of a slot *)
Definition payload (s : slot) : list N := sliceN 16 ds (s_buf s).
Lemma payload_slice s : slice_data_buf v (s_buf s) = payload s.
Proof. clear CIN CUID CO CRS. unfold slice_data_buf, payload, SBX_HEADER_SIZE. fold bs. rewrite bs_ds. f_equal. lia. Qed.

(* A slot carrying no data: its block is a data block of this container *)
Definition shaped (s : slot) : Prop :=
  lenN (s_buf s) = bs /\ b_version (s_block s) = v /\ b_uid (s_block s) = uid /\ b_data (s_block s) = DData.
Definition fresh (s : slot) : Prop := shaped s /\ s_clen s = None /\ s_pad s = false.
(* A slot in which a chunk x was read *)
Definition holds (x : list N) (s : slot) : Prop :=
  shaped s /\ s_pad s = false /\ 1 <= lenN x <= ds /\ bytes_ok x = true /\
  s_clen s = (if lenN x <? ds then Some (lenN x) else None) /\ takeN (lenN x) (payload s) = x.
(* A slot with its final payload *)
Definition loaded (x : list N * bool) (s : slot) : Prop :=
  shaped s /\ payload s = fst x /\ s_pad s = snd x.

Lemma fresh_new : fresh (slot_new c).
Proof. unfold fresh, shaped, slot_new, bs, v, uid. cbn [s_buf s_block s_clen s_pad]. rewrite lenN_rep. repeat split; reflexivity. Qed.
Lemma fresh_reset s : lenN (s_buf s) = bs -> fresh (reset_slot c s).
Proof.
  intro H. unfold fresh, shaped, reset_slot. cbn [s_buf s_block s_clen s_pad].
  split; [|split; reflexivity]. split; [exact H|].
  destruct (s_block s) as [[hv hc hu hs] dd]. unfold v, uid. destruct dd; repeat split; reflexivity.
Qed.

Lemma pad_content_ok x s : holds x s ->
  exists s', pad_content c s = ROk (s', ds - lenN x) /\ loaded (padded ds x, false) s'.
Proof. clear CUID CO CRS.
  intros ((HL & HV & HU & HD) & HP & HX & HB & HC & HT). unfold pad_content. rewrite HC.
  pose proof bs_ds as EB. fold v. fold ds.
  destruct (N.ltb_spec (lenN x) ds) as [LT|GE].
  - destruct (N.ltb_spec 0 (lenN x)) as [_|]; [|lia]. destruct (N.leb_spec (lenN x) ds) as [_|]; [|lia]. cbn [rassert rbind].
    destruct (N.ltb_spec (lenN x) ds) as [_|]; [|lia]. unfold write_padding. fold bs. unfold SBX_HEADER_SIZE.
    replace (bs - (16 + lenN x)) with (ds - lenN x) by lia.
    eexists. split; [reflexivity|]. unfold loaded, shaped, payload. cbn [s_buf s_block s_pad fst snd].
    assert (LB : lenN (put_at (s_buf s) (16 + lenN x) (repN (ds - lenN x) 26)) = bs).
    { rewrite lenN_put_at by (rewrite lenN_rep; lia). exact HL. }
    split; [repeat split; assumption|]. split; [|exact HP].
    unfold padded. replace ds with (lenN x + (ds - lenN x)) at 1 by lia. rewrite slice_split.
    f_equal.
    + rewrite slice_put_other by (rewrite ?lenN_rep; lia). unfold payload in HT.
      rewrite <- HT at 2. unfold sliceN. rewrite take_take. f_equal. lia.
    + apply slice_put_eq; rewrite ?lenN_rep; lia.
  - exists s. split; [f_equal; f_equal; lia|]. unfold loaded. cbn [fst snd]. split; [repeat split; assumption|]. split; [|exact HP].
    unfold padded. replace (ds - lenN x) with 0 by lia. rewrite rep_0, app_nil_r. rewrite <- HT at 1. symmetry. apply take_all.
    unfold payload. rewrite lenN_slice. lia.
Qed.
Lemma pad_slot_ok s : fresh s -> loaded (repN ds 26, true) (pad_slot c s).
Proof. clear CUID CO CRS.
  intros ((HL & HV & HU & HD) & HC & HP). pose proof bs_ds as EB. unfold loaded, pad_slot, shaped, payload. cbn [s_buf s_block s_pad fst snd].
  unfold write_padding. cbn [fst]. fold v. fold bs. unfold SBX_HEADER_SIZE. replace (bs - (16 + 0)) with ds by lia. replace (16 + 0) with 16 by lia.
  split; [repeat split; auto|].
  - rewrite lenN_put_at by (rewrite lenN_rep; lia). exact HL.
  - split; [|reflexivity]. apply slice_put_eq; rewrite ?lenN_rep; lia.
Qed.

(* the payloads of the blocks made from the chunks xs of one lot, with the padding flag *)
Definition group (xs : list (list N)) : list (list N * bool) :=
  match xs with
  | [] => []
  | _ =>
      let used := map (fun x => (padded ds x, false)) xs in
      match c_dpb c with
      | None => used
      | Some (d, p, _) =>
          let data := used ++ repN (d - lenN xs) (repN ds 26, true) in
          data ++ map (fun y => (y, false)) (rs d p (map fst data))
      end
  end.
Definition padcount (xs : list (list N)) : N :=
  match xs with [] => 0 | _ => match c_dpb c with None => 0 | Some (d, _, _) => d - lenN xs end end.
Definition padsum (xs : list (list N)) : N := sumN (map (fun x => ds - lenN x) xs).

Lemma group_data xs d p b : xs <> [] -> c_dpb c = Some (d, p, b) -> lenN xs <= d ->
  Forall (fun x => 1 <= lenN x <= ds /\ bytes_ok x = true) xs ->
  let data := map (fun x => (padded ds x, false)) xs ++ repN (d - lenN xs) (repN ds 26, true) in
  lenN data = d /\ lenN (rs d p (map fst data)) = p /\
  forall y, In y (map fst data ++ rs d p (map fst data)) -> lenN y = ds /\ bytes_ok y = true.
Proof. clear CUID CO CIN.
  intros HX EO HL HF data.
  assert (LD : lenN data = d) by (unfold data; rewrite lenN_app, lenN_map, lenN_rep; lia).
  assert (HD : forall x, In x (map fst data) -> lenN x = ds /\ bytes_ok x = true).
  { intros x Hx. apply in_map_iff in Hx as ((y & fl) & <- & Hy). cbn [fst]. apply in_app_iff in Hy as [Hy|Hy].
    - apply in_map_iff in Hy as (z & Ez & Hz). injection Ez as <- <-. rewrite Forall_forall in HF. destruct (HF z Hz) as [Z1 Z2].
      split; [apply lenN_padded; lia|apply bytes_ok_padded, Z2].
    - apply repeat_spec in Hy. injection Hy as -> ->. split; [apply lenN_rep|apply bytes_ok_rep; lia]. }
  pose proof CRS as CRS'. unfold codec_ok in CRS'. rewrite EO in CRS'. destruct (CRS' ds (map fst data)) as [R1 R2].
  - rewrite lenN_map. exact LD.
  - exact HD.
  - split; [exact LD|]. split; [exact R1|]. intros y Hy. apply in_app_iff in Hy as [Hy|Hy]; auto.
Qed.
Definition gl (xs : list (list N)) : N :=
  match xs with [] => 0 | _ => match c_dpb c with None => lenN xs | Some (d, p, _) => d + p end end.
Lemma group_len xs : Forall (fun x => 1 <= lenN x <= ds /\ bytes_ok x = true) xs -> lenN xs <= dws c ->
  lenN (group xs) = gl xs /\
  forall y fl, In (y, fl) (group xs) -> lenN y = ds /\ bytes_ok y = true.
Proof. clear CUID CO.
  intros HF HL. unfold group, gl. destruct xs as [|x0 xs']; [split; [reflexivity|intros ? ? []]|].
  set (xs := x0 :: xs') in *. unfold dws in HL. rewrite CIN in HL. case_eq (c_dpb c); [intros [[d p] b] EO|intro EO]; rewrite EO in HL.
  - destruct (group_data xs d p b ltac:(discriminate) EO HL HF) as (D1 & D2 & D3). cbv zeta in *.
    split.
    + rewrite lenN_app, D1, lenN_map, D2. reflexivity.
    + intros y fl H. apply D3. apply in_app_iff in H as [H|H]; apply in_app_iff.
      * left. apply (in_map fst) in H. exact H.
      * right. apply in_map_iff in H as (z & E & Hz). injection E as -> _. exact Hz.
  - split; [apply lenN_map|]. intros y fl H. apply in_map_iff in H as (z & E & Hz). injection E as <- <-.
    rewrite Forall_forall in HF. destruct (HF z Hz). split; [apply lenN_padded; lia|apply bytes_ok_padded; assumption].
Qed.

(* a block: sequence number and bytes *)
Definition block_bytes (seq : N) (pl : list N) : list N :=
  header_to_bytes (mkHeader v (crc_of v uid seq pl) uid seq) ++ pl.
Fixpoint number (start : N) (pls : list (list N * bool)) : list (N * list N * bool) :=
  match pls with
  | [] => []
  | (pl, fl) :: r => (start, block_bytes start pl, fl) :: number (start + 1) r
  end.
Definition sealed (x : N * list N * bool) (s : slot) : Prop :=
  shaped s /\ b_seq_num (s_block s) = fst (fst x) /\ s_buf s = snd (fst x) /\ s_pad s = snd x.

Lemma seal_slots_ok start index pls ss : Forall2 loaded pls ss -> 1 <= start -> (pls <> [] -> start + index + lenN pls <= U32_MAX + 1) ->
  exists ss', seal_slots start index ss = ROk ss' /\ Forall2 sealed (number (start + index) pls) ss'.
Proof.
  intros HF HS. revert index. induction HF as [|[pl fl] s pls ss (SH & HP & HFl) HF IH]; intros index HN; cbn [seal_slots number].
  - exists []. split; [reflexivity|constructor].
  - specialize (HN ltac:(discriminate)). rewrite lenN_cons in HN. cbn [fst snd] in *. destruct SH as (HL & HV & HU & HD).
    pose proof bs_ds as EB. destruct (s_block s) as [[hv hc hu hs] dd] eqn:ES. unfold b_version, b_uid in HV, HU. cbn in HV, HU, HD. subst hv hu dd.
    unfold seal_slot, SBX_LAST_SEQ_NUM. change 4294967295 with U32_MAX.
    destruct (N.leb_spec (start + index) U32_MAX) as [_|]; [|lia]. cbn [rassert rbind]. rewrite ES.
    assert (EQ : set_seq_num (mkBlock (mkHeader v hc uid hs) DData) (start + index) = mkBlock (mkHeader v hc uid (start + index)) DData).
    { unfold set_seq_num, switch_block_type_to_match_header, header_type_matches_block_type, header_type. cbn [b_header h_version h_crc h_uid h_seq_num b_data].
      destruct (N.ltb_spec (start + index) SBX_FIRST_DATA_SEQ_NUM) as [HH|HH]; [unfold SBX_FIRST_DATA_SEQ_NUM in HH; lia|reflexivity]. }
    rewrite EQ. rewrite sync_to_data by (cbn [b_data b_version b_header h_version]; fold bs; first [reflexivity|lia]).
    cbn [do_crc]. cbn [b_version b_uid b_seq_num b_header h_version h_uid h_seq_num].
    rewrite payload_slice, HP.
    destruct (IH (index + 1)) as (ss' & E1 & E2); [intros _; lia|]. unfold set_crc. cbn [b_header h_version h_uid h_seq_num b_data rbind].
    rewrite E1. cbn [rbind]. eexists. split; [reflexivity|]. replace (start + index + 1) with (start + (index + 1)) by lia.
    constructor; [|exact E2].
    assert (EBUF : put_at (s_buf s) 0 (header_to_bytes (mkHeader v (crc_of v uid (start + index) pl) uid (start + index))) = block_bytes (start + index) pl).
    { unfold put_at, block_bytes. rewrite take_0. rewrite lenN_header_to_bytes by (cbn [h_uid]; tauto). cbn [app]. f_equal.
      rewrite <- HP. unfold payload, sliceN. replace (0 + 16) with 16 by lia. symmetry. apply take_all. rewrite lenN_drop. lia. }
    split; [|split; [|split]]; cbn [s_block s_buf s_pad fst snd b_seq_num b_header h_seq_num]; try reflexivity; try exact EBUF; [|exact HFl].
    split; [|repeat split; reflexivity]. cbn [s_buf]. rewrite lenN_put_at; [exact HL|]. rewrite lenN_header_to_bytes by (cbn [h_uid]; tauto). lia.
Qed.

Lemma number_len start pls : lenN (number start pls) = lenN pls.
Proof. revert start. induction pls as [|[pl fl] r IH]; intro start; [reflexivity|]. cbn [number]. rewrite !lenN_cons, IH. reflexivity. Qed.

Lemma combine_loaded rest ps : Forall shaped rest -> Forall (fun s => s_pad s = false) rest -> lenN ps = lenN rest ->
  (forall y, In y ps -> lenN y = ds) ->
  Forall2 loaded (map (fun y => (y, false)) ps) (map (fun sp => set_payload c (fst sp) (snd sp)) (combine rest ps)).
Proof. clear CUID CO CRS.
  intros H1 H2. revert ps. induction H1 as [|s rest (HL & HV & HU & HD) H1 IH]; intros ps HL2 HY; destruct ps as [|y ps];
    try (rewrite ?lenN_cons, ?lenN_nil in HL2; lia); cbn [combine map]; [constructor|].
  inversion H2; subst. constructor.
  - cbn [fst snd]. pose proof bs_ds as EB. assert (LY := HY y (or_introl eq_refl)).
    unfold loaded, set_payload, shaped, payload. cbn [s_buf s_block s_pad fst snd]. unfold SBX_HEADER_SIZE.
    split; [repeat split; auto; rewrite lenN_put_at by lia; exact HL|]. split; [|assumption]. apply slice_put_eq; lia.
  - apply IH; [assumption|rewrite !lenN_cons in HL2; lia|intros; apply HY; right; assumption].
Qed.

Lemma cfg_lot : dws c <= lot_size c /\ match c_dpb c with None => lot_size c = dws c | Some (d, p, _) => dws c = d /\ lot_size c = d + p end.
Proof. clear CUID CO CRS. unfold dws, lot_size. rewrite CIN. destruct (c_dpb c) as [[[d p] b]|]; [split; [lia|split; reflexivity]|split; [lia|reflexivity]]. Qed.

Lemma sumN_map_pairs xs (r : list (slot * N)) :
  Forall2 (fun x y => loaded (padded ds x, false) (fst y) /\ snd y = ds - lenN x) xs r -> sumN (map snd r) = padsum xs.
Proof. clear CUID CO CRS. intro H. unfold padsum. f_equal. symmetry. apply Forall2_eq_map. eapply Forall2_impl_in; [|exact H]. intros a b [_ E]. symmetry. exact E. Qed.

Lemma holds_len xs l : Forall2 holds xs l -> Forall (fun x => 1 <= lenN x <= ds /\ bytes_ok x = true) xs.
Proof. induction 1 as [|x s xs l H HF IH]; constructor; [|exact IH]. destruct H as (_ & _ & H & HB & _). split; assumption. Qed.

Lemma lot_encode_ok start xs l : lot_rep c holds fresh xs l -> (xs <> [] -> 1 <= start /\ start + lenN (group xs) <= U32_MAX + 1) ->
  exists l', lot_encode c rs start l = ROk l' /\ lenN (l_slots l') = lot_size c /\ l_used l' = lenN (group xs) /\
    Forall2 sealed (number start (group xs)) (takeN (l_used l') (l_slots l')) /\ Forall (fun s => lenN (s_buf s) = bs) (l_slots l') /\
    l_padbytes l' = padsum xs.
Proof.
  intros (HLS & HU & HLD & HPB & HF2 & HFR) HST. unfold lot_encode. rewrite CIN.
  pose proof cfg_lot as [CL1 CL2]. pose proof (holds_len _ _ HF2) as HXS.
  assert (SP : l_slots l = takeN (lenN xs) (l_slots l) ++ dropN (lenN xs) (l_slots l)) by (symmetry; apply take_drop).
  assert (SHU : Forall shaped (takeN (lenN xs) (l_slots l))).
  { clear - HF2. induction HF2 as [|x s xs' l' H HF IH]; constructor; [apply H|exact IH]. }
  assert (SHD : Forall shaped (dropN (lenN xs) (l_slots l))).
  { eapply Forall_impl; [|exact HFR]. intros s H. apply H. }
  destruct xs as [|x0 xs'].
  { change (lenN (@nil (list N))) with 0 in *. unfold lot_fill_in_padding, lot_active. rewrite HU. cbn [N.ltb N.compare rbind].
    unfold lot_rs_encode, lot_active. rewrite HU. cbn [N.ltb N.compare rbind]. rewrite HU, take_0. cbn [seal_slots rbind].
    eexists. split; [reflexivity|]. cbn [l_slots l_used l_padbytes group number app]. rewrite drop_0.
    split; [exact HLS|]. split; [reflexivity|]. split; [rewrite take_0; constructor|]. split; [|exact HPB].
    rewrite drop_0 in SHD. eapply Forall_impl; [|exact SHD]. intros s H. apply H. }
  set (xs := x0 :: xs') in *. destruct (HST ltac:(discriminate)) as [HS1 HS2].
  assert (NX : 0 < lenN xs) by (unfold xs; rewrite lenN_cons; lia).
  pose proof (group_len xs HXS HLD) as [GL _].
  unfold lot_fill_in_padding, lot_active. rewrite HU. destruct (N.ltb_spec 0 (lenN xs)) as [_|]; [|lia].
  destruct (rmap_Forall2 (pad_content c) holds (fun x y => loaded (padded ds x, false) (fst y) /\ snd y = ds - lenN x) xs (takeN (lenN xs) (l_slots l))) as (r & ER & HR);
    [|exact HF2|].
  { intros x a H. destruct (pad_content_ok x a H) as (s' & E & HLd). exists (s', ds - lenN x). split; [exact E|]. split; [exact HLd|reflexivity]. }
  rewrite ER. cbn [rbind]. rewrite (sumN_map_pairs _ _ HR), HPB.
  assert (LU : Forall2 loaded (map (fun x => (padded ds x, false)) xs) (map fst r)).
  { apply Forall2_map_l, Forall2_map_r. eapply Forall2_impl_in; [|exact HR]. intros a b [H _]. exact H. }
  assert (LR : lenN (map fst r) = lenN xs) by (rewrite lenN_map; symmetry; eapply Forall2_len, HR).
  assert (LSH : forall (q : list (list N * bool)) (ss : list slot), Forall2 loaded q ss -> Forall (fun s => lenN (s_buf s) = bs) ss).
  { intros q ss H. induction H as [|? ? ? ? H ? IH']; constructor; [apply H|exact IH']. }
  assert (SSH : forall (q : list (N * list N * bool)) (ss : list slot), Forall2 sealed q ss -> Forall (fun s => lenN (s_buf s) = bs) ss).
  { intros q ss H. induction H as [|? ? ? ? H ? IH']; constructor; [apply H|exact IH']. }
  assert (FSH : Forall (fun s => lenN (s_buf s) = bs) (dropN (lenN xs) (l_slots l))).
  { eapply Forall_impl; [|exact SHD]. intros s H. apply H. }
  unfold group. fold xs. rewrite GL in HS2. clear GL. unfold gl in HS2. unfold xs in HS2. cbv match in HS2. fold xs in HS2. cbv zeta.
  case_eq (c_dpb c); [intros [[d p] b] EO|intro EO]; rewrite EO in CL2, HS2.
  - destruct CL2 as [CD CLS]. rewrite CD in HLD. destruct (N.leb_spec (lenN xs) d) as [_|]; [|lia]. cbn [rassert rbind].
    unfold lot_rs_encode, lot_active. cbn [l_used l_slots]. pose proof CO as CO'. unfold dpb_ok in CO'. rewrite EO in CO'.
    destruct (N.ltb_spec 0 d) as [_|]; [|lia]. rewrite EO. rewrite N.eqb_refl. cbn [rassert rbind].
    set (mid := map (pad_slot c) (sliceN (lenN xs) (d - lenN xs) (l_slots l))).
    set (rest := dropN d (l_slots l)).
    assert (LM : lenN mid = d - lenN xs) by (unfold mid; rewrite lenN_map, lenN_slice; lia).
    assert (LRE : lenN rest = p) by (unfold rest; rewrite lenN_drop; lia).
    assert (ETK : takeN d (map fst r ++ mid ++ rest) = map fst r ++ mid).
    { rewrite app_assoc. apply take_app_exact. rewrite lenN_app, LR, LM. lia. }
    assert (EDR : dropN d (map fst r ++ mid ++ rest) = rest).
    { rewrite app_assoc. apply drop_app_exact. rewrite lenN_app, LR, LM. lia. }
    rewrite ETK, EDR.
    destruct (group_data xs d p b ltac:(discriminate) EO HLD HXS) as (D1 & D2 & D3). cbv zeta in D1, D2, D3.
    set (data := map (fun x => (padded ds x, false)) xs ++ repN (d - lenN xs) (repN ds 26, true)) in *.
    assert (FLD : Forall2 loaded data (map fst r ++ mid)).
    { apply Forall2_app; [exact LU|]. rewrite <- LM. apply Forall2_const. unfold mid. apply Forall_forall. intros s Hs.
      apply in_map_iff in Hs as (s0 & <- & Hs0). apply pad_slot_ok. unfold sliceN in Hs0. apply In_take in Hs0.
      rewrite Forall_forall in HFR. apply HFR, Hs0. }
    assert (EPL : map (fun s => slice_data_buf (c_ver c) (s_buf s)) (map fst r ++ mid) = map fst data).
    { symmetry. apply Forall2_eq_map. eapply Forall2_impl_in; [|exact FLD]. intros x s (_ & H & _). rewrite <- H. symmetry. apply payload_slice. }
    rewrite EPL, D2, LRE, N.eqb_refl. cbn [rbind l_used l_slots l_padbytes].
    assert (SHR : Forall shaped rest /\ Forall (fun s => s_pad s = false) rest).
    { unfold rest. replace d with (lenN xs + (d - lenN xs)) by lia. rewrite <- drop_drop.
      split; eapply Forall_impl; [|apply Forall_drop, HFR| |apply Forall_drop, HFR]; intros s H; apply H. }
    assert (FLP : Forall2 loaded (data ++ map (fun y => (y, false)) (rs d p (map fst data)))
              ((map fst r ++ mid) ++ map (fun sp => set_payload c (fst sp) (snd sp)) (combine rest (rs d p (map fst data))))).
    { apply Forall2_app; [exact FLD|]. apply combine_loaded; [apply SHR|apply SHR|lia|]. intros y Hy. apply D3. apply in_app_iff. right; exact Hy. }
    set (ALL := (map fst r ++ mid) ++ map (fun sp => set_payload c (fst sp) (snd sp)) (combine rest (rs d p (map fst data)))) in *.
    set (G := data ++ map (fun y => (y, false)) (rs d p (map fst data))) in *.
    assert (LG : lenN G = d + p) by (unfold G; rewrite lenN_app, lenN_map, D1, D2; reflexivity).
    assert (LA : lenN ALL = lot_size c) by (rewrite <- (Forall2_len _ _ _ FLP), LG; lia).
    rewrite take_all by lia. rewrite drop_all by lia.
    destruct (seal_slots_ok start 0 G ALL FLP HS1) as (ss & ES & HSS); [intros _; lia|].
    rewrite ES. cbn [rbind]. rewrite N.add_0_r in HSS. eexists. split; [reflexivity|]. cbn [l_slots l_used l_padbytes]. rewrite app_nil_r.
    assert (LSS : lenN ss = lot_size c) by (rewrite <- (Forall2_len _ _ _ HSS), number_len; lia).
    split; [exact LSS|]. split; [change (lot_size c = lenN G); lia|]. split; [rewrite take_all by lia; exact HSS|]. split; [eapply SSH, HSS|]. lia.
  - cbn [rbind]. unfold lot_rs_encode, lot_active. cbn [l_used]. destruct (N.ltb_spec 0 (lenN xs)) as [_|]; [|lia]. rewrite EO. cbn [rbind l_used l_slots l_padbytes].
    rewrite take_app_exact by (symmetry; exact LR). rewrite drop_app_exact by (symmetry; exact LR).
    destruct (seal_slots_ok start 0 _ _ LU HS1) as (ss & ES & HSS); [intros _; rewrite lenN_map; lia|].
    rewrite ES. cbn [rbind]. rewrite N.add_0_r in HSS. eexists. split; [reflexivity|]. cbn [l_slots l_used l_padbytes].
    assert (LSS : lenN ss = lenN xs) by (rewrite <- (Forall2_len _ _ _ HSS), number_len, lenN_map; reflexivity).
    split; [rewrite lenN_app, lenN_drop; lia|]. split; [change (lenN xs = lenN (map (fun x => (padded ds x, false)) xs)); rewrite lenN_map; reflexivity|].
    split; [rewrite take_app_exact by (symmetry; exact LSS); exact HSS|]. split; [apply Forall_app; split; [eapply SSH, HSS|exact FSH]|]. lia.
Qed.

Lemma number_pads start pls : map snd (number start pls) = map snd pls.
Proof. revert start. induction pls as [|[pl fl] r IH]; intro start; [reflexivity|]. cbn [number map snd]. f_equal. apply IH. Qed.
Lemma group_pads xs : countN snd (group xs) = padcount xs.
Proof. clear CUID CO CRS CIN.
  unfold group, padcount. destruct xs as [|x0 xs']; [reflexivity|]. set (xs := x0 :: xs').
  destruct (c_dpb c) as [[[d p] b]|].
  - rewrite !countN_app. rewrite countN_rep by reflexivity. rewrite !countN_none; [lia| |]; intros x Hx; apply in_map_iff in Hx as (y & <- & _); reflexivity.
  - apply countN_none. intros x Hx. apply in_map_iff in Hx as (y & <- & _). reflexivity.
Qed.
Lemma lot_counts_ok start xs l : lenN (group xs) = l_used l -> Forall2 sealed (number start (group xs)) (takeN (l_used l) (l_slots l)) ->
  Forall (fun x => 1 <= lenN x <= ds /\ bytes_ok x = true) xs -> lenN xs <= dws c ->
  lot_counts c l = (lenN xs + padcount xs, padcount xs, lenN (group xs) - (lenN xs + padcount xs)).
Proof. clear CUID CO.
  intros HL HF HX HD. pose proof (group_len xs HX HD) as [GL _]. unfold lot_counts.
  assert (EP : countN s_pad (takeN (l_used l) (l_slots l)) = padcount xs).
  { rewrite <- group_pads. rewrite <- (countN_map_eq snd snd _ _ (number_pads start (group xs))).
    apply countN_map_eq. symmetry. apply Forall2_eq_map. eapply Forall2_impl_in; [|exact HF]. intros a s H. symmetry. apply H. }
  rewrite EP. rewrite <- HL, GL. unfold padcount, gl. pose proof cfg_lot as [_ CL2]. destruct xs as [|x0 xs'].
  - change (lenN (@nil (list N))) with 0. destruct (c_dpb c) as [[[d p] b]|]; f_equal; try f_equal; lia.
  - destruct (c_dpb c) as [[[d p] b]|]; f_equal; try f_equal; lia.
Qed.
End Lot.
