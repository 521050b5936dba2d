(* The sort loop as a loop over a flat sequence of slots. *)
From Verif Require Import M_Base M_Specs M_Header M_Metadata M_Block M_Index M_FileUtils M_Buffer M_Ranges M_Encode M_Scan M_Loop M_Decode M_Sort
  S_Crc S_Meta S_Block S_Index S_Container S_Scan S_Decode
  L_Base L_Crc L_File L_Header L_Index L_Index2 L_Block L_Buffer L_Encode L_Loop L_Scan L_Container L_Decode.

Section Run.
Variable c : cfg.
Hypothesis COK : cfg_ok c.
Context {St W : Type}.
Variable pre : St -> bool.
Variable step : St -> slot -> result (St * action * bool).
Variable fstep : St -> St * option slot * bool.
Variable consume : St -> St -> W -> dbuf -> result (dbuf * W).
Variable R : St -> St -> Prop.
Variable Good : slot -> Prop.
Variable P : St -> list slot -> W -> Prop.
Hypothesis RR : forall s, R s s.
Hypothesis RT : forall a b d, R a b -> R b d -> R a d.
Hypothesis RS : forall st st' x stop, fstep st = (st', x, stop) -> R st st'.
Hypothesis HST : forall st s, pre st = false -> Fresh c s ->
  match fstep st with
  | (st', Some x, stop) => step st s = ROk (st', Keep x, stop) /\ lenN (s_buf x) = ver_to_block_size (c_ver c) /\ Good x
  | (st', None, stop) => exists s', step st s = ROk (st', Cancel s', stop) /\ lenN (s_buf s') = ver_to_block_size (c_ver c)
  end.
Hypothesis HC : forall st st1 w xs b ys, P st ys w -> R st st1 -> buf_rep c (Holds c) (Fresh c) xs b -> Forall Good xs ->
  exists b' w', consume st st1 w b = ROk (b', w') /\ shape c b' /\ P st1 (ys ++ xs) w'.

Lemma ffill_R n : forall st k st' xs run, ffill pre fstep n st k = Some (st', xs, run) -> R st st'.
Proof.
  induction n as [|n IH]; intros st k st' xs run; cbn [ffill]; destruct (k =? 0).
  - intro E. injection E as <- _ _. apply RR.
  - discriminate.
  - intro E. injection E as <- _ _. apply RR.
  - destruct (pre st); [intro E; injection E as <- _ _; apply RR|].
    destruct (fstep st) as [[s1 x] stop] eqn:F. pose proof (RS _ _ _ _ F) as R1.
    destruct x as [x|], stop; [intro E; injection E as <- _ _; exact R1| |intro E; injection E as <- _ _; exact R1|].
    + destruct (ffill pre fstep n s1 (k - 1)) as [[[a b] e]|] eqn:E; [|discriminate]. intro X. injection X as <- _ _. eapply RT; [exact R1|]. eapply IH, E.
    + intro E. eapply RT; [exact R1|]. eapply IH, E.
Qed.
Lemma loop_flat_msg ffuel : forall n fuel st w q st' ys zs, P st zs w -> q <> [] ->
  Forall (buf_rep c (Holds c) (Fresh c) []) q -> (n <= ffuel)%nat -> (n <= fuel)%nat ->
  frun pre fstep n st = Some (st', ys) ->
  exists w', buf_loop_msg c pre step consume ffuel fuel q st w = ROk (st', w') /\ P st' (zs ++ ys) w'.
Proof.
  pose proof COK as (W1 & W2 & W3).
  assert (CAP : cap c <> 0) by (unfold cap; nia).
  induction n as [n IH] using (well_founded_induction lt_wf); intros fuel st w q st' ys zs HP HQ HR HF1 HF2 HR2.
  destruct n as [|n]; [discriminate HR2|]. destruct fuel as [|fuel]; [lia|]. destruct q as [|b q]; [congruence|].
  cbn [buf_loop_msg]. inversion HR as [|? ? HB HR']; subst.
  destruct (frun_ffill pre fstep (S n) st (cap c) st' ys HR2) as (st1 & run & E & HT & HFa).
  assert (HB0 : buf_rep c (fun x s => Holds c x s /\ Good x) (Fresh c) [] b).
  { destruct HB as (B1 & B2 & B3 & B4). split; [exact B1|]. split; [exact B2|]. split; [exact B3|]. intros i Hi.
    destruct (B4 i Hi) as (l & El & HL). exists l. split; [exact El|]. revert HL. unfold sliceN. rewrite drop_nil, take_nil.
    intros (L1 & L2 & L3 & L4 & L5 & L6). repeat split; auto. change (lenN (@nil slot)) with 0. rewrite take_0. constructor. }
  assert (SH : forall st s, True -> pre st = false -> Fresh c s ->
    match fstep st with
    | (st', Some x, stop) => exists s', step st s = ROk (st', Keep s', stop) /\ (Holds c x s' /\ Good x) /\ (stop = false -> True)
    | (st', None, stop) => exists s', step st s = ROk (st', Cancel s', stop) /\ Fresh c (reset_slot c s') /\ (stop = false -> True)
    end).
  { intros st0 s0 _ HP0 HF0. specialize (HST st0 s0 HP0 HF0). destruct (fstep st0) as [[st0' [x|]] stop].
    - destruct HST as (E0 & L & G). exists x. repeat split; auto.
    - destruct HST as (s' & E0 & L). exists s'. repeat split; auto; apply fresh_reset; exact L. }
  pose proof (fill_flat c (fun x s => Holds c x s /\ Good x) (Fresh c) COK pre step fstep (fun _ => True) SH ffuel st [] b Logic.I HB0) as FF.
  change (lenN (@nil slot)) with 0 in FF. rewrite N.sub_0_r in FF.
  rewrite (ffill_mono pre fstep ffuel (S n) st (cap c) _ HF1 E) in FF.
  destruct FF as (b1 & EF & HB1 & _ & _). rewrite EF. cbn [rbind]. cbn [app] in HB1.
  assert (HB2 : buf_rep c (Holds c) (Fresh c) (takeN (cap c) ys) b1) by (revert HB1; apply rep_weaken; intros x s [H _]; exact H).
  destruct (HC st st1 w _ _ zs HP (ffill_R _ _ _ _ _ _ E) HB2 (rep_good c COK Good _ _ HB1)) as (b2 & w1 & EC & SB & HP1). rewrite EC. cbn [rbind].
  destruct run.
  - destruct (HT eq_refl) as (HL & m & Em & Hm1 & Hm2). specialize (Hm1 CAP).
    destruct (IH m Hm1 fuel st1 w1 (q ++ [dbuf_reset c b2]) st' (dropN (cap c) ys) (zs ++ takeN (cap c) ys)) as (w' & E' & P').
    + exact HP1.
    + destruct q; discriminate.
    + apply Forall_app. split; [exact HR'|]. constructor; [|constructor]. apply rep_reset_shape; [exact COK|exact SB].
    + lia.
    + lia.
    + exact Em.
    + exists w'. split; [exact E'|]. rewrite <- app_assoc, take_drop in P'. exact P'.
  - destruct (HFa eq_refl) as [-> HL]. rewrite take_all in HP1 by exact HL. exists w1. split; [reflexivity|exact HP1].
Qed.
End Run.

Lemma write_flat_used c (COK : cfg_ok c) xs b f : buf_rep c (Holds c) (Fresh c) xs b -> c_out c <> OutDisabled ->
  (forall x, In x xs -> exists p, slot_write_pos c x = ROk p) ->
  exists b', rmap (lot_calc_write_pos c) (d_lots b) = ROk (d_lots b') /\ d_used b' = d_used b /\ d_start b' = d_start b /\
    shape c b' /\ used_slots b' = map (fun s => with_wpos s (wpos_of c s)) xs /\
    forall f', rfold (slot_put c) xs f = ROk f' -> dbuf_write c f b = ROk (b', f').
Proof.
  intros HB HO HP. destruct (calc_pos_flat c COK xs b HB HP) as [E1 E2].
  exists (mkDbuf (map (posd c) (d_lots b)) (d_used b) (d_start b)). cbn [d_lots d_used d_start]. split; [exact E1|]. split; [reflexivity|]. split; [reflexivity|].
  split; [apply shape_posd, (rep_shape c xs), HB|]. split; [exact E2|]. intros f' HF.
  unfold dbuf_write. rewrite E1. cbn [rbind].
  rewrite (rfold_ext _ (fun f l => rfold (write_slot c) (takeN (l_used l) (l_slots l)) f)).
  - rewrite rfold_concat, E2, rfold_map. change (rfold _ xs f) with (rfold (slot_put c) xs f). rewrite HF. reflexivity.
  - intros f0 l _. unfold lot_write. destruct (c_out c); congruence.
Qed.

Lemma put_at_all buf (d : list N) : lenN d = lenN buf -> put_at buf 0 d = d.
Proof. intro H. unfold put_at. rewrite take_0. cbn [app]. rewrite N.add_0_l, drop_all by lia. apply app_nil_r. Qed.
Section Srt.
Variables (cpus : N) (f : file) (ref : block) (o : dpb) (mp : option multi_pass) (rb : bool) (lo len : N).
Hypothesis CPUS : 1 <= cpus.
Let v := b_version ref.
Let bs := ver_to_block_size v.
Let c := sort_cfg v (b_uid ref) o (is_skip_good mp) cpus.
Let ro := lo mod bs.
Lemma sort_cfg_ok : cfg_ok c.
Proof. unfold cfg_ok, dws, lot_size, c, sort_cfg, c_in, c_lots, DEFAULT_SINGLE_LOT_SIZE, LOT_COUNT_PER_CPU. lia. Qed.

Definition bump_failed (d : list N) (t : sstats) : sstats :=
  if buffer_is_blank d && negb rb then mkSstats (ss_meta t) (ss_data t) (ss_parity t) (ss_failed t) (ss_blank t + 1) (ss_meta_same t) (ss_meta_diff t)
  else mkSstats (ss_meta t) (ss_data t) (ss_parity t) (ss_failed t + 1) (ss_blank t) (ss_meta_same t) (ss_meta_diff t).
Definition bump_meta (fresh : bool) (d : list N) (t : sstats) : sstats :=
  if fresh then mkSstats (ss_meta t + 1) (ss_data t) (ss_parity t) (ss_failed t) (ss_blank t)
                         (fst (check_meta_blocks f v o lo d)) (snd (check_meta_blocks f v o lo d))
  else mkSstats (ss_meta t + 1) (ss_data t) (ss_parity t) (ss_failed t) (ss_blank t) (ss_meta_same t) (ss_meta_diff t).
Definition bump_data (b : block) (t : sstats) : sstats :=
  if is_parity_w_dpb b o
  then mkSstats (ss_meta t) (ss_data t) (ss_parity t + 1) (ss_failed t) (ss_blank t) (ss_meta_same t) (ss_meta_diff t)
  else mkSstats (ss_meta t) (ss_data t + 1) (ss_parity t) (ss_failed t) (ss_blank t) (ss_meta_same t) (ss_meta_diff t).
Definition scnt (x : option (list N) * sstats) (pos : N) : option (list N) * sstats :=
  let d := file_read f pos bs in
  match accept ref d with
  | None => (fst x, bump_failed d (snd x))
  | Some b => if is_meta b then (match fst x with Some m => Some m | None => Some d end, bump_meta (match fst x with Some _ => false | None => true end) d (snd x))
              else (fst x, bump_data b (snd x))
  end.
Definition sort_fstep (st : sstate) : sstate * option slot * bool :=
  let d := file_read f (so_pos st) bs in
  let st1 := mkSstate (so_pos st + lenN d) (so_bytes st + lenN d) in
  if lenN d <? bs then (st1 (so_meta st) (so_stats st), None, true)
  else let '(m, t) := scnt (so_meta st, so_stats st) (so_pos st) in
       (st1 m t, match accept ref d with
                 | Some b => if is_meta b then None else Some (mkSlot b d (Some (lo + so_bytes st)) None None false)
                 | None => None end, false).
Definition semit (pos : N) : option slot :=
  match accept ref (file_read f pos bs) with
  | Some b => if is_meta b then None else Some (mkSlot b (file_read f pos bs) (Some pos) None None false)
  | None => None
  end.
Definition SGood (s : slot) : Prop :=
  s_clen s = None /\ 1 <= b_seq_num (s_block s) /\ s_rpos s <> None /\ lenN (s_buf s) = bs /\ b_version (s_block s) = v /\ b_uid (s_block s) = b_uid ref.

Lemma accept_meta d b : bytes_ok d = true -> accept ref d = Some b -> is_meta b = (b_seq_num b =? 0) /\ b_version b = v /\ b_uid b = b_uid ref.
Proof.
  intros HB E. apply accept_iff in E as (h & pl & W & V & U & ->); [|exact HB].
  unfold block_of, is_meta, block_type_of, b_seq_num, b_version, b_uid. cbn [b_header b_data]. split; [|auto].
  destruct (N.ltb_spec (h_seq_num h) 1), (N.eqb_spec (h_seq_num h) 0); cbn; lia || reflexivity.
Qed.
Hypothesis HB : bytes_ok f = true.
Lemma sort_step_ok st s : Fresh c s ->
  match sort_fstep st with
  | (st', Some x, stop) => sort_step c f ref lo rb st s = ROk (st', Keep x, stop) /\ lenN (s_buf x) = bs /\ SGood x
  | (st', None, stop) => exists s', sort_step c f ref lo rb st s = ROk (st', Cancel s', stop) /\ lenN (s_buf s') = bs
  end.
Proof.
  intros (F1 & F2 & F3 & F4 & F5). change (ver_to_block_size (c_ver c)) with bs in F1.
  unfold sort_fstep, sort_step. change (slot_view_len c) with bs. change (c_dpb c) with o. change (c_ver c) with v.
  set (d := file_read f (so_pos st) bs).
  assert (LD : lenN d <= bs) by (unfold d, file_read; rewrite lenN_slice; lia).
  destruct (N.ltb_spec (lenN d) bs) as [H|H].
  - eexists. split; [reflexivity|]. unfold fill_view. cbn [s_buf]. rewrite lenN_put_at; [exact F1|]. change (slot_view_off c) with 0. lia.
  - assert (EV : fill_view c s d = mkSlot (s_block s) d None None None false).
    { unfold fill_view. change (slot_view_off c) with 0. rewrite put_at_all by lia. rewrite F2, F3, F4, F5. reflexivity. }
    rewrite EV. cbn [s_buf s_block s_wpos s_clen s_pad].
    pose proof (accept_cases ref (s_block s) d H) as AC. unfold scnt. fold d. pose proof (bytes_ok_slice (so_pos st) bs f HB) as BD. fold (file_read f (so_pos st) bs) in BD. fold d in BD.
    pose proof (accept_meta d) as AM. destruct (accept ref d) as [b|].
    + rewrite AC. destruct (AM b BD eq_refl) as (A1 & A2 & A3). destruct (is_meta b) eqn:IM.
      * cbn [fst snd]. destruct (so_meta st).
        -- eexists. split; [reflexivity|]. cbn. lia.
        -- unfold bump_meta. destruct (check_meta_blocks f v o lo d) as [same diff]. eexists. split; [reflexivity|]. cbn. lia.
      * split; [reflexivity|]. cbn [s_buf]. split; [lia|]. symmetry in A1. apply N.eqb_neq in A1.
        unfold SGood. cbn [s_clen s_block s_rpos s_buf]. split; [reflexivity|]. split; [lia|]. split; [discriminate|]. split; [lia|]. split; [exact A2|exact A3].
    + destruct AC as [e AC]. rewrite AC. eexists. split; [reflexivity|]. cbn. lia.
Qed.
Definition sR (a b : sstate) : Prop := forall m, so_meta a = Some m -> so_meta b = Some m.
Lemma sort_fstep_R st st' x stop : sort_fstep st = (st', x, stop) -> sR st st'.
Proof.
  unfold sort_fstep, sR. destruct (_ <? bs).
  - intro E. injection E as <- _ _. cbn. auto.
  - unfold scnt. cbn [fst snd]. destruct (accept ref _) as [b|]; [destruct (is_meta b)|]; intro E; injection E as <- _ _; cbn [so_meta]; intros m ->; reflexivity.
Qed.

(* what is written and counted for a slot *)
Definition sput (w : file) (s : slot) : file := match slot_put c w s with ROk w' => w' | _ => w end.
Definition tally (t : ostats) (s : slot) : ostats := match count_order o ro t (with_wpos s (wpos_of c s)) with ROk t' => t' | _ => t end.
Lemma sgood_wpos s : SGood s -> slot_write_pos c s = ROk (Some (calc_data_block_write_pos v (b_seq_num (s_block s)) (Some true) o)).
Proof. intros (_ & G & _). unfold slot_write_pos. change (c_out c) with OutBlock. destruct (N.eqb_spec (b_seq_num (s_block s)) 0); [lia|reflexivity]. Qed.
Lemma sput_eq w s : SGood s -> slot_put c w s = ROk (sput w s) /\
  sput w s = (let pos := calc_data_block_write_pos v (b_seq_num (s_block s)) (Some true) o in
              if do_write c w pos s then file_write w pos (s_buf s) else w).
Proof.
  intro G. unfold sput, slot_put, write_slot, wpos_of. rewrite (sgood_wpos s G). cbn [s_wpos with_wpos].
  assert (DW : forall p, do_write c w p (with_wpos s (Some (calc_data_block_write_pos v (b_seq_num (s_block s)) (Some true) o))) = do_write c w p s) by reflexivity.
  rewrite DW. cbv zeta. destruct (do_write _ _ _ _); [|split; reflexivity]. unfold slot_out. change (c_out c) with OutBlock. cbn [rbind s_buf with_wpos]. split; reflexivity.
Qed.
Lemma tally_eq t s : SGood s -> count_order o ro t (with_wpos s (wpos_of c s)) = ROk (tally t s).
Proof.
  intro G. unfold tally, wpos_of. rewrite (sgood_wpos s G). unfold count_order. cbn [s_rpos s_wpos with_wpos].
  destruct G as (_ & _ & G & _). destruct (s_rpos s) as [r|]; [|congruence]. reflexivity.
Qed.

Variable start : option file.
Definition wmeta (m : list N) (w : file) : file := write_meta_blocks mp ref o m w.
Definition sP (st : sstate) (ys : list slot) (w : option file * ostats) : Prop :=
  Forall SGood ys /\ snd w = fold_left tally ys no_ostats /\
  match so_meta st with
  | None => fst w = option_map (fun x => fold_left sput ys x) start
  | Some m => exists y1 y2, ys = y1 ++ y2 /\ fst w = option_map (fun x => fold_left sput y2 (wmeta m (fold_left sput y1 x))) start
  end.
Lemma sort_consume_ok st st1 w xs b ys : sP st ys w -> sR st st1 -> buf_rep c (Holds c) (Fresh c) xs b -> Forall SGood xs ->
  exists b' w', sort_consume c mp ref ro st st1 w b = ROk (b', w') /\ shape c b' /\ sP st1 (ys ++ xs) w'.
Proof.
  intros (P1 & P2 & P3) RR HR HG. unfold sort_consume. change (c_dpb c) with o.
  set (out := match so_meta st, so_meta st1, fst w with None, Some meta, Some out => Some (write_meta_blocks mp ref o meta out) | _, _, _ => fst w end).
  assert (GP : forall x, In x xs -> exists p, slot_write_pos c x = ROk p).
  { intros x Hx. rewrite Forall_forall in HG. eexists. apply sgood_wpos. auto. }
  assert (GF : forall x, rfold (slot_put c) xs x = ROk (fold_left sput xs x)).
  { intro x. apply rfold_left. intros w' y Hy. rewrite Forall_forall in HG. apply sput_eq. auto. }
  assert (GT : forall b', used_slots b' = map (fun s => with_wpos s (wpos_of c s)) xs ->
     rfold (count_order o ro) (used_slots b') (snd w) = ROk (fold_left tally xs (snd w))).
  { intros b' ->. rewrite rfold_map. apply rfold_left. intros t y Hy. rewrite Forall_forall in HG. apply tally_eq. auto. }
  assert (Q1 : Forall SGood (ys ++ xs)) by (apply Forall_app; auto).
  assert (Q3 : match so_meta st1 with
    | None => option_map (fold_left sput xs) out = option_map (fun x => fold_left sput (ys ++ xs) x) start
    | Some m => exists y1 y2, ys ++ xs = y1 ++ y2 /\ option_map (fold_left sput xs) out = option_map (fun x => fold_left sput y2 (wmeta m (fold_left sput y1 x))) start
    end).
  { unfold out. unfold sR in RR. destruct (so_meta st) as [m|].
    - rewrite (RR m eq_refl). destruct P3 as (y1 & y2 & E & P3). exists y1, (y2 ++ xs). split; [rewrite E, app_assoc; reflexivity|].
      rewrite P3. destruct start; [|reflexivity]. cbn [option_map]. rewrite fold_left_app. reflexivity.
    - destruct (so_meta st1) as [m|].
      + exists ys, xs. split; [reflexivity|]. rewrite P3. destruct start; reflexivity.
      + rewrite P3. destruct start; [|reflexivity]. cbn [option_map]. rewrite fold_left_app. reflexivity. }
  destruct out as [x|] eqn:EO.
  - destruct (write_flat_used c sort_cfg_ok xs b x HR ltac:(discriminate) GP) as (b' & A1 & A2 & A3 & A4 & A5 & A6).
    rewrite (A6 _ (GF x)). cbn [rbind]. rewrite (GT b' A5). cbn [rbind]. do 2 eexists. split; [reflexivity|]. split; [exact A4|].
    split; [exact Q1|]. cbn [fst snd]. split; [rewrite P2, fold_left_app; reflexivity|]. exact Q3.
  - destruct (write_flat_used c sort_cfg_ok xs b [] HR ltac:(discriminate) GP) as (b' & A1 & A2 & A3 & A4 & A5 & A6).
    rewrite A1. cbn [rbind]. replace (mkDbuf (d_lots b') (d_used b) (d_start b)) with b' by (destruct b'; cbn in *; congruence).
    rewrite (GT b' A5). cbn [rbind]. do 2 eexists. split; [reflexivity|]. split; [exact A4|].
    split; [exact Q1|]. cbn [fst snd]. split; [rewrite P2, fold_left_app; reflexivity|]. exact Q3.
Qed.

Definition sposs : list N := map (fun k => lo + k * bs) (rangeN 0 (nvisit bs f lo len)).
Lemma sort_loop fuel : (length f < fuel)%nat ->
  exists st w, buf_loop_msg c (sort_pre len) (sort_step c f ref lo rb) (sort_consume c mp ref ro) fuel fuel (dbuf_new_multi c)
               (mkSstate lo 0 None no_sstats) (start, no_ostats) = ROk (st, w) /\
             (so_meta st, so_stats st) = fold_left scnt sposs (None, no_sstats) /\
             sP st (somes (map semit sposs)) w.
Proof.
  intro HF. pose proof (block_size_pos v) as BS. fold bs in BS.
  destruct (frun_visit bs f lo len ltac:(lia) (sort_pre len) sort_fstep so_pos (fun st => (so_meta st, so_stats st)) semit scnt
              (fun st => so_pos st = lo + so_bytes st)) with (n := N.to_nat (nvisit bs f lo len)) (k := 0) (st := mkSstate lo 0 None no_sstats)
    as (st & R & S).
  - intros st HJ. unfold sort_pre. rewrite HJ. f_equal. lia.
  - intros st HJ. unfold sort_fstep. rewrite short_read by lia. destruct (N.ltb_spec (lenN f) (so_pos st + bs)) as [H|H].
    + eexists. split; reflexivity.
    + assert (LD : lenN (file_read f (so_pos st) bs) = bs) by (unfold file_read; rewrite lenN_slice; lia).
      destruct (scnt (so_meta st, so_stats st) (so_pos st)) as [m t] eqn:ES.
      eexists. split; [unfold semit; rewrite <- HJ; reflexivity|]. cbn [so_meta so_stats so_pos so_bytes]. split; [reflexivity|]. rewrite LD. split; [reflexivity|lia].
  - cbn. lia.
  - lia.
  - cbn. lia.
  - assert (L : nvisit bs f lo len <= lenN f).
    { unfold nvisit. etransitivity; [apply N.le_min_r|]. apply N.div_le_upper_bound; [lia|]. pose proof (N.mul_le_mono_r 1 bs (lenN f) ltac:(lia)). lia. }
    unfold lenN in L.
    destruct (init_queue_rep c sort_cfg_ok ltac:(discriminate)) as [Q1 Q2].
    destruct (loop_flat_msg c sort_cfg_ok (sort_pre len) (sort_step c f ref lo rb) sort_fstep (sort_consume c mp ref ro) sR SGood sP
      ltac:(intros s m E; exact E) ltac:(intros a b d A B m E; apply B, A, E) sort_fstep_R (fun st s _ FS => sort_step_ok st s FS) sort_consume_ok
      fuel (Datatypes.S (N.to_nat (nvisit bs f lo len))) fuel (mkSstate lo 0 None no_sstats) (start, no_ostats) (dbuf_new_multi c) st (somes (map semit sposs)) [])
      as (w & E & PW); [|exact Q1|exact Q2|lia|lia|exact R|].
    + split; [constructor|]. cbn [so_meta fst snd fold_left]. split; [reflexivity|]. destruct start; reflexivity.
    + exists st, w. split; [exact E|]. split; [exact S|exact PW].
Qed.
End Srt.
