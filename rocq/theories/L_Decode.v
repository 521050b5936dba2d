(* Decoding to a file. *)
From Verif Require Import M_Base M_Specs M_Crc M_Header M_Metadata M_Block M_Index M_FileUtils M_Buffer M_Ranges M_Encode M_Scan M_Loop M_Decode
  S_Crc S_Meta S_Block S_Index S_Decode
  L_Base L_File L_Crc L_Header L_Meta L_Block L_Block2 L_Index L_Index2 L_Buffer L_Encode L_Container L_Loop L_Scan.
Ltac Zify.zify_post_hook ::= idtac.

Definition dp_of (o : dpb) : option (N * N) := match o with None => None | Some (d, p, _) => Some (d, p) end.
Lemma chunk_index_iff o seq j : dpb_ok o -> calc_data_chunk_write_index seq (dp_of o) = Some j <-> is_chunk o seq j.
Proof.
  intro HO. unfold calc_data_chunk_write_index, SBX_FIRST_DATA_SEQ_NUM, is_chunk, dp_of. destruct o as [[[d p] B]|].
  - destruct HO as (Hd & Hp & HS). destruct (N.ltb_spec seq 1).
    { split; [discriminate|]. intros (set & k & _ & E & _). exfalso. lia. }
    rewrite parity_mod by lia.
    pose proof (N.div_mod' (seq - 1) (d + p)) as DM. pose proof (N.mod_lt (seq - 1) (d + p) ltac:(lia)) as ML.
    destruct (N.leb_spec d ((seq - 1) mod (d + p))) as [G|G].
    + split; [discriminate|]. intros (set & k & Hk & E & _). exfalso.
      assert (X : (seq - 1) mod (d + p) = k) by (symmetry; apply N.mod_unique with (q := set); [lia|]; rewrite E; lia). lia.
    + split.
      * intro X; apply Some_inj in X; subst j. exists ((seq - 1) / (d + p)), ((seq - 1) mod (d + p)). split; [exact G|]. split; [lia|reflexivity].
      * intros (set & k & Hk & E & ->).
        assert (X : (seq - 1) mod (d + p) = k) by (symmetry; apply N.mod_unique with (q := set); [lia|]; rewrite E; lia).
        assert (Y : (seq - 1) / (d + p) = set) by (symmetry; apply N.div_unique with (r := k); [lia|]; rewrite E; lia).
        rewrite X, Y. reflexivity.
  - destruct (N.ltb_spec seq 1); split; try discriminate; try lia.
    + intro X; apply Some_inj in X. lia.
    + intros [_ ->]. reflexivity.
Qed.

Lemma blank_nth l : buffer_is_blank l = true <-> forall i, nthN l i = 0.
Proof.
  unfold buffer_is_blank. rewrite forallb_forall. split.
  - intros H i. unfold nthN. destruct (nth_in_or_default (N.to_nat i) l 0) as [X|X]; [|exact X]. apply H in X. lia.
  - intros H x Hx. apply (In_nth _ _ 0) in Hx as (n & Hn & E). specialize (H (N.of_nat n)). unfold nthN in H. rewrite Nnat.Nat2N.id in H. lia.
Qed.
Section Dec.
Variables (cpus : N) (f : file) (ref : block) (o : dpb) (sg : bool) (lo len : N).
Hypothesis CPUS : 1 <= cpus.
Hypothesis HB : bytes_ok f = true.
Hypothesis HO : dpb_ok o.
Let v := b_version ref.
Let bs := ver_to_block_size v.
Let ds := ver_to_data_size v.
Let c := dec_cfg v (b_uid ref) o sg cpus.
Lemma dec_cfg_ok : cfg_ok c.
Proof. unfold cfg_ok, dws, lot_size, c, dec_cfg, c_in, c_lots, DEFAULT_SINGLE_LOT_SIZE, LOT_COUNT_PER_CPU. lia. Qed.

Definition dec_fstep (st : dstate) : dstate * option slot * bool :=
  let d := file_read f (dt_pos st) bs in
  let st1 := mkDstate (dt_pos st + lenN d) (dt_bytes st + lenN d) in
  if lenN d <? bs then (st1 (dt_stats st), None, true)
  else match accept ref d with
       | Some b => (st1 (count_block o b (dt_stats st)), Some (mkSlot b d None None None false), false)
       | None => (st1 (count_failed (dt_stats st)), None, false)
       end.
Definition emit (pos : N) : option slot :=
  match accept ref (file_read f pos bs) with
  | Some b => Some (mkSlot b (file_read f pos bs) None None None false)
  | None => None
  end.
Definition cnt (s : dstats) (pos : N) : dstats :=
  match accept ref (file_read f pos bs) with Some b => count_block o b s | None => count_failed s end.
Definition Good (s : slot) : Prop := s_clen s = None.
Definition gput (w : file) (s : slot) : file := match slot_put c w s with ROk w' => w' | _ => w end.

Lemma put_at_full buf d : lenN d = lenN buf -> put_at buf 0 d = d.
Proof. intro H. unfold put_at. rewrite take_0. cbn [app]. rewrite N.add_0_l, drop_all by lia. apply app_nil_r. Qed.
Lemma dec_step_ok st s : Fresh c s ->
  match dec_fstep st with
  | (st', Some x, stop) => dec_step c f ref st s = ROk (st', Keep x, stop) /\ lenN (s_buf x) = bs /\ Good x /\ (stop = false -> True)
  | (st', None, stop) => exists s', dec_step c f ref st s = ROk (st', Cancel s', stop) /\ lenN (s_buf s') = bs /\ (stop = false -> True)
  end.
Proof.
  intros (F1 & F2 & F3 & F4 & F5). change (ver_to_block_size (c_ver c)) with bs in F1.
  unfold dec_fstep, dec_step. change (slot_view_len c) with bs. change (c_dpb c) with o.
  set (d := file_read f (dt_pos st) bs).
  assert (LD : lenN d <= bs) by (unfold d, file_read; rewrite lenN_slice; lia).
  destruct (N.ltb_spec (lenN d) bs) as [H|H].
  - eexists. split; [reflexivity|]. split; [|auto]. unfold fill_view. cbn [s_buf]. rewrite lenN_put_at; [exact F1|]. change (slot_view_off c) with 0. lia.
  - assert (EV : fill_view c s d = mkSlot (s_block s) d None None None false).
    { unfold fill_view. change (slot_view_off c) with 0. rewrite put_at_full by lia. rewrite F2, F3, F4, F5. reflexivity. }
    rewrite EV. cbn [s_buf s_block].
    pose proof (accept_cases ref (s_block s) d H) as AC. destruct (accept ref d) as [b|].
    + rewrite AC. split; [reflexivity|]. cbn. split; [lia|]. split; [reflexivity|auto].
    + destruct AC as [e AC]. rewrite AC. eexists. split; [reflexivity|]. cbn. split; [lia|auto].
Qed.
Lemma slot_put_ok w s : Good s -> slot_put c w s = ROk (gput w s).
Proof.
  intro G. unfold gput. assert (exists w', slot_put c w s = ROk w') as [w' E]; [|rewrite E; reflexivity].
  unfold slot_put, write_slot. destruct (s_wpos _) as [pos|]; [|eauto]. destruct (do_write _ _ _ _); [|eauto].
  unfold slot_out. change (c_out c) with OutData. cbn [s_clen with_wpos]. rewrite G. cbn [rbind]. eauto.
Qed.
Lemma consume_ok w xs b : buf_rep c (Holds c) (Fresh c) xs b -> Forall Good xs ->
  exists b', consume_write c w b = ROk (b', fold_left gput xs w) /\ shape c b'.
Proof.
  intros HR HG. apply (write_flat c dec_cfg_ok xs b w HR).
  - discriminate.
  - intros x _. eexists. reflexivity.
  - apply rfold_left. intros w' x Hx. apply slot_put_ok. rewrite Forall_forall in HG. auto.
Qed.
Definition poss : list N := map (fun k => lo + k * bs) (rangeN 0 (nvisit bs f lo len)).
Lemma dec_loop old fuel : (length f < fuel)%nat ->
  exists st, buf_loop c (dec_pre len) (dec_step c f ref) (consume_write c) fuel fuel (dbuf_new_multi c)
               (mkDstate lo 0 no_dstats) old
             = ROk (st, fold_left gput (somes (map emit poss)) old) /\
             dt_stats st = fold_left cnt poss no_dstats.
Proof.
  intro HF. pose proof (block_size_pos v) as BS. fold bs in BS.
  destruct (frun_visit bs f lo len ltac:(lia) (dec_pre len) dec_fstep dt_pos dt_stats emit cnt
              (fun st => dt_pos st = lo + dt_bytes st)) with (n := N.to_nat (nvisit bs f lo len)) (k := 0) (st := mkDstate lo 0 no_dstats)
    as (st & R & S).
  - intros st HJ. unfold dec_pre. rewrite HJ. f_equal. lia.
  - intros st HJ. unfold dec_fstep. rewrite short_read by lia. destruct (N.ltb_spec (lenN f) (dt_pos st + bs)) as [H|H].
    + eexists. split; reflexivity.
    + assert (LD : lenN (file_read f (dt_pos st) bs) = bs) by (unfold file_read; rewrite lenN_slice; lia).
      unfold emit, cnt. destruct (accept ref _); (eexists; split; [reflexivity|]; split; [reflexivity|]; cbn [dt_pos dt_bytes]; rewrite LD; split; [reflexivity|lia]).
  - cbn. lia.
  - lia.
  - cbn. lia.
  - exists st. split; [|exact S].
    destruct (init_queue_rep c dec_cfg_ok ltac:(discriminate)) as [Q1 Q2].
    eapply (loop_flat c dec_cfg_ok (dec_pre len) (dec_step c f ref) dec_fstep (consume_write c) gput (fun _ => True) Good).
    + intros st0 s _ _ FS. apply dec_step_ok, FS.
    + exact consume_ok.
    + exact Logic.I.
    + exact Q1.
    + exact Q2.
    + assert (L : nvisit bs f lo len <= lenN f).
      { unfold nvisit. pose proof (N.div_le_upper_bound (lenN f - lo) bs (lenN f) ltac:(lia)). nia. }
      unfold lenN in L. instantiate (1 := Datatypes.S (N.to_nat (nvisit bs f lo len))). lia.
    + assert (L : nvisit bs f lo len <= lenN f).
      { unfold nvisit. pose proof (N.div_le_upper_bound (lenN f - lo) bs (lenN f) ltac:(lia)). nia. }
      unfold lenN in L. lia.
    + exact R.
Qed.

(* one position *)
Definition put_pos (w : file) (pos : N) : file := match emit pos with Some s => gput w s | None => w end.
Lemma fold_somes ps w : fold_left gput (somes (map emit ps)) w = fold_left put_pos ps w.
Proof.
  revert w. induction ps as [|a ps IH]; intro w; [reflexivity|]. cbn [map fold_left]. unfold somes. cbn [flat_map]. unfold put_pos at 2.
  rewrite fold_left_app. destruct (emit a); cbn [fold_left]; apply IH.
Qed.
Lemma put_pos_cases w pos :
  (exists seq pl j, block_at v (b_uid ref) f pos seq pl /\ is_chunk o seq j /\ lenN pl = ds /\
     put_pos w pos = if sg && negb ((lenN (file_read w (j * ds) ds) <? ds) || buffer_is_blank (file_read w (j * ds) ds)) then w else file_write w (j * ds) pl) \/
  ((forall seq pl j, block_at v (b_uid ref) f pos seq pl -> ~ is_chunk o seq j) /\ put_pos w pos = w).
Proof.
  pose proof (block_size_pos v) as BS. fold bs in BS.
  unfold put_pos, emit. pose proof (accept_block_at ref f pos HB) as AB. fold v bs in AB. change (file_read f pos bs) with (sliceN pos bs f).
  destruct (accept ref (sliceN pos bs f)) as [b|].
  - destruct AB as (BA & EV & EU & EM). unfold gput, slot_put, write_slot, wpos_of, slot_write_pos. change (c_out c) with OutData. change (c_dpb c) with o. change (c_ver c) with v.
    cbn [s_block s_wpos with_wpos]. change (match o with Some (d, p, _) => Some (d, p) | None => None end) with (dp_of o). unfold calc_data_chunk_write_pos.
    destruct (calc_data_chunk_write_index (b_seq_num b) (dp_of o)) as [j|] eqn:EC.
    + apply chunk_index_iff in EC; [|exact HO]. left. exists (b_seq_num b), (slice_data_buf v (sliceN pos bs f)), j.
      split; [exact BA|]. split; [exact EC|]. split.
      { destruct BA as (h & (_ & L & _) & V & _). rewrite V in L. rewrite L. unfold ds. rewrite (proj2 (data_size_pos v)). reflexivity. }
      unfold do_write. change (c_skip_good c) with sg. change (c_out c) with OutData. change (c_ver c) with v. fold ds.
      unfold slot_out. change (c_out c) with OutData. change (c_ver c) with v. cbn [s_clen s_buf with_wpos rbind].
      destruct sg; cbn [andb]; [|reflexivity]. destruct (_ || _); reflexivity.
    + right. split; [|reflexivity]. intros seq pl j BA' CH. destruct (block_at_unique _ _ _ _ _ _ _ _ BA BA') as [E1 _].
      apply chunk_index_iff in CH; [|exact HO]. rewrite E1 in EC. congruence.
  - right. split; [|reflexivity]. intros seq pl j BA'. exfalso. exact (AB _ _ BA').
Qed.

Definition out_n (old : file) (n : N) : file := fold_left put_pos (map (fun k => lo + k * bs) (rangeN 0 n)) old.
Lemma out_succ old n : out_n old (n + 1) = put_pos (out_n old n) (lo + n * bs).
Proof. unfold out_n. rewrite rangeN_snoc by lia. rewrite map_app, fold_left_app. reflexivity. Qed.
Lemma is_chunk_fun seq j j' : is_chunk o seq j -> is_chunk o seq j' -> j = j'.
Proof. intros A B. apply chunk_index_iff in A; [|exact HO]. apply chunk_index_iff in B; [|exact HO]. congruence. Qed.
Lemma ds_pos : 1 <= ds. Proof. apply data_size_pos. Qed.
Lemma nth_write_chunk w j pl i : lenN pl = ds -> nthN (file_write w (j * ds) pl) i = if i / ds =? j then nthN pl (i mod ds) else nthN w i.
Proof.
  intro L. pose proof ds_pos as DP. rewrite nthN_file_write, L. destruct (N.eqb_spec (i / ds) j) as [E|E].
  - pose proof (proj2 (in_block ds DP i j) E) as [A B]. destruct (N.leb_spec (j * ds) i); [|lia]. destruct (N.ltb_spec i (j * ds + ds)); [|lia].
    cbn [andb]. f_equal. pose proof (N.div_mod' i ds). rewrite E in H1. lia.
  - destruct ((j * ds <=? i) && (i <? j * ds + ds)) eqn:X; [|reflexivity]. exfalso. apply E. apply (in_block ds DP). lia.
Qed.
Definition holds (k j : N) (pl : list N) : Prop := exists seq, block_at v (b_uid ref) f (lo + k * bs) seq pl /\ is_chunk o seq j.
Lemma holds_fun k j pl j' pl' : holds k j pl -> holds k j' pl' -> j = j' /\ pl = pl'.
Proof. intros (s & A & B) (s' & A' & B'). destruct (block_at_unique _ _ _ _ _ _ _ _ A A') as [-> ->]. split; [eapply is_chunk_fun; eassumption|reflexivity]. Qed.
Lemma step_cases w k : (exists j pl, holds k j pl /\ lenN pl = ds /\
     put_pos w (lo + k * bs) = if sg && negb ((lenN (file_read w (j * ds) ds) <? ds) || buffer_is_blank (file_read w (j * ds) ds)) then w else file_write w (j * ds) pl) \/
  ((forall j pl, ~ holds k j pl) /\ put_pos w (lo + k * bs) = w).
Proof.
  destruct (put_pos_cases w (lo + k * bs)) as [(seq & pl & j & A & B & C & D)|[A B]].
  - left. exists j, pl. split; [exists seq; auto|auto].
  - right. split; [|exact B]. intros j pl (seq & X & Y). exact (A _ _ _ X Y).
Qed.

(* length of the output *)
Lemma out_len old n : sg = false -> lenN old <= lenN (out_n old n) /\
  (forall k j pl, k < n -> holds k j pl -> (j + 1) * ds <= lenN (out_n old n)) /\
  (lenN (out_n old n) = lenN old \/ exists k j pl, k < n /\ holds k j pl /\ lenN (out_n old n) = (j + 1) * ds).
Proof.
  intro SG. pose proof ds_pos as DP. induction n as [|n IH] using N.peano_ind.
  - change (out_n old 0) with old. split; [lia|]. split; [intros; lia|left; reflexivity].
  - rewrite <- N.add_1_r, out_succ. destruct IH as (I1 & I2 & I3). destruct (step_cases (out_n old n) n) as [(j & pl & H & L & E)|[H E]]; rewrite E.
    + rewrite SG. cbn [andb]. rewrite lenN_file_write, L. destruct (N.eqb_spec ds 0); [lia|]. replace (j * ds + ds) with ((j + 1) * ds) by lia.
      split; [lia|]. split.
      * intros k j' pl' Hk H'. destruct (N.eq_dec k n) as [->|NE]; [destruct (holds_fun _ _ _ _ _ H H'); subst; lia|]. specialize (I2 k j' pl' ltac:(lia) H'). lia.
      * destruct (N.le_ge_cases (lenN (out_n old n)) ((j + 1) * ds)).
        -- right. exists n, j, pl. split; [lia|]. split; [exact H|lia].
        -- destruct I3 as [I3|(k & j' & pl' & Hk & H' & I3)]; [left; lia|]. right. exists k, j', pl'. split; [lia|]. split; [exact H'|lia].
    + split; [lia|]. split.
      * intros k j' pl' Hk H'. destruct (N.eq_dec k n) as [->|NE]; [exfalso; exact (H _ _ H')|]. apply (I2 k j' pl'); [lia|exact H'].
      * destruct I3 as [I3|(k & j' & pl' & Hk & H' & I3)]; [left; exact I3|]. right. exists k, j', pl'. split; [lia|]. split; [exact H'|exact I3].
Qed.
(* bytes of the output: the last block wins *)
Lemma out_bytes old n i : sg = false ->
  (exists k pl, k < n /\ holds k (i / ds) pl /\ nthN (out_n old n) i = nthN pl (i mod ds) /\
     forall k' pl', k < k' < n -> ~ holds k' (i / ds) pl') \/
  ((forall k pl, k < n -> ~ holds k (i / ds) pl) /\ nthN (out_n old n) i = nthN old i).
Proof.
  intro SG. induction n as [|n IH] using N.peano_ind.
  - right. split; [intros; lia|reflexivity].
  - rewrite <- N.add_1_r, out_succ. destruct (step_cases (out_n old n) n) as [(j & pl & H & L & E)|[H E]]; rewrite E.
    + rewrite SG. cbn [andb]. rewrite nth_write_chunk by exact L. destruct (N.eqb_spec (i / ds) j) as [EJ|NJ].
      * subst j. left. exists n, pl. split; [lia|]. split; [exact H|]. split; [reflexivity|]. intros; lia.
      * assert (NH : forall pl', ~ holds n (i / ds) pl') by (intros pl' H'; destruct (holds_fun _ _ _ _ _ H H'); congruence).
        destruct IH as [(k & pl' & Hk & H' & E' & X)|[X E']].
        -- left. exists k, pl'. split; [lia|]. split; [exact H'|]. split; [exact E'|]. intros k' pl2 Hk'.
           destruct (N.eq_dec k' n) as [->|]; [apply NH|apply X; lia].
        -- right. split; [|exact E']. intros k pl' Hk. destruct (N.eq_dec k n) as [->|]; [apply NH|apply X; lia].
    + destruct IH as [(k & pl' & Hk & H' & E' & X)|[X E']].
      * left. exists k, pl'. split; [lia|]. split; [exact H'|]. split; [exact E'|]. intros k' pl2 Hk'.
        destruct (N.eq_dec k' n) as [->|]; [apply H|apply X; lia].
      * right. split; [|exact E']. intros k pl' Hk. destruct (N.eq_dec k n) as [->|]; [apply H|apply X; lia].
Qed.
(* with skip_good *)
Lemma skip_keeps old n j : sg = true -> (j + 1) * ds <= lenN old -> buffer_is_blank (sliceN (j * ds) ds old) = false ->
  sliceN (j * ds) ds (out_n old n) = sliceN (j * ds) ds old /\ lenN old <= lenN (out_n old n).
Proof.
  intros SG L NB. pose proof ds_pos as DP. induction n as [|n [IH1 IH2]] using N.peano_ind.
  - split; [reflexivity|]. change (out_n old 0) with old. lia.
  - rewrite <- N.add_1_r, out_succ. destruct (step_cases (out_n old n) n) as [(j' & pl & H & L' & E)|[H E]]; rewrite E.
    + rewrite SG. cbn [andb]. destruct (N.eq_dec j' j) as [->|NE].
      * unfold file_read. rewrite IH1, NB, lenN_slice.
        destruct (N.ltb_spec (N.min ds (lenN old - j * ds)) ds); [lia|]. cbn [orb negb]. split; [exact IH1|exact IH2].
      * destruct (negb _); [split; [exact IH1|exact IH2]|]. rewrite lenN_file_write, L'. destruct (N.eqb_spec ds 0); [lia|]. split; [|lia].
        rewrite read_write_other; [exact IH1|lia|]. rewrite L'. destruct (N.lt_ge_cases j j'); [left|right]; nia.
    + split; [exact IH1|exact IH2].
Qed.
Lemma skip_fills old n j : sg = true -> buffer_is_blank (sliceN (j * ds) ds old) = true ->
  (exists k pl, k < n /\ holds k j pl /\ sliceN (j * ds) ds (out_n old n) = pl) \/
  ((forall k pl, k < n -> ~ holds k j pl) /\ forall i, i / ds = j -> nthN (out_n old n) i = nthN old i).
Proof.
  intros SG NB. pose proof ds_pos as DP. induction n as [|n IH] using N.peano_ind.
  - right. split; [intros; lia|reflexivity].
  - rewrite <- N.add_1_r, out_succ. destruct (step_cases (out_n old n) n) as [(j' & pl & H & L' & E)|[H E]]; rewrite E.
    + rewrite SG. cbn [andb]. destruct (N.eq_dec j' j) as [->|NE].
      * destruct IH as [(k & pl' & Hk & H' & E')|[X E']].
        -- left. destruct (negb _); [exists k, pl'; split; [lia|]; auto|]. exists n, pl. split; [lia|]. split; [exact H|]. apply read_write_same. lia.
        -- left. assert (BL : buffer_is_blank (file_read (out_n old n) (j * ds) ds) = true).
           { apply blank_nth. intro i. unfold file_read. rewrite nthN_slice. destruct (N.ltb_spec i ds); [|reflexivity].
             rewrite E' by (symmetry; apply N.div_unique with (r := i); lia).
             rewrite blank_nth in NB. specialize (NB i). rewrite nthN_slice in NB. destruct (N.ltb_spec i ds); [exact NB|lia]. }
           rewrite BL, orb_true_r. cbn [negb]. exists n, pl. split; [lia|]. split; [exact H|]. apply read_write_same. lia.
      * assert (NH : forall pl', ~ holds n j pl') by (intros pl' H'; destruct (holds_fun _ _ _ _ _ H H'); congruence).
        destruct IH as [(k & pl' & Hk & H' & E')|[X E']].
        -- left. exists k, pl'. split; [lia|]. split; [exact H'|]. destruct (negb _); [exact E'|]. rewrite <- E'.
           destruct H' as (s & (h & W & V & _) & _).
           assert (LP : lenN (sliceN (j * ds) ds (out_n old n)) = ds).
           { rewrite E'. destruct W as (_ & LW & _). rewrite V in LW. unfold ds. rewrite (proj2 (data_size_pos v)). exact LW. }
           rewrite lenN_slice in LP. apply read_write_other; [lia|]. rewrite L'. destruct (N.lt_ge_cases j j'); [left|right]; nia.
        -- right. split; [intros k pl' Hk; destruct (N.eq_dec k n) as [->|]; [apply NH|apply X; lia]|].
           intros i Hi. destruct (negb _); [apply E', Hi|]. rewrite nth_write_chunk by exact L'. destruct (N.eqb_spec (i / ds) j'); [congruence|apply E', Hi].
    + destruct IH as [(k & pl' & Hk & H' & E')|[X E']].
      * left. exists k, pl'. split; [lia|]. auto.
      * right. split; [|exact E']. intros k pl' Hk. destruct (N.eq_dec k n) as [->|]; [apply H|apply X; lia].
Qed.
(* in any case a byte is from a block holding its chunk, or as before *)
Lemma out_any old n i :
  (exists k pl, k < n /\ holds k (i / ds) pl /\ nthN (out_n old n) i = nthN pl (i mod ds)) \/ nthN (out_n old n) i = nthN old i.
Proof.
  induction n as [|n IH] using N.peano_ind; [right; reflexivity|].
  rewrite <- N.add_1_r, out_succ. destruct (step_cases (out_n old n) n) as [(j & pl & H & L & E)|[H E]]; rewrite E.
  - destruct (_ && _).
    + destruct IH as [(k & pl' & Hk & H' & E')|E']; [left; exists k, pl'; split; [lia|]; auto|auto].
    + rewrite nth_write_chunk by exact L. destruct (N.eqb_spec (i / ds) j) as [EJ|NJ].
      * subst j. left. exists n, pl. split; [lia|]. auto.
      * destruct IH as [(k & pl' & Hk & H' & E')|E']; [left; exists k, pl'; split; [lia|]; auto|auto].
  - destruct IH as [(k & pl' & Hk & H' & E')|E']; [left; exists k, pl'; split; [lia|]; auto|auto].
Qed.

(* statistics *)
Definition kind_of (pos : N) : kind :=
  match accept ref (file_read f pos bs) with
  | None => KBad
  | Some b => if is_meta b then KMeta
              else if match o with Some (d, p, _) => is_parity b d p | None => false end then KParity else KData
  end.
Hypothesis HV : match o with Some _ => ver_uses_rs v = true | None => True end.
Lemma kind_of_ok pos : kind_at v (b_uid ref) o f pos (kind_of pos).
Proof.
  unfold kind_of. pose proof (accept_block_at ref f pos HB) as AB. fold v bs in AB. unfold file_read.
  destruct (accept ref (sliceN pos bs f)) as [b|]; [|exact AB]. destruct AB as (BA & EV & EU & EM).
  rewrite EM. destruct (N.eqb_spec (b_seq_num b) 0) as [Z|NZ].
  - eexists. rewrite Z in BA. exact BA.
  - assert (PC : (match o with Some (d, p, _) => is_parity b d p | None => false end) = match calc_data_chunk_write_index (b_seq_num b) (dp_of o) with Some _ => false | None => true end).
    { unfold calc_data_chunk_write_index, SBX_FIRST_DATA_SEQ_NUM. destruct (N.ltb_spec (b_seq_num b) 1); [lia|].
      destruct o as [[[d p] B]|]; [|reflexivity]. cbn [dp_of]. unfold is_parity. rewrite EV, HV. cbn [andb]. destruct (seq_num_is_parity _ _ _); reflexivity. }
    rewrite PC. destruct (calc_data_chunk_write_index (b_seq_num b) (dp_of o)) as [j|] eqn:EC.
    + cbn [kind_at]. do 3 eexists. split; [exact BA|]. apply chunk_index_iff; [exact HO|exact EC].
    + cbn [kind_at]. do 2 eexists. split; [exact BA|]. split; [lia|]. intros j CH. apply chunk_index_iff in CH; [|exact HO]. congruence.
Qed.
Lemma countN_snoc {A} (g : A -> bool) l x : countN g (l ++ [x]) = countN g l + if g x then 1 else 0.
Proof. unfold countN. rewrite filter_app, lenN_app. cbn [filter]. destruct (g x); reflexivity. Qed.
Lemma counts_ok ps : counts (fold_left cnt ps no_dstats) (map kind_of ps).
Proof.
  induction ps as [|p ps IH] using rev_ind; [repeat split|]. rewrite fold_left_app, map_app. cbn [fold_left map].
  destruct IH as (A & B & C & D & E & F & G). unfold counts. rewrite !countN_snoc, <- A, <- B, <- C, <- D.
  unfold cnt, kind_of, count_block, count_failed. destruct (accept ref _) as [b|]; [destruct (is_meta b); [|destruct (match o with Some _ => _ | None => _ end)]|];
    cbn [kind_eqb ds_meta ds_data ds_parity ds_failed ds_meta_failed ds_data_failed ds_parity_failed]; repeat split; try lia; assumption.
Qed.
End Dec.
