(* What repair tells. *)
From Coq Require Import Sorted.
From Verif Require Import M_Base M_Specs M_Crc M_Header M_Multihash M_Metadata M_Block M_Index M_FileUtils M_Buffer M_Ranges M_Encode M_Scan M_Loop M_Decode M_Repair
  M_RepairList S_Crc S_Meta S_Block S_Index S_Container S_Scan S_Decode S_Encode S_Repair S_RepairList
  L_Base L_Crc L_File L_Header L_Meta L_Block L_Block2 L_Index L_Index2 L_Buffer L_Encode L_Loop L_Scan L_Container L_Ranges L_Decode L_Decode2 L_Ref L_Lot L_Sort2 L_Intact L_Repair L_Repair2 L_Repair3 L_Repair4 L_Repair5 L_Repair6.
Ltac Zify.zify_post_hook ::= idtac.

(* ---- messages from states ---- *)
Lemma meta_told_step dry hp w ref buf t told p :
  repair_meta_told dry hp (w, ref, buf, t, told) p =
  do! x <- repair_meta_step dry hp (w, ref, buf, t) p; ROk (x, if ps_meta_rep (snd x) =? ps_meta_rep t then told else told ++ [p]).
Proof.
  unfold repair_meta_told, repair_meta_step. cbv zeta.
  match goal with |- (do! b <- ?e; _) = _ => destruct e as [[|]| |] end; cbn [rbind]; [|cbn [snd ps_meta_rep]; rewrite N.eqb_refl; reflexivity|reflexivity..].
  destruct (unwrap _) as [[ref1 b2]| |]; cbn [rbind]; [|reflexivity..]. cbn [snd ps_meta_rep]. destruct (N.eqb_spec (ps_meta_rep t + 1) (ps_meta_rep t)); [lia|reflexivity].
Qed.
Definition msg_of (d p B : N) (q : N) (t : pstats) (x : file * repairer * pstats) : list set_msg :=
  let '(_, R, t') := x in
  let first := (q - 1) / (d + p) * (d + p) + 1 in
  if (rr_index R =? 0) && (0 <? d + p - countN (fun b => b) (rr_present R))
  then [mkSetMsg (negb (ps_data_rep t' =? ps_data_rep t)) first (first + lenN (rr_present R) - 1) (missing_list (b_version (rr_ref R)) (Some (d, p, B)) first 0 (rr_present R))]
  else [].
Lemma sync_keeps rc d p B q R ok miss bl R' : repair_with_block_sync rc d p B q R = ROk (ok, miss, bl, R') ->
  rr_present R' = rr_present R /\ rr_index R' = 0 /\ miss = d + p - countN (fun b => b) (rr_present R).
Proof.
  unfold repair_with_block_sync. destruct (rassert _); cbn [rbind]; try discriminate. destruct (rassert _); cbn [rbind]; try discriminate.
  destruct (rc _ _ _) as [out|].
  - destruct (seal_missing _ _ _ _ _) as [[r b]| |]; cbn [rbind]; try discriminate. intro H. apply ROk_inj in H. injection H as <- <- <- <-. cbn. auto.
  - intro H. apply ROk_inj in H. injection H as <- <- <- <-. cbn. auto.
Qed.
Lemma codec_keeps v hp q dt R t R1 t1 : update_codec v hp q dt R t = ROk (R1, t1) -> ps_data_rep t1 = ps_data_rep t /\ rr_index R1 = rr_index R + 1.
Proof.
  unfold update_codec. destruct (getN _ _); [|discriminate]. destruct (_ <? _).
  - intro H. apply ROk_inj, pair_inj in H as [<- <-]. auto.
  - destruct (sync_from_buffer _ _ _ _) as [b| |]; try discriminate.
    + destruct (negb _); [|destruct (is_meta b)]; intro H; apply ROk_inj, pair_inj in H as [<- <-]; auto.
    + intro H. apply ROk_inj, pair_inj in H as [<- <-]. auto.
Qed.
Lemma told_step rc dry v hp d p B q w R t told : 
  repair_step_told rc dry v hp d p B q (w, R, t, told) =
  do! x <- repair_step rc dry v hp d p B q (w, R, t); ROk (x, told ++ msg_of d p B q t x).
Proof.
  unfold repair_step_told, repair_step. destruct (rassert _); cbn [rbind]; try reflexivity. cbv zeta.
  destruct (update_codec _ _ _ _ R t) as [[R1 t1]| |] eqn:E; cbn [rbind]; try reflexivity. apply codec_keeps in E as [E1 E2].
  destruct (rr_index R1 =? d + p).
  - unfold repair_set_told, repair_set. destruct (repair_with_block_sync _ _ _ _ _ R1) as [[[[ok miss] bl] R']| |] eqn:S; cbn [rbind]; try reflexivity.
    apply sync_keeps in S as (S1 & S2 & S3). unfold msg_of. rewrite S2, S1, <- S3. cbn [N.eqb andb]. f_equal. f_equal.
    destruct (N.ltb_spec 0 miss); [|rewrite app_nil_r; reflexivity]. unfold SBX_FIRST_DATA_SEQ_NUM. do 3 f_equal.
    destruct ok; cbn [ps_data_rep]; rewrite E1; [destruct (N.eqb_spec (ps_data_rep t + miss) (ps_data_rep t)); [lia|reflexivity]|rewrite N.eqb_refl; reflexivity].
  - cbn [rbind]. unfold msg_of. destruct (N.eqb_spec (rr_index R1) 0); [lia|]. cbn [andb]. rewrite app_nil_r. reflexivity.
Qed.
Lemma told_loop_rfold rc dry v hp d p B total : forall n fuel seq x y,
  (n < fuel)%nat -> seq + N.of_nat n <= U32_MAX + 1 ->
  (total <= ps_so_far (snd (fst x)) + N.of_nat n \/ (seq + N.of_nat n = U32_MAX + 1 /\ (1 <= n)%nat)) ->
  ((1 <= n)%nat -> ps_so_far (snd (fst x)) + N.of_nat n <= total) ->
  rfold (fun s q => repair_step_told rc dry v hp d p B q s) (rangeN seq (seq + N.of_nat n)) x = ROk y ->
  repair_loop_told fuel rc dry v hp d p B total seq x = ROk y.
Proof.
  induction n as [|n IH]; intros fuel seq x y HF HS HT HL HR; destruct fuel as [|fuel]; try lia; cbn [repair_loop_told].
  - rewrite rangeN_nil in HR by lia. cbn [rfold] in HR. destruct (N.leb_spec total (ps_so_far (snd (fst x)))); [exact HR|lia].
  - destruct (N.leb_spec total (ps_so_far (snd (fst x)))) as [L|L]; [specialize (HL ltac:(lia)); lia|].
    rewrite rangeN_cons in HR by lia. cbn [rfold] in HR. destruct x as [[[w R] t] told]. rewrite told_step in *. cbn [fst snd] in *.
    destruct (repair_step rc dry v hp d p B seq (w, R, t)) as [x'| |] eqn:E; cbn [rbind] in *; try discriminate.
    apply step_count in E. cbn [snd] in E. unfold SBX_LAST_SEQ_NUM, U32_MAX in *. destruct (N.eqb_spec seq 4294967295) as [->|NE].
    + assert (n = O) by lia. subst n. rewrite rangeN_nil in HR by lia. exact HR.
    + apply IH; cbn [fst]; try lia. replace (seq + 1 + N.of_nat n) with (seq + N.of_nat (S n)) by lia. exact HR.
Qed.

(* forgetting the messages *)
Lemma meta_fold_told dry hp l : forall w ref buf t told,
  rfold (repair_meta_step dry hp) l (w, ref, buf, t) = do! x <- rfold (repair_meta_told dry hp) l (w, ref, buf, t, told); ROk (fst x).
Proof.
  induction l as [|q l IH]; intros w ref buf t told; [reflexivity|]. cbn [rfold]. rewrite meta_told_step.
  destruct (repair_meta_step dry hp (w, ref, buf, t) q) as [[[[w' ref'] buf'] t']| |]; cbn [rbind]; [apply IH|reflexivity..].
Qed.
Lemma loop_told rc dry v hp d p B total : forall fuel seq w R t told,
  repair_loop fuel rc dry v hp d p B total seq (w, R, t) = do! x <- repair_loop_told fuel rc dry v hp d p B total seq (w, R, t, told); ROk (fst x).
Proof.
  induction fuel as [|fuel IH]; intros seq w R t told; [reflexivity|]. cbn [repair_loop repair_loop_told fst snd]. destruct (total <=? ps_so_far t); [reflexivity|].
  rewrite told_step. destruct (repair_step rc dry v hp d p B seq (w, R, t)) as [[[w' R'] t']| |]; cbn [rbind]; [|reflexivity..]. destruct (seq =? SBX_LAST_SEQ_NUM); [reflexivity|apply IH].
Qed.
Lemma told_erases rc dry burst f :
  repair_file rc dry burst f = do! r <- repair_told rc dry burst f; ROk (match r with Some (t, w, _, _) => Some (t, w) | None => None end).
Proof.
  unfold repair_file, repair_told. destruct (get_ref_block _ _ _ _ _) as [[[pos ref]|]| |]; cbn [rbind]; [|reflexivity..]. destruct (negb _); [reflexivity|].
  destruct (get_data_par_burst _ _ _ _ _) as [[[[d p] B]|]| |]; cbn [rbind]; [|reflexivity..]. cbv zeta.
  destruct (unwrap _) as [[ref1 buffer]| |]; cbn [rbind]; [|reflexivity..].
  rewrite (meta_fold_told dry _ _ f ref1 buffer no_pstats []). destruct (rfold (repair_meta_told _ _) _ _) as [[[[[w r2] b2] t] metas]| |]; cbn [rbind fst]; [|reflexivity..].
  rewrite (loop_told rc dry _ _ d p B _ _ _ w _ t []). destruct (repair_loop_told _ _ _ _ _ _ _ _ _ _ _) as [[[[w' R'] t'] sets]| |]; reflexivity.
Qed.

Lemma add_all_rep ref d p B w l : forall t, ps_data_rep (add_all ref d p B w l t) = ps_data_rep t.
Proof. unfold add_all. induction l as [|s l IH]; intro t; [reflexivity|]. cbn [fold_left]. rewrite IH. unfold add_data. destruct (mark _ _ _ _ _ _); reflexivity. Qed.
Ltac same_step E := match type of E with (do! _ <- ?e; _) = _ =>
  match goal with |- context [repair_step ?a1 ?a2 ?a3 ?a4 ?a5 ?a6 ?a7 ?a8 ?a9] => change (repair_step a1 a2 a3 a4 a5 a6 a7 a8 a9) with e end end.
Section Told.
Variables (rs : codec) (rc : recon) (f : file) (ref : block) (ms : list metadata) (d p B : N) (dry : bool).
Let v := b_version ref.
Let uid := b_uid ref.
Let bs := ver_to_block_size v.
Let o := Some (d, p, B).
Let hp := header_pred_same_ver_uid ref.
Hypothesis HO : dpb_ok o.
Hypothesis HR : recon_ok rs rc d p.
Hypothesis HH : header_ok (b_header ref) = true.
Hypothesis HS : b_seq_num ref = 0.
Hypothesis HF : Forall field_ok ms.
Hypothesis HZ : fields_size ms <= bs - 16.
Notation mark := (mark ref d p B).
Notation mmark := (mmark ref).
Notation held := (held ref d p B).
Notation seqs := (seqs_of_set d p).
Let step := fun s q => repair_step rc dry v hp d p B q s.
Let tstep := fun s q => repair_step_told rc dry v hp d p B q s.

(* metadata *)
Fixpoint mtold (l : list N) (w : file) : list N :=
  match l with [] => [] | i :: l => (if mmark w i then [] else [i * bs]) ++ mtold l (mput ref ms dry w i) end.
Lemma meta_told_fold l : forall w b buf t told, refgood ref ms b -> lenN buf = 4096 -> bytes_ok buf = true -> bytes_ok w = true ->
  exists b' buf', rfold (repair_meta_told dry hp) (map (fun i => i * bs) l) (w, b, buf, t, told)
    = ROk (fst (mrun ref ms dry l (w, t)), b', buf', snd (mrun ref ms dry l (w, t)), told ++ mtold l w).
Proof.
  induction l as [|i l IH]; intros w b buf t told G LB BB BW; cbn [map rfold mtold].
  - eexists _, _. rewrite app_nil_r. reflexivity.
  - destruct (meta_step_ok ref ms d p B HH HS HF HZ dry w b buf t i G LB BB BW) as (b' & buf' & E & G' & L' & B'). fold v bs hp in E.
    rewrite meta_told_step. match type of E with ?l = _ => match goal with |- context [repair_meta_step dry hp ?x ?y] => change (repair_meta_step dry hp x y) with l end end. rewrite E. cbn [rbind]. cbn [snd].
    change (mrun ref ms dry (i :: l) (w, t)) with (mrun ref ms dry l (mput ref ms dry w i, add_meta (mmark w i) t)).
    destruct (IH (mput ref ms dry w i) b' buf' (add_meta (mmark w i) t) (if ps_meta_rep (add_meta (mmark w i) t) =? ps_meta_rep t then told else told ++ [i * bs]) G' L' B')
      as (b2 & buf2 & E2). { apply (mput_bytes rc ref ms d p B dry HH HS HF HZ). exact BW. }
    exists b2, buf2. etransitivity; [exact E2|].
    match goal with |- ROk (_, _, _, _, ?a ++ _) = _ => assert (ET : a = told ++ if mmark w i then [] else [i * bs]) end.
    { unfold add_meta. destruct (mmark w i); cbn [ps_meta_rep]; [rewrite N.eqb_refl, app_nil_r; reflexivity|]. destruct (N.eqb_spec (ps_meta_rep t + 1) (ps_meta_rep t)); [lia|reflexivity]. }
    rewrite ET, <- app_assoc. reflexivity.
Qed.

(* sets *)
Definition set_told (w : file) (k : N) : list set_msg :=
  if held w k <? d + p
  then [mkSetMsg (d <=? held w k) (k * (d + p) + 1) ((k + 1) * (d + p)) (missing_list v o (k * (d + p) + 1) 0 (map (mark w) (seqs k)))]
  else [].
Lemma part_told w first t told : bytes_ok w = true -> 1 <= first -> forall j R, SI ref d p B w first 0 R -> j < d + p ->
  exists R', rfold tstep (rangeN first (first + j)) (w, R, t, told) = ROk (w, R', add_all ref d p B w (rangeN first (first + j)) t, told) /\
    rfold step (rangeN first (first + j)) (w, R, t) = ROk (w, R', add_all ref d p B w (rangeN first (first + j)) t) /\ SI ref d p B w first j R'.
Proof.
  intros BW H1 j R SI0 HJ. induction j as [|j IH] using N.peano_ind.
  - rewrite N.add_0_r, rangeN_nil by lia. exists R. split; [reflexivity|]. split; [reflexivity|exact SI0].
  - destruct (IH ltac:(lia)) as (R1 & ET & E & SIj). rewrite <- N.add_1_r in *.
    destruct (part_run rc f ref ms d p B dry HS HZ w first t BW H1 (j + 1) R SI0 HJ) as (R2 & E2 & SI2). fold v hp step in E2.
    exists R2. split; [|split; [exact E2|exact SI2]]. replace (first + (j + 1)) with (first + j + 1) in * by lia. rewrite rangeN_snoc in * by lia.
    rewrite rfold_app, ET. cbn [rbind rfold]. rewrite rfold_app in E2. match type of E2 with (do! _ <- ?e; _) = _ => change e with (rfold step (rangeN first (first + j)) (w, R, t)) in E2 end.
    rewrite E in E2. cbn [rbind rfold] in E2. unfold tstep at 1. rewrite told_step. unfold step in E2. same_step E2.
    match type of E2 with (do! _ <- ?e; _) = _ => destruct e as [x| |]; cbn [rbind] in *; try discriminate end. apply ROk_inj in E2. subst x.
    destruct SI2 as ((RI & _) & _). unfold msg_of. cbn [rbind]. rewrite RI. destruct (N.eqb_spec (j + 1) 0); [lia|]. cbn [andb]. rewrite app_nil_r. reflexivity.
Qed.
Lemma full_told w k t R told : bytes_ok w = true -> (k + 1) * (d + p) < 4294967296 -> RG ref d p 0 R ->
  exists ws R', rfold tstep (rangeN (1 + k * (d + p)) (1 + (k + 1) * (d + p))) (w, R, t, told)
     = ROk (if dry then w else put_blocks bs ws w, R', set_stats ref d p B w k (add_all ref d p B w (seqs k) t), told ++ set_told w k) /\ SetStep rs ref d p B w k ws /\ RG ref d p 0 R'.
Proof.
  intros BW HK G. pose proof HO as (D1 & D2 & D3).
  destruct (full_run rs rc f ref ms d p B dry HO HR HH HS HZ w k t R BW HK G) as (ws & R' & E & ST & G'). fold v hp step bs in E.
  exists ws, R'. split; [|split; [exact ST|exact G']]. set (first := 1 + k * (d + p)) in *.
  destruct (part_told w first t told BW ltac:(unfold first; lia) (d + p - 1) R (SI_start rc f ref ms d p B dry HS HZ w first R G) ltac:(lia)) as (R1 & ET & E1 & SI1).
  replace (1 + (k + 1) * (d + p)) with (first + (d + p - 1) + 1) in * by (unfold first; lia). rewrite rangeN_snoc in * by lia.
  rewrite rfold_app, ET. cbn [rbind rfold]. rewrite rfold_app in E. match type of E with (do! _ <- ?e; _) = _ => change e with (rfold step (rangeN first (first + (d + p - 1))) (w, R, t)) in E end.
  rewrite E1 in E. cbn [rbind rfold] in E. unfold tstep at 1. rewrite told_step. unfold step in E. same_step E.
  match type of E with (do! _ <- ?e; _) = _ => destruct e as [x| |] eqn:EX; cbn [rbind] in *; try discriminate end. apply ROk_inj in E. subst x.
  assert (PM : rr_present R' = map (mark w) (seqs k)).
  { destruct (SI_step ref ms d p B HS HZ w first (d + p - 1) R1 (add_all ref d p B w (rangeN first (first + (d + p - 1))) t) SI1 ltac:(lia) BW ltac:(unfold first; lia)) as (R2 & E2 & SI2).
    unfold repair_step in EX. destruct SI1 as ((RI & _) & _). rewrite RI in EX. destruct (N.eqb_spec (d + p - 1) (d + p)); [lia|]. cbn [negb rassert rbind] in EX.
    match type of E2 with ?l = _ => match type of EX with context [update_codec ?a1 ?a2 ?a3 ?a4 ?a5 ?a6] => change (update_codec a1 a2 a3 a4 a5 a6) with l in EX end end.
    rewrite E2 in EX. cbn [rbind] in EX. replace (d + p - 1 + 1) with (d + p) in SI2 by lia. pose proof SI2 as ((RI2 & _) & _). rewrite RI2, N.eqb_refl in EX.
    unfold repair_set in EX. destruct (repair_with_block_sync _ _ _ _ _ R2) as [[[[ok miss] bl] R3]| |] eqn:S; cbn [rbind] in EX; try discriminate.
    apply ROk_inj, pair_inj in EX as [EX _]. apply pair_inj in EX as [_ EX]. subst R3. apply sync_keeps in S as (-> & _). apply (present_marks ref ms d p B HS HZ w k R2). exact SI2. }
  pose proof G' as (RI & RL & RB & RP & RV & RU). fold v in RV.
  unfold msg_of. cbn [rbind]. rewrite RI, RV, RP, PM, countN_map. cbn [N.eqb andb].
  replace (countN (fun x => mark w x) (seqs k)) with (held w k) by reflexivity.
  assert (EF : (first + (d + p - 1) - 1) / (d + p) * (d + p) + 1 = k * (d + p) + 1).
  { destruct (dm_eq (first + (d + p - 1) - 1) (d + p) k (d + p - 1) ltac:(unfold first; lia) ltac:(lia)) as [-> _]. reflexivity. }
  rewrite EF. replace (k * (d + p) + 1 + (d + p) - 1) with ((k + 1) * (d + p)) by lia. fold o.
  assert (HE : held w k <= d + p). { unfold L_Repair2.held. rewrite <- RP, PM, lenN_map. pose proof (countN_split (mark w) (seqs k)). lia. }
  unfold set_told. assert (EZ : (0 <? d + p - held w k) = (held w k <? d + p)) by (apply bool_iff; rewrite !N.ltb_lt; lia). rewrite EZ.
  destruct (N.ltb_spec (held w k) (d + p)) as [LT|GE]; [|reflexivity]. do 4 f_equal.
  unfold set_stats. fold (held w k). destruct (d <=? held w k); cbn [ps_data_rep]; rewrite !add_all_rep.
  + destruct (N.eqb_spec (ps_data_rep t + (d + p - held w k)) (ps_data_rep t)); [lia|reflexivity].
  + rewrite N.eqb_refl. reflexivity.
Qed.
(* k sets done *)
Inductive TSets (w0 : file) (t0 : pstats) : N -> file -> pstats -> list set_msg -> Prop :=
| TSets_0 : TSets w0 t0 0 w0 t0 []
| TSets_S k w t told ws : TSets w0 t0 k w t told -> SetStep rs ref d p B w k ws ->
    TSets w0 t0 (k + 1) (if dry then w else put_blocks bs ws w) (set_stats ref d p B w k (add_all ref d p B w (seqs k) t)) (told ++ set_told w k).
Lemma TSets_Sets w0 t0 k w t told : TSets w0 t0 k w t told -> Sets rs ref d p B dry w0 t0 k w t.
Proof. induction 1; constructor; assumption. Qed.
Lemma tsets_run w0 t0 : bytes_ok w0 = true -> forall k, k * (d + p) < 4294967296 -> forall R, RG ref d p 0 R ->
  exists w t told R', rfold tstep (rangeN 1 (1 + k * (d + p))) (w0, R, t0, []) = ROk (w, R', t, told) /\ TSets w0 t0 k w t told /\ RG ref d p 0 R'.
Proof.
  intros B0. induction k as [|k IH] using N.peano_ind; intros HK R G.
  - rewrite N.mul_0_l, N.add_0_r, rangeN_nil by lia. exists w0, t0, [], R. split; [reflexivity|]. split; [constructor|exact G].
  - rewrite <- N.add_1_r in *. destruct (IH ltac:(nia) R G) as (w & t & told & R1 & E & HSs & G1).
    rewrite (rangeN_split 1 (1 + k * (d + p))) by nia. rewrite rfold_app, E. cbn [rbind].
    assert (BW : bytes_ok w = true). { pose proof (TSets_Sets _ _ _ _ _ _ HSs) as X. eapply Sets_bytes; eassumption. }
    destruct (full_told w k t R1 told BW HK G1) as (ws & R' & E2 & ST & G2).
    eexists _, _, _, _. split; [exact E2|]. split; [constructor; assumption|exact G2].
Qed.
Lemma tdata_run w0 t0 m R : bytes_ok w0 = true -> m <= U32_MAX -> RG ref d p 0 R ->
  let k := m / (d + p) in
  exists w t told R', rfold tstep (rangeN 1 (1 + m)) (w0, R, t0, []) = ROk (w, R', add_all ref d p B w (rangeN (1 + k * (d + p)) (1 + m)) t, told) /\ TSets w0 t0 k w t told.
Proof.
  intros B0 HM G k. unfold U32_MAX in HM. pose proof HO as (D1 & D2 & D3).
  pose proof (N.div_mod m (d + p) ltac:(lia)) as DM. pose proof (N.mod_lt m (d + p) ltac:(lia)) as ML. fold k in DM.
  destruct (tsets_run w0 t0 B0 k ltac:(lia) R G) as (w & t & told & R1 & E & HSs & G1).
  rewrite (rangeN_split 1 (1 + k * (d + p))) by lia. rewrite rfold_app, E. cbn [rbind].
  assert (BW : bytes_ok w = true). { pose proof (TSets_Sets _ _ _ _ _ _ HSs) as X. eapply Sets_bytes; eassumption. }
  destruct (part_told w (1 + k * (d + p)) t told BW ltac:(lia) (m mod (d + p)) R1 (SI_start rc f ref ms d p B dry HS HZ _ _ _ G1) ML) as (R2 & E2 & _).
  replace (1 + k * (d + p) + m mod (d + p)) with (1 + m) in E2 by lia. exists w, t, told, R2. split; [exact E2|exact HSs].
Qed.
End Told.

Section Main.
Variables (rs : codec) (rc : recon) (burst : option N) (f : file) (ref : block) (d p B m : N) (dry : bool).
Hypothesis HR : recon_ok rs rc d p.
Hypothesis HB : bytes_ok f = true.
Hypothesis HL : lenN f < 18446744073709551616.
Hypothesis SU : repair_setup burst f ref d p B m.
Let v := b_version ref.
Let uid := b_uid ref.
Let bs := ver_to_block_size v.
Let o := Some (d, p, B).
Let widx seq := calc_data_block_write_index seq (Some true) o.
Let mi := midx ref o.
Notation mark := (mark ref d p B).
Notation held := (held ref d p B).
Notation mmark := (mmark ref).
Notation seqs := (seqs_of_set d p).
Notation HO := (L_Repair5.HO burst f ref d p B m HB HL SU).

Lemma told_runs : exists ms w t told,
  Forall field_ok ms /\ fields_size ms <= bs - 16 /\ b_data ref = DMeta ms /\
  let x := mrun ref ms dry mi (f, no_pstats) in
  let k := m / (d + p) in
  TSets rs ref d p B dry (fst x) (snd x) k w t told /\
  repair_told rc dry burst f = ROk (Some (add_all ref d p B w (rangeN (1 + k * (d + p)) (1 + m)) t, w, mtold ref ms dry mi f, told)).
Proof.
  pose proof HO as HO'. destruct (setup_facts burst f ref d p B m HB HL SU) as (_ & HH & S0 & ms & HD & HF & HZ).
  pose proof (m_bound burst f ref d p B m HL SU) as MB. pose proof SU as ((pos & G) & RS & D & M).
  unfold repair_told. rewrite G. cbn [rbind]. rewrite RS. cbn [negb]. rewrite D. cbn [rbind].
  assert (RG0 : refgood ref ms ref) by (split; [reflexivity|]; split; [reflexivity|]; split; assumption).
  destruct (write_ref ref ms d p B HH S0 HF HZ ref (repN SBX_LARGEST_BLOCK_SIZE 0) RG0 ltac:(rewrite lenN_rep; reflexivity) ltac:(apply bytes_ok_rep; lia))
    as (b' & buf' & E1 & G1 & L1 & B1 & _).
  rewrite E1. cbn [unwrap rbind]. fold v o. pose proof (mi_pos f ref d p B HL) as MP. fold v o bs mi in MP. rewrite MP.
  destruct (meta_told_fold rc ref ms d p B dry HH S0 HF HZ mi f b' buf' no_pstats [] G1 L1 B1 HB) as (b2 & buf2 & E2).
  fold v bs in E2.
  match goal with |- context [rfold (repair_meta_told dry ?hp) ?l ?s] => match type of E2 with ?e = _ => change (rfold (repair_meta_told dry hp) l s) with e end end.
  rewrite E2. cbn [rbind app].
  set (x := mrun ref ms dry mi (f, no_pstats)).
  pose proof (mrun_far rc f ref ms d p B dry S0 HZ mi (f, no_pstats)) as FAR. fold x in FAR. pose proof (mi_len f ref d p B HL) as ML. fold v o mi in ML. rewrite ML in FAR. change (ps_so_far (snd (f, no_pstats))) with 0 in FAR.
  assert (BX : bytes_ok (fst x) = true) by (apply (mrun_bytes rc ref ms d p B dry HH S0 HF HZ); exact HB).
  destruct (tdata_run rs rc f ref ms d p B dry HO' HR HH S0 HZ (fst x) (snd x) m (repairer_new ref d p) BX MB (RG_new ref ms d p B S0 HZ)) as (w & t & told & R' & E3 & SS).
  cbv zeta in *. exists ms, w, t, told. split; [exact HF|]. split; [exact HZ|]. split; [exact HD|]. split; [exact SS|].
  set (total := match get_FSZ ref with Some _ => _ | None => _ end).
  assert (T : (m = U32_MAX \/ total <= 1 + p + m) /\ (1 <= m -> 1 + p + m <= total)).
  { unfold total. destruct (get_FSZ ref) as [sz|].
    - destruct M as (n & BC & Em). rewrite Em. apply block_count_iff in BC; [|exact HO']. unfold calc_total_block_count_exc_burst_gaps, calc_meta_block_count_exc_burst_gaps.
      fold v o in BC. rewrite <- BC. unfold o. unfold U32_MAX. lia.
    - fold v bs in M. fold bs. rewrite M. unfold U32_MAX. lia. }
  rewrite (told_loop_rfold rc dry v (header_pred_same_ver_uid ref) d p B total (N.to_nat m) _ 1 (fst x, repairer_new ref d p, snd x, []) (w, R', add_all ref d p B w (rangeN (1 + m / (d + p) * (d + p)) (1 + m)) t, told)).
  - reflexivity.
  - destruct T as [_ T]. destruct (N.eq_dec m 0) as [Em|Em]; [rewrite Em; lia|]. specialize (T ltac:(lia)). match goal with |- context [ps_so_far ?y] => change (ps_so_far y) with (ps_so_far (snd x)) end. lia.
  - rewrite N2Nat.id. unfold U32_MAX in *. lia.
  - rewrite N2Nat.id. cbn [fst snd]. unfold U32_MAX in *. destruct T as [[T|T] _]; [right; lia|left; lia].
  - rewrite N2Nat.id. cbn [fst snd]. intro X. destruct T as [_ T]. lia.
  - rewrite N2Nat.id. exact E3.
Qed.

Hypothesis WD : dry = true \/ lenN f mod bs = 0.
Lemma mtold_list ms : Forall field_ok ms -> fields_size ms <= bs - 16 -> forall l w, bytes_ok w = true -> lenN f <= lenN w -> NoDup l -> (forall i, In i l -> same_block v f w i) ->
  (dry = true -> w = f) -> mtold ref ms dry l w = map (fun i => i * bs) (filter (fun i => negb (mmark f i)) l).
Proof.
  intros HF HZ. destruct (setup_facts burst f ref d p B m HB HL SU) as (HO & HH & S0 & _).
  induction l as [|i l IH]; intros w BW L ND SB DW; [reflexivity|]. cbn [mtold filter].
  inversion ND as [|? ? NI ND']; subst. destruct (meta_bytes_ok ref ms d p B HH S0 HF HZ) as [L1 L2]. fold v bs in L1.
  rewrite (mmark_keep f ref d p B dry HB HL WD w i BW L (SB i (or_introl eq_refl)) DW). rewrite IH; [destruct (mmark f i); reflexivity| | |exact ND'| |].
  - apply (mput_bytes rc ref ms d p B dry HH S0 HF HZ). exact BW.
  - unfold mput. destruct (mmark w i); [exact L|]. destruct dry; [exact L|]. rewrite lenN_file_write. destruct (_ =? _); lia.
  - intros j Hj. eapply same_block_trans; [apply SB; right; exact Hj|]. unfold mput. destruct (mmark w i); [apply same_block_refl|]. destruct dry; [apply same_block_refl|].
    apply (write_same f ref ms d p B S0 HZ); [exact L1|]. intros ->. contradiction.
  - intro D. unfold mput. destruct (mmark w i); [apply DW, D|]. rewrite D. apply DW, D.
Qed.
Lemma set_told_ext w k : (forall s, In s (seqs k) -> mark w s = mark f s) -> set_told ref d p B w k = set_told ref d p B f k.
Proof.
  intro E. unfold set_told. replace (held w k) with (held f k) by (symmetry; apply countN_ext; exact E). rewrite (map_ext_in _ _ _ E). reflexivity.
Qed.
Lemma tsets_told w1 t1 : lenN f <= lenN w1 -> bytes_ok w1 = true -> (forall s, 1 <= s -> same_block v f w1 (widx s)) -> (dry = true -> w1 = f) ->
  forall k w t told, TSets rs ref d p B dry w1 t1 k w t told -> k * (d + p) < 4294967296 -> told = flat_map (set_told ref d p B f) (rangeN 0 k).
Proof.
  intros L1 B1 SD DW k w t told SS. destruct (setup_facts burst f ref d p B m HB HL SU) as (HO & HH & S0 & ms & _ & _ & HZ). pose proof HO as (D1 & _).
  induction SS as [|k w t told ws SS IH ST]; intro HK; [reflexivity|]. rewrite (IH ltac:(nia)). rewrite rangeN_snoc by lia. rewrite flat_map_app. cbn [flat_map]. rewrite app_nil_r. f_equal.
  apply set_told_ext. intros s Hs. apply TSets_Sets in SS.
  destruct (sets_stats rs burst f ref d p B m dry HB HL SU WD w1 t1 L1 B1 SD DW k w t SS ltac:(nia)) as [_ MK].
  apply (seqs_in f ref ms d p B HO S0 HZ) in Hs as [H1 H2]. apply MK; lia.
Qed.
(* closed forms are right *)
Lemma filter_sorted {A} (R : A -> A -> Prop) g l : StronglySorted R l -> StronglySorted R (filter g l).
Proof.
  induction 1 as [|a l SS IH FA]; cbn [filter]; [constructor|]. destruct (g a); [|exact IH]. constructor; [exact IH|]. rewrite Forall_forall in *. intros x Hx. apply filter_In in Hx as [Hx _]. auto.
Qed.
Lemma range_sorted n : forall lo hi, hi - lo = N.of_nat n -> StronglySorted N.lt (rangeN lo hi).
Proof.
  induction n as [|n IH]; intros lo hi E; [rewrite rangeN_nil by lia; constructor|]. rewrite rangeN_cons by lia. constructor; [apply IH; lia|]. apply Forall_forall. intros x Hx. apply In_rangeN in Hx. lia.
Qed.
Lemma sorted_strong l : sorted l -> NoDup l -> StronglySorted N.lt l.
Proof.
  induction 1 as [|x l HX _ IH]; intro ND; [constructor|]. inversion ND as [|? ? N1 N2]; subst. constructor; [apply IH, N2|]. apply Forall_forall. intros y Hy.
  specialize (HX y Hy). assert (y <> x) by (intros ->; contradiction). lia.
Qed.
Lemma metas_sorted : StronglySorted N.lt (map (fun i => i * bs) (filter (fun i => negb (mmark f i)) mi)).
Proof.
  pose proof (mi_pos f ref d p B HL) as MP. fold v o bs mi in MP. pose proof (meta_positions v o) as (_ & ND & _).
  assert (S1 : StronglySorted N.lt (calc_meta_block_all_write_pos_s v o)) by (apply sorted_strong; [apply sortN_sorted|exact ND]).
  rewrite MP in S1. clear - S1. induction mi as [|i l IH]; cbn [map filter] in *; [constructor|]. inversion S1 as [|? ? S2 FA]; subst. destruct (negb (mmark f i)); [|apply IH, S2].
  cbn [map]. constructor; [apply IH, S2|]. rewrite Forall_forall in *. intros x Hx. apply FA. apply in_map_iff in Hx as (j & <- & Hj). apply filter_In in Hj as [Hj _]. apply in_map_iff. exists j. auto.
Qed.
Lemma metas_in q : In q (map (fun i => i * bs) (filter (fun i => negb (mmark f i)) mi)) <-> exists i, meta_index (Some true) o i /\ ~ some_block v uid f i /\ q = i * bs.
Proof.
  rewrite in_map_iff. assert (NS : forall i, negb (mmark f i) = true <-> ~ some_block v uid f i).
  { intro i. pose proof (mmark_iff ref f i HB) as X. fold v uid in X. rewrite <- X. destruct (mmark f i); cbn; split; congruence. }
  pose proof (mi_in burst f ref d p B m HB HL SU) as MI. fold o mi in MI. split.
  - intros (i & <- & Hi). apply filter_In in Hi as [H1 H2]. exists i. apply MI in H1. apply NS in H2. auto.
  - intros (i & H1 & H2 & ->). exists i. split; [reflexivity|]. apply filter_In. split; [apply MI, H1|apply NS, H2].
Qed.
Lemma missing_form g first : forall n i, missing_list v o first i (map g (rangeN (first + i) (first + i + N.of_nat n)))
  = map (fun s => (s, widx s * bs)) (filter (fun s => negb (g s)) (rangeN (first + i) (first + i + N.of_nat n))).
Proof.
  induction n as [|n IH]; intro i; [rewrite rangeN_nil by lia; reflexivity|]. rewrite rangeN_cons by lia. cbn [map missing_list filter].
  specialize (IH (i + 1)). replace (first + (i + 1)) with (first + i + 1) in IH by lia. replace (first + i + 1 + N.of_nat n) with (first + i + N.of_nat (S n)) in IH by lia. rewrite IH.
  destruct (g (first + i)); reflexivity.
Qed.
Lemma seqs_range k : seqs k = rangeN (k * (d + p) + 1) (k * (d + p) + 1 + (d + p)).
Proof.
  unfold seqs_of_set. apply list_by_get; [rewrite lenN_map, !lenN_range; lia|]. intros j x E. rewrite getN_map in E.
  destruct (getN (rangeN 0 (d + p)) j) as [y|] eqn:E0; [|discriminate]. pose proof (getN_lt _ _ _ E0) as L. rewrite lenN_range in L. rewrite getN_range in E0 by lia.
  apply Some_inj in E0. apply Some_inj in E. subst y x. rewrite getN_range by lia. f_equal; lia.
Qed.
Lemma blocks_form k : missing_list v o (k * (d + p) + 1) 0 (map (mark f) (seqs k)) = map (fun s => (s, widx s * bs)) (filter (fun s => negb (mark f s)) (seqs k)).
Proof.
  rewrite seqs_range. pose proof (missing_form (mark f) (k * (d + p) + 1) (N.to_nat (d + p)) 0) as X. rewrite N2Nat.id, !N.add_0_r in X. exact X.
Qed.
Lemma not_mark s : negb (mark f s) = true <-> ~ in_place v uid d p B f s.
Proof. pose proof (mark_iff ref d p B f s HB) as X. fold v uid in X. rewrite <- X. destruct (mark f s); cbn; split; congruence. Qed.
Lemma entry_ok k x : In x (set_told ref d p B f k) -> set_entry v uid d p B f k x /\ sm_blocks x <> [].
Proof.
  destruct (setup_facts burst f ref d p B m HB HL SU) as (HO' & HH & S0 & ms & _ & _ & HZ).
  unfold set_told. fold v o. rewrite blocks_form. destruct (N.ltb_spec (held f k) (d + p)) as [LT|GE]; [|intros []]. intros [<-|[]]. split.
  - split; [reflexivity|]. split; [reflexivity|]. cbn [sm_ok sm_blocks]. split; [|split].
    + pose proof (held_at_least_gen ref d p B f k HO' HB) as X. fold v uid in X. rewrite <- X. apply N.leb_le.
    + rewrite map_map. cbn [fst]. rewrite map_id. apply filter_sorted. rewrite seqs_range. apply (range_sorted (N.to_nat (d + p))). lia.
    + intros s q. rewrite in_map_iff. split.
      * intros (s' & E & H). apply pair_inj in E as [-> <-]. apply filter_In in H as [H1 H2]. apply (seqs_in f ref ms d p B HO' S0 HZ) in H1 as [H1 H3]. apply not_mark in H2. auto.
      * intros (H1 & H2 & H3 & ->). exists s. split; [reflexivity|]. apply filter_In. split; [apply set_members; [pose proof HO as (? & _); lia|auto..]|apply not_mark, H3].
  - cbn [sm_blocks]. pose proof (countN_split (mark f) (seqs k)) as C. rewrite seqs_range in C at 3. rewrite lenN_range in C. unfold L_Repair2.held in LT.
    unfold countN at 2 in C. destruct (filter (fun x => negb (mark f x)) (seqs k)); [|discriminate]. rewrite lenN_nil in C. lia.
Qed.
Lemma entry_some k s : 1 <= s -> set_of d p s = k -> ~ in_place v uid d p B f s -> exists x q, In x (set_told ref d p B f k) /\ In (s, q) (sm_blocks x).
Proof.
  intros H1 H2 H3. unfold set_told. fold v o. rewrite blocks_form. pose proof HO as (D1 & _).
  assert (I : In s (filter (fun s => negb (mark f s)) (seqs k))). { apply filter_In. split; [apply set_members; [pose proof HO as (? & _); lia|auto..]|apply not_mark, H3]. }
  pose proof (countN_split (mark f) (seqs k)) as C. rewrite seqs_range in C at 3. rewrite lenN_range in C. unfold L_Repair2.held.
  assert (P : 1 <= countN (fun x => negb (mark f x)) (seqs k)). { unfold countN. destruct (filter _ _); [destruct I|]. rewrite lenN_cons. lia. }
  destruct (N.ltb_spec (countN (mark f) (seqs k)) (d + p)); [|lia]. eexists _, _. split; [left; reflexivity|]. cbn [sm_blocks]. apply in_map_iff. exists s. split; [reflexivity|exact I].
Qed.
Lemma entries_sorted n : forall lo hi, hi - lo = N.of_nat n -> StronglySorted N.lt (map sm_first (flat_map (set_told ref d p B f) (rangeN lo hi))).
Proof.
  pose proof HO as (D1 & _). induction n as [|n IH]; intros lo hi E; [rewrite rangeN_nil by lia; constructor|]. rewrite rangeN_cons by lia. cbn [flat_map]. rewrite map_app.
  specialize (IH (lo + 1) hi ltac:(lia)). unfold set_told at 1. destruct (held f lo <? d + p); [|exact IH]. cbn [map app sm_first]. constructor; [exact IH|].
  apply Forall_forall. intros y Hy. apply in_map_iff in Hy as (x & <- & Hx). apply in_flat_map in Hx as (k & Hk & Hx). apply In_rangeN in Hk. apply entry_ok in Hx as [(-> & _) _].
  pose proof (N.mul_lt_mono_pos_r (d + p) lo k ltac:(lia)) as [X _]. specialize (X ltac:(lia)). lia.
Qed.
Lemma listed : exists t w metas sets, repair_file rc dry burst f = ROk (Some (t, w)) /\ repair_told rc dry burst f = ROk (Some (t, w, metas, sets)) /\
  repairs_listed v uid d p B m f metas sets.
Proof.
  destruct told_runs as (ms & w & t & told & HF & HZ & HD & SS & E). cbv zeta in *.
  destruct (setup_facts burst f ref d p B m HB HL SU) as (HO & HH & S0 & _). pose proof (m_bound burst f ref d p B m HL SU) as MB.
  pose proof HO as (D1 & D2 & D3).
  pose proof (mi_nodup f ref d p B HL) as MN. pose proof (mi_in burst f ref d p B m HB HL SU) as MI. fold o in MN, MI. fold mi in MN, MI.
  set (w1 := fst (mrun ref ms dry mi (f, no_pstats))) in *.
  assert (KD : m / (d + p) * (d + p) <= m) by (pose proof (N.mul_div_le m (d + p) ltac:(lia)); lia).
  assert (W1 : lenN f <= lenN w1 /\ bytes_ok w1 = true /\ (forall s, 1 <= s -> same_block v f w1 (widx s)) /\ (dry = true -> w1 = f)).
  { assert (DC : dry = true \/ dry = false) by (destruct dry; auto). destruct DC as [D|D].
    - assert (X : w1 = f) by (unfold w1; rewrite D, mrun_dry; reflexivity). rewrite X. split; [lia|]. split; [exact HB|]. split; [intros; apply same_block_refl|auto].
    - pose proof (mrun_done f ref ms d p B HH S0 HF HZ mi [] f no_pstats (meta_done_start f ref ms d p B S0 HZ HB)) as (M1 & M2 & M3 & _).
      unfold w1. rewrite D. split; [exact M1|]. split; [exact M2|]. split; [|discriminate]. intros s Hs. apply M3. cbn [app]. intro X. apply MI in X. revert X. apply write_index_not_meta; assumption. }
  destruct W1 as (L1 & B1 & SD & DW).
  rewrite (tsets_told w1 _ L1 B1 SD DW _ _ _ _ SS ltac:(unfold U32_MAX in MB; lia)) in E.
  rewrite (mtold_list ms HF HZ mi f HB ltac:(lia) MN ltac:(intros; apply same_block_refl) ltac:(auto)) in E.
  eexists _, w, _, _. split; [|split; [exact E|]].
  - rewrite told_erases, E. reflexivity.
  - split; [apply metas_sorted|]. split; [apply metas_in|]. split; [apply (entries_sorted (N.to_nat (m / (d + p)))); rewrite N2Nat.id; apply N.sub_0_r|]. split.
    + intros x Hx. apply in_flat_map in Hx as (k & Hk & Hx). apply In_rangeN in Hk. apply entry_ok in Hx as [X1 X2]. exists k. split; [|auto].
      pose proof (N.mul_le_mono_r (k + 1) (m / (d + p)) (d + p) ltac:(lia)). lia.
    + intros s H1 H2 H3. destruct (entry_some (set_of d p s) s H1 eq_refl H3) as (x & q & X1 & X2). exists x, q. split; [|exact X2]. apply in_flat_map. exists (set_of d p s). split; [|exact X1].
      apply In_rangeN. split; [lia|]. pose proof (N.div_le_lower_bound m (d + p) (set_of d p s + 1) ltac:(lia) ltac:(lia)). lia.
Qed.
End Main.
