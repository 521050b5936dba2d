(* Lemmas for C73: which blocks a repair stopped with Ctrl-C has written. *)
From Coq Require Import String Ascii.
From Verif Require Import M_Base M_Specs M_Header M_Multihash M_Metadata M_Block M_Index M_FileUtils M_Buffer M_Ranges M_Encode M_Scan M_Loop M_Decode M_Repair M_Path M_Cli M_RepairCut M_Stop M_StopRepair
  S_Block S_Index S_Container S_Scan S_Decode S_Encode S_Repair S_Cut S_StopRepair
  L_Base L_File L_Index L_Index2 L_Block L_Update L_RepairCut L_StopRepair.
Ltac Zify.zify_post_hook ::= idtac.

Lemma set_forward v d p seq R R1 : 1 <= d -> 1 <= seq -> going v d p seq R -> going v d p (seq + 1) R1 -> seq - rr_index R <= seq + 1 - rr_index R1.
Proof.
  intros D1 S1 (G1 & _) (GG & _). assert (DP1 : 1 <= d + p) by (clear - D1; lia). destruct (place_in_set seq (d + p) DP1 S1) as (_ & IL & AL & NL). rewrite <- G1 in IL, AL, NL. rewrite <- GG in AL, NL. clear - IL AL NL.
  destruct (N.eq_dec (rr_index R + 1) (d + p)) as [E|E]; [destruct (AL E) as [E1 _]|pose proof (NL E) as E1]; rewrite E1; lia.
Qed.
Lemma loop_stopped_nums k rc v hp d p B total : 1 <= d -> forall fuel i seq j R t j' R' t', 1 <= seq -> going v d p seq R -> i = ps_so_far t -> i <= k ->
  repair_loop_noted fuel rc false v hp d p B total seq (j, R, t) = ROk (j', R', t') ->
  exists j1 R1 t1 e1 e2 hi, loop_stop_noted (Some k) i fuel rc false v hp d p B total seq (j, R, t) = ROk (j1, R1, t1) /\
    grown j j1 e1 /\ grown j1 j' e2 /\ ps_so_far t <= ps_so_far t1 <= k /\ going v d p (seq + (ps_so_far t1 - ps_so_far t)) R1 /\
    let mid := seq + (ps_so_far t1 - ps_so_far t) - rr_index R1 in
    seq - rr_index R <= mid /\ numbered v d p B (seq - rr_index R) mid e1 /\ mid <= hi /\ numbered v d p B mid hi e2 /\ (ps_so_far t1 = k \/ e2 = []).
Proof.
  intro D1. induction fuel as [|fuel IH]; intros i seq j R t j' R' t' S1 G EI IK H; [discriminate|]. pose proof H as H0.
  cbn [repair_loop_noted] in H. cbn [loop_stop_noted raised snd]. cbn [snd] in H. destruct (N.leb_spec k i) as [K|K]; cbn [orb].
  - destruct (loop_journal rc v hp d p B total D1 _ _ _ _ _ _ _ _ S1 G H0) as (e & hi & E1 & E2 & E3 & E4).
    exists j, R, t, [], e, hi. replace (seq + (ps_so_far t - ps_so_far t)) with seq by lia. split; [reflexivity|]. split; [apply grown_nil|]. split; [split; assumption|]. split; [lia|]. split; [exact G|].
    cbv zeta. split; [lia|]. split; [apply numbered_nil|]. split; [exact E3|]. split; [exact E4|]. left. lia.
  - destruct (N.leb_spec total (ps_so_far t)) as [L|L].
    + apply ROk_inj in H. injection H as <- <- <-. exists j, R, t, [], [], (seq - rr_index R). replace (seq + (ps_so_far t - ps_so_far t)) with seq by lia.
      split; [reflexivity|]. split; [apply grown_nil|]. split; [apply grown_nil|]. split; [lia|]. split; [exact G|]. cbv zeta. split; [lia|]. split; [apply numbered_nil|]. split; [lia|]. split; [apply numbered_nil|auto].
    + destruct (repair_step_noted _ _ _ _ _ _ _ _ _) as [[[ja Ra] ta]| |] eqn:S; cbn [rbind] in H |- *; try discriminate. pose proof (step_grown _ _ _ _ _ _ _ _ _ S) as (_ & N1 & _).
      apply (step_journal rc v hp d p B D1) in S as (GG & ea & A1 & A2 & A3); [|exact S1|exact G]. pose proof (set_forward _ _ _ _ _ _ D1 S1 G GG) as LE. destruct (seq =? _).
      * apply ROk_inj in H. injection H as <- <- <-. exists ja, Ra, ta, ea, [], (seq + 1 - rr_index Ra). replace (seq + (ps_so_far ta - ps_so_far t)) with (seq + 1) by lia.
        split; [reflexivity|]. split; [split; assumption|]. split; [apply grown_nil|]. split; [lia|]. split; [exact GG|]. cbv zeta. split; [exact LE|]. split; [exact A3|]. split; [lia|]. split; [apply numbered_nil|auto].
      * destruct (IH (i + 1) (seq + 1) ja Ra ta j' R' t' ltac:(lia) GG ltac:(lia) ltac:(lia) H) as (j1 & R1 & t1 & e1 & e2 & hi & E & G1 & G2 & N2 & GM & B1 & B2 & B3 & B4 & B5).
        replace (seq + 1 + (ps_so_far t1 - ps_so_far ta)) with (seq + (ps_so_far t1 - ps_so_far t)) in * by lia.
        exists j1, R1, t1, (ea ++ e1), e2, hi. split; [exact E|]. split; [exact (grown_app _ _ _ _ _ (conj A1 A2) G1)|]. split; [exact G2|]. split; [lia|]. split; [exact GM|]. cbv zeta.
        split; [lia|]. split; [exact (numbered_app v d p B D1 _ _ _ _ _ LE B1 A3 B2)|]. auto.
Qed.

Lemma metas_in hp : forall l x x', rfold (repair_meta_step_noted false hp) l x = ROk x' ->
  let '(j, _, _, _) := x in let '(j', _, _, _) := x' in exists e, grown j j' e /\ forall q b, In (q, b) e -> In q l.
Proof.
  induction l as [|q l IH]; intros x x' H; cbn [rfold] in H.
  - apply ROk_inj in H. subst x'. destruct x as [[[j ref] buf] t]. exists []. split; [apply grown_nil|intros ? ? []].
  - destruct (repair_meta_step_noted false hp x q) as [y| |] eqn:S; cbn [rbind] in H; try discriminate. specialize (IH _ _ H).
    destruct x as [[[j ref] buf] t], y as [[[j1 r1] b1] t1], x' as [[[j' ref'] buf'] t']. destruct IH as (e' & G' & I').
    assert (K : exists e, grown j j1 e /\ forall q' b, In (q', b) e -> q' = q).
    { unfold repair_meta_step_noted in S. cbv zeta in S. destruct (if _ <? _ then _ else _) as [[]| |]; cbn [rbind] in S; try discriminate.
      - destruct (unwrap _) as [[r2 b2]| |]; cbn [rbind] in S; try discriminate. apply ROk_inj in S. injection S as <- _ _ _. eexists [_]. split; [split; reflexivity|].
        intros q' b [I|[]]. apply pair_inj in I as [<- _]. reflexivity.
      - apply ROk_inj in S. injection S as <- _ _ _. exists []. split; [apply grown_nil|intros ? ? []]. }
    destruct K as (e & G & I). exists (e ++ e'). split; [exact (grown_app _ _ _ _ _ G G')|]. intros q' b J. apply in_app_iff in J as [J|J]; [left; symmetry; exact (I _ _ J)|right; exact (I' _ _ J)].
Qed.
Lemma NoDup_disjoint {A} (a b : list A) x : NoDup (a ++ b) -> In x a -> In x b -> False.
Proof.
  induction a as [|y l IH]; intros ND I I'; [destruct I|]. cbn [app] in ND. inversion ND as [|? ? NI ND']; subst.
  destruct I as [->|I]; [apply NI, in_app_iff; right; exact I'|exact (IH ND' I I')].
Qed.

(* the places of the copies of the metadata and of the data *)
Definition copy_at (v : version) (B j q : N) : Prop := q = j * (1 + B) * ver_to_block_size v.
Definition data_at (v : version) (d p B s q : N) : Prop := q = calc_data_block_write_index s None (Some (d, p, B)) * ver_to_block_size v.
(* what a stopped run has written, and what it has not *)
Lemma stop_split k rc burst f t w js pos ref d p B : get_ref_block f None None false (MustBe TMeta) = ROk (Some (pos, ref)) ->
  get_data_par_burst f burst None false ref = ROk (Some (d, p, B)) -> dpb_ok (Some (d, p, B)) ->
  repair_file_noted rc false burst f = ROk (Some (t, (w, js))) ->
  exists t1 a b, repair_file_stop (Some k) rc false burst f = ROk (Some (t1, writes a f)) /\ js = a ++ b /\
    let v := b_version ref in let done := (k - (1 + p)) / (d + p) * (d + p) in
    (forall q x, In (q, x) a -> (exists j, j < k /\ j <= p /\ copy_at v B j q) \/ (exists s, 1 <= s <= done /\ data_at v d p B s q)) /\
    (forall q x, In (q, x) b -> (exists j, k <= j /\ j <= p /\ copy_at v B j q) \/ (exists s, 1 <= s /\ done < s /\ data_at v d p B s q)).
Proof.
  intros G D HO N0. pose proof HO as (D1 & P1 & DP). unfold repair_file_noted in N0. unfold repair_file_stop. rewrite G in *. cbn [rbind] in *.
  destruct (negb _) eqn:NR in N0; [discriminate|]. rewrite NR. rewrite D in *. cbn [rbind] in *.
  destruct (sync_to_buffer _ _ _) as [[ref1 buf]| |] eqn:SB; cbn [unwrap rbind] in N0; try discriminate. cbn [unwrap rbind]. apply to_buffer_version in SB.
  set (t0 := match get_FSZ ref with Some _ => _ | None => _ end) in *. set (hp := header_pred_same_ver_uid ref) in *.
  destruct (meta_positions (b_version ref) (Some (d, p, B))) as (LP & ND & _). pose proof (meta_places (b_version ref) (Some (d, p, B))) as MP. cbn [places] in MP. rewrite map_map in MP.
  set (pl := calc_meta_block_all_write_pos_s _ _) in *. clearbody pl. change (lenN pl = 1 + p) in LP.
  rewrite <- (take_drop k pl), rfold_app in N0.
  assert (MS : rfold (repair_meta_step false hp) (takeN k pl) (f, ref1, buf, no_pstats) = rmap plain4 (rfold (repair_meta_step_noted false hp) (takeN k pl) ((f, []), ref1, buf, no_pstats))).
  { symmetry. apply (rfold_same plain4). intros. apply meta_step_same. }
  match goal with |- context [rfold (repair_meta_step false hp) (takeN k pl) ?x] => change (rfold (repair_meta_step false hp) (takeN k pl) x) with (rfold (repair_meta_step false hp) (takeN k pl) (f, ref1, buf, no_pstats)) end.
  rewrite MS. clear MS. destruct (rfold _ (takeN k pl) _) as [[[[ja ra] ba] ta]| |] eqn:FA in N0 |- *; cbn [rbind] in N0; try discriminate. cbn [rmap rbind plain4].
  destruct (rfold _ (dropN k pl) _) as [[[[jb rb] bb] tb]| |] eqn:FB in N0; cbn [rbind] in N0; try discriminate.
  destruct (repair_loop_noted _ _ _ _ _ _ _ _ _ _ _) as [[[jc Rc] tc]| |] eqn:LL in N0; cbn [rbind] in N0; try discriminate. apply ROk_inj in N0. injection N0 as -> ->.
  pose proof (metas_grown _ _ _ _ FA) as (_ & NA & _). rewrite lenN_take in NA. change (ps_so_far no_pstats) with 0 in NA.
  assert (TK : forall x, In x (takeN k pl) <-> exists j, j < k /\ j <= p /\ copy_at (b_version ref) B j x).
  { intro x. rewrite MP, map_range_take, in_map_iff. split; [intros (j & <- & J); apply In_rangeN in J; exists j; split; [lia|]; split; [lia|reflexivity]|].
    intros (j & J1 & J2 & ->). exists j. split; [reflexivity|apply In_rangeN; lia]. }
  assert (DR : forall x, In x (dropN k pl) -> exists j, k <= j /\ j <= p /\ copy_at (b_version ref) B j x).
  { intros x I. assert (IP : In x pl) by (rewrite <- (take_drop k pl); apply in_app_iff; right; exact I). rewrite MP in IP. apply in_map_iff in IP as (j & E & J). apply In_rangeN in J.
    exists j. split; [|split; [lia|symmetry; exact E]]. destruct (N.le_gt_cases k j) as [L|L]; [exact L|]. exfalso. rewrite <- (take_drop k pl) in ND.
    apply (NoDup_disjoint _ _ x ND); [apply TK; exists j; split; [exact L|split; [lia|symmetry; exact E]]|exact I]. }
  apply metas_in in FA as (ea & Ga & IA).
  assert (GR : going (b_version ref) d p SBX_FIRST_DATA_SEQ_NUM (repairer_new ref d p)).
  { split; [|split; [apply lenN_rep|reflexivity]]. cbn [rr_index repairer_new]. change (SBX_FIRST_DATA_SEQ_NUM - 1) with 0. rewrite N.mod_0_l by lia. reflexivity. }
  assert (PS : forall lo hi e q x, numbered (b_version ref) d p B lo hi e -> In (q, x) e -> exists s, lo <= s < hi /\ data_at (b_version ref) d p B s q).
  { intros lo hi e q x (ss & C3 & _ & C5 & _) I. apply (in_map fst) in I. rewrite C3 in I. apply in_map_iff in I as (s & Q & I). cbn [fst] in Q. exists s. split; [exact (C5 s I)|symmetry; exact Q]. }
  assert (O1 : 1 <= SBX_FIRST_DATA_SEQ_NUM) by (unfold SBX_FIRST_DATA_SEQ_NUM; lia).
  destruct (N.lt_ge_cases k (lenN pl)) as [K|K].
  - (* stopped in the first loop *)
    apply metas_in in FB as (eb & Gb & IB).
    assert (RA : repair_loop_stop (Some k) (lenN pl) (S (N.to_nat (t0 - ps_so_far ta))) rc false (b_version ref) hp d p B t0 SBX_FIRST_DATA_SEQ_NUM (fst ja, repairer_new ref d p, ta) = ROk (fst ja, repairer_new ref d p, ta)).
    { cbn [repair_loop_stop raised]. destruct (N.leb_spec k (lenN pl)); [reflexivity|lia]. }
    rewrite RA. cbn [rbind]. clear RA.
    destruct (loop_journal rc (b_version ref) hp d p B t0 D1 _ _ _ _ _ _ _ _ O1 GR LL) as (ec & hi & C1 & C2 & C3 & C4).
    pose proof (grown_app _ _ _ _ _ Ga (grown_app _ _ _ _ _ Gb (conj C1 C2))) as (J & _). cbn [fst snd List.app] in J. destruct Ga as (_ & Wa). cbn [fst] in Wa.
    exists ta, ea, (eb ++ ec). split; [rewrite Wa; reflexivity|]. split; [exact J|]. cbv zeta. replace (k - (1 + p)) with 0 by lia. rewrite N.div_0_l, N.mul_0_l by lia. split.
    + intros q x I. left. apply TK, (IA _ _ I).
    + intros q x I. apply in_app_iff in I as [I|I]; [left; apply DR, (IB _ _ I)|]. right. destruct (PS _ _ _ _ _ C4 I) as (s & S1 & S2). exists s. cbn [rr_index repairer_new] in S1. unfold SBX_FIRST_DATA_SEQ_NUM in S1. split; [lia|]. split; [lia|exact S2].
  - (* stopped in the second loop *)
    assert (DE : dropN k pl = []) by (apply lenN_0; rewrite lenN_drop; lia).
    rewrite DE in FB. cbn [rfold] in FB. apply ROk_inj in FB. injection FB as <- _ _ <-.
    assert (EI : lenN pl = ps_so_far ta) by lia.
    destruct (loop_stopped_nums k rc (b_version ref) hp d p B t0 D1 _ (lenN pl) _ _ _ _ _ _ _ O1 GR EI K LL) as (j1 & R1 & t1 & e1 & e2 & hi & E & G1 & G2 & NN & GM & B1 & B2 & B3 & B4 & B5).
    assert (LS := loop_stop_same (Some k) (S (N.to_nat (t0 - ps_so_far ta))) rc false (b_version ref) hp d p B t0 (lenN pl) SBX_FIRST_DATA_SEQ_NUM (ja, repairer_new ref d p, ta)).
    rewrite E in LS. cbn [rmap plain3] in LS. rewrite <- LS. cbn [rbind]. clear LS.
    pose proof (grown_app _ _ _ _ _ Ga G1) as Ga1. pose proof (grown_app _ _ _ _ _ Ga1 G2) as (J & _). cbn [fst snd List.app] in J. destruct Ga1 as (_ & Wa). cbn [fst] in Wa.
    exists t1, (ea ++ e1), e2. split; [rewrite Wa; reflexivity|]. split; [exact J|]. cbv zeta.
    cbn [rr_index repairer_new] in B1, B2. change SBX_FIRST_DATA_SEQ_NUM with 1 in *. destruct GM as (GM & _). set (q1 := ps_so_far t1 - ps_so_far ta) in *.
    assert (MID : 1 + q1 - rr_index R1 = 1 + q1 / (d + p) * (d + p)).
    { replace (1 + q1 - 1) with q1 in GM by lia. rewrite GM. pose proof (N.div_mod' q1 (d + p)) as DM. rewrite (N.mul_comm (d + p)) in DM. clear - DM. revert DM. generalize (q1 / (d + p) * (d + p)) (q1 mod (d + p)). clearbody q1. intros. lia. }
    rewrite MID in *. assert (LE : q1 / (d + p) * (d + p) <= (k - (1 + p)) / (d + p) * (d + p)).
    { apply N.mul_le_mono_r, N.div_le_mono; [lia|]. unfold q1. lia. }
    split.
    + intros q x I. apply in_app_iff in I as [I|I]; [left; apply TK, (IA _ _ I)|]. right. destruct (PS _ _ _ _ _ B2 I) as (s & S1 & S2). exists s. split; [|exact S2]. clear - S1 LE. revert S1 LE.
      generalize (q1 / (d + p) * (d + p)) ((k - (1 + p)) / (d + p) * (d + p)). intros. lia.
    + intros q x I. right. destruct B5 as [B5|B5]; [|rewrite B5 in I; destruct I]. destruct (PS _ _ _ _ _ B4 I) as (s & S1 & S2). exists s.
      assert (QE : k - (1 + p) = q1) by (unfold q1; clear - B5 EI LP; lia). rewrite QE. clear - S1 S2. revert S1. generalize (q1 / (d + p) * (d + p)). intros m S1. split; [lia|]. split; [lia|exact S2].
Qed.

(* the place where a write goes *)
Lemma writes_not v e i f : (forall q x, In (q, x) e -> exists a, q = a * ver_to_block_size v /\ a <> i) -> (forall q x, In (q, x) e -> lenN x <= ver_to_block_size v) -> same_block v f (writes e f) i.
Proof.
  intros H L y D. apply (writes_other (ver_to_block_size v)); [pose proof (block_size_pos v); lia|]. intros q x I. split; [|exact (L _ _ I)]. rewrite D. exact (H _ _ I).
Qed.
