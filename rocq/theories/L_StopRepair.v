(* Lemmas for C73: repair stopped with Ctrl-C. *)
From Coq Require Import String Ascii.
From Verif Require Import M_Base M_Specs M_Header M_Multihash M_Metadata M_Block M_Index M_FileUtils M_Buffer M_Ranges M_Encode M_Scan M_Loop M_Decode M_Repair M_Path M_Cli M_RepairCut M_Stop M_StopRepair
  S_Block S_Index S_Container S_Scan S_Decode S_Encode S_Repair S_Cut S_StopRepair
  L_Base L_File L_Index L_Block L_RepairCut.
Ltac Zify.zify_post_hook ::= idtac.

Lemma counts_refl t : counts_le t t.
Proof. unfold counts_le. lia. Qed.
Lemma counts_trans t1 t2 t3 : counts_le t1 t2 -> counts_le t2 t3 -> counts_le t1 t3.
Proof. unfold counts_le. lia. Qed.
Definition grown (j j' : noted) (e : journal) : Prop := snd j' = snd j ++ e /\ fst j' = writes e (fst j).
Lemma grown_nil j : grown j j [].
Proof. split; [symmetry; apply app_nil_r|reflexivity]. Qed.
Lemma grown_app j1 j2 j3 e e' : grown j1 j2 e -> grown j2 j3 e' -> grown j1 j3 (e ++ e').
Proof. intros (A & B) (C & D). split; [rewrite C, A, app_assoc; reflexivity|rewrite D, B, writes_app; reflexivity]. Qed.

Lemma meta_grown hp x q x' : repair_meta_step_noted false hp x q = ROk x' ->
  let '(j, _, _, t) := x in let '(j', _, _, t') := x' in (exists e, grown j j' e) /\ ps_so_far t' = ps_so_far t + 1 /\ counts_le t t'.
Proof.
  destruct x as [[[j ref] buf] t], x' as [[[j' ref'] buf'] t']. unfold repair_meta_step_noted. cbv zeta.
  destruct (if _ <? _ then _ else _) as [[]| |]; cbn [rbind]; try discriminate.
  - destruct (unwrap _) as [[r1 b2]| |]; cbn [rbind]; try discriminate. intro H. apply ROk_inj in H. injection H as <- _ _ <-. split; [|unfold ps_so_far, counts_le; cbn; lia].
    eexists [_]. split; reflexivity.
  - intro H. apply ROk_inj in H. injection H as <- _ _ <-. split; [exists []; apply grown_nil|unfold ps_so_far, counts_le; cbn; lia].
Qed.
Lemma metas_grown hp : forall l x x', rfold (repair_meta_step_noted false hp) l x = ROk x' ->
  let '(j, _, _, t) := x in let '(j', _, _, t') := x' in (exists e, grown j j' e) /\ ps_so_far t' = ps_so_far t + lenN l /\ counts_le t t'.
Proof.
  induction l as [|q l IH]; intros x x' H; cbn [rfold] in H.
  - apply ROk_inj in H. subst x'. destruct x as [[[j ref] buf] t]. split; [exists []; apply grown_nil|]. split; [change (lenN (@nil N)) with 0; lia|apply counts_refl].
  - destruct (repair_meta_step_noted false hp x q) as [y| |] eqn:S; cbn [rbind] in H; try discriminate. apply meta_grown in S. specialize (IH _ _ H).
    destruct x as [[[j ref] buf] t], y as [[[j1 r1] b1] t1], x' as [[[j' ref'] buf'] t']. destruct S as ((e & G) & N1 & C1), IH as ((e' & G') & N2 & C2).
    split; [exists (e ++ e'); exact (grown_app _ _ _ _ _ G G')|]. split; [rewrite N2, N1, lenN_cons; lia|exact (counts_trans _ _ _ C1 C2)].
Qed.
Lemma rfold_app {A S} (h : S -> A -> result S) l2 : forall l1 x, rfold h (l1 ++ l2) x = rbind (rfold h l1 x) (rfold h l2).
Proof. induction l1 as [|a l1 IH]; intro x; [reflexivity|]. cbn [app rfold]. destruct (h x a); cbn [rbind]; [apply IH|reflexivity|reflexivity]. Qed.

Lemma codec_counts v hp seq dt R t R1 t1 : update_codec v hp seq dt R t = ROk (R1, t1) -> ps_so_far t1 = ps_so_far t + 1 /\ counts_le t t1.
Proof.
  unfold update_codec. destruct (getN _ _); [|discriminate]. destruct (_ <? _).
  - intro H. apply ROk_inj, pair_inj in H as [_ <-]. unfold ps_so_far, counts_le; cbn; lia.
  - destruct (sync_from_buffer _ _ _ _) as [b| |]; try discriminate; [destruct (negb _)|]; intro H; apply ROk_inj, pair_inj in H as [_ <-]; try destruct (is_meta b); unfold ps_so_far, counts_le; cbn; lia.
Qed.
Lemma step_grown rc v hp d p B seq x x' : repair_step_noted rc false v hp d p B seq x = ROk x' ->
  let '(j, _, t) := x in let '(j', _, t') := x' in (exists e, grown j j' e) /\ ps_so_far t' = ps_so_far t + 1 /\ counts_le t t'.
Proof.
  destruct x as [[j R] t], x' as [[j' R'] t']. unfold repair_step_noted. destruct (rassert _); cbn [rbind]; try discriminate.
  destruct (update_codec _ _ _ _ _ _) as [[R1 t1]| |] eqn:U; cbn [rbind]; try discriminate. apply codec_counts in U as (U1 & U2).
  destruct (rr_index R1 =? d + p).
  - unfold repair_set_noted. destruct (repair_with_block_sync _ _ _ _ _ _) as [[[[ok ms] bl] R2]| |]; cbn [rbind]; try discriminate.
    intro H. apply ROk_inj in H. injection H as <- _ <-. rewrite fold_note. split; [exists bl; split; reflexivity|].
    destruct ok; unfold ps_so_far, counts_le in *; cbn; lia.
  - intro H. apply ROk_inj in H. injection H as <- _ <-. split; [exists []; apply grown_nil|]. split; assumption.
Qed.

(* repair_loop_stop with the writes noted down *)
Fixpoint loop_stop_noted (stop : flag) (i : N) (fuel : nat) (rc : recon) (dry : bool) (v : version) (hp : header -> bool) (d p B total seq : N)
    (x : noted * repairer * pstats) : result (noted * repairer * pstats) :=
  match fuel with
  | O => RErr OtherError
  | S fuel' =>
      if raised stop i || (total <=? ps_so_far (snd x)) then ROk x
      else do! x' <- repair_step_noted rc dry v hp d p B seq x;
           if seq =? SBX_LAST_SEQ_NUM then ROk x' else loop_stop_noted stop (i + 1) fuel' rc dry v hp d p B total (seq + 1) x'
  end.
Lemma loop_stop_same stop fuel rc dry v hp d p B total : forall i seq x,
  rmap plain3 (loop_stop_noted stop i fuel rc dry v hp d p B total seq x) = repair_loop_stop stop i fuel rc dry v hp d p B total seq (plain3 x).
Proof.
  induction fuel as [|fuel IH]; intros i seq x; [reflexivity|]. cbn [loop_stop_noted repair_loop_stop]. replace (snd (plain3 x)) with (snd x) by (destruct x as [[? ?] ?]; reflexivity).
  destruct (raised stop i || _)%bool; [reflexivity|]. rewrite <- step_same. destruct (repair_step_noted _ _ _ _ _ _ _ _ _); cbn [rbind rmap]; try reflexivity. destruct (seq =? _); [reflexivity|apply IH].
Qed.
Lemma loop_never_stopped fuel rc dry v hp d p B total : forall i seq x, repair_loop_stop None i fuel rc dry v hp d p B total seq x = repair_loop fuel rc dry v hp d p B total seq x.
Proof.
  induction fuel as [|fuel IH]; intros i seq x; [reflexivity|]. cbn [repair_loop_stop repair_loop raised orb]. destruct (total <=? _); [reflexivity|].
  destruct (repair_step _ _ _ _ _ _ _ _ _); cbn [rbind]; try reflexivity. destruct (seq =? _); [reflexivity|apply IH].
Qed.
Lemma loop_grown rc v hp d p B total : forall fuel seq x x', repair_loop_noted fuel rc false v hp d p B total seq x = ROk x' ->
  let '(j, _, t) := x in let '(j', _, t') := x' in (exists e, grown j j' e) /\ ps_so_far t <= ps_so_far t' /\ counts_le t t'.
Proof.
  induction fuel as [|fuel IH]; intros seq x x' H; [discriminate|]. cbn [repair_loop_noted] in H. destruct (total <=? _).
  - apply ROk_inj in H. subst x'. destruct x as [[j R] t]. split; [exists []; apply grown_nil|]. split; [lia|apply counts_refl].
  - destruct (repair_step_noted _ _ _ _ _ _ _ _ _) as [y| |] eqn:S; cbn [rbind] in H; try discriminate. apply step_grown in S. destruct (seq =? _).
    + apply ROk_inj in H. subst x'. destruct x as [[j R] t], y as [[j1 R1] t1]. destruct S as (G & N1 & C1). split; [exact G|]. split; [lia|exact C1].
    + specialize (IH _ _ _ H). destruct x as [[j R] t], y as [[j1 R1] t1], x' as [[j' R'] t']. destruct S as ((e & G) & N1 & C1), IH as ((e' & G') & N2 & C2).
      split; [exists (e ++ e'); exact (grown_app _ _ _ _ _ G G')|]. split; [lia|exact (counts_trans _ _ _ C1 C2)].
Qed.
Lemma loop_stopped k rc v hp d p B total : forall fuel i seq j R t j' R' t', i = ps_so_far t -> i <= k -> repair_loop_noted fuel rc false v hp d p B total seq (j, R, t) = ROk (j', R', t') ->
  exists j1 R1 t1 e1 e2, loop_stop_noted (Some k) i fuel rc false v hp d p B total seq (j, R, t) = ROk (j1, R1, t1) /\
    grown j j1 e1 /\ grown j1 j' e2 /\ ps_so_far t1 = N.min k (ps_so_far t') /\ counts_le t1 t' /\ (ps_so_far t' <= k -> j1 = j' /\ t1 = t').
Proof.
  induction fuel as [|fuel IH]; intros i seq j R t j' R' t' EI IK H; [discriminate|]. pose proof (loop_grown _ _ _ _ _ _ _ _ _ _ _ H) as ((e & G) & N0 & C0).
  cbn [repair_loop_noted] in H. cbn [loop_stop_noted raised snd]. cbn [snd] in H. destruct (N.leb_spec k i) as [K|K]; cbn [orb].
  - exists j, R, t, [], e. split; [reflexivity|]. split; [apply grown_nil|]. split; [exact G|]. split; [lia|]. split; [exact C0|]. intro Q.
    destruct (N.leb_spec total (ps_so_far t)) as [L|L].
    + apply ROk_inj in H. injection H as <- _ <-. auto.
    + exfalso. destruct (repair_step_noted _ _ _ _ _ _ _ _ _) as [y| |] eqn:S; cbn [rbind] in H; try discriminate. apply step_grown in S. destruct y as [[j1 R1] t1]. destruct S as (_ & N1 & _).
      destruct (seq =? _); [apply ROk_inj in H; injection H as _ _ <-; lia|]. apply loop_grown in H as (_ & N2 & _). lia.
  - destruct (N.leb_spec total (ps_so_far t)) as [L|L].
    + apply ROk_inj in H. injection H as <- <- <-. exists j, R, t, [], []. split; [reflexivity|]. split; [apply grown_nil|]. split; [apply grown_nil|]. split; [lia|]. split; [apply counts_refl|auto].
    + destruct (repair_step_noted _ _ _ _ _ _ _ _ _) as [[[ja Ra] ta]| |] eqn:S; cbn [rbind] in H |- *; try discriminate. apply step_grown in S as ((ea & Ga) & N1 & C1). destruct (seq =? _).
      * apply ROk_inj in H. injection H as <- <- <-. exists ja, Ra, ta, ea, []. split; [reflexivity|]. split; [exact Ga|]. split; [apply grown_nil|]. split; [lia|]. split; [apply counts_refl|auto].
      * destruct (IH (i + 1) (seq + 1) ja Ra ta j' R' t' ltac:(lia) ltac:(lia) H) as (j1 & R1 & t1 & e1 & e2 & E & G1 & G2 & N2 & C2 & Q).
        exists j1, R1, t1, (ea ++ e1), e2. split; [exact E|]. split; [exact (grown_app _ _ _ _ _ Ga G1)|]. auto.
Qed.

(* a run that has made the first of the writes: each block is as before or as at the end *)
Lemma blockwise_app bs a b : blockwise bs (a ++ b) -> blockwise bs a /\ forall q d q' d', In (q, d) a -> In (q', d') b -> q <> q'.
Proof.
  intros (ND & BL). rewrite map_app in ND. split.
  - split; [|intros q d I; apply BL, in_app_iff; left; exact I]. revert ND. generalize (map fst b). intro l2. induction (map fst a) as [|y l IH]; intro ND; [constructor|]. cbn [app] in ND.
    inversion ND as [|? ? NI ND']; subst. constructor; [intro I; apply NI, in_app_iff; left; exact I|exact (IH ND')].
  - intros q d q' d' I I' EQ. subst q'. apply (in_map fst) in I, I'. cbn [fst] in I, I'. revert ND I I'. generalize (map fst b). intro l2. induction (map fst a) as [|y l IH]; intros ND I I'; [destruct I|]. cbn [app] in ND.
    inversion ND as [|? ? NI ND']; subst. destruct I as [->|I]; [apply NI, in_app_iff; right; exact I'|exact (IH ND' I I')].
Qed.
Lemma writes_prefix v a b f : blockwise (ver_to_block_size v) (a ++ b) ->
  lenN f <= lenN (writes a f) <= lenN (writes (a ++ b) f) /\ forall i, same_block v f (writes a f) i \/ same_block v (writes (a ++ b) f) (writes a f) i.
Proof.
  intro BW. set (bs := ver_to_block_size v) in *. assert (BP : 1 <= bs) by (pose proof (block_size_pos v); unfold bs; lia). rewrite writes_app. split; [split; apply (writes_len bs BP)|]. intro i.
  destruct (blockwise_app _ _ _ BW) as (_ & DJ). destruct BW as (_ & BL).
  destruct (existsb (fun x => fst x =? i * bs) a) eqn:X.
  - apply existsb_exists in X as ([q d] & I & Q). cbn [fst] in Q. apply N.eqb_eq in Q. right. intros x D. symmetry. apply (writes_other bs BP).
    intros q' d' I'. destruct (BL q' d' ltac:(apply in_app_iff; right; exact I')) as ((a' & ->) & L). split; [|exact L]. exists a'. split; [reflexivity|]. intros ->. fold bs in D. rewrite D in I'. exact (DJ _ _ _ _ I I' Q).
  - left. intros x D. apply (writes_other bs BP). intros q d I. destruct (BL q d ltac:(apply in_app_iff; left; exact I)) as ((a' & ->) & L). split; [|exact L]. exists a'. split; [reflexivity|]. intros ->. fold bs in D. rewrite D in I.
    assert (C : existsb (fun x => fst x =? i * bs) a = true) by (apply existsb_exists; eexists; split; [exact I|]; cbn; apply N.eqb_refl). congruence.
Qed.
