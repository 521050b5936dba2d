(* A run of repair cut short leaves bytes of the file before it and of the file after it. *)
From Coq Require Import String Ascii.
From Verif Require Import M_Base M_Specs M_Crc M_Header M_Multihash M_Metadata M_Block M_Index M_FileUtils M_Buffer M_Ranges M_Encode M_Scan M_Loop M_Decode M_Repair M_Path M_Cli M_RepairCut
  S_Crc S_Meta S_Block S_Index S_Container S_Scan S_Decode S_Encode S_Repair
  L_Base L_Crc L_File L_Index L_Index2 L_Buffer L_Repair L_Repair2 L_Repair3.
Ltac Zify.zify_post_hook ::= idtac.

(* ---- without the notes it is the same run ---- *)
Definition rmap {A C} (g : A -> C) (r : result A) : result C := match r with ROk x => ROk (g x) | RErr e => RErr e | RPanic => RPanic end.
Definition plain4 (x : noted * block * list N * pstats) : file * block * list N * pstats := let '(j, r, b, t) := x in (fst j, r, b, t).
Definition plain3 (x : noted * repairer * pstats) : file * repairer * pstats := let '(j, R, t) := x in (fst j, R, t).

Lemma meta_step_same dry hp x p : rmap plain4 (repair_meta_step_noted dry hp x p) = repair_meta_step dry hp (plain4 x) p.
Proof.
  destruct x as [[[j ref] buf] t]. unfold repair_meta_step_noted, repair_meta_step, plain4. destruct (if _ <? _ then _ else _) as [[]| |]; cbn [rbind rmap]; try reflexivity.
  destruct (unwrap _) as [[r1 b2]| |]; cbn [rbind rmap]; try reflexivity. destruct dry; reflexivity.
Qed.
Lemma rfold_same {A S T} (g : S -> T) (h : S -> A -> result S) (h' : T -> A -> result T) : (forall x a, rmap g (h x a) = h' (g x) a) ->
  forall l x, rmap g (rfold h l x) = rfold h' l (g x).
Proof.
  intros H l. induction l as [|a l IH]; intro x; [reflexivity|]. cbn [rfold]. rewrite <- H. destruct (h x a); cbn [rmap rbind]; [apply IH|reflexivity|reflexivity].
Qed.
Lemma fold_note blocks : forall j, fold_left (fun j b => note_write j (fst b) (snd b)) blocks j = (fold_left (fun w b => file_write w (fst b) (snd b)) blocks (fst j), snd j ++ blocks).
Proof.
  induction blocks as [|[p d] l IH]; intro j; cbn [fold_left]; [rewrite app_nil_r; destruct j; reflexivity|]. rewrite IH. unfold note_write. cbn [fst snd]. rewrite <- app_assoc. reflexivity.
Qed.
Lemma step_same rc dry v hp d p B seq x : rmap plain3 (repair_step_noted rc dry v hp d p B seq x) = repair_step rc dry v hp d p B seq (plain3 x).
Proof.
  destruct x as [[j R] t]. unfold repair_step_noted, repair_step, plain3. destruct (rassert _); cbn [rbind rmap]; try reflexivity.
  destruct (update_codec _ _ _ _ _ _) as [[R1 t1]| |]; cbn [rbind rmap]; try reflexivity. destruct (rr_index R1 =? d + p); [|reflexivity].
  unfold repair_set_noted, repair_set. destruct (repair_with_block_sync _ _ _ _ _ _) as [[[[ok ms] bl] R']| |]; cbn [rbind rmap]; try reflexivity.
  destruct dry; [reflexivity|]. rewrite fold_note. reflexivity.
Qed.
Lemma loop_same fuel rc dry v hp d p B total : forall seq x, rmap plain3 (repair_loop_noted fuel rc dry v hp d p B total seq x) = repair_loop fuel rc dry v hp d p B total seq (plain3 x).
Proof.
  induction fuel as [|fuel IH]; intros seq x; [reflexivity|]. cbn [repair_loop_noted repair_loop]. replace (snd (plain3 x)) with (snd x) by (destruct x as [[? ?] ?]; reflexivity).
  destruct (total <=? _); [reflexivity|]. rewrite <- step_same. destruct (repair_step_noted _ _ _ _ _ _ _ _ _); cbn [rbind rmap]; try reflexivity. destruct (seq =? _); [reflexivity|apply IH].
Qed.
Lemma file_same rc dry burst f : rmap (option_map (fun x => (fst x, fst (snd x)))) (repair_file_noted rc dry burst f) = repair_file rc dry burst f.
Proof.
  unfold repair_file_noted, repair_file. destruct (get_ref_block _ _ _ _ _) as [[[pos ref]|]| |]; cbn [rbind rmap]; try reflexivity. destruct (negb _); [reflexivity|].
  destruct (get_data_par_burst _ _ _ _ _) as [[[[d p] B]|]| |]; cbn [rbind rmap]; try reflexivity. destruct (unwrap _) as [[ref1 buf]| |]; cbn [rbind rmap]; try reflexivity.
  set (t0 := match get_FSZ ref with Some _ => _ | None => _ end).
  set (pl := calc_meta_block_all_write_pos_s _ _). set (hp := header_pred_same_ver_uid ref).
  assert (E : rfold (repair_meta_step dry hp) pl (f, ref1, buf, no_pstats) = rmap plain4 (rfold (repair_meta_step_noted dry hp) pl (f, [], ref1, buf, no_pstats))).
  { rewrite (rfold_same plain4 _ _ (meta_step_same dry hp)). reflexivity. }
  rewrite E. clear E. destruct (rfold _ pl _) as [[[[j r] b] t]| |]; cbn [rbind rmap plain4]; try reflexivity.
  set (n := S _). match goal with |- _ = rbind (repair_loop ?a ?b ?c ?e ?g ?h ?i ?k ?l ?q ?x) _ => change x with (plain3 (j, repairer_new ref d p, t)) end.
  rewrite <- loop_same. destruct (repair_loop_noted _ _ _ _ _ _ _ _ _ _ _) as [[[j' R'] t']| |]; reflexivity.
Qed.

Lemma NoDup_app {A} (l1 l2 : list A) : NoDup l1 -> NoDup l2 -> (forall x, In x l1 -> In x l2 -> False) -> NoDup (l1 ++ l2).
Proof.
  intros H1 H2 H. induction H1 as [|x l X _ IH]; [exact H2|]. cbn [app]. constructor; [|apply IH; intros y I; apply H; right; exact I].
  intro I. apply in_app_iff in I as [I|I]; [exact (X I)|]. exact (H x (or_introl eq_refl) I).
Qed.
(* ---- what is written: whole blocks, each place at most once ---- *)
Definition writes (js : journal) (f : file) : file := fold_left (fun w b => file_write w (fst b) (snd b)) js f.
Lemma writes_app a b f : writes (a ++ b) f = writes b (writes a f).
Proof. apply fold_left_app. Qed.
Lemma to_buffer_version b u buf b' buf' : sync_to_buffer b u buf = ROk (b', buf') -> b_version b' = b_version b.
Proof.
  assert (UC : forall x bf y, update_crc x bf = ROk y -> b_version y = b_version x).
  { intros x bf y H. unfold update_crc in H. destruct (calc_crc _ _); try discriminate. apply ROk_inj in H. subst y. reflexivity. }
  unfold sync_to_buffer. destruct (_ <? _); [discriminate|]. destruct (match b_data b with DMeta _ => _ | DData => _ end) as [b1| |]; try discriminate.
  destruct (block_type_of b); [destruct u as [[]|]|]; try destruct (update_crc b b1) as [x| |] eqn:E; try discriminate; intro H; apply ROk_inj, pair_inj in H as [<- _]; try reflexivity; exact (UC _ _ _ E).
Qed.
Lemma meta_journal hp bs : forall l j ref buf t j' ref' buf' t', ver_to_block_size (b_version ref) = bs ->
  rfold (repair_meta_step_noted false hp) l (j, ref, buf, t) = ROk (j', ref', buf', t') -> NoDup l ->
  exists e, snd j' = snd j ++ e /\ fst j' = writes e (fst j) /\ NoDup (map fst e) /\ (forall p d, In (p, d) e -> In p l /\ lenN d <= bs).
Proof.
  induction l as [|p l IH]; intros j ref buf t j' ref' buf' t' V H ND; cbn [rfold] in H.
  - apply ROk_inj in H. injection H as <- _ _ _. exists []. rewrite app_nil_r. split; [reflexivity|]. split; [reflexivity|]. split; [constructor|intros ? ? []].
  - inversion ND as [|? ? NI ND']; subst. destruct (repair_meta_step_noted false hp (j, ref, buf, t) p) as [[[[j1 r1] b1] t1]| |] eqn:S; cbn [rbind] in H; try discriminate.
    assert (K : b_version r1 = b_version ref /\ exists e1, snd j1 = snd j ++ e1 /\ fst j1 = writes e1 (fst j) /\ (e1 = [] \/ exists d, e1 = [(p, d)] /\ lenN d <= ver_to_block_size (b_version ref))).
    { unfold repair_meta_step_noted in S. destruct (if _ <? _ then _ else _) as [[]| |]; cbn [rbind] in S; try discriminate.
      - destruct (sync_to_buffer ref None _) as [[r2 b2]| |] eqn:SB; cbn [unwrap rbind] in S; try discriminate. apply ROk_inj in S. injection S as <- <- _ _.
        split; [exact (to_buffer_version _ _ _ _ _ SB)|]. eexists. split; [reflexivity|]. split; [reflexivity|]. right. eexists. split; [reflexivity|]. rewrite lenN_take. lia.
      - apply ROk_inj in S. injection S as <- <- _ _. split; [reflexivity|]. exists []. rewrite app_nil_r. split; [reflexivity|]. split; [reflexivity|left; reflexivity]. }
    destruct K as (V1 & e1 & A1 & A2 & A3). destruct (IH j1 r1 b1 t1 j' ref' buf' t') as (e & E1 & E2 & E3 & E4); [rewrite V1; reflexivity|exact H|exact ND'|].
    exists (e1 ++ e). split; [rewrite E1, A1, app_assoc; reflexivity|]. split; [rewrite E2, A2, writes_app; reflexivity|].
    destruct A3 as [->|(d & -> & LD)]; cbn [app map fst].
    + split; [exact E3|]. intros q d I. destruct (E4 q d I) as [I1 I2]. split; [right; exact I1|exact I2].
    + split; [constructor; [|exact E3]; intro I; apply in_map_iff in I as ([q d'] & Q & I); cbn [fst] in Q; subst q; apply NI, (E4 _ _ I)|].
      intros q d' [I|I]; [apply pair_inj in I as [<- <-]; split; [left; reflexivity|exact LD]|]. destruct (E4 q d' I) as [I1 I2]. split; [right; exact I1|exact I2].
Qed.

Lemma place_in_set seq k : 1 <= k -> 1 <= seq -> let i := (seq - 1) mod k in
  (seq - 1) / k * k + 1 = seq - i /\ i < seq /\
  (i + 1 = k -> (seq + 1 - 1) mod k = 0 /\ seq - i + k = seq + 1) /\ (i + 1 <> k -> (seq + 1 - 1) mod k = i + 1).
Proof.
  intros K S i. pose proof (N.div_mod' (seq - 1) k) as DM. pose proof (N.mod_lt (seq - 1) k ltac:(lia)) as ML. fold i in DM, ML. set (q := (seq - 1) / k) in *. clearbody q.
  clearbody i. rewrite (N.mul_comm k q) in DM. replace (seq + 1 - 1) with seq by lia. split; [lia|]. split; [lia|]. split.
  - intro E. split; [|lia]. replace seq with ((q + 1) * k) by lia. apply N.mod_mul. lia.
  - intro E. symmetry. apply (N.mod_unique _ _ q); lia.
Qed.
Section Data.
Variables (rc : recon) (v : version) (hp : header -> bool) (d p B total : N).
Let o := Some (d, p, B).
Let bs := ver_to_block_size v.
Let pos s := calc_data_block_write_pos v s None o.
Hypothesis D1 : 1 <= d.

(* the numbers of the blocks written, from lo up to hi *)
Definition numbered (lo hi : N) (e : journal) : Prop :=
  exists ss, map fst e = map pos ss /\ NoDup ss /\ (forall s, In s ss -> lo <= s < hi) /\ forall q b, In (q, b) e -> lenN b <= bs.
Lemma numbered_nil lo hi : numbered lo hi [].
Proof. exists []. split; [reflexivity|]. split; [constructor|]. split; intros; contradiction. Qed.
Lemma numbered_app lo mid hi e1 e2 : lo <= mid -> mid <= hi -> numbered lo mid e1 -> numbered mid hi e2 -> numbered lo hi (e1 ++ e2).
Proof.
  intros LM MH (s1 & A1 & A2 & A3 & A4) (s2 & C1 & C2 & C3 & C4). exists (s1 ++ s2). split; [rewrite !map_app, A1, C1; reflexivity|]. split; [|split].
  - apply NoDup_app; [exact A2|exact C2|]. intros x I1 I2. specialize (A3 _ I1). specialize (C3 _ I2). lia.
  - intros s I. apply in_app_iff in I as [I|I]; [specialize (A3 _ I)|specialize (C3 _ I)]; lia.
  - intros q b I. apply in_app_iff in I as [I|I]; [exact (A4 _ _ I)|exact (C4 _ _ I)].
Qed.
Lemma repaired_numbered first : forall bufs present i, numbered (first + i) (first + i + lenN present) (repaired_blocks v o first i bufs present).
Proof.
  induction bufs as [|x bufs IH]; intros [|pr present] i; cbn [repaired_blocks]; try apply numbered_nil. rewrite lenN_cons.
  apply (numbered_app _ (first + i + 1)); [lia|lia| |].
  - destruct pr; [apply numbered_nil|]. exists [first + i]. split; [reflexivity|]. split; [constructor; [intros []|constructor]|]. split; [intros s [<-|[]]; lia|].
    intros q b [I|[]]. apply pair_inj in I as [_ <-]. rewrite lenN_take. unfold bs. lia.
  - specialize (IH present (i + 1)). replace (first + i + 1) with (first + (i + 1)) by lia. replace (first + i + (1 + lenN present)) with (first + (i + 1) + lenN present) by lia. exact IH.
Qed.
Lemma seal_version : forall bufs present first i r r' bufs', seal_missing first i r bufs present = ROk (r', bufs') -> b_version r' = b_version r.
Proof.
  induction bufs as [|x bufs IH]; intros [|pr present] first i r r' bufs' H; cbn [seal_missing] in H; try (apply ROk_inj, pair_inj in H as [<- _]; reflexivity). destruct pr.
  - destruct (seal_missing _ _ _ _ _) as [[r1 b1]| |] eqn:E; cbn [rbind] in H; try discriminate. apply ROk_inj, pair_inj in H as [<- _]. exact (IH _ _ _ _ _ _ E).
  - destruct (sync_to_buffer _ _ _) as [[r1 b1]| |] eqn:E; cbn [unwrap rbind] in H; try discriminate.
    destruct (seal_missing _ _ r1 _ _) as [[r2 b2]| |] eqn:E2; cbn [rbind] in H; try discriminate. apply ROk_inj, pair_inj in H as [<- _].
    rewrite (IH _ _ _ _ _ _ E2), (to_buffer_version _ _ _ _ _ E). unfold set_seq_num, switch_block_type_to_match_header, switch_block_type. repeat match goal with |- context [match ?y with _ => _ end] => destruct y end; reflexivity.
Qed.
Definition going (seq : N) (R : repairer) : Prop := rr_index R = (seq - 1) mod (d + p) /\ lenN (rr_present R) = d + p /\ b_version (rr_ref R) = v.
Lemma update_going seq dt R t R1 t1 : update_codec v hp seq dt R t = ROk (R1, t1) -> rr_index R1 = rr_index R + 1 /\ lenN (rr_present R1) = lenN (rr_present R) /\ rr_ref R1 = rr_ref R.
Proof.
  unfold update_codec. destruct (getN _ _); [|discriminate]. destruct (_ <? _).
  - intro H. apply ROk_inj, pair_inj in H as [<- _]. cbn. rewrite lenN_setN. auto.
  - destruct (sync_from_buffer _ _ _ _) as [b| |]; try discriminate; [destruct (negb _)|]; intro H; apply ROk_inj, pair_inj in H as [<- _]; cbn; rewrite lenN_setN; auto.
Qed.
Lemma step_journal seq j R t j' R' t' : 1 <= seq -> going seq R -> repair_step_noted rc false v hp d p B seq (j, R, t) = ROk (j', R', t') ->
  going (seq + 1) R' /\ exists e, snd j' = snd j ++ e /\ fst j' = writes e (fst j) /\
    numbered (seq - rr_index R) (seq + 1 - rr_index R') e.
Proof.
  intros S1 (G1 & G2 & G3) H. unfold repair_step_noted in H. destruct (rassert _); cbn [rbind] in H; try discriminate.
  destruct (update_codec _ _ _ _ _ _) as [[R1 t1]| |] eqn:U; cbn [rbind] in H; try discriminate. apply update_going in U as (U1 & U2 & U3).
  destruct (place_in_set seq (d + p) ltac:(lia) S1) as (FS & IL & AL & NL). rewrite <- G1 in FS, IL, AL, NL. rewrite U1 in H.
  destruct (N.eqb_spec (rr_index R + 1) (d + p)) as [EQ|NE].
  - destruct (AL EQ) as [AL1 AL2]. clear AL NL. unfold repair_set_noted in H. destruct (repair_with_block_sync _ _ _ _ _ _) as [[[[ok miss] bl] R2]| |] eqn:Q; cbn [rbind] in H; try discriminate.
    rewrite fold_note in H. apply ROk_inj in H. injection H as <- <- _.
    unfold repair_with_block_sync in Q. destruct (rassert _); cbn [rbind] in Q; try discriminate. destruct (rassert _); cbn [rbind] in Q; try discriminate.
    change SBX_FIRST_DATA_SEQ_NUM with 1 in Q. rewrite FS, U3, G3 in Q.
    assert (GG : forall bufs rf, b_version rf = v -> going (seq + 1) (mkRepairer 0 bufs (rr_present R1) rf)).
    { intros bufs rf V. split; [symmetry; exact AL1|]. split; [cbn [rr_present]; rewrite U2; exact G2|exact V]. }
    destruct (rc _ _ _) as [out|].
    + destruct (seal_missing _ _ _ _ _) as [[r' bufs']| |] eqn:SE; cbn [rbind] in Q; try discriminate. apply ROk_inj in Q. injection Q as _ _ <- <-.
      apply seal_version in SE. split; [apply GG; rewrite SE; exact G3|]. cbn [fst snd rr_index]. eexists. split; [reflexivity|]. split; [reflexivity|].
      pose proof (repaired_numbered (seq - rr_index R) bufs' (rr_present R1) 0) as RN. rewrite U2, G2, N.add_0_r, AL2 in RN. rewrite N.sub_0_r. exact RN.
    + apply ROk_inj in Q. injection Q as _ _ <- <-. split; [apply GG; exact G3|]. cbn [fst snd rr_index]. exists []. split; [reflexivity|]. split; [reflexivity|apply numbered_nil].
  - apply ROk_inj in H. injection H as <- <- _. split.
    + split; [rewrite (NL NE); exact U1|]. split; [rewrite U2; exact G2|rewrite U3; exact G3].
    + exists []. rewrite app_nil_r. split; [reflexivity|]. split; [reflexivity|apply numbered_nil].
Qed.
Lemma loop_journal : forall fuel seq j R t j' R' t', 1 <= seq -> going seq R ->
  repair_loop_noted fuel rc false v hp d p B total seq (j, R, t) = ROk (j', R', t') ->
  exists e hi, snd j' = snd j ++ e /\ fst j' = writes e (fst j) /\ seq - rr_index R <= hi /\ numbered (seq - rr_index R) hi e.
Proof.
  induction fuel as [|fuel IH]; intros seq j R t j' R' t' S1 G H; [discriminate|]. cbn [repair_loop_noted] in H. destruct (total <=? _).
  - apply ROk_inj in H. injection H as <- _ _. exists [], (seq - rr_index R). rewrite app_nil_r. split; [reflexivity|]. split; [reflexivity|]. split; [lia|apply numbered_nil].
  - destruct (repair_step_noted _ _ _ _ _ _ _ _ _) as [[[j1 R1] t1]| |] eqn:S; cbn [rbind] in H; try discriminate. pose proof G as (G1 & _).
    apply step_journal in S as (GG & e1 & A1 & A2 & A3); [|exact S1|exact G].
    assert (LE : seq - rr_index R <= seq + 1 - rr_index R1).
    { destruct GG as (GG & _). assert (DP1 : 1 <= d + p) by (clear - D1; lia). destruct (place_in_set seq (d + p) DP1 S1) as (_ & IL & AL & NL). rewrite <- G1 in IL, AL, NL. rewrite <- GG in AL, NL. clear - IL AL NL.
      destruct (N.eq_dec (rr_index R + 1) (d + p)) as [E|E]; [destruct (AL E) as [E1 _]|pose proof (NL E) as E1]; rewrite E1; lia. }
    destruct (seq =? _).
    + apply ROk_inj in H. injection H as <- _ _. exists e1, (seq + 1 - rr_index R1). auto.
    + destruct (IH (seq + 1) j1 R1 t1 j' R' t') as (e & hi & E1 & E2 & E3 & E4); [lia|exact GG|exact H|].
      exists (e1 ++ e), hi. split; [rewrite E1, A1, app_assoc; reflexivity|]. split; [rewrite E2, A2, writes_app; reflexivity|]. split; [lia|].
      exact (numbered_app _ _ _ _ _ LE E3 A3 E4).
Qed.
End Data.

(* the writes of a whole run *)
Lemma file_journal rc burst f t w js pos ref d p B : get_ref_block f None None false (MustBe TMeta) = ROk (Some (pos, ref)) ->
  get_data_par_burst f burst None false ref = ROk (Some (d, p, B)) -> dpb_ok (Some (d, p, B)) ->
  repair_file_noted rc false burst f = ROk (Some (t, (w, js))) ->
  w = writes js f /\ NoDup (map fst js) /\ forall q b, In (q, b) js -> (exists a, q = a * ver_to_block_size (b_version ref)) /\ lenN b <= ver_to_block_size (b_version ref).
Proof.
  intros RF DB HO H. unfold repair_file_noted in H. rewrite RF in H. cbn [rbind] in H. destruct (negb _); [discriminate|]. rewrite DB in H. cbn [rbind] in H.
  destruct (sync_to_buffer _ _ _) as [[ref1 buf]| |] eqn:SB; cbn [unwrap rbind] in H; try discriminate. apply to_buffer_version in SB.
  destruct (rfold _ _ _) as [[[[j r] b] t1]| |] eqn:RM; cbn [rbind] in H; try discriminate.
  destruct (repair_loop_noted _ _ _ _ _ _ _ _ _ _ _) as [[[j2 R2] t2]| |] eqn:RL; cbn [rbind] in H; try discriminate. apply ROk_inj in H. injection H as _ E. subst j2.
  destruct (meta_positions (b_version ref) (Some (d, p, B))) as (_ & ND & MP).
  apply (meta_journal _ (ver_to_block_size (b_version ref))) in RM as (e1 & A1 & A2 & A3 & A4); [|rewrite SB; reflexivity|exact ND]. cbn [fst snd app] in A1, A2.
  pose proof HO as (D1 & _).
  apply loop_journal in RL as (e2 & hi & C1 & C2 & _ & (ss & C3 & C4 & C5 & C6)); [|exact D1|unfold SBX_FIRST_DATA_SEQ_NUM; lia|].
  2:{ split; [|split; [apply lenN_rep|reflexivity]]. cbn [rr_index repairer_new]. change (SBX_FIRST_DATA_SEQ_NUM - 1) with 0. rewrite N.mod_0_l by lia. reflexivity. }
  cbn [rr_index repairer_new fst snd] in *. rewrite A1 in C1. rewrite A2 in C2. rewrite C1, C2, <- writes_app. split; [reflexivity|].
  pose proof (bs_pos (b_version ref)) as BS.
  assert (S1 : forall s, In s ss -> 1 <= s) by (intros s I; specialize (C5 s I); change SBX_FIRST_DATA_SEQ_NUM with 1 in C5; lia). split.
  - rewrite map_app. apply NoDup_app; [exact A3| |].
    + rewrite C3. clear C1 C2 C3 C5. induction C4 as [|s l X _ IH]; cbn [map]; constructor; [|apply IH; intros y I; apply S1; right; exact I].
      intro I. apply in_map_iff in I as (s' & Q & I). unfold calc_data_block_write_pos in Q. apply N.mul_cancel_r in Q; [|lia].
      apply write_index_inj in Q; [|exact HO|apply S1; right; exact I|apply S1; left; reflexivity]. subst s'. exact (X I).
    + intros x I1 I2. apply in_map_iff in I1 as ([q b1] & Q & I1). cbn [fst] in Q. subst q. apply A4 in I1 as [I1 _]. apply MP in I1 as (i & MI & ->).
      rewrite C3 in I2. apply in_map_iff in I2 as (s & Q & I2). unfold calc_data_block_write_pos in Q. apply N.mul_cancel_r in Q; [|lia].
      apply (write_index_not_meta None (Some (d, p, B)) s HO (S1 s I2)). rewrite Q. exact MI.
  - intros q b1 I. apply in_app_iff in I as [I|I].
    + destruct (A4 _ _ I) as [I1 I2]. split; [|exact I2]. apply MP in I1 as (i & _ & ->). exists i. reflexivity.
    + split; [|exact (C6 _ _ I)]. apply (in_map fst) in I. rewrite C3 in I. apply in_map_iff in I as (s & Q & _). cbn [fst] in Q. subst q. eexists. reflexivity.
Qed.

(* ---- what is on the disk when the machine stops ---- *)
Section Mix.
Variable bs : N.
Hypothesis BS : 1 <= bs.
Definition blockwise (js : journal) : Prop := NoDup (map fst js) /\ forall q b, In (q, b) js -> (exists a, q = a * bs) /\ lenN b <= bs.
Lemma disk_zero js : forall f, disk_after 0 f js = f.
Proof. induction js as [|[q b] js IH]; intro f; cbn [disk_after]; [reflexivity|]. rewrite IH. apply file_write_nil. Qed.
Lemma writes_len js : forall f, lenN f <= lenN (writes js f).
Proof.
  induction js as [|[q b] js IH]; intro f; [cbn; lia|]. change (writes ((q, b) :: js) f) with (writes js (file_write f q b)). specialize (IH (file_write f q b)).
  rewrite lenN_file_write in IH. destruct (lenN b =? 0); lia.
Qed.
Lemma writes_other js i : (forall q b, In (q, b) js -> (exists a, q = a * bs /\ a <> i / bs) /\ lenN b <= bs) -> forall f, nthN (writes js f) i = nthN f i.
Proof.
  induction js as [|[q b] js IH]; intros H f; [reflexivity|]. change (writes ((q, b) :: js) f) with (writes js (file_write f q b)).
  rewrite IH by (intros q' b' I; apply H; right; exact I). rewrite nthN_file_write. destruct (H q b (or_introl eq_refl)) as ((a & -> & NE) & L).
  destruct ((a * bs <=? i) && (i <? a * bs + lenN b)) eqn:X; [|reflexivity]. apply andb_true_iff in X as [X1 X2]. apply N.leb_le in X1. apply N.ltb_lt in X2.
  exfalso. apply NE. apply (N.div_unique _ _ _ (i - a * bs)); lia.
Qed.
Lemma disk_mix js : blockwise js -> forall k f,
  lenN f <= lenN (disk_after k f js) <= lenN (writes js f) /\ forall i, nthN (disk_after k f js) i = nthN f i \/ nthN (disk_after k f js) i = nthN (writes js f) i.
Proof.
  induction js as [|[q b] js IH]; intros (ND & BL) k f; [cbn; split; [lia|auto]|].
  cbn [map fst] in ND. inversion ND as [|? ? NI ND']; subst. destruct (BL q b (or_introl eq_refl)) as ((a & ->) & L).
  change (writes ((a * bs, b) :: js) f) with (writes js (file_write f (a * bs) b)). cbn [disk_after]. set (f1 := file_write f (a * bs) b).
  assert (OT : forall i, i / bs = a -> nthN (writes js f1) i = nthN f1 i).
  { intros i D. apply writes_other. intros q' b' I. destruct (BL q' b' (or_intror I)) as ((a' & ->) & L'). split; [|exact L']. exists a'. split; [reflexivity|]. intro C. subst a'. rewrite D in I. apply NI. apply (in_map fst) in I. exact I. }
  assert (NF : forall i, i / bs <> a -> nthN f1 i = nthN f i).
  { intros i D. unfold f1. rewrite nthN_file_write. destruct ((a * bs <=? i) && (i <? a * bs + lenN b)) eqn:X; [|reflexivity]. apply andb_true_iff in X as [X1 X2]. apply N.leb_le in X1. apply N.ltb_lt in X2.
    exfalso. apply D. symmetry. apply (N.div_unique _ _ _ (i - a * bs)); lia. }
  destruct (N.le_gt_cases (lenN b) k) as [K|K].
  - rewrite (take_all k b K). fold f1. destruct (IH (conj ND' (fun q b I => BL q b (or_intror I))) (k - lenN b) f1) as [IL IV]. split.
    + unfold f1 in IL at 1. rewrite lenN_file_write in IL. destruct (lenN b =? 0); lia.
    + intro i. destruct (IV i) as [V|V]; [|right; exact V]. destruct (N.eq_dec (i / bs) a) as [D|D]; [right; rewrite V; symmetry; apply OT, D|left; rewrite V; apply NF, D].
  - replace (k - lenN b) with 0 by lia. rewrite disk_zero. set (f2 := file_write f (a * bs) (takeN k b)). split.
    + pose proof (writes_len js f1) as W. unfold f1 in W at 1. unfold f2. rewrite lenN_file_write in *. rewrite lenN_take. destruct (N.eqb_spec (lenN b) 0); destruct (N.eqb_spec (N.min k (lenN b)) 0); lia.
    + intro i. unfold f2. rewrite nthN_file_write, lenN_take. destruct ((a * bs <=? i) && (i <? a * bs + N.min k (lenN b))) eqn:X; [|left; reflexivity]. apply andb_true_iff in X as [X1 X2]. apply N.leb_le in X1. apply N.ltb_lt in X2.
      right. rewrite OT by (symmetry; apply (N.div_unique _ _ _ (i - a * bs)); lia). unfold f1. rewrite nthN_file_write, nthN_take.
      destruct (N.leb_spec (a * bs) i); [|lia]. destruct (N.ltb_spec i (a * bs + lenN b)); [|lia]. destruct (N.ltb_spec (i - a * bs) k); [reflexivity|lia].
Qed.
End Mix.
