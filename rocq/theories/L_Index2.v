(* Burst tolerance, chunk placement, container size and sequence number limits. *)
From Verif Require Import M_Base L_Base L_File M_Specs M_Index M_FileUtils S_Index L_Index.
From Coq Require Import FinFun.
Ltac Zify.zify_post_hook ::= idtac.

(* ---- burst tolerance ---- *)
Definition seqs_of_set (d p j : N) : list N := map (fun k => 1 + j * (d + p) + k) (rangeN 0 (d + p)).
Lemma set_of_seq d p j k : 1 <= d -> k < d + p -> set_of d p (1 + j * (d + p) + k) = j.
Proof.
  intros Hd Hk. unfold set_of. apply (dm_eq _ _ _ k); [|exact Hk]. lia.
Qed.
Lemma set_members d p j s : 1 <= d -> 1 <= s -> set_of d p s = j <-> In s (seqs_of_set d p j).
Proof.
  intros Hd Hs. unfold seqs_of_set. rewrite in_map_iff. split.
  - intros <-. exists ((s - 1) mod (d + p)). pose proof (N.div_mod (s - 1) (d + p) ltac:(lia)).
    pose proof (N.mod_lt (s - 1) (d + p) ltac:(lia)). unfold set_of. split; [lia|]. apply In_rangeN. lia.
  - intros (k & <- & Hk). apply In_rangeN in Hk. apply set_of_seq; lia.
Qed.
Lemma filter_map_len {A} (f : N -> bool) (g : A -> N) l : lenN (filter f (map g l)) = lenN (filter (fun x => f (g x)) l).
Proof. induction l as [|x l IH]; [reflexivity|]. cbn [map filter]. destruct (f (g x)); rewrite ?lenN_cons, ?IH; lia. Qed.
Lemma filter_neg_len {A} (f : A -> bool) l : lenN (filter f l) + lenN (filter (fun x => negb (f x)) l) = lenN l.
Proof. induction l as [|x l IH]; [reflexivity|]. cbn [filter]. destruct (f x); cbn [negb]; rewrite !lenN_cons; lia. Qed.
Lemma set_apart me d p B j : 1 <= d ->
  apart B (map (fun s => calc_data_block_write_index s me (Some (d, p, B))) (seqs_of_set d p j)).
Proof.
  intro Hd. unfold seqs_of_set. rewrite map_map. apply apart_map_range. intros x y Hx Hxy Hy.
  pose proof (same_set_apart me d p B (1 + j * (d + p) + x) (1 + j * (d + p) + y) Hd ltac:(lia) ltac:(lia)) as H.
  rewrite !set_of_seq in H by lia. specialize (H eq_refl). lia.
Qed.
Theorem burst_set_survivors me d p B bursts j : 1 <= d -> lenN bursts <= p ->
  d <= lenN (filter (fun s => negb (hitb B bursts (calc_data_block_write_index s me (Some (d, p, B))))) (seqs_of_set d p j)).
Proof.
  intros Hd HB. pose proof (bursts_count B bursts _ (set_apart me d p B j Hd)) as H.
  rewrite filter_map_len in H.
  pose proof (filter_neg_len (fun s => hitb B bursts (calc_data_block_write_index s me (Some (d, p, B)))) (seqs_of_set d p j)) as E.
  assert (L : lenN (seqs_of_set d p j) = d + p).
  { unfold seqs_of_set. unfold lenN. rewrite map_length. fold (lenN (rangeN 0 (d + p))). rewrite lenN_range. lia. }
  lia.
Qed.
Lemma filter_all_len {A} (f : A -> bool) l : (forall x, In x l -> f x = true) -> lenN (filter f l) = lenN l.
Proof.
  induction l as [|x l IH]; intro H; [reflexivity|]. cbn [filter]. rewrite (H x (or_introl eq_refl)), !lenN_cons, IH; [lia|].
  intros y Hy. apply H. right; exact Hy.
Qed.
Theorem burst_meta_survives me d p B bursts : lenN bursts <= p ->
  exists i, meta_index me (Some (d, p, B)) i /\ ~ hit B bursts i.
Proof.
  intro HB.
  assert (HA : apart B (map (fun j => j * (1 + B)) (rangeN 0 (1 + p)))).
  { apply apart_map_range. intros x y Hx Hxy Hy. assert ((x + 1) * (1 + B) <= y * (1 + B)) by (apply N.mul_le_mono_r; lia). lia. }
  pose proof (bursts_count B bursts _ HA) as H. rewrite filter_map_len in H.
  set (f := fun j => hitb B bursts (j * (1 + B))) in H.
  destruct (forallb f (rangeN 0 (1 + p))) eqn:E.
  - exfalso. rewrite forallb_forall in E. rewrite (filter_all_len f _ E), lenN_range in H. lia.
  - assert (X : exists j, In j (rangeN 0 (1 + p)) /\ f j = false).
    { clear -E. induction (rangeN 0 (1 + p)) as [|x l IH]; [discriminate|]. cbn [forallb] in E.
      destruct (f x) eqn:F; [destruct (IH E) as (j & A & C); exists j; split; [right; exact A|exact C]|].
      exists x. split; [left; reflexivity|exact F]. }
    destruct X as (j & Hj & F). apply In_rangeN in Hj. exists (j * (1 + B)). split; [exists j; split; [lia|reflexivity]|].
    intro HH. apply hitb_iff in HH. unfold f in F. congruence.
Qed.

(* ---- chunk placement ---- *)
Lemma parity_mod d p s : 1 <= s -> seq_num_is_parity s d p = (d <=? (s - 1) mod (d + p)).
Proof. intro H. unfold seq_num_is_parity, SBX_FIRST_DATA_SEQ_NUM. destruct (N.eqb_spec s 0); [lia|reflexivity]. Qed.
Definition data_before (d p s : N) : N := lenN (filter (fun t => negb (seq_num_is_parity t d p)) (rangeN 1 s)).
Lemma data_before_eq d p n : 1 <= d -> data_before d p (1 + n) = (n / (d + p)) * d + N.min d (n mod (d + p)).
Proof.
  intro Hd. unfold data_before. induction n as [|n IH] using N.peano_ind.
  - rewrite rangeN_nil by lia. rewrite N.div_small, N.mod_small by lia. cbn [filter]. rewrite lenN_nil. lia.
  - replace (1 + N.succ n) with (1 + n + 1) by lia. rewrite rangeN_snoc by lia. rewrite filter_app, lenN_app, IH.
    cbn [filter]. rewrite parity_mod by lia. replace (1 + n - 1) with n by lia.
    pose proof (N.div_mod n (d + p) ltac:(lia)) as E. pose proof (N.mod_lt n (d + p) ltac:(lia)) as L.
    set (q := n / (d + p)) in *. set (r := n mod (d + p)) in *.
    assert (X : if r + 1 =? d + p then N.succ n / (d + p) = q + 1 /\ N.succ n mod (d + p) = 0
                else N.succ n / (d + p) = q /\ N.succ n mod (d + p) = r + 1).
    { clearbody q r. destruct (N.eqb_spec (r + 1) (d + p)); apply dm_eq; clear IH; lia. }
    clear IH E. clearbody q r.
    destruct (N.eqb_spec (r + 1) (d + p)); destruct X as [-> ->];
      destruct (N.leb_spec d r); cbn [negb]; rewrite ?lenN_cons, ?lenN_nil; lia.
Qed.
Theorem chunk_index_spec d p s : 1 <= d -> 1 <= s ->
  calc_data_chunk_write_index s (Some (d, p)) =
    if seq_num_is_parity s d p then None else Some (data_before d p s).
Proof.
  intros Hd Hs. unfold calc_data_chunk_write_index, SBX_FIRST_DATA_SEQ_NUM.
  destruct (N.ltb_spec s 1); [lia|]. cbv zeta.
  destruct (seq_num_is_parity s d p) eqn:E; [reflexivity|]. f_equal.
  rewrite parity_mod in E by assumption. apply N.leb_gt in E.
  replace s with (1 + (s - 1)) at 3 by lia. rewrite data_before_eq by assumption. lia.
Qed.
Lemma data_before_succ d p s : 1 <= s -> data_before d p (s + 1) = data_before d p s + if seq_num_is_parity s d p then 0 else 1.
Proof.
  intro H. unfold data_before. rewrite rangeN_snoc by lia. rewrite filter_app, lenN_app. cbn [filter].
  destruct (seq_num_is_parity s d p); cbn [negb]; rewrite ?lenN_cons, ?lenN_nil; lia.
Qed.
Lemma data_before_mono d p s t : 1 <= s <= t -> data_before d p s <= data_before d p t.
Proof.
  intros [H1 H2]. unfold data_before. rewrite (rangeN_split 1 s t) by lia. rewrite filter_app, lenN_app. lia.
Qed.
Theorem chunk_index_surj d p k : 1 <= d ->
  let s := 1 + (k / d) * (d + p) + k mod d in
  seq_num_is_parity s d p = false /\ calc_data_chunk_write_index s (Some (d, p)) = Some k.
Proof.
  intros Hd s. pose proof (N.div_mod k d ltac:(lia)) as E. pose proof (N.mod_lt k d ltac:(lia)) as L.
  generalize dependent (k mod d). generalize dependent (k / d). intros q r s E L.
  assert (X : (s - 1) / (d + p) = q /\ (s - 1) mod (d + p) = r) by (apply dm_eq; subst s; lia).
  destruct X as [X1 X2].
  assert (P : seq_num_is_parity s d p = false).
  { rewrite parity_mod by (unfold s; lia). apply N.leb_gt. rewrite X2. exact L. }
  split; [exact P|]. unfold calc_data_chunk_write_index, SBX_FIRST_DATA_SEQ_NUM.
  destruct (N.ltb_spec s 1); [unfold s in *; lia|]. rewrite P. cbv zeta. f_equal. rewrite X1, X2. lia.
Qed.

(* ---- container size ---- *)
Lemma ceil_div a b : 1 <= b -> is_ceil_div a b ((a + (b - 1)) / b).
Proof.
  intro Hb. unfold is_ceil_div.
  pose proof (N.div_mod (a + (b - 1)) b ltac:(lia)) as E. pose proof (N.mod_lt (a + (b - 1)) b ltac:(lia)) as L.
  set (q := (a + (b - 1)) / b) in *. split; [lia|].
  intros m Hm. destruct (N.le_gt_cases q m); [assumption|]. exfalso.
  assert ((m + 1) * b <= q * b) by (apply N.mul_le_mono_r; lia). lia.
Qed.
Lemma ceil_uniq a b n : 1 <= b -> is_ceil_div a b n -> n = (a + (b - 1)) / b.
Proof.
  intros Hb [H1 H2]. destruct (ceil_div a b Hb) as [H3 H4]. specialize (H2 _ H3). specialize (H4 _ H1). lia.
Qed.
Lemma data_size_pos v : 1 <= ver_to_data_size v /\ ver_to_data_size v = ver_to_block_size v - 16.
Proof. destruct v; vm_compute; split; congruence. Qed.
Lemma block_count_iff v o size n : dpb_ok o ->
  block_count v o size n <-> n = calc_data_block_count_exc_burst_gaps v o size.
Proof.
  intro HO. destruct (data_size_pos v) as [D1 D2].
  unfold block_count, calc_data_block_count_exc_burst_gaps, calc_data_only_and_parity_block_count_exc_burst_gaps.
  rewrite <- D2. cbv zeta. destruct o as [[[d p] B]|].
  - destruct HO as (Hd & _). split.
    + intros (c & Hc & s & Hs & ->). apply ceil_uniq in Hc; [|assumption]. apply ceil_uniq in Hs; [|assumption]. subst. lia.
    + intros ->. eexists. split; [apply ceil_div; assumption|]. eexists. split; [apply ceil_div; assumption|]. lia.
  - split.
    + intros (c & Hc & ->). apply ceil_uniq in Hc; [lia|assumption].
    + intros ->. eexists. split; [apply ceil_div; assumption|]. lia.
Qed.
Lemma max_write_index_spec me o l : forall init,
  let r := fold_left (fun last_index seq_num =>
               let index := calc_data_block_write_index seq_num me o in
               if last_index <? index then index else last_index) l init in
  init <= r /\ (forall s, In s l -> calc_data_block_write_index s me o <= r) /\
  (r = init \/ exists s, In s l /\ r = calc_data_block_write_index s me o).
Proof.
  induction l as [|x l IH]; intro init; cbn [fold_left In].
  - cbv zeta. split; [lia|]. split; [intros ? []|left; reflexivity].
  - cbv zeta in *.
    set (i2 := if init <? calc_data_block_write_index x me o then calc_data_block_write_index x me o else init).
    specialize (IH i2). destruct IH as (A & C & D).
    assert (I1 : init <= i2 /\ calc_data_block_write_index x me o <= i2
              /\ (i2 = init \/ i2 = calc_data_block_write_index x me o)).
    { unfold i2. destruct (N.ltb_spec init (calc_data_block_write_index x me o)); (split; [lia|split; [lia|auto]]). }
    destruct I1 as (I1 & I2 & I3). split; [lia|]. split.
    + intros s [<-|Hs]; [lia|apply C, Hs].
    + destruct D as [D|(s & Hs & D)].
      * destruct I3 as [I3|I3]; [left; congruence|right; exists x; split; [left; reflexivity|congruence]].
      * right. exists s. split; [right; exact Hs|exact D].
Qed.
Lemma last_is_max me d p B sets seq : 1 <= d -> 1 <= sets -> 1 <= seq <= sets * (d + p) ->
  calc_data_block_write_index seq me (Some (d, p, B)) <= calc_data_block_write_index (sets * (d + p)) me (Some (d, p, B)).
Proof.
  intros Hd Hs Hseq. destruct (N.eqb_spec B 0) as [->|HB].
  - unfold calc_data_block_write_index, SBX_FIRST_DATA_SEQ_NUM. cbn [N.eqb]. lia.
  - destruct (seq_decomp d p B (seq - 1) Hd ltac:(lia)) as (q1 & a1 & k1 & Ha1 & Hk1 & E1 & L1).
    destruct (seq_decomp d p B (sets * (d + p) - 1) Hd ltac:(lia)) as (q2 & a2 & k2 & Ha2 & Hk2 & E2 & L2).
    assert (K2 : k2 = d + p - 1).
    { assert (X : (sets * (d + p) - 1) mod (d + p) = d + p - 1).
      { apply (dm_eq _ _ (sets - 1)); [|lia].
        assert (sets * (d + p) = (sets - 1) * (d + p) + (d + p)); [|lia].
        replace sets with (sets - 1 + 1) at 1 by lia. lia. }
      assert (Y : (sets * (d + p) - 1) mod (d + p) = k2).
      { apply (dm_eq _ _ (B * q2 + a2)); [rewrite E2; lia|exact Hk2]. }
      congruence. }
    replace seq with (1 + (seq - 1)) by lia.
    replace (sets * (d + p)) with (1 + (sets * (d + p) - 1)) by nia. rewrite E1, E2.
    rewrite !write_index_eq by lia.
    assert (HLE : (d + p) * B * q1 + ((d + p) * a1 + k1) <= (d + p) * B * q2 + ((d + p) * a2 + k2)) by lia.
    clear E1 E2 Hseq.
    assert (Hq : q1 <= q2).
    { destruct (N.le_gt_cases q1 q2); [assumption|]. exfalso.
      assert ((d + p) * B * (q2 + 1) <= (d + p) * B * q1) by (apply N.mul_le_mono_l; lia). lia. }
    destruct (N.eqb_spec q1 q2) as [<-|Hne].
    + assert (Ha : a1 <= a2).
      { destruct (N.le_gt_cases a1 a2); [assumption|]. exfalso.
        assert ((d + p) * (a2 + 1) <= (d + p) * a1) by (apply N.mul_le_mono_l; lia). lia. }
      assert (HM : mcount p q1 k1 <= mcount p q1 k2).
      { unfold mcount. destruct (q1 =? 0); [|lia]. destruct (N.ltb_spec k1 (1 + p)), (N.ltb_spec k2 (1 + p)); lia. }
      unfold pos_of. assert (k1 * B <= k2 * B) by (apply N.mul_le_mono_r; lia). lia.
    + assert (M2 : mcount p q2 k2 = 1 + p) by (unfold mcount; destruct (N.eqb_spec q2 0); [lia|reflexivity]).
      assert (M1 : mcount p q1 k1 <= 1 + p) by (unfold mcount; destruct (q1 =? 0), (N.ltb_spec k1 (1 + p)); lia).
      unfold pos_of. rewrite M2.
      assert ((d + p) * B * (q1 + 1) <= (d + p) * B * q2) by (apply N.mul_le_mono_l; lia).
      assert ((k1 + 1) * B <= (d + p) * B) by (apply N.mul_le_mono_r; lia). lia.
Qed.
Lemma meta_below_last me d p B sets i : 1 <= d -> 1 <= sets -> meta_index me (Some (d, p, B)) i ->
  i <= calc_data_block_write_index (sets * (d + p)) me (Some (d, p, B)).
Proof.
  intros Hd Hs (j & Hj & ->).
  assert (HS : d + p <= sets * (d + p)) by nia.
  pose proof (last_is_max me d p B sets (d + p) Hd Hs ltac:(lia)) as H.
  eapply N.le_trans; [|exact H]. destruct (N.eqb_spec B 0) as [->|HB].
  - unfold calc_data_block_write_index, SBX_FIRST_DATA_SEQ_NUM. cbn [N.eqb]. lia.
  - pose proof (write_index_eq me d p B 0 0 (d + p - 1) ltac:(lia) ltac:(lia) ltac:(lia)) as W.
    replace (1 + ((d + p) * B * 0 + ((d + p) * 0 + (d + p - 1)))) with (d + p) in W by lia. rewrite W.
    unfold pos_of, mcount. cbn [N.eqb].
    assert (j * (1 + B) <= p * (1 + B)) by (apply N.mul_le_mono_r; lia).
    assert (p * B <= (d + p - 1) * B) by (apply N.mul_le_mono_r; lia).
    destruct (N.ltb_spec (d + p - 1) (1 + p)); lia.
Qed.

(* indices the encoder writes: metadata copies and blocks 1..n *)
Definition written (me : option bool) (o : dpb) (n i : N) : Prop :=
  meta_index me o i \/ exists seq, 1 <= seq <= n /\ calc_data_block_write_index seq me o = i.
(* sz is the end of the last block written *)
Definition is_end (bs : N) (W : N -> Prop) (sz : N) : Prop :=
  (forall i, W i -> bs * (i + 1) <= sz) /\ ((sz = 0 /\ forall i, ~ W i) \/ exists i, W i /\ sz = bs * (i + 1)).
Lemma is_end_uniq bs W a b : is_end bs W a -> is_end bs W b -> a = b.
Proof.
  intros [A1 A2] [B1 B2]. destruct A2 as [[-> A2]|(i & Wi & ->)], B2 as [[-> B2]|(j & Wj & ->)].
  - reflexivity.
  - exfalso. exact (A2 j Wj).
  - exfalso. exact (B2 i Wi).
  - specialize (A1 j Wj). specialize (B1 i Wi). lia.
Qed.
Lemma count_mul_sets v d p B size : calc_data_block_count_exc_burst_gaps v (Some (d, p, B)) size =
  ((size + (ver_to_data_size v - 1)) / ver_to_data_size v + (d - 1)) / d * (d + p).
Proof. unfold calc_data_block_count_exc_burst_gaps, calc_data_only_and_parity_block_count_exc_burst_gaps. cbv zeta. lia. Qed.
Lemma last_sortN_max l : l <> [] -> In (last (sortN l) 0) l /\ forall x, In x l -> x <= last (sortN l) 0.
Proof.
  intro HL. pose proof (sortN_sorted l) as HS.
  assert (HN : sortN l <> []).
  { intro E. pose proof (sortN_len l) as L. rewrite E in L. destruct l; [congruence|]. rewrite lenN_cons, lenN_nil in L. lia. }
  assert (X : forall m, sorted m -> m <> [] -> In (last m 0) m /\ forall x, In x m -> x <= last m 0).
  { induction 1 as [|x m HX HM IH]; [congruence|]. intros _. destruct m as [|y m].
    - cbn. split; [auto|]. intros z [->|[]]. lia.
    - destruct IH as [I1 I2]; [discriminate|]. change (last (x :: y :: m) 0) with (last (y :: m) 0).
      split; [right; exact I1|]. intros z [<-|Hz]; [|apply I2, Hz]. apply HX, I1. }
  destruct (X _ HS HN) as [X1 X2]. split; [apply sortN_In, X1|]. intros x Hx. apply X2, sortN_In, Hx.
Qed.
Theorem container_size_char v me o size n :
  dpb_ok o -> block_count v o size n -> n <= U32_MAX ->
  (exists sz, calc_container_size v me o size = ROk sz /\ is_end (ver_to_block_size v) (written me o n) sz) \/
  (calc_container_size v me o size = RPanic /\
   exists d p B, o = Some (d, p, B) /\ 1 <= B /\ 1 <= n /\ (n = U32_MAX \/ ((d + p) * B) mod 4294967296 = 0)).
Proof.
  intros HO HC HN. apply block_count_iff in HC; [|exact HO]. subst n.
  assert (BS : 1 <= ver_to_block_size v) by (destruct v; vm_compute; congruence).
  destruct o as [[[d p] B]|].
  - destruct HO as (Hd & Hp & HT). unfold calc_container_size.
    set (n := calc_data_block_count_exc_burst_gaps v (Some (d, p, B)) size) in *.
    assert (SETS : exists sets, n = sets * (d + p)) by (eexists; apply count_mul_sets).
    destruct SETS as [sets SETS].
    assert (END : 1 <= n -> is_end (ver_to_block_size v) (written me (Some (d, p, B)) n)
                   (ver_to_block_size v * (calc_data_block_write_index n me (Some (d, p, B)) + 1))).
    { intro H1. assert (1 <= sets) by nia. split.
      - intros i [Hi|(s & Hs & <-)]; apply N.mul_le_mono_l.
        + pose proof (meta_below_last me d p B sets i Hd ltac:(assumption) Hi) as X. rewrite <- SETS in X. lia.
        + pose proof (last_is_max me d p B sets s Hd ltac:(assumption)) as X. rewrite <- SETS in X. specialize (X Hs). lia.
      - right. eexists. split; [right; exists n; split; [lia|reflexivity]|reflexivity]. }
    assert (END0 : n = 0 -> is_end (ver_to_block_size v) (written me (Some (d, p, B)) n)
                     (ver_to_block_size v * (p * (1 + B) + 1))).
    { intros ->. split.
      - intros i [(j & Hj & ->)|(s & Hs & _)]; [|lia]. apply N.mul_le_mono_l.
        assert (j * (1 + B) <= p * (1 + B)) by (apply N.mul_le_mono_r; lia). lia.
      - right. exists (p * (1 + B)). split; [left; exists p; split; [lia|reflexivity]|reflexivity]. }
    destruct (N.eqb_spec B 0) as [->|HB].
    + left. eexists. split; [reflexivity|].
      unfold calc_total_block_count_exc_burst_gaps, calc_meta_block_count_exc_burst_gaps. fold n.
      destruct (N.eqb_spec n 0) as [E0|E0].
      * rewrite E0 in *. replace (1 + p + 0) with (p * (1 + 0) + 1) by lia. apply END0. reflexivity.
      * replace (1 + p + n) with (calc_data_block_write_index n me (Some (d, p, 0)) + 1); [apply END; lia|].
        unfold calc_data_block_write_index, SBX_FIRST_DATA_SEQ_NUM. cbn [N.eqb]. lia.
    + cbv zeta. destruct (N.eqb_spec n 0) as [E0|E0].
      * left. eexists. split; [reflexivity|].
        replace (last (calc_meta_block_all_write_pos_s v (Some (d, p, B))) 0 + ver_to_block_size v)
          with (ver_to_block_size v * (p * (1 + B) + 1)); [apply END0; exact E0|].
        assert (X : last (calc_meta_block_all_write_pos_s v (Some (d, p, B))) 0 = p * (1 + B) * ver_to_block_size v); [|lia].
        unfold calc_meta_block_all_write_pos_s.
        destruct (last_sortN_max (calc_meta_block_dup_write_pos_s v (Some (d, p, B)) ++ [0])) as [X1 X2].
        { destruct (calc_meta_block_dup_write_pos_s v (Some (d, p, B))); discriminate. }
        apply N.le_antisymm.
        -- apply sortN_In in X1. apply meta_pos_In in X1 as (i & (j & Hj & ->) & ->).
           apply N.mul_le_mono_r, N.mul_le_mono_r, Hj.
        -- apply X2. apply sortN_In. apply meta_pos_In. exists (p * (1 + B)). split; [exists p; split; [lia|reflexivity]|reflexivity].
      * assert (U : u32 n = n) by (unfold u32; apply N.mod_small; unfold U32_MAX in HN; lia). rewrite U.
        destruct (N.eqb_spec n 0); [lia|]. cbn [orb].
        destruct (N.eqb_spec (u32 ((d + p) * B)) 0) as [EZ|EZ].
        { right. split; [reflexivity|]. exists d, p, B. split; [reflexivity|]. split; [lia|]. split; [lia|]. right; exact EZ. }
        destruct (N.eqb_spec n U32_MAX) as [EM|EM].
        { right. split; [reflexivity|]. exists d, p, B. split; [reflexivity|]. split; [lia|]. split; [lia|]. left; exact EM. }
        cbn [orb]. left. eexists. split; [reflexivity|].
        set (lo := (n - 1) / u32 ((d + p) * B) * u32 ((d + p) * B) + 1).
        assert (HLO : 1 <= lo <= n).
        { unfold lo. pose proof (N.mul_div_le (n - 1) (u32 ((d + p) * B)) EZ) as X. rewrite N.mul_comm in X.
          generalize dependent ((n - 1) / u32 ((d + p) * B) * u32 ((d + p) * B)). intros. lia. }
        replace (max_write_index me (Some (d, p, B)) (rangeN lo (n + 1)))
          with (calc_data_block_write_index n me (Some (d, p, B))); [apply END; lia|].
        unfold max_write_index.
        destruct (max_write_index_spec me (Some (d, p, B)) (rangeN lo (n + 1)) 0) as (_ & A & C). cbv zeta in A, C.
        apply N.le_antisymm; [apply A, In_rangeN; lia|].
        destruct C as [->|(s & Hs & ->)]; [lia|]. apply In_rangeN in Hs.
        assert (1 <= sets) by nia. pose proof (last_is_max me d p B sets s Hd ltac:(assumption)) as X.
        rewrite <- SETS in X. apply X. lia.
  - left. eexists. split; [reflexivity|].
    unfold calc_total_block_count_exc_burst_gaps, calc_meta_block_count_exc_burst_gaps.
    set (n := calc_data_block_count_exc_burst_gaps v None size) in *.
    set (m := if match me with Some b => b | None => true end then 1 else 0).
    assert (WI : forall s, 1 <= s -> calc_data_block_write_index s me None = m + s - 1).
    { intros s Hs. unfold calc_data_block_write_index, SBX_FIRST_DATA_SEQ_NUM, m.
      destruct (match me with Some b => b | None => true end); lia. }
    assert (MI : forall i, meta_index me None i <-> m = 1 /\ i = 0).
    { intro i. cbn [meta_index]. unfold m. destruct me as [[]|]; intuition (congruence || discriminate || lia). }
    assert (M01 : m = 0 \/ m = 1) by (unfold m; destruct (match me with Some b => b | None => true end); auto).
    split.
    + intros i [Hi|(s & Hs & <-)]; apply N.mul_le_mono_l; [apply MI in Hi; lia|rewrite WI; lia].
    + destruct (N.eqb_spec n 0) as [E0|E0].
      * destruct M01 as [M0|M1].
        -- left. split; [lia|]. intros i [Hi|(s & Hs & _)]; [apply MI in Hi; lia|lia].
        -- right. exists 0. split; [left; apply MI; lia|]. rewrite M1, E0. lia.
      * right. exists (m + n - 1). split; [right; exists n; split; [lia|apply WI; lia]|]. f_equal. lia.
Qed.

(* ---- limits ---- *)
Definition ver_ok (v : version) (o : dpb) : Prop := ver_uses_rs v = match o with Some _ => true | None => false end.
Lemma max_size_eq v o : dpb_ok o -> ver_ok v o ->
  ver_to_max_data_file_size v o = ROk (match o with
    | None => U32_MAX * ver_to_data_size v
    | Some (d, p, _) => U32_MAX / (d + p) * d * ver_to_data_size v end).
Proof.
  unfold ver_ok, ver_to_max_data_file_size, ver_to_max_block_set_count, SBX_MAX_DATA_BLOCK_COUNT.
  intros HO ->. destruct o as [[[d p] B]|]; [|reflexivity]. destruct HO as (Hd & Hp & HT).
  cbv zeta. unfold u32. rewrite (N.mod_small (d + p)) by lia. destruct (N.eqb_spec (d + p) 0); [lia|]. reflexivity.
Qed.
Lemma mul_le_div a b n : 1 <= b -> (n * b <= a <-> n <= a / b).
Proof.
  intro Hb. split; intro H.
  - apply N.div_le_lower_bound; [lia|]. rewrite N.mul_comm. exact H.
  - eapply N.le_trans; [apply N.mul_le_mono_r, H|]. rewrite N.mul_comm. apply N.mul_div_le. lia.
Qed.
Lemma ceil_le a b n m : is_ceil_div a b n -> (n <= m <-> a <= m * b).
Proof.
  intros [H1 H2]. split; intro H; [|apply H2, H]. eapply N.le_trans; [exact H1|]. apply N.mul_le_mono_r, H.
Qed.
Theorem size_limit_exact v o mx size n : dpb_ok o -> ver_ok v o ->
  ver_to_max_data_file_size v o = ROk mx -> block_count v o size n -> (size <= mx <-> n <= U32_MAX).
Proof.
  intros HO HV HM HC. rewrite max_size_eq in HM by assumption. apply ROk_inj in HM.
  destruct (data_size_pos v) as [_ D2]. rewrite D2 in HM. destruct HC as (c & Hc & HC).
  destruct o as [[[d p] B]|].
  - destruct HO as (Hd & Hp & HT). destruct HC as (sets & Hs & ->). subst mx.
    rewrite (mul_le_div U32_MAX (d + p) sets) by lia.
    rewrite (ceil_le _ _ _ _ Hs), (ceil_le _ _ _ _ Hc). reflexivity.
  - subst n mx. rewrite (ceil_le _ _ _ _ Hc). reflexivity.
Qed.
Theorem last_data_seq v o last mx : dpb_ok o -> ver_ok v o ->
  ver_to_last_data_seq_num_exc_parity v o = ROk last -> ver_to_max_data_file_size v o = ROk mx ->
  1 <= last <= U32_MAX /\
  let dp := match o with Some (d, p, _) => Some (d, p) | None => None end in
  calc_data_chunk_write_pos v last dp = Some (mx - ver_to_data_size v).
Proof.
  intros HO HV HL HM. rewrite max_size_eq in HM by assumption. apply ROk_inj in HM.
  unfold ver_to_last_data_seq_num_exc_parity, ver_to_max_block_set_count, SBX_MAX_DATA_BLOCK_COUNT in HL.
  unfold ver_ok in HV. rewrite HV in HL. destruct o as [[[d p] B]|].
  - destruct HO as (Hd & Hp & HT). cbv zeta in HL.
    assert (U1 : u32 (d + p) = d + p) by (unfold u32; apply N.mod_small; lia). rewrite U1 in HL.
    destruct (N.eqb_spec (d + p) 0); [lia|].
    pose proof (N.div_mod U32_MAX (d + p) ltac:(lia)) as E. pose proof (N.mod_lt U32_MAX (d + p) ltac:(lia)) as L.
    set (K := U32_MAX / (d + p)) in *.
    assert (HK : 1 <= K). { destruct (N.le_gt_cases 1 K); [assumption|]. exfalso. unfold U32_MAX in *. nia. }
    assert (U2 : u32 (K * (d + p)) = K * (d + p)) by (unfold u32; apply N.mod_small; unfold U32_MAX in *; lia).
    assert (U3 : u32 p = p) by (unfold u32; apply N.mod_small; lia). rewrite U2, U3 in HL.
    assert (HKS : (K - 1) * (d + p) + (d + p) = K * (d + p)).
    { replace K with (K - 1 + 1) at 2 by lia. lia. }
    assert (U4 : u32 (K * (d + p) - p) = K * (d + p) - p) by (unfold u32; apply N.mod_small; unfold U32_MAX in *; lia).
    rewrite U4 in HL. apply ROk_inj in HL. subst last mx. split; [unfold U32_MAX in *; lia|].
    cbv zeta. unfold calc_data_chunk_write_pos.
    destruct (chunk_index_surj d p (K * d - 1) Hd) as [_ X].
    assert (DM : (K * d - 1) / d = K - 1 /\ (K * d - 1) mod d = d - 1).
    { apply dm_eq; [|lia]. assert ((K - 1) * d + d = K * d); [|lia]. replace K with (K - 1 + 1) at 2 by lia. lia. }
    destruct DM as [DM1 DM2]. rewrite DM1, DM2 in X.
    replace (1 + (K - 1) * (d + p) + (d - 1)) with (K * (d + p) - p) in X.
    2: { clear - HKS Hd HK. rewrite <- HKS. generalize ((K - 1) * (d + p)). intro x. clear - Hd. lia. }
    rewrite X. f_equal.
    rewrite N.mul_sub_distr_r, N.mul_1_l. reflexivity.
  - apply ROk_inj in HL. subst last mx. split; [unfold SBX_LAST_SEQ_NUM, U32_MAX; lia|].
    cbv zeta. unfold calc_data_chunk_write_pos, calc_data_chunk_write_index, SBX_FIRST_DATA_SEQ_NUM, SBX_LAST_SEQ_NUM.
    change (U32_MAX <? 1) with false. cbv iota zeta. f_equal. rewrite N.mul_sub_distr_r, N.mul_1_l. reflexivity.
Qed.
Theorem positions_fit v me o n i : dpb_ok o -> n <= U32_MAX ->
  match o with Some (_, _, B) => B <= U32_MAX | None => True end ->
  written me o n i -> (i + 1) * ver_to_block_size v < 18446744073709551616.
Proof.
  intros HO HN HB W. assert (BS : ver_to_block_size v <= 4096) by (destruct v; vm_compute; congruence).
  assert (X : i < 1 + 256 * 4294967296 * 2); [|unfold U32_MAX in *; nia].
  unfold U32_MAX in *. destruct o as [[[d p] B]|]; destruct W as [W|(s & Hs & <-)].
  - destruct W as (j & Hj & ->). destruct HO as (Hd & Hp & HT). assert (j * (1 + B) <= 256 * (1 + B)) by (apply N.mul_le_mono_r; lia). lia.
  - destruct HO as (Hd & Hp & HT). destruct (N.eqb_spec B 0) as [->|HB0].
    + unfold calc_data_block_write_index, SBX_FIRST_DATA_SEQ_NUM. cbn [N.eqb]. lia.
    + destruct (seq_decomp d p B (s - 1) Hd ltac:(lia)) as (q & a & k & Ha & Hk & E & L).
      replace s with (1 + (s - 1)) by lia. rewrite E, write_index_eq by lia. unfold pos_of.
      assert (mcount p q k <= 1 + p) by (unfold mcount; destruct (q =? 0), (N.ltb_spec k (1 + p)); lia).
      assert (k * B <= 255 * B) by (apply N.mul_le_mono_r; lia). lia.
  - destruct W as [_ ->]. lia.
  - unfold calc_data_block_write_index, SBX_FIRST_DATA_SEQ_NUM. destruct (match me with Some b => b | None => true end); lia.
Qed.

(* ---- property-statement forms ---- *)
Lemma bs_pos v : 1 <= ver_to_block_size v.
Proof. destruct v; vm_compute; congruence. Qed.
Lemma scale_apart b i j : i <> j -> i * b + b <= j * b \/ j * b + b <= i * b.
Proof.
  intro H. destruct (N.lt_ge_cases i j).
  - left. replace (i * b + b) with ((i + 1) * b) by lia. apply N.mul_le_mono_r. lia.
  - right. replace (j * b + b) with ((j + 1) * b) by lia. apply N.mul_le_mono_r. lia.
Qed.
Lemma no_overlap v me o s1 s2 : dpb_ok o -> 1 <= s1 -> 1 <= s2 -> s1 <> s2 ->
  let a := calc_data_block_write_pos v s1 me o in
  let b := calc_data_block_write_pos v s2 me o in
  a + ver_to_block_size v <= b \/ b + ver_to_block_size v <= a.
Proof. intros HO H1 H2 HN a b. apply scale_apart. intro E. apply HN. eapply write_index_inj; eassumption. Qed.
Lemma meta_index_me o i me : (o = None -> me <> Some false) -> meta_index None o i -> meta_index me o i.
Proof. destruct o as [[[d p] B]|]; cbn [meta_index]; [auto|]. intros H [_ ->]. split; [apply H; reflexivity|reflexivity]. Qed.
Lemma no_overlap_meta v me o s m : dpb_ok o -> 1 <= s -> (o = None -> me <> Some false) ->
  In m (calc_meta_block_all_write_pos_s v o) ->
  let a := calc_data_block_write_pos v s me o in
  a + ver_to_block_size v <= m \/ m + ver_to_block_size v <= a.
Proof.
  intros HO H1 HM Hm a. apply meta_pos_In in Hm as (i & Hi & ->). apply scale_apart. intro E.
  apply (write_index_not_meta me o s HO H1). rewrite E. apply meta_index_me; assumption.
Qed.
Lemma insertN_NoDup x l : ~ In x l -> NoDup l -> NoDup (insertN x l).
Proof.
  intros HX HN. induction HN as [|y l HY HN IH]; cbn [insertN]; [constructor; [intros []|constructor]|].
  destruct (x <=? y); [constructor; [exact HX|constructor; assumption]|]. constructor.
  - rewrite insertN_In. intros [->|H]; [apply HX; left; reflexivity|exact (HY H)].
  - apply IH. intro H. apply HX. right; exact H.
Qed.
Lemma sortN_NoDup l : NoDup l -> NoDup (sortN l).
Proof.
  induction 1 as [|x l HX HN IH]; cbn [sortN]; [constructor|]. apply insertN_NoDup; [|exact IH]. rewrite sortN_In. exact HX.
Qed.
Lemma meta_positions v o :
  lenN (calc_meta_block_all_write_pos_s v o) = match o with Some (_, p, _) => 1 + p | None => 1 end
  /\ NoDup (calc_meta_block_all_write_pos_s v o)
  /\ forall m, In m (calc_meta_block_all_write_pos_s v o) <-> exists i, meta_index None o i /\ m = i * ver_to_block_size v.
Proof.
  split; [|split; [|intro; apply meta_pos_In]].
  - unfold calc_meta_block_all_write_pos_s, calc_meta_block_dup_write_pos_s. rewrite sortN_len, lenN_app.
    destruct o as [[[d p] B]|]; cbn [calc_meta_block_dup_write_indices]; [|reflexivity].
    unfold lenN at 1. rewrite !map_length. fold (lenN (rangeN 1 (1 + p))). rewrite lenN_range.
    change (lenN [0]) with 1. lia.
  - apply sortN_NoDup. unfold calc_meta_block_dup_write_pos_s. pose proof (bs_pos v) as HB.
    destruct o as [[[d p] B]|]; cbn [calc_meta_block_dup_write_indices map app]; [|constructor; [intros []|constructor]].
    rewrite map_map. change [0] with (map (fun x => x * (1 + B) * ver_to_block_size v) [0]).
    rewrite <- map_app. apply Injective_map_NoDup.
    + intros x y E. apply N.mul_cancel_r in E; [|lia]. apply N.mul_cancel_r in E; [exact E|lia].
    + assert (X : forall l, NoDup l -> ~ In 0 l -> NoDup (l ++ [0])).
      { induction 1 as [|x l HX HN IH]; intro H0; cbn [app]; [constructor; [intros []|constructor]|].
        constructor; [|apply IH; intro; apply H0; right; assumption].
        rewrite in_app_iff. intros [H|[H|[]]]; [exact (HX H)|apply H0; left; symmetry; exact H]. }
      apply X; [apply NoDup_rangeN|]. rewrite In_rangeN. lia.
Qed.
Lemma zero_iff_meta me o i n : dpb_ok o -> n <= U32_MAX -> written me o n i ->
  (calc_seq_num_at_index i me o = 0 <-> meta_index me o i).
Proof.
  intros HO HN W. destruct (index_inverse me o HO) as (I1 & I2 & _). split; [|apply I2].
  intro E. destruct W as [W|(s & Hs & <-)]; [exact W|]. rewrite I1 in E by lia. lia.
Qed.
Lemma burst_one me d p B start s1 s2 : 1 <= d -> 1 <= s1 -> 1 <= s2 -> set_of d p s1 = set_of d p s2 ->
  hit B [start] (calc_data_block_write_index s1 me (Some (d, p, B))) ->
  hit B [start] (calc_data_block_write_index s2 me (Some (d, p, B))) -> s1 = s2.
Proof.
  intros Hd H1 H2 HE (a & [<-|[]] & Ha) (b & [<-|[]] & Hb).
  destruct (N.lt_trichotomy s1 s2) as [C|[C|C]]; [|exact C|].
  - pose proof (same_set_apart me d p B s1 s2 Hd H1 C HE). lia.
  - pose proof (same_set_apart me d p B s2 s1 Hd H2 C (eq_sym HE)). lia.
Qed.
Lemma burst_sets me d p B bursts j : 1 <= d -> lenN bursts <= p ->
  (forall s, 1 <= s -> (set_of d p s = j <-> In s (seqs_of_set d p j))) /\ NoDup (seqs_of_set d p j) /\
  d <= lenN (filter (fun s => negb (hitb B bursts (calc_data_block_write_index s me (Some (d, p, B))))) (seqs_of_set d p j)).
Proof.
  intros Hd HB. split; [|split].
  - intros s Hs. apply set_members; assumption.
  - apply Injective_map_NoDup; [|apply NoDup_rangeN]. intros x y E. lia.
  - apply burst_set_survivors; assumption.
Qed.
Lemma chunk_pos v d p s : 1 <= d -> 1 <= s ->
  (forall t, 1 <= t -> (seq_num_is_parity t d p = true <-> d <= (t - 1) mod (d + p))) /\
  calc_data_chunk_write_pos v s (Some (d, p)) =
    if seq_num_is_parity s d p then None
    else Some (lenN (filter (fun t => negb (seq_num_is_parity t d p)) (rangeN 1 s)) * ver_to_data_size v).
Proof.
  intros Hd Hs. split.
  - intros t Ht. rewrite parity_mod by exact Ht. apply N.leb_le.
  - unfold calc_data_chunk_write_pos. rewrite chunk_index_spec by assumption. unfold data_before. destruct (seq_num_is_parity s d p); reflexivity.
Qed.
Lemma chunk_pos_none v s :
  calc_data_chunk_write_pos v s None = (if s =? 0 then None else Some ((s - 1) * ver_to_data_size v)) /\
  forall d p, calc_data_chunk_write_pos v 0 (Some (d, p)) = None.
Proof.
  split; [|reflexivity]. unfold calc_data_chunk_write_pos, calc_data_chunk_write_index, SBX_FIRST_DATA_SEQ_NUM.
  destruct (N.ltb_spec s 1), (N.eqb_spec s 0); try lia; reflexivity.
Qed.
Lemma chunk_tile v dp : match dp with Some (d, _) => 1 <= d | None => True end ->
  (forall k, exists s, 1 <= s /\ calc_data_chunk_write_pos v s dp = Some (k * ver_to_data_size v)) /\
  (forall s1 s2 a b, s1 < s2 -> calc_data_chunk_write_pos v s1 dp = Some a -> calc_data_chunk_write_pos v s2 dp = Some b ->
     a + ver_to_data_size v <= b).
Proof.
  intro HD. split.
  - intro k. destruct dp as [[d p]|].
    + destruct (chunk_index_surj d p k HD) as [_ X]. eexists. split; [|unfold calc_data_chunk_write_pos; rewrite X; reflexivity]. rewrite <- N.add_assoc. apply N.le_add_r.
    + exists (k + 1). split; [lia|]. rewrite (proj1 (chunk_pos_none v (k + 1))). destruct (N.eqb_spec (k + 1) 0); [lia|].
      f_equal. f_equal. lia.
  - intros s1 s2 a b H12 E1 E2. destruct dp as [[d p]|].
    + destruct (N.eqb_spec s1 0) as [->|HZ]; [discriminate|].
      rewrite (proj2 (chunk_pos v d p s1 HD ltac:(lia))) in E1. rewrite (proj2 (chunk_pos v d p s2 HD ltac:(lia))) in E2.
      destruct (seq_num_is_parity s1 d p) eqn:P1; [discriminate|]. destruct (seq_num_is_parity s2 d p) eqn:P2; [discriminate|].
      apply Some_inj in E1, E2. subst a b. fold (data_before d p s1) (data_before d p s2).
      assert (data_before d p s1 + 1 <= data_before d p s2).
      { pose proof (data_before_succ d p s1 ltac:(lia)) as X. rewrite P1 in X. rewrite <- X. apply data_before_mono. lia. }
      replace (data_before d p s1 * ver_to_data_size v + ver_to_data_size v) with ((data_before d p s1 + 1) * ver_to_data_size v) by lia.
      apply N.mul_le_mono_r. assumption.
    + rewrite (proj1 (chunk_pos_none v s1)) in E1. rewrite (proj1 (chunk_pos_none v s2)) in E2. destruct (N.eqb_spec s1 0); [discriminate|].
      destruct (N.eqb_spec s2 0); [discriminate|]. apply Some_inj in E1, E2. subst a b.
      replace ((s1 - 1) * ver_to_data_size v + ver_to_data_size v) with (s1 * ver_to_data_size v).
      2: { replace s1 with (s1 - 1 + 1) at 1 by lia. lia. }
      apply N.mul_le_mono_r. lia.
Qed.
Lemma container_size_ok v me o size n : dpb_ok o -> block_count v o size n -> n < U32_MAX ->
  match o with Some (d, p, B) => (d + p) * B < 4294967296 | None => True end ->
  exists sz, calc_container_size v me o size = ROk sz /\ is_end (ver_to_block_size v) (written me o n) sz.
Proof.
  intros HO HC HN HB. destruct (container_size_char v me o size n HO HC ltac:(lia)) as [H|(_ & d & p & B & -> & B1 & N1 & [H|H])]; [exact H|lia|].
  exfalso. rewrite N.mod_small in H by exact HB. destruct HO as (Hd & _). nia.
Qed.
Lemma container_size_panics :
  (exists v me o size, dpb_ok o /\ calc_container_size v me o size = RPanic) /\
  (exists v me o size mx, dpb_ok o /\ ver_to_max_data_file_size v o = ROk mx /\ size <= mx
     /\ o = Some (254, 1, 1) /\ calc_container_size v me o size = RPanic).
Proof.
  split.
  - exists V17, None, (Some (128, 128, 16777216)), 1. split; [cbn; lia|vm_compute; reflexivity].
  - exists V17, None, (Some (254, 1, 1)), 2121949645856, 2121949645856. split; [cbn; lia|]. split; [vm_compute; reflexivity|].
    split; [lia|]. split; [reflexivity|]. vm_compute. reflexivity.
Qed.
Lemma limit_defined v o : dpb_ok o -> ver_ok v o ->
  exists mx last, ver_to_max_data_file_size v o = ROk mx /\ ver_to_last_data_seq_num_exc_parity v o = ROk last
    /\ mx < 18446744073709551616.
Proof.
  intros HO HV.
  assert (DS : ver_to_data_size v <= 4080) by (destruct v; vm_compute; congruence).
  rewrite (max_size_eq v o HO HV).
  unfold ver_to_last_data_seq_num_exc_parity, ver_to_max_block_set_count, SBX_MAX_DATA_BLOCK_COUNT.
  unfold ver_ok in HV. rewrite HV. destruct o as [[[d p] B]|].
  - destruct HO as (Hd & Hp & HT). cbv zeta. unfold u32 at 1. rewrite (N.mod_small (d + p)) by lia.
    destruct (N.eqb_spec (d + p) 0); [lia|]. eexists _, _. split; [reflexivity|]. split; [reflexivity|].
    pose proof (N.mul_div_le U32_MAX (d + p) ltac:(lia)) as X. rewrite N.mul_comm in X.
    generalize dependent (U32_MAX / (d + p)). intros K X.
    assert (K * d <= K * (d + p)) by (apply N.mul_le_mono_l; lia).
    eapply N.le_lt_trans; [apply (N.mul_le_mono _ 4294967295 _ 4080); [unfold U32_MAX in X; lia|exact DS]|reflexivity].
  - eexists _, _. split; [reflexivity|]. split; [reflexivity|]. unfold U32_MAX. lia.
Qed.
