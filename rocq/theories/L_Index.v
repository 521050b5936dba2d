(* Proofs about block placement. *)
From Verif Require Import M_Base L_Base L_File M_Specs M_Index S_Index.
Ltac Zify.zify_post_hook ::= idtac.

Lemma dm (y x z : N) : z < y -> (y * x + z) / y = x /\ (y * x + z) mod y = z.
Proof.
  intro H. split.
  - symmetry. apply N.div_unique with z; [exact H|reflexivity].
  - symmetry. apply N.mod_unique with x; [exact H|reflexivity].
Qed.
Lemma dm_eq n y x z : n = y * x + z -> z < y -> n / y = x /\ n mod y = z.
Proof. intros -> H. apply dm, H. Qed.

(* M metadata blocks precede a data block of super set q in column k *)
Definition mcount (p q k : N) : N := if q =? 0 then (if k <? 1 + p then 1 + k else 1 + p) else 1 + p.
Definition pos_of (d p B q a k : N) : N := mcount p q k + (d + p) * B * q + k * B + a.

(* decomposition of index n = seq - 1 *)
Lemma seq_decomp d p B n : 1 <= d -> 1 <= B ->
  exists q a k, a < B /\ k < d + p /\ n = (d + p) * B * q + ((d + p) * a + k)
   /\ (d + p) * a + k < (d + p) * B.
Proof.
  intros Hd HB. set (S := d + p). assert (HS : 1 <= S) by lia.
  assert (HSS : 0 < S * B) by nia.
  pose proof (N.div_mod n (S * B) ltac:(lia)) as E1. pose proof (N.mod_lt n (S * B) ltac:(lia)) as L1.
  set (q := n / (S * B)) in *. set (r := n mod (S * B)) in *.
  pose proof (N.div_mod r S ltac:(lia)) as E2. pose proof (N.mod_lt r S ltac:(lia)) as L2.
  set (a := r / S) in *. set (k := r mod S) in *.
  exists q, a, k. split; [nia|]. split; [exact L2|]. split; [|lia]. lia.
Qed.
Lemma write_index_eq me d p B q a k : 1 <= B -> a < B -> k < d + p ->
  calc_data_block_write_index (1 + ((d + p) * B * q + ((d + p) * a + k))) me (Some (d, p, B)) = pos_of d p B q a k.
Proof.
  intros HB Ha Hk. unfold calc_data_block_write_index, SBX_FIRST_DATA_SEQ_NUM.
  destruct (N.eqb_spec B 0); [lia|]. cbv zeta.
  replace (1 + ((d + p) * B * q + ((d + p) * a + k)) - 1) with ((d + p) * B * q + ((d + p) * a + k)) by lia.
  assert (L : (d + p) * a + k < (d + p) * B) by nia.
  destruct (dm _ q _ L) as [-> ->]. destruct (dm (d + p) a k Hk) as [-> ->].
  unfold pos_of, mcount. lia.
Qed.
(* the inverse without truncation *)
Definition seq_at (index : N) (me : option bool) (o : dpb) : N :=
  match o with
  | None => if match me with Some b => b | None => true end then index else 1 + index
  | Some (d, p, B) =>
      if B =? 0 then (if index <? 1 + p then 0 else index - (1 + p) + 1)
      else if (index <? (1 + p) * (1 + B)) && (index mod (1 + B) =? 0) then 0
      else
        let mc := if index <? (1 + p) * (1 + B) then 1 + index / (1 + B) else 1 + p in
        let i := index - mc in
        let r := i mod ((d + p) * B) in
        (d + p) * B * (i / ((d + p) * B)) + ((r mod B) * (d + p) + r / B) + 1
  end.
Lemma calc_seq_num_at_index_eq index me o : calc_seq_num_at_index index me o = u32 (seq_at index me o).
Proof.
  unfold calc_seq_num_at_index, seq_at, SBX_FIRST_DATA_SEQ_NUM, u32. destruct o as [[[d p] B]|].
  - destruct (B =? 0).
    + destruct (index <? 1 + p); reflexivity.
    + destruct (_ && _); [reflexivity|]. cbv zeta. rewrite N.add_mod_idemp_l by lia. reflexivity.
  - destruct (match me with Some b => b | None => true end); [reflexivity|].
    rewrite N.add_mod_idemp_r by lia. reflexivity.
Qed.
Lemma seq_at_pos me d p B q a k : 1 <= d -> 1 <= B -> a < B -> k < d + p ->
  seq_at (pos_of d p B q a k) me (Some (d, p, B)) = 1 + ((d + p) * B * q + ((d + p) * a + k)).
Proof.
  intros Hd HB Ha Hk. unfold seq_at. destruct (N.eqb_spec B 0); [lia|].
  assert (L : k * B + a < (d + p) * B) by nia.
  assert (K : pos_of d p B q a k - mcount p q k = (d + p) * B * q + (k * B + a)) by (unfold pos_of; lia).
  destruct (dm _ q _ L) as [D1 D2].
  assert (D3 : (k * B + a) / B = k /\ (k * B + a) mod B = a).
  { apply dm_eq; [lia|exact Ha]. }
  destruct D3 as [D3 D4].
  assert (T : (pos_of d p B q a k <? (1 + p) * (1 + B)) && (pos_of d p B q a k mod (1 + B) =? 0) = false
           /\ (if pos_of d p B q a k <? (1 + p) * (1 + B) then 1 + pos_of d p B q a k / (1 + B) else 1 + p) = mcount p q k).
  { clear D1 D2 D3 D4 K L. unfold mcount. destruct (N.eqb_spec q 0) as [->|Hq].
    - destruct (N.ltb_spec k (1 + p)) as [Hk'|Hk'].
      + assert (E : pos_of d p B 0 a k = (1 + B) * k + (1 + a)).
        { unfold pos_of, mcount. cbn [N.eqb]. destruct (N.ltb_spec k (1 + p)); [|lia]. lia. }
        assert (LT : pos_of d p B 0 a k < (1 + p) * (1 + B)).
        { rewrite E. assert (k * (1 + B) <= p * (1 + B)) by (apply N.mul_le_mono_r; lia). lia. }
        apply N.ltb_lt in LT. rewrite LT.
        destruct (dm_eq _ _ _ _ E ltac:(lia)) as [E1 E2]. rewrite E1, E2.
        destruct (N.eqb_spec (1 + a) 0); [lia|]. split; reflexivity.
      + assert (E : pos_of d p B 0 a k = 1 + p + k * B + a).
        { unfold pos_of, mcount. cbn [N.eqb]. destruct (N.ltb_spec k (1 + p)); [lia|]. lia. }
        destruct (N.ltb_spec (pos_of d p B 0 a k) ((1 + p) * (1 + B))); [nia|]. split; reflexivity.
    - assert (E : pos_of d p B q a k = 1 + p + (d + p) * B * q + k * B + a).
      { unfold pos_of, mcount. destruct (N.eqb_spec q 0); [lia|]. reflexivity. }
      destruct (N.ltb_spec (pos_of d p B q a k) ((1 + p) * (1 + B))) as [C|C]; [|split; reflexivity].
      exfalso. rewrite E in C. assert ((d + p) * B * 1 <= (d + p) * B * q) by (apply N.mul_le_mono_l; lia). nia. }
  destruct T as [T1 T2]. rewrite T1. cbv zeta. rewrite T2, K, D1, D2, D3, D4. lia.
Qed.
Lemma pos_decomp d p B i : 1 <= d -> 1 <= B -> (forall j, j <= p -> i <> j * (1 + B)) ->
  exists q a k, a < B /\ k < d + p /\ i = pos_of d p B q a k.
Proof.
  intros Hd HB HM.
  destruct (N.lt_ge_cases i ((1 + p) * (1 + B))) as [C|C].
  - (* first super set, among the metadata blocks *)
    pose proof (N.div_mod i (1 + B) ltac:(lia)) as E. pose proof (N.mod_lt i (1 + B) ltac:(lia)) as L.
    set (k := i / (1 + B)) in *. set (r := i mod (1 + B)) in *.
    assert (Hk : k <= p) by nia. specialize (HM k Hk).
    exists 0, (r - 1), k. split; [lia|]. split; [lia|].
    unfold pos_of, mcount. cbn [N.eqb]. destruct (N.ltb_spec k (1 + p)); [|lia]. lia.
  - set (n := i - (1 + p)). assert (HSS : 0 < (d + p) * B) by nia.
    pose proof (N.div_mod n ((d + p) * B) ltac:(lia)) as E. pose proof (N.mod_lt n ((d + p) * B) ltac:(lia)) as L.
    set (q := n / ((d + p) * B)) in *. set (r := n mod ((d + p) * B)) in *.
    pose proof (N.div_mod r B ltac:(lia)) as E2. pose proof (N.mod_lt r B ltac:(lia)) as L2.
    set (k := r / B) in *. set (a := r mod B) in *.
    exists q, a, k. split; [exact L2|]. split; [nia|].
    unfold pos_of, mcount. destruct (N.eqb_spec q 0) as [Hq|Hq]; [|lia].
    destruct (N.ltb_spec k (1 + p)) as [Hk|Hk]; [|lia].
    exfalso. rewrite Hq in E. assert (n = B * k + a) by lia. assert (k * B <= p * B) by (apply N.mul_le_mono_r; lia). nia.
Qed.

(* ---- inverse ---- *)
Lemma seq_at_write me o seq : dpb_ok o -> 1 <= seq -> seq_at (calc_data_block_write_index seq me o) me o = seq.
Proof.
  intros HO HS. destruct o as [[[d p] B]|].
  - destruct HO as (Hd & Hp & _). destruct (N.eqb_spec B 0) as [->|HB].
    + unfold calc_data_block_write_index, seq_at, SBX_FIRST_DATA_SEQ_NUM. cbn [N.eqb].
      destruct (N.ltb_spec (1 + p + (seq - 1)) (1 + p)); lia.
    + destruct (seq_decomp d p B (seq - 1) Hd ltac:(lia)) as (q & a & k & Ha & Hk & E & _).
      replace seq with (1 + (seq - 1)) by lia. rewrite E.
      rewrite write_index_eq by lia. apply seq_at_pos; lia.
  - unfold calc_data_block_write_index, seq_at, SBX_FIRST_DATA_SEQ_NUM.
    destruct (match me with Some b => b | None => true end); lia.
Qed.
Lemma seq_at_meta me o i : dpb_ok o -> meta_index me o i -> seq_at i me o = 0.
Proof.
  intros HO HM. destruct o as [[[d p] B]|]; cbn [meta_index] in HM.
  - destruct HM as (j & Hj & ->). unfold seq_at. destruct (N.eqb_spec B 0) as [->|HB].
    + destruct (N.ltb_spec (j * (1 + 0)) (1 + p)); lia.
    + destruct (dm_eq (j * (1 + B)) (1 + B) j 0 ltac:(lia) ltac:(lia)) as [_ ->].
      destruct (N.ltb_spec (j * (1 + B)) ((1 + p) * (1 + B))); [reflexivity|nia].
  - destruct HM as [HM ->]. unfold seq_at. destruct me as [[]|]; [reflexivity|congruence|reflexivity].
Qed.
Lemma index_covered me o i : dpb_ok o ->
  meta_index me o i \/ exists seq, 1 <= seq /\ calc_data_block_write_index seq me o = i.
Proof.
  intros HO. destruct o as [[[d p] B]|].
  - destruct HO as (Hd & Hp & _). cbn [meta_index]. destruct (N.eqb_spec B 0) as [->|HB].
    + destruct (N.le_gt_cases i p) as [C|C]; [left; exists i; lia|]. right. exists (i - p).
      split; [lia|]. unfold calc_data_block_write_index, SBX_FIRST_DATA_SEQ_NUM. cbn [N.eqb]. lia.
    + destruct ((i mod (1 + B) =? 0) && (i / (1 + B) <=? p)) eqn:T.
      * apply andb_true_iff in T as [T1 T2]. apply N.eqb_eq in T1. apply N.leb_le in T2.
        left. exists (i / (1 + B)). split; [exact T2|]. pose proof (N.div_mod i (1 + B) ltac:(lia)). lia.
      * right. destruct (pos_decomp d p B i Hd ltac:(lia)) as (q & a & k & Ha & Hk & E).
        { intros j Hj ->. destruct (dm_eq (j * (1 + B)) (1 + B) j 0 ltac:(lia) ltac:(lia)) as [E1 E2].
          rewrite E1, E2 in T. cbn [N.eqb andb] in T. apply N.leb_gt in T. lia. }
        exists (1 + ((d + p) * B * q + ((d + p) * a + k))). split; [lia|].
        rewrite write_index_eq by lia. symmetry; exact E.
  - cbn [meta_index]. unfold calc_data_block_write_index, SBX_FIRST_DATA_SEQ_NUM.
    destruct me as [[]|].
    + destruct (N.eqb_spec i 0) as [->|]; [left; split; [discriminate|reflexivity]|]. right. exists i. lia.
    + right. exists (i + 1). lia.
    + destruct (N.eqb_spec i 0) as [->|]; [left; split; [discriminate|reflexivity]|]. right. exists i. lia.
Qed.
Theorem index_inverse me o : dpb_ok o ->
  (forall seq, 1 <= seq <= U32_MAX -> calc_seq_num_at_index (calc_data_block_write_index seq me o) me o = seq) /\
  (forall i, meta_index me o i -> calc_seq_num_at_index i me o = 0) /\
  (forall i, meta_index me o i \/ exists seq, 1 <= seq /\ calc_data_block_write_index seq me o = i).
Proof.
  intro HO. unfold U32_MAX. split; [|split].
  - intros seq HS. rewrite calc_seq_num_at_index_eq, seq_at_write by lia || assumption. unfold u32. apply N.mod_small. lia.
  - intros i HM. rewrite calc_seq_num_at_index_eq, seq_at_meta by assumption. reflexivity.
  - intro i. apply index_covered, HO.
Qed.
Lemma write_index_inj me o s1 s2 : dpb_ok o -> 1 <= s1 -> 1 <= s2 ->
  calc_data_block_write_index s1 me o = calc_data_block_write_index s2 me o -> s1 = s2.
Proof.
  intros HO H1 H2 E. rewrite <- (seq_at_write me o s1 HO H1), <- (seq_at_write me o s2 HO H2), E. reflexivity.
Qed.
Lemma write_index_not_meta me o s : dpb_ok o -> 1 <= s -> ~ meta_index me o (calc_data_block_write_index s me o).
Proof.
  intros HO H1 HM. apply seq_at_meta in HM; [|exact HO]. rewrite seq_at_write in HM by assumption. lia.
Qed.

(* ---- metadata positions ---- *)
Lemma insertN_In x y l : In x (insertN y l) <-> x = y \/ In x l.
Proof.
  induction l as [|z l IH]; cbn [insertN In]; [intuition|]. destruct (y <=? z); cbn [In]; [intuition|]. rewrite IH. intuition.
Qed.
Lemma sortN_In x l : In x (sortN l) <-> In x l.
Proof. induction l as [|y l IH]; cbn [sortN In]; [intuition|]. rewrite insertN_In, IH. intuition. Qed.
Lemma insertN_len x l : lenN (insertN x l) = 1 + lenN l.
Proof. induction l as [|y l IH]; cbn [insertN]; [reflexivity|]. destruct (x <=? y); rewrite ?lenN_cons, ?IH; lia. Qed.
Lemma sortN_len l : lenN (sortN l) = lenN l.
Proof. induction l as [|y l IH]; cbn [sortN]; [reflexivity|]. rewrite insertN_len, IH, lenN_cons. reflexivity. Qed.
Inductive sorted : list N -> Prop :=
| sorted_nil : sorted []
| sorted_cons x l : (forall y, In y l -> x <= y) -> sorted l -> sorted (x :: l).
Lemma insertN_sorted x l : sorted l -> sorted (insertN x l).
Proof.
  induction 1 as [|y l HY HS IH]; cbn [insertN]; [constructor; [intros ? []|constructor]|].
  destruct (N.leb_spec x y).
  - constructor; [|constructor; assumption]. intros z [<-|Hz]; [assumption|]. specialize (HY z Hz). lia.
  - constructor; [|exact IH]. intros z Hz. apply insertN_In in Hz as [->|Hz]; [lia|]. apply HY, Hz.
Qed.
Lemma sortN_sorted l : sorted (sortN l).
Proof. induction l as [|y l IH]; cbn [sortN]; [constructor|]. apply insertN_sorted, IH. Qed.
Lemma meta_all_In o i : In i (calc_meta_block_all_write_indices o) <-> meta_index None o i.
Proof.
  unfold calc_meta_block_all_write_indices. rewrite sortN_In, in_app_iff. cbn [In].
  destruct o as [[[d p] B]|]; cbn [calc_meta_block_dup_write_indices meta_index In].
  - rewrite in_map_iff. split.
    + intros [(j & <- & Hj)|[<-|[]]]; [apply In_rangeN in Hj; exists j; split; [lia|reflexivity]|exists 0; lia].
    + intros (j & Hj & ->). destruct (N.eqb_spec j 0) as [->|]; [right; left; lia|].
      left. exists j. split; [reflexivity|]. apply In_rangeN. lia.
  - split; [intros [[]|[<-|[]]]; split; [discriminate|reflexivity]|intros [_ ->]; auto].
Qed.
Lemma meta_pos_In v o x : In x (calc_meta_block_all_write_pos_s v o) <->
  exists i, meta_index None o i /\ x = i * ver_to_block_size v.
Proof.
  unfold calc_meta_block_all_write_pos_s, calc_meta_block_dup_write_pos_s. rewrite sortN_In, in_app_iff, in_map_iff. cbn [In].
  split.
  - intros [(i & <- & Hi)|[<-|[]]].
    + exists i. split; [|reflexivity]. apply meta_all_In. unfold calc_meta_block_all_write_indices.
      apply sortN_In, in_app_iff. left; exact Hi.
    + exists 0. split; [|reflexivity]. apply meta_all_In. unfold calc_meta_block_all_write_indices.
      apply sortN_In, in_app_iff. right; left; reflexivity.
  - intros (i & Hi & ->). apply meta_all_In in Hi. unfold calc_meta_block_all_write_indices in Hi.
    apply sortN_In, in_app_iff in Hi as [Hi|[<-|[]]]; [left; exists i; auto|right; left; reflexivity].
Qed.

(* ---- burst tolerance ---- *)
Lemma same_set_apart me d p B s1 s2 : 1 <= d -> 1 <= s1 -> s1 < s2 -> set_of d p s1 = set_of d p s2 ->
  calc_data_block_write_index s1 me (Some (d, p, B)) + N.max B 1 <= calc_data_block_write_index s2 me (Some (d, p, B)).
Proof.
  intros Hd H1 H12 HE. destruct (N.eqb_spec B 0) as [->|HB].
  - unfold calc_data_block_write_index, SBX_FIRST_DATA_SEQ_NUM. cbn [N.eqb]. lia.
  - destruct (seq_decomp d p B (s1 - 1) Hd ltac:(lia)) as (q1 & a1 & k1 & Ha1 & Hk1 & E1 & _).
    destruct (seq_decomp d p B (s2 - 1) Hd ltac:(lia)) as (q2 & a2 & k2 & Ha2 & Hk2 & E2 & _).
    unfold set_of in HE.
    assert (F1 : (s1 - 1) / (d + p) = B * q1 + a1).
    { apply (dm_eq _ _ _ k1); [rewrite E1; lia|exact Hk1]. }
    assert (F2 : (s2 - 1) / (d + p) = B * q2 + a2).
    { apply (dm_eq _ _ _ k2); [rewrite E2; lia|exact Hk2]. }
    assert (EQ : q1 = q2 /\ a1 = a2).
    { destruct (dm B q1 a1 Ha1) as [G1 G2]. destruct (dm B q2 a2 Ha2) as [G3 G4].
      rewrite <- F1 in G1, G2. rewrite <- F2 in G3, G4. rewrite HE in G1, G2. split; congruence. }
    destruct EQ as [<- <-].
    replace s1 with (1 + (s1 - 1)) by lia. replace s2 with (1 + (s2 - 1)) by lia. rewrite E1, E2.
    rewrite !write_index_eq by lia.
    assert (HK : k1 < k2) by lia.
    assert (HM : mcount p q1 k1 <= mcount p q1 k2).
    { unfold mcount. destruct (q1 =? 0); [|lia]. destruct (N.ltb_spec k1 (1 + p)), (N.ltb_spec k2 (1 + p)); lia. }
    unfold pos_of. assert ((k1 + 1) * B <= k2 * B) by (apply N.mul_le_mono_r; lia). lia.
Qed.
Lemma meta_apart me d p B i1 i2 : meta_index me (Some (d, p, B)) i1 -> meta_index me (Some (d, p, B)) i2 -> i1 < i2 ->
  i1 + 1 + B <= i2.
Proof.
  intros (j1 & _ & ->) (j2 & _ & ->) H. assert (j1 < j2) by nia.
  assert ((j1 + 1) * (1 + B) <= j2 * (1 + B)) by (apply N.mul_le_mono_r; lia). lia.
Qed.
Lemma hitb_iff B bursts i : hitb B bursts i = true <-> hit B bursts i.
Proof.
  unfold hitb, hit. rewrite existsb_exists. split; intros (s & H1 & H2); exists s; (split; [exact H1|]).
  - apply andb_true_iff in H2 as [A C]. apply N.leb_le in A. apply N.ltb_lt in C. lia.
  - apply andb_true_iff. split; [apply N.leb_le|apply N.ltb_lt]; lia.
Qed.
(* counting: if positions f(x) of the listed items are pairwise at least B apart, each burst hits at most one *)
Fixpoint apart (B : N) (l : list N) : Prop :=
  match l with
  | [] => True
  | x :: l' => (forall y, In y l' -> x + B <= y) /\ apart B l'
  end.
Lemma filter_nil {A} (f : A -> bool) l : (forall x, In x l -> f x = false) -> filter f l = [].
Proof.
  induction l as [|x l IH]; intro H; [reflexivity|]. cbn [filter]. rewrite (H x (or_introl eq_refl)).
  apply IH. intros y Hy. apply H. right; exact Hy.
Qed.
Lemma one_burst_count B s l : apart B l -> lenN (filter (fun i => (s <=? i) && (i <? s + B)) l) <= 1.
Proof.
  induction l as [|x l IH]; cbn [filter apart]; [intros; rewrite lenN_nil; lia|]. intros [HX HA].
  destruct ((s <=? x) && (x <? s + B)) eqn:E; [|apply IH, HA].
  apply andb_true_iff in E as [E1 E2]. apply N.leb_le in E1. apply N.ltb_lt in E2.
  rewrite lenN_cons, filter_nil; [rewrite lenN_nil; lia|].
  intros y Hy. specialize (HX y Hy). destruct (N.ltb_spec y (s + B)); [lia|]. apply andb_false_r.
Qed.
Lemma filter_or_len {A} (f g : A -> bool) l : lenN (filter (fun x => f x || g x) l) <= lenN (filter f l) + lenN (filter g l).
Proof.
  induction l as [|x l IH]; cbn [filter]; [rewrite !lenN_nil; lia|].
  destruct (f x), (g x); cbn [orb]; rewrite ?lenN_cons; lia.
Qed.
Lemma bursts_count B bursts l : apart B l -> lenN (filter (hitb B bursts) l) <= lenN bursts.
Proof.
  intro HA. induction bursts as [|s bs IH].
  - rewrite filter_nil; [rewrite lenN_nil; lia|reflexivity].
  - unfold hitb. cbn [existsb]. rewrite lenN_cons.
    pose proof (filter_or_len (fun i => (s <=? i) && (i <? s + B)) (hitb B bs) l) as H1.
    pose proof (one_burst_count B s l HA) as H2. unfold hitb in *. lia.
Qed.
Lemma apart_map_range (f : N -> N) B lo hi : (forall x y, lo <= x -> x < y -> y < hi -> f x + B <= f y) ->
  apart B (map f (rangeN lo hi)).
Proof.
  intro H. remember (N.to_nat (hi - lo)) as n eqn:En. revert lo H En.
  induction n as [|n IH]; intros lo H En.
  - rewrite rangeN_nil by lia. exact I.
  - rewrite rangeN_cons by lia. cbn [map apart]. split.
    + intros y Hy. apply in_map_iff in Hy as (z & <- & Hz). apply In_rangeN in Hz. apply H; lia.
    + apply IH; [|lia]. intros x y Hx Hxy Hy. apply H; lia.
Qed.
