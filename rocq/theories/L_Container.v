(* Writing blocks at their places gives a container. *)
From Verif Require Import M_Base M_Specs M_Crc M_Header M_Block M_Index M_FileUtils M_Buffer M_Encode
  S_Crc S_Index S_Container L_Base L_File L_Crc L_Header L_Block L_Index L_Index2 L_Buffer L_Lot L_Encode.
Ltac Zify.zify_post_hook ::= idtac.

(* ---- a list of whole-block writes ---- *)
Section Writes.
Variable bs : N.
Hypothesis BS : 1 <= bs.
Definition put_blocks (L : list (N * list N)) (f : file) : file :=
  fold_left (fun f x => file_write f (fst x * bs) (snd x)) L f.
Lemma put_blocks_app L1 L2 f : put_blocks (L1 ++ L2) f = put_blocks L2 (put_blocks L1 f).
Proof. apply fold_left_app. Qed.
Lemma in_block i k : (k * bs <= i /\ i < k * bs + bs) <-> i / bs = k.
Proof.
  pose proof (N.div_mod' i bs) as DM. pose proof (N.mod_lt i bs ltac:(lia)) as ML. split.
  - intros [H1 H2]. symmetry. apply N.div_unique with (r := i - k * bs); lia.
  - intros <-. lia.
Qed.
Lemma put_blocks_ok L f : Forall (fun x => lenN (snd x) = bs) L ->
  (forall a b b', In (a, b) L -> In (a, b') L -> b = b') ->
  let f' := put_blocks L f in
  (forall a b, In (a, b) L -> sliceN (a * bs) bs f' = b) /\
  (forall i, (forall b, ~ In (i / bs, b) L) -> nthN f' i = nthN f i) /\
  (forall a b, In (a, b) L -> (a + 1) * bs <= lenN f') /\
  lenN f <= lenN f' /\ (lenN f' = lenN f \/ exists a b, In (a, b) L /\ lenN f' = (a + 1) * bs).
Proof.
  induction L as [|[a0 b0] L IH] using rev_ind; intros HF HU f'.
  - unfold f', put_blocks. cbn [fold_left]. repeat split; try lia; try (intros; contradiction).
  - apply Forall_app in HF as [HF1 HF2]. inversion HF2 as [|? ? L0 _]; subst. cbn [snd] in L0.
    destruct IH as (I1 & I2 & I3 & I4 & I5); [exact HF1|intros; eapply HU; apply in_app_iff; left; eassumption|].
    unfold f'. rewrite put_blocks_app. set (g := put_blocks L f) in *. cbn [put_blocks fold_left fst snd].
    assert (LG : lenN (file_write g (a0 * bs) b0) = N.max (lenN g) ((a0 + 1) * bs)).
    { rewrite lenN_file_write, L0. destruct (N.eqb_spec bs 0); [lia|]. f_equal. lia. }
    split; [|split; [|split; [|split]]].
    + intros a b Hab. destruct (N.eq_dec a a0) as [->|NE].
      * assert (b = b0) by (eapply HU; [exact Hab|apply in_app_iff; right; left; reflexivity]). subst b. apply read_write_same. lia.
      * apply in_app_iff in Hab as [Hab|[Hab|[]]]; [|congruence]. rewrite read_write_other; [apply I1, Hab| |].
        -- specialize (I3 _ _ Hab). lia.
        -- rewrite L0. destruct (N.lt_ge_cases a a0); [left|right]; nia.
    + intros i Hi. rewrite nthN_file_write, L0.
      destruct ((a0 * bs <=? i) && (i <? a0 * bs + bs)) eqn:E.
      * exfalso. apply (Hi b0). apply in_app_iff. right. left. f_equal. symmetry. apply in_block. lia.
      * apply I2. intros b Hb. apply (Hi b). apply in_app_iff. left; exact Hb.
    + intros a b Hab. rewrite LG. apply in_app_iff in Hab as [Hab|[Hab|[]]].
      * specialize (I3 _ _ Hab). lia.
      * injection Hab as <- <-. lia.
    + rewrite LG. lia.
    + rewrite LG. destruct (N.le_ge_cases (lenN g) ((a0 + 1) * bs)).
      * right. exists a0, b0. split; [apply in_app_iff; right; left; reflexivity|]. lia.
      * destruct I5 as [I5|(a & b & Hab & I5)].
        -- left. lia.
        -- right. exists a, b. split; [apply in_app_iff; left; exact Hab|]. lia.
Qed.
End Writes.

(* ---- data cut into chunks: all of size ds, the last of size 1..ds ---- *)
Section Chunks.
Variable ds : N.
Hypothesis DS : 1 <= ds.
Inductive chunked : list (list N) -> Prop :=
| ch_nil : chunked []
| ch_last x : 1 <= lenN x <= ds -> chunked [x]
| ch_cons x xs : lenN x = ds -> chunked xs -> chunked (x :: xs).
Lemma chunked_len xs : chunked xs -> is_ceil_div (lenN (concat xs)) ds (lenN xs).
Proof.
  induction 1 as [|x H|x xs H HC IH].
  - split; [change (lenN (concat (@nil (list N)))) with 0; lia|intros; change (lenN (@nil (list N))) with 0; lia].
  - cbn [concat]. rewrite app_nil_r. change (lenN [x]) with 1. split; [lia|]. intros m Hm. destruct (N.eq_dec m 0) as [->|]; lia.
  - destruct IH as [I1 I2]. cbn [concat]. rewrite lenN_app, lenN_cons, H. split; [lia|]. intros m Hm.
    destruct (N.eq_dec m 0) as [->|]; [lia|]. specialize (I2 (m - 1)). nia.
Qed.
Lemma chunked_nth xs : chunked xs -> forall j, sliceN (j * ds) ds (concat xs) = match nth_optN xs j with Some x => x | None => [] end.
Proof.
  induction 1 as [|x H|x xs H HC IH]; intro j.
  - cbn [concat]. unfold sliceN. rewrite drop_nil, take_nil. destruct (N.to_nat j) eqn:E; unfold nth_optN; rewrite E; reflexivity.
  - cbn [concat]. rewrite app_nil_r. destruct (N.eq_dec j 0) as [->|NJ].
    + change (nth_optN [x] 0) with (Some x). replace (0 * ds) with 0 by lia. apply slice_all. lia.
    + assert (E : nth_optN [x] j = None) by (apply nth_optN_None; change (lenN [x]) with 1; lia). rewrite E.
      unfold sliceN. rewrite drop_all by nia. apply take_nil.
  - cbn [concat]. destruct (N.eq_dec j 0) as [->|NJ].
    + change (nth_optN (x :: xs) 0) with (Some x). replace (0 * ds) with 0 by lia. rewrite slice_app_l by lia. apply slice_all. lia.
    + rewrite slice_app_r by nia. replace (j * ds - lenN x) with ((j - 1) * ds) by nia. rewrite IH.
      change (x :: xs) with ([x] ++ xs). rewrite (nth_optN_app2 [x]) by (change (lenN [x]) with 1; lia). reflexivity.
Qed.
Lemma chunked_forall xs : chunked xs -> Forall (fun x => 1 <= lenN x <= ds) xs.
Proof. induction 1; repeat constructor; try lia; auto. Qed.
End Chunks.

Section Content.
Variable c : cfg.
Variable rs : codec.
Let v := c_ver c.
Let uid := c_uid c.
Let bs := ver_to_block_size v.
Let ds := ver_to_data_size v.
Let ls := lot_size c.
Let w := dws c.
Hypothesis CIN : c_in c = InData.
Hypothesis CUID : lenN uid = 6 /\ bytes_ok uid = true.
Hypothesis CO : dpb_ok (c_dpb c).
Hypothesis CRS : codec_ok rs (c_dpb c).
Variable xs : list (list N).
Hypothesis HCH : chunked ds xs.
Hypothesis HBY : bytes_ok (concat xs) = true.
Let data := concat xs.

Lemma In_number start pls x : In x (number c start pls) <->
  exists i pl fl, nth_optN pls i = Some (pl, fl) /\ x = (start + i, block_bytes c (start + i) pl, fl).
Proof.
  revert start. induction pls as [|[pl0 fl0] r IH]; intro start; cbn [number In].
  - split; [intros []|]. intros (i & pl & fl & H & _). unfold nth_optN in H. destruct (N.to_nat i); discriminate.
  - rewrite IH. split.
    + intros [<-|(i & pl & fl & H & ->)].
      * exists 0, pl0, fl0. rewrite N.add_0_r. split; reflexivity.
      * exists (i + 1), pl, fl. replace (start + 1 + i) with (start + (i + 1)) by lia. split; [|reflexivity].
        change ((pl0, fl0) :: r) with ([(pl0, fl0)] ++ r). rewrite nth_optN_app2 by (change (lenN [(pl0, fl0)]) with 1; lia).
        change (lenN [(pl0, fl0)]) with 1. rewrite <- H. f_equal. lia.
    + intros (i & pl & fl & H & ->). destruct (N.eq_dec i 0) as [->|NI].
      * left. change (nth_optN ((pl0, fl0) :: r) 0) with (Some (pl0, fl0)) in H. injection H as <- <-. rewrite N.add_0_r. reflexivity.
      * right. exists (i - 1), pl, fl. replace (start + 1 + (i - 1)) with (start + i) by lia. split; [|reflexivity].
        change ((pl0, fl0) :: r) with ([(pl0, fl0)] ++ r) in H. rewrite nth_optN_app2 in H by (change (lenN [(pl0, fl0)]) with 1; lia).
        change (lenN [(pl0, fl0)]) with 1 in H. exact H.
Qed.

Lemma chunk_nth j : chunk ds data j = match nth_optN xs j with Some x => padded ds x | None => repN ds 26 end.
Proof.
  unfold chunk. unfold data. rewrite (chunked_nth ds) by (try exact HCH; unfold ds; apply (ds_pos c)).
  destruct (nth_optN xs j); [reflexivity|]. cbn [app]. f_equal. change (lenN (@nil N)) with 0. lia.
Qed.

Lemma w_pos : 1 <= w /\ w <= ls.
Proof.
  unfold w, ls, dws, lot_size. rewrite CIN. unfold DEFAULT_SINGLE_LOT_SIZE.
  pose proof CO as CO'. unfold dpb_ok in CO'. destruct (c_dpb c) as [[[d p] b]|]; lia.
Qed.
Lemma lotx_nonempty j : lotx c xs j <> [] <-> j * w < lenN xs.
Proof.
  unfold lotx. fold w. pose proof w_pos as [W _]. split; intro H.
  - apply N.nle_gt. intro L. apply H. unfold sliceN. rewrite drop_all by exact L. apply take_nil.
  - intro E. apply (f_equal lenN) in E. rewrite lenN_slice in E. change (lenN (@nil (list N))) with 0 in E. lia.
Qed.
Lemma lotx_ok j : Forall (fun x => 1 <= lenN x <= ds /\ bytes_ok x = true) (lotx c xs j) /\ lenN (lotx c xs j) <= w.
Proof.
  split; [|unfold lotx; fold w; rewrite lenN_slice; lia]. unfold lotx. apply Forall_slice.
  pose proof (chunked_forall ds (ds_pos c) xs HCH) as H. rewrite Forall_forall in *. intros x Hx. split; [apply H, Hx|].
  eapply bytes_ok_incl; [|exact HBY]. intros y Hy. apply in_concat. exists x. auto.
Qed.
Lemma group_len_j j : lenN (group c rs (lotx c xs j)) = gl c (lotx c xs j).
Proof. destruct (lotx_ok j) as [H1 H2]. apply (group_len c rs CIN CRS); assumption. Qed.

Lemma set_data d p b j : c_dpb c = Some (d, p, b) -> j * d < lenN xs ->
  map fst (map (fun x => (padded ds x, false)) (lotx c xs j) ++ repN (d - lenN (lotx c xs j)) (repN ds 26, true))
  = map (chunk ds data) (rangeN (j * d) (j * d + d)).
Proof.
  intros EO HJ. assert (EW : w = d) by (unfold w, dws; rewrite CIN, EO; reflexivity).
  assert (LL : lenN (lotx c xs j) <= d) by (destruct (lotx_ok j); lia).
  apply list_ext. intro i. rewrite !nth_optN_map. destruct (N.lt_ge_cases i d) as [Hi|Hi].
  - rewrite nth_optN_range by lia. cbn [option_map]. rewrite chunk_nth.
    destruct (N.lt_ge_cases i (lenN (lotx c xs j))) as [L1|L1].
    + rewrite nth_optN_app1 by (rewrite lenN_map; exact L1). rewrite nth_optN_map.
      unfold lotx at 1. fold w. rewrite EW, nth_optN_slice by lia. destruct (nth_optN xs (j * d + i)) eqn:E; [reflexivity|].
      apply nth_optN_None in E. unfold lotx in L1. fold w in L1. rewrite lenN_slice in L1. lia.
    + rewrite nth_optN_app2 by (rewrite lenN_map; exact L1). rewrite lenN_map, nth_optN_rep by lia. cbn [option_map fst].
      assert (E : nth_optN xs (j * d + i) = None).
      { apply nth_optN_None. unfold lotx in L1. fold w in L1. rewrite lenN_slice in L1. lia. }
      rewrite E. reflexivity.
  - assert (E1 : nth_optN (rangeN (j * d) (j * d + d)) i = None) by (apply nth_optN_None; rewrite lenN_range; lia).
    assert (E2 : nth_optN (map (fun x => (padded ds x, false)) (lotx c xs j) ++ repN (d - lenN (lotx c xs j)) (repN ds 26, true)) i = None).
    { apply nth_optN_None. rewrite lenN_app, lenN_map, lenN_rep. lia. }
    rewrite E1, E2. reflexivity.
Qed.
Lemma nth_opt_nth {A} (l : list A) i d0 : i < lenN l -> nth_optN l i = Some (nth (N.to_nat i) l d0).
Proof. intro H. unfold nth_optN. apply nth_error_nth'. unfold lenN in H. lia. Qed.

Lemma group_nth j i : j * w < lenN xs -> i < gl c (lotx c xs j) ->
  exists fl, nth_optN (group c rs (lotx c xs j)) i = Some (payload_of v (c_dpb c) rs data (1 + j * ls + i), fl).
Proof.
  intros HJ HI. pose proof (proj2 (lotx_nonempty j) HJ) as NE. pose proof (group_len_j j) as GL.
  unfold payload_of. change (ver_to_block_size v - 16) with ds. cbv zeta.
  replace (1 + j * ls + i - 1) with (j * ls + i) by lia.
  case_eq (c_dpb c); [intros [[d p] b] EO|intro EO].
  - assert (EW : w = d) by (unfold w, dws; rewrite CIN, EO; reflexivity).
    assert (ELS : ls = d + p) by (unfold ls, lot_size; rewrite CIN, EO; reflexivity).
    pose proof (set_data d p b j EO ltac:(rewrite <- EW; exact HJ)) as SD.
    assert (GI : gl c (lotx c xs j) = d + p) by (unfold gl; rewrite EO; destruct (lotx c xs j); [congruence|reflexivity]).
    rewrite GI in HI, GL. rewrite ELS.
    replace (j * (d + p) + i) with (i + j * (d + p)) by lia. rewrite N.div_add, N.mod_add by lia.
    rewrite N.div_small, N.mod_small by lia. rewrite N.add_0_l.
    assert (EG : group c rs (lotx c xs j) = (map (fun x => (padded ds x, false)) (lotx c xs j) ++ repN (d - lenN (lotx c xs j)) (repN ds 26, true))
       ++ map (fun y => (y, false)) (rs d p (map (chunk ds data) (rangeN (j * d) (j * d + d))))).
    { unfold group. rewrite EO. destruct (lotx c xs j) as [|x0 r] eqn:EL; [congruence|]. rewrite <- EL in *. cbv zeta. rewrite <- SD. reflexivity. }
    set (dd := map (fun x => (padded ds x, false)) (lotx c xs j) ++ repN (d - lenN (lotx c xs j)) (repN ds 26, true)) in *.
    assert (LD : lenN dd = d). { apply (f_equal lenN) in SD. rewrite !lenN_map, lenN_range in SD. lia. }
    rewrite EG in GL |- *. rewrite lenN_app, LD, lenN_map in GL.
    destruct (N.ltb_spec i d) as [L1|L1].
    + rewrite nth_optN_app1 by lia. apply (f_equal (fun l => nth_optN l i)) in SD. rewrite !nth_optN_map in SD.
      rewrite nth_optN_range in SD by lia. cbn [option_map] in SD. destruct (nth_optN dd i) as [[pl fl]|]; [|discriminate].
      cbn [option_map fst] in SD. injection SD as ->. exists fl. reflexivity.
    + rewrite nth_optN_app2 by lia. rewrite LD, nth_optN_map. rewrite (nth_opt_nth _ _ []) by lia. cbn [option_map]. eexists. reflexivity.
  - assert (EG : group c rs (lotx c xs j) = map (fun x => (padded ds x, false)) (lotx c xs j)).
    { unfold group. rewrite EO. destruct (lotx c xs j); reflexivity. }
    assert (GI : gl c (lotx c xs j) = lenN (lotx c xs j)) by (unfold gl; rewrite EO; destruct (lotx c xs j); [congruence|reflexivity]).
    rewrite GI in HI. rewrite EG, nth_optN_map. assert (ELS : ls = w) by (unfold ls, w, lot_size, dws; rewrite CIN, EO; reflexivity).
    rewrite chunk_nth, ELS. unfold lotx. fold w. destruct (lotx_ok j) as [_ LW]. rewrite nth_optN_slice by lia.
    destruct (nth_optN xs (j * w + i)) eqn:E; [eexists; reflexivity|]. exfalso. apply nth_optN_None in E. unfold lotx in HI. fold w in HI. rewrite lenN_slice in HI. lia.
Qed.

(* number of blocks *)
Definition nblocks : N := calc_data_block_count_exc_burst_gaps v (c_dpb c) (lenN data).
Lemma nblocks_ok : block_count v (c_dpb c) (lenN data) nblocks.
Proof. apply block_count_iff; [exact CO|reflexivity]. Qed.
Lemma nblocks_eq : match c_dpb c with None => nblocks = lenN xs | Some (d, p, _) => exists sets, is_ceil_div (lenN xs) d sets /\ nblocks = sets * (d + p) end.
Proof.
  pose proof nblocks_ok as (ch & Hc & HN). change (ver_to_block_size v - 16) with ds in Hc.
  assert (DS : 1 <= ds) by (unfold ds; apply (ds_pos c)).
  assert (ch = lenN xs) by (pose proof (chunked_len ds DS xs HCH) as H; apply ceil_uniq in H; [|exact DS]; apply ceil_uniq in Hc; [|exact DS]; fold data in H; lia).
  subst ch. destruct (c_dpb c) as [[[d p] b]|]; exact HN.
Qed.
(* lot and slot of a block *)
Lemma block_home s : 1 <= s <= nblocks -> let j := (s - 1) / ls in let i := (s - 1) mod ls in
  j * w < lenN xs /\ i < gl c (lotx c xs j) /\ s = 1 + j * ls + i.
Proof.
  intros Hs j i. pose proof w_pos as [W1 W2]. pose proof (N.div_mod' (s - 1) ls) as DM. pose proof (N.mod_lt (s - 1) ls ltac:(lia)) as ML.
  fold j i in DM, ML. pose proof nblocks_eq as NB. pose proof CO as CO'. unfold dpb_ok in CO'. case_eq (c_dpb c); [intros [[d p] b] EO|intro EO]; rewrite EO in NB, CO'.
  - assert (EW : w = d) by (unfold w, dws; rewrite CIN, EO; reflexivity).
    assert (ELS : ls = d + p) by (unfold ls, lot_size; rewrite CIN, EO; reflexivity).
    destruct NB as (sets & [C1 C2] & NB). rewrite EW.
    assert (JS : j < sets). { unfold j. apply N.div_lt_upper_bound; [lia|]. rewrite ELS. rewrite NB in Hs. lia. }
    assert (JX : j * d < lenN xs). { apply N.nle_gt. intro L. specialize (C2 _ L). lia. }
    split; [exact JX|]. split; [|lia]. pose proof (proj2 (lotx_nonempty j) ltac:(rewrite EW; exact JX)) as NE.
    unfold gl. rewrite EO. destruct (lotx c xs j); [congruence|]. lia.
  - assert (ELS : ls = w) by (unfold ls, w, lot_size, dws; rewrite CIN, EO; reflexivity).
    rewrite ELS in *. split; [lia|]. split; [|lia]. pose proof (proj2 (lotx_nonempty j) ltac:(lia)) as NE.
    unfold gl. rewrite EO. destruct (lotx c xs j) eqn:EL; [congruence|]. rewrite <- EL. unfold lotx. fold w. rewrite lenN_slice. lia.
Qed.
Lemma block_home_inv j i : j * w < lenN xs -> i < gl c (lotx c xs j) -> 1 <= 1 + j * ls + i <= nblocks.
Proof.
  intros HJ HI. split; [lia|]. pose proof nblocks_eq as NB. pose proof (proj2 (lotx_nonempty j) HJ) as NE.
  pose proof CO as CO'. unfold dpb_ok in CO'. case_eq (c_dpb c); [intros [[d p] b] EO|intro EO]; rewrite EO in NB, CO'.
  - assert (EW : w = d) by (unfold w, dws; rewrite CIN, EO; reflexivity).
    assert (ELS : ls = d + p) by (unfold ls, lot_size; rewrite CIN, EO; reflexivity).
    destruct NB as (sets & [C1 C2] & NB). unfold gl in HI. rewrite EO in HI. destruct (lotx c xs j); [congruence|]. rewrite ELS, NB.
    rewrite EW in HJ. assert (j < sets) by nia. assert ((j + 1) * (d + p) <= sets * (d + p)) by (apply N.mul_le_mono_r; lia). lia.
  - assert (ELS : ls = w) by (unfold ls, w, lot_size, dws; rewrite CIN, EO; reflexivity).
    unfold gl in HI. rewrite EO in HI. destruct (lotx c xs j) eqn:EL; [congruence|]. rewrite <- EL in HI. unfold lotx in HI. fold w in HI. rewrite lenN_slice in HI. rewrite ELS. lia.
Qed.
Lemma fits_iff : fits c xs <-> nblocks <= U32_MAX.
Proof.
  unfold fits. pose proof w_pos as [W1 W2]. split.
  - intro H. destruct (N.eq_dec nblocks 0) as [->|NZ]; [unfold U32_MAX; lia|].
    destruct (block_home nblocks ltac:(lia)) as (H1 & H2 & H3). cbv zeta in *.
    specialize (H _ (proj2 (lotx_nonempty _) H1)). fold ls in H. lia.
  - intros H j NE. apply lotx_nonempty in NE. fold ls.
    assert (G1 : 1 <= gl c (lotx c xs j)) .
    { apply lotx_nonempty in NE. unfold gl. destruct (lotx c xs j) as [|x r]; [congruence|]. pose proof CO as CO'. unfold dpb_ok in CO'.
      destruct (c_dpb c) as [[[d p] b]|]; [lia|]. rewrite lenN_cons. lia. }
    pose proof (block_home_inv j (gl c (lotx c xs j) - 1) NE ltac:(lia)). lia.
Qed.

Lemma In_blocks K x : lenN xs <= K * w -> In x (blocks c rs 1 xs 0 K) <->
  exists s fl, 1 <= s <= nblocks /\ x = (s, block_bytes c s (payload_of v (c_dpb c) rs data s), fl) /\
    nth_optN (group c rs (lotx c xs ((s - 1) / ls))) ((s - 1) mod ls) = Some (payload_of v (c_dpb c) rs data s, fl).
Proof.
  intro HK. pose proof w_pos as [W1 W2]. unfold blocks. rewrite in_flat_map. split.
  - intros (j & Hj & Hx). apply In_number in Hx as (i & pl & fl & Hn & ->). fold ls.
    assert (HI : i < gl c (lotx c xs j)). { rewrite <- group_len_j. apply N.nle_gt. intro L. apply nth_optN_None in L. congruence. }
    assert (HJ : j * w < lenN xs). { apply lotx_nonempty. intro E. rewrite E in HI. cbn [gl] in HI. lia. }
    destruct (group_nth j i HJ HI) as (fl' & E). rewrite E in Hn. injection Hn as <- <-.
    exists (1 + j * ls + i), fl'. split; [apply block_home_inv; assumption|]. split; [reflexivity|].
    assert (IL : i < ls).
    { pose proof (block_home_inv j i HJ HI) as BH. unfold gl in HI. destruct (lotx_ok j) as [_ LW].
      destruct (lotx c xs j); [lia|]. case_eq (c_dpb c); [intros [[d p] b] EO|intro EO]; rewrite EO in HI; [|lia].
      unfold ls, lot_size. rewrite CIN, EO. exact HI. }
    replace (1 + j * ls + i - 1) with (i + j * ls) by lia. rewrite N.div_add, N.mod_add by lia. rewrite N.div_small, N.mod_small by lia.
    rewrite N.add_0_l. exact E.
  - intros (s & fl & Hs & -> & E). destruct (block_home s Hs) as (H1 & H2 & H3). cbv zeta in H1, H2, H3.
    exists ((s - 1) / ls). split.
    + apply In_rangeN. split; [apply N.le_0_l|]. apply (N.mul_lt_mono_pos_r w); [apply N.le_succ_l; exact W1|]. eapply N.lt_le_trans; eassumption.
    + apply In_number. exists ((s - 1) mod ls), (payload_of v (c_dpb c) rs data s), fl. split; [exact E|]. fold ls. rewrite <- H3. reflexivity.
Qed.

Lemma payload_ok s : 1 <= s <= nblocks -> lenN (payload_of v (c_dpb c) rs data s) = ds /\ bytes_ok (payload_of v (c_dpb c) rs data s) = true.
Proof.
  intro Hs. destruct (block_home s Hs) as (H1 & H2 & H3). cbv zeta in H1, H2, H3.
  destruct (group_nth _ _ H1 H2) as (fl & E). rewrite <- H3 in E. destruct (lotx_ok ((s - 1) / ls)) as [L1 L2].
  destruct (group_len c rs CIN CRS _ L1 L2) as [_ G]. apply (G _ fl). eapply nth_error_In. exact E.
Qed.
Lemma block_bytes_is s pl : lenN pl = ds -> bytes_ok pl = true -> s < 4294967296 ->
  is_block v uid s pl (block_bytes c s pl) /\ lenN (block_bytes c s pl) = bs /\ bytes_ok (block_bytes c s pl) = true.
Proof.
  intros HL HB HS. destruct CUID as [U1 U2]. split; [|split].
  - exists (crc_of v uid s pl). split.
    + apply crc_is_remainder; [pose proof (ver_usize_lt v); lia|]. rewrite !bytes_ok_app, U2, bytes_ok_be, HB. reflexivity.
    + unfold block_bytes, header_to_bytes. fold v uid. cbn [h_version h_crc h_uid h_seq_num].
      replace (u8 (ver_to_usize v)) with (ver_to_usize v) by (destruct v; reflexivity). rewrite <- !app_assoc. reflexivity.
  - unfold block_bytes. rewrite lenN_app, lenN_header_to_bytes by exact U1. rewrite HL. unfold bs, ds, v. rewrite (bs_ds c). unfold SBX_HEADER_SIZE. lia.
  - unfold block_bytes. rewrite bytes_ok_app, HB, bytes_ok_header by exact U2. reflexivity.
Qed.
End Content.
