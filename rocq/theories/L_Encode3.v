(* What the encoder reads, and its statistics. *)
From Verif Require Import M_Base M_Specs M_Crc M_Header M_Multihash M_Metadata M_Block M_Index M_FileUtils M_Buffer M_Ranges M_Encode
  S_Crc S_Meta S_Block S_Index S_Container L_Base L_File L_Index L_Index2 L_Buffer L_Lot L_Encode L_Container.
Ltac Zify.zify_post_hook ::= idtac.

(* sequence number counter of the reader after k full chunks, and the largest number of chunks *)
Definition seq_of (o : dpb) (k : N) : N :=
  match o with None => k | Some (d, p, _) => (k / d) * (d + p) + k mod d end.
Definition max_chunks (o : dpb) : N :=
  match o with None => U32_MAX | Some (d, p, _) => U32_MAX / (d + p) * d end.
Definition last_of (o : dpb) : N :=
  match o with None => U32_MAX | Some (d, p, _) => U32_MAX / (d + p) * (d + p) - p end.

Lemma sets_pos d p : d + p <= 256 -> 1 <= d -> 1 <= U32_MAX / (d + p) /\ U32_MAX / (d + p) * (d + p) <= U32_MAX.
Proof.
  intros H1 H2. split; [apply N.div_le_lower_bound; [lia|unfold U32_MAX; lia]|].
  rewrite N.mul_comm. apply N.mul_div_le. lia.
Qed.
Lemma last_seq_eq v o : dpb_ok o -> ver_ok v o -> ver_to_last_data_seq_num_exc_parity v o = ROk (last_of o).
Proof.
  intros HO HV. unfold ver_to_last_data_seq_num_exc_parity, ver_to_max_block_set_count, SBX_MAX_DATA_BLOCK_COUNT.
  unfold ver_ok in HV. rewrite HV. destruct o as [[[d p] B]|]; [|reflexivity]. destruct HO as (Hd & Hp & HT).
  cbv zeta. destruct (sets_pos d p HT Hd) as [S1 S2].
  assert (U1 : u32 (d + p) = d + p) by (unfold u32; apply N.mod_small; lia). rewrite U1.
  destruct (N.eqb_spec (d + p) 0); [lia|]. unfold last_of. f_equal. set (K := U32_MAX / (d + p)) in *.
  unfold u32. rewrite (N.mod_small p) by lia. rewrite (N.mod_small (K * (d + p))) by (unfold U32_MAX in *; lia).
  apply N.mod_small. unfold U32_MAX in *. lia.
Qed.
Lemma last_facts o : dpb_ok o -> last_of o <= U32_MAX /\
  match o with Some (d, p, _) => exists q, last_of o = q * (d + p) + d /\ last_of o + p <= U32_MAX | None => True end.
Proof.
  destruct o as [[[d p] B]|]; [|split; [cbn; lia|exact I]]. intros (Hd & Hp & HT). destruct (sets_pos d p HT Hd) as [S1 S2].
  unfold last_of. set (K := U32_MAX / (d + p)) in *. clearbody K.
  assert (E : K * (d + p) = (K - 1) * (d + p) + (d + p)) by (replace K with (K - 1 + 1) at 1 by lia; lia).
  clear S1. split; [|exists (K - 1)]; revert E S2; generalize ((K - 1) * (d + p)) (K * (d + p)); intros x y E S2; lia.
Qed.
(* one chunk more *)
Lemma seq_of_next o k : dpb_ok o -> k < max_chunks o ->
  seq_of o k < last_of o /\
  (seq_of o k + 1 = last_of o <-> k + 1 = max_chunks o) /\
  match o with
  | None => seq_of o (k + 1) = seq_of o k + 1
  | Some (d, p, _) => seq_of o k mod (d + p) = k mod d /\
     seq_of o (k + 1) = seq_of o k + 1 + (if seq_of o k mod (d + p) =? d - 1 then p else 0)
  end.
Proof.
  destruct o as [[[d p] B]|]; cbn [seq_of max_chunks last_of]; [|lia]. intros (Hd & Hp & HT) HK.
  destruct (sets_pos d p HT Hd) as [S1 S2]. set (K := U32_MAX / (d + p)) in *. clearbody K. clear S2.
  pose proof (N.div_mod' k d) as DM. pose proof (N.mod_lt k d ltac:(lia)) as ML. set (a := k / d) in *. set (b := k mod d) in *. clearbody a b.
  assert (AK : a < K) by nia.
  assert (E : K * (d + p) = (K - 1) * (d + p) + (d + p)) by (replace K with (K - 1 + 1) at 1 by lia; lia).
  assert (E2 : K * d = (K - 1) * d + d) by (replace K with (K - 1 + 1) at 1 by lia; lia).
  assert (AK1 : a * (d + p) <= (K - 1) * (d + p)) by (apply N.mul_le_mono_r; lia).
  assert (AK2 : a * d <= (K - 1) * d) by (apply N.mul_le_mono_r; lia).
  assert (MO : (a * (d + p) + b) mod (d + p) = b).
  { rewrite N.add_comm, N.mod_add by lia. apply N.mod_small. lia. }
  split; [|split; [|split]].
  - lia.
  - assert (DM' : k = a * d + b) by lia. clear DM MO HK. split; intro H.
    + assert (H0 : a * (d + p) = (K - 1) * (d + p)).
      { revert H E AK1 ML. generalize (a * (d + p)) ((K - 1) * (d + p)) (K * (d + p)). intros; lia. }
      apply N.mul_cancel_r in H0; [|lia]. subst a. assert (b + 1 = d).
      { revert H E ML Hp. clear. generalize ((K - 1) * (d + p)) (K * (d + p)). intros; lia. }
      rewrite DM', E2. lia.
    + assert (H0 : a * d = (K - 1) * d).
      { revert H E2 AK2 ML DM'. clear. generalize (a * d) ((K - 1) * d) (K * d). intros; lia. }
      apply N.mul_cancel_r in H0; [|lia]. subst a. assert (b + 1 = d).
      { revert H E2 ML DM'. clear. generalize ((K - 1) * d) (K * d). intros; lia. }
      rewrite E. generalize ((K - 1) * (d + p)). intros; lia.
  - exact MO.
  - rewrite MO. destruct (N.eqb_spec b (d - 1)) as [->|NE].
    + assert (H : (k + 1) / d = a + 1 /\ (k + 1) mod d = 0) by (apply dm_eq; [clear - DM ML Hd; lia|lia]). destruct H as [-> ->]. lia.
    + assert (H : (k + 1) / d = a /\ (k + 1) mod d = b + 1) by (apply dm_eq; [clear - DM ML Hd; lia|lia]). destruct H as [-> ->]. lia.
Qed.

(* what comes of reading ds bytes again and again until fewer come: the bytes read and the bytes left *)
Inductive reads (ds : N) : source -> list N -> list N -> Prop :=
| reads_short s d s' : src_read s ds = (d, s') -> lenN d < ds -> reads ds s d (src_bytes s')
| reads_more s d s' data rest : src_read s ds = (d, s') -> lenN d = ds -> reads ds s' data rest -> reads ds s (d ++ data) rest.
Section Reads.
Variable c : cfg.
Let v := c_ver c.
Let ds := ver_to_data_size v.
Let o := c_dpb c.
Hypothesis CO : dpb_ok (c_dpb c).
Variable required_len : option N.
Let last_seq := last_of o.
Let M := max_chunks o.
(* sources whose reads come back full until the data ends *)
Variable P : source -> Prop.
Hypothesis HP : forall s, P s -> let '(d, s') := src_read s ds in d = takeN ds (src_bytes s) /\ P s'.

Definition at_chunk (k : N) (st : estate) : Prop :=
  es_seq st = seq_of o k /\ es_last st = (k =? M) /\ k <= M /\ es_bytes st = k * ds /\ es_err st = false.

Definition stop_at (k : N) (ys : list (list N)) (st st' : estate) (rest : list N) : Prop :=
  (es_err st' = true -> k + lenN ys = M /\ lenN (concat ys) = lenN ys * ds /\ rest <> [] /\
     match required_len with Some r => M * ds < r | None => True end) /\
  (es_err st' = false -> (match required_len with Some r => r <= (k + lenN ys) * ds | None => False end /\ lenN (concat ys) = lenN ys * ds) \/
     ((P (es_src st) -> rest = []) /\ reads ds (es_src st) (concat ys) rest)).

Lemma frun_ok : forall n st k, at_chunk k st -> (N.to_nat (lenN (src_bytes (es_src st))) < n)%nat ->
  exists st' ys rest, frun (enc_pre required_len) (enc_fstep c last_seq) n st = Some (st', ys) /\
    chunked ds ys /\ es_hashed st' = es_hashed st ++ concat ys /\ k + lenN ys <= M /\
    src_bytes (es_src st) = concat ys ++ rest /\
    (ys = [] \/ match required_len with Some r => (k + lenN ys - 1) * ds < r | None => True end) /\
    stop_at k ys st st' rest.
Proof.
  assert (DS : 1 <= ds) by (unfold ds, v; apply (ds_pos c)).
  induction n as [|n IH]; intros st k HA HF; [lia|]. cbn [frun].
  destruct HA as (A1 & A2 & A3 & A4 & A5).
  case_eq (enc_pre required_len st); intro EP.
  { unfold enc_pre in EP. exists st, [], (src_bytes (es_src st)). change (lenN (@nil (list N))) with 0. cbn [concat app].
    split; [reflexivity|]. split; [constructor|]. split; [rewrite app_nil_r; reflexivity|]. split; [lia|]. split; [reflexivity|].
    split; [left; reflexivity|]. split; [congruence|]. intros _. left. split; [|reflexivity].
    destruct required_len as [r|]; [|discriminate]. apply N.leb_le in EP. lia. }
  assert (EPR : match required_len with Some r => k * ds < r | None => True end).
  { unfold enc_pre in EP. destruct required_len as [r|]; [|exact I]. apply N.leb_gt in EP. lia. }
  remember (enc_fstep c last_seq) as F eqn:EF. assert (FS : F st = enc_fstep c last_seq st) by (rewrite EF; reflexivity). rewrite FS. clear FS EF.
  unfold enc_fstep. fold v ds.
  pose proof (src_read_ok (es_src st) ds) as SR. pose proof (HP (es_src st)) as HPs.
  destruct (src_read (es_src st) ds) as [d s'] eqn:ER. destruct SR as [SR1 SR2].
  destruct (N.eqb_spec (lenN d) 0) as [D0|D0].
  { apply lenN_0 in D0. subst d. cbn [app] in SR2.
    eexists _, [], (src_bytes (es_src st)). split; [reflexivity|]. split; [constructor|]. cbn [es_hashed concat app].
    split; [rewrite app_nil_r; reflexivity|]. change (lenN (@nil (list N))) with 0. split; [lia|]. split; [reflexivity|]. split; [left; reflexivity|].
    split; cbn [es_err]; [congruence|]. intros _. right. split; [|rewrite SR2; apply (reads_short ds _ [] s' ER); change (lenN (@nil N)) with 0; lia]. intro Hp. destruct (HPs Hp) as [X _].
    destruct (src_bytes (es_src st)) as [|b r]; [reflexivity|]. exfalso. apply (f_equal lenN) in X. rewrite lenN_take, lenN_cons in X. change (lenN (@nil N)) with 0 in X. lia. }
  case_eq (es_last st || (es_seq st =? U32_MAX)); intro EL.
  { eexists _, [], (src_bytes (es_src st)). split; [reflexivity|]. split; [constructor|]. cbn [es_hashed concat app].
    split; [rewrite app_nil_r; reflexivity|]. change (lenN (@nil (list N))) with 0. split; [lia|]. split; [reflexivity|]. split; [left; reflexivity|].
    assert (k = M).
    { rewrite A2 in EL. destruct (N.eqb_spec k M) as [|NE]; [assumption|]. cbn [orb] in EL. apply N.eqb_eq in EL.
      destruct (seq_of_next o k CO ltac:(fold M; lia)) as [X _]. pose proof (last_facts o CO) as [Y _]. lia. }
    subst k. split; cbn [es_err]; [|congruence]. intros _. split; [apply N.add_0_r|]. split; [reflexivity|]. split; [|exact EPR].
    rewrite SR2. destruct d; [exfalso; apply D0; reflexivity|discriminate]. }
  apply orb_false_iff in EL as [EL1 EL2]. rewrite A2 in EL1. apply N.eqb_neq in EL1. assert (KM : k < M) by lia.
  destruct (seq_of_next o k CO KM) as (N1 & N2 & N3). fold last_seq in N1, N2. fold M in N2.
  destruct (N.ltb_spec (lenN d) ds) as [DL|DL].
  { eexists _, [d], (src_bytes s'). split; [reflexivity|]. split; [apply ch_last; lia|]. cbn [es_hashed concat]. rewrite app_nil_r.
    split; [reflexivity|]. change (lenN [d]) with 1. split; [lia|]. split; [exact SR2|]. split; [right; destruct required_len as [r|]; [replace (k + 1 - 1) with k by lia; exact EPR|exact I]|].
    split; cbn [es_err]; [congruence|]. intros _. right. split; [|cbn [concat]; rewrite app_nil_r; apply (reads_short ds _ d s' ER DL)]. intro Hp. destruct (HPs Hp) as [X _].
    pose proof (f_equal lenN X) as XL. rewrite lenN_take in XL.
    assert (lenN (src_bytes s') = 0). { apply (f_equal lenN) in SR2. rewrite lenN_app in SR2. lia. } apply lenN_0. assumption. }
  assert (HD : lenN d = ds) by lia.
  set (st1 := mkEstate s' (es_bytes st + lenN d) (seq_of o (k + 1)) (k + 1 =? M) (es_hashed st ++ d) (es_err st)).
  assert (ST1 : (match c_dpb c with
      | Some (data, parity, _) =>
          if (es_seq st + 1 - 1) mod (data + parity) =? data - 1
          then (mkEstate s' (es_bytes st + lenN d) (es_seq st + 1 + parity) (es_last st || (es_seq st + 1 =? last_seq)) (es_hashed st ++ d) (es_err st), Some d, false)
          else (mkEstate s' (es_bytes st + lenN d) (es_seq st + 1) (es_last st || (es_seq st + 1 =? last_seq)) (es_hashed st ++ d) (es_err st), Some d, false)
      | None => (mkEstate s' (es_bytes st + lenN d) (es_seq st + 1) (es_last st || (es_seq st + 1 =? last_seq)) (es_hashed st ++ d) (es_err st), Some d, false)
      end) = (st1, Some d, false)).
  { assert (EQL : es_last st || (es_seq st + 1 =? last_seq) = (k + 1 =? M)).
    { rewrite A2, A1. destruct (N.eqb_spec k M) as [|_]; [lia|]. cbn [orb]. destruct (N.eqb_spec (seq_of o k + 1) last_seq), (N.eqb_spec (k + 1) M); try reflexivity; exfalso; tauto. }
    rewrite EQL. unfold st1. revert N3. unfold o at 1. case_eq (c_dpb c); [intros [[dd pp] B] EO|intro EO]; intro N3; rewrite ?A1.
    - rewrite N.add_sub. destruct N3 as [_ N3]. rewrite N3. destruct (_ =? dd - 1); [reflexivity|]. rewrite N.add_0_r. reflexivity.
    - rewrite N3. reflexivity. }
  cbv zeta. rewrite ST1. clear ST1.
  destruct (IH st1 (k + 1)) as (st' & ys & rest & R1 & R2 & R3 & R4 & R5 & R6 & R7 & R8).
  { unfold at_chunk, st1. cbn [es_seq es_last es_bytes es_err]. repeat split; try assumption; lia. }
  { cbn [st1 es_src]. apply (f_equal lenN) in SR2. rewrite lenN_app in SR2. lia. }
  rewrite R1. exists st', (d :: ys), rest. split; [reflexivity|]. split; [apply ch_cons; assumption|].
  cbn [concat]. split; [rewrite R3; unfold st1; cbn [es_hashed]; rewrite app_assoc; reflexivity|].
  rewrite lenN_cons. split; [lia|]. split; [rewrite SR2, <- app_assoc; cbn [st1 es_src] in R5; rewrite <- R5; reflexivity|].
  split.
  { right. destruct R6 as [->|R6]; [change (lenN (@nil (list N))) with 0|]; destruct required_len as [r|]; try exact I.
    - replace (k + (1 + 0) - 1) with k by lia. exact EPR.
    - replace (k + (1 + lenN ys) - 1) with (k + 1 + lenN ys - 1) by lia. exact R6. }
  unfold stop_at. cbn [concat]. rewrite lenN_app, lenN_cons, HD. split.
  - intro E. destruct (R7 E) as (X1 & X2 & X3 & X4). split; [lia|]. split; [lia|]. split; [exact X3|exact X4].
  - intro E. destruct (R8 E) as [[X1 X2]|[X XR]].
    + left. split; [|lia]. destruct required_len as [r|]; [|exact X1]. replace (k + (1 + lenN ys)) with (k + 1 + lenN ys) by lia. exact X1.
    + right. split; [intro Hp; apply X; cbn [st1 es_src]; apply HPs, Hp|exact (reads_more ds _ d s' _ _ ER HD XR)].
Qed.
End Reads.

(* statistics *)
Section Stats.
Variable c : cfg.
Variable rs : codec.
Let v := c_ver c.
Let ds := ver_to_data_size v.
Let w := dws c.
Hypothesis CIN : c_in c = InData.
Hypothesis CUID : lenN (c_uid c) = 6 /\ bytes_ok (c_uid c) = true.
Hypothesis CO : dpb_ok (c_dpb c).
Hypothesis CRS : codec_ok rs (c_dpb c).
Variable xs : list (list N).
Hypothesis HCH : chunked ds xs.
Hypothesis HBY : bytes_ok (concat xs) = true.

Lemma range_snoc k : rangeN 0 (k + 1) = rangeN 0 k ++ [k].
Proof. rewrite (rangeN_split 0 k (k + 1)) by lia. f_equal. unfold rangeN. replace (N.to_nat (k + 1 - k)) with 1%nat by lia. reflexivity. Qed.
Lemma sum_lots (F : list (list N) -> N) : F [] = 0 -> (forall a b, F (a ++ b) = F a + F b) -> forall k,
  sumN (map (fun j => F (lotx c xs j)) (rangeN 0 k)) = F (takeN (k * w) xs).
Proof.
  intros F0 FA. induction k as [|k IH] using N.peano_ind.
  - cbn. symmetry. exact F0.
  - rewrite <- N.add_1_r, range_snoc, map_app, sumN_app, IH. cbn [map]. unfold sumN at 1. cbn [fold_right].
    unfold lotx. fold w. replace ((k + 1) * w) with (k * w + w) by lia. rewrite take_add, FA. unfold sliceN. lia.
Qed.
Lemma lots_bytes K : lenN xs <= K * w ->
  sumN (map (lot_data c xs) (rangeN 0 K)) * ds = lenN (concat xs) + sumN (map (lot_pb c xs) (rangeN 0 K)).
Proof.
  intro HK. assert (E : lenN (concat xs) = sumN (map (fun j => lenN (concat (lotx c xs j))) (rangeN 0 K))).
  { rewrite (sum_lots (fun l => lenN (concat l))); [rewrite take_all by exact HK; reflexivity|reflexivity|].
    intros a b. rewrite concat_app, lenN_app. reflexivity. }
  rewrite E, sumN_add, sumN_mul. apply sumN_ext. intros j _. unfold lot_data, lot_pb. fold v ds.
  destruct (lotx_ok c CUID xs HCH HBY j) as [LF _]. fold v ds in LF.
  assert (X : lenN (lotx c xs j) * ds = lenN (concat (lotx c xs j)) + padsum c (lotx c xs j)).
  { unfold padsum. fold v ds. induction LF as [|x l [Hx _] LF IH]; [reflexivity|]. cbn [map concat]. unfold sumN in *. cbn [fold_right].
    rewrite lenN_cons, lenN_app. lia. }
  lia.
Qed.
Lemma sum_const_below (a s : N) : forall K, s <= K -> sumN (map (fun j => if j <? s then a else 0) (rangeN 0 K)) = s * a.
Proof.
  assert (G : forall K, sumN (map (fun j => if j <? s then a else 0) (rangeN 0 K)) = N.min s K * a).
  { induction K as [|K IH] using N.peano_ind; [rewrite N.min_0_r; reflexivity|]. rewrite <- N.add_1_r, range_snoc, map_app, sumN_app, IH.
    cbn [map]. unfold sumN at 1. cbn [fold_right]. destruct (N.ltb_spec K s).
    - replace (N.min s (K + 1)) with (N.min s K + 1) by lia. lia.
    - replace (N.min s (K + 1)) with (N.min s K) by lia. lia. }
  intros K HK. rewrite G. f_equal. lia.
Qed.
(* the data and parity block counts *)
Lemma lots_counts K : lenN xs <= K * w ->
  match c_dpb c with
  | None => sumN (map (lot_data c xs) (rangeN 0 K)) = nblocks c xs /\ sumN (map (lot_par c rs xs) (rangeN 0 K)) = 0
  | Some (d, p, _) => exists sets, nblocks c xs = sets * (d + p) /\
      sumN (map (lot_data c xs) (rangeN 0 K)) = sets * d /\ sumN (map (lot_par c rs xs) (rangeN 0 K)) = sets * p
  end.
Proof.
  intro HK. pose proof (nblocks_eq c rs CUID CO CRS xs HCH) as NB.
  assert (GL : forall j, lenN (group c rs (lotx c xs j)) = gl c (lotx c xs j)).
  { intro j. destruct (lotx_ok c CUID xs HCH HBY j) as [L1 L2]. apply (group_len c rs CIN CRS); assumption. }
  pose proof CO as CO'. unfold dpb_ok in CO'. case_eq (c_dpb c); [intros [[d p] B] EO|intro EO]; rewrite EO in NB, CO'.
  - assert (EW : w = d) by (unfold w, dws; rewrite CIN, EO; reflexivity). destruct NB as (sets & [S1 S2] & NB).
    exists sets. split; [exact NB|]. rewrite EW in HK. specialize (S2 K HK) as SK.
    assert (NE : forall j, lotx c xs j = [] <-> sets <= j).
    { intro j. pose proof (lotx_nonempty c rs CIN CUID CO CRS xs j) as X. fold w in X. rewrite EW in X. split; intro H.
      - apply S2. apply N.nlt_ge. intro L. apply X in L. congruence.
      - destruct (lotx c xs j) eqn:E; [reflexivity|]. exfalso. assert (j * d < lenN xs) by (apply X; discriminate). assert (sets * d <= j * d) by (apply N.mul_le_mono_r; lia). lia. }
    split.
    + rewrite <- (sum_const_below d sets K SK). apply sumN_ext. intros j _. unfold lot_data, padcount. rewrite EO.
      destruct (lotx_ok c CUID xs HCH HBY j) as [_ LW]. fold w in LW. rewrite EW in LW. specialize (NE j). destruct (lotx c xs j) as [|y l].
      * destruct (N.ltb_spec j sets) as [H|_]; [exfalso; assert (sets <= j) by (apply NE; reflexivity); lia|reflexivity].
      * destruct (N.ltb_spec j sets) as [_|H]; [lia|]. apply NE in H. discriminate.
    + rewrite <- (sum_const_below p sets K SK). apply sumN_ext. intros j _. unfold lot_par, lot_data, padcount. rewrite GL. unfold gl. rewrite EO.
      destruct (lotx_ok c CUID xs HCH HBY j) as [_ LW]. fold w in LW. rewrite EW in LW. specialize (NE j). destruct (lotx c xs j) as [|y l].
      * destruct (N.ltb_spec j sets) as [H|_]; [exfalso; assert (sets <= j) by (apply NE; reflexivity); lia|reflexivity].
      * destruct (N.ltb_spec j sets) as [_|H]; [lia|]. apply NE in H. discriminate.
  - split.
    + rewrite NB. transitivity (sumN (map (fun j => lenN (lotx c xs j)) (rangeN 0 K))).
      * apply sumN_ext. intros j _. unfold lot_data, padcount. rewrite EO. destruct (lotx c xs j); lia.
      * rewrite (sum_lots (fun l => lenN l)); [rewrite take_all by exact HK; reflexivity|reflexivity|apply lenN_app].
    + rewrite (sumN_ext _ (fun _ => 0)).
      * clear. induction (rangeN 0 K); [reflexivity|]. cbn [map]. unfold sumN in *. cbn [fold_right]. lia.
      * intros j _. unfold lot_par, lot_data, padcount. rewrite GL. unfold gl. rewrite EO. destruct (lotx c xs j); lia.
Qed.
End Stats.
