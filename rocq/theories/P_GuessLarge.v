(* C67: containers that are not small. *)
From Coq Require Import FinFun Sorted.
From Verif Require Import M_Base M_Specs M_Crc M_Header M_Multihash M_Metadata M_Block M_Index M_FileUtils M_Buffer M_Ranges M_Encode M_Scan M_Loop M_Decode M_Repair
  S_Crc S_Meta S_Block S_Index S_Container S_Scan S_Decode S_Encode S_Guess S_Repair S_Damage
  L_Base L_Crc L_File L_Header L_Index L_Index2 L_Block L_Scan L_Container L_Ref L_Ranges L_Decode L_Guess L_Guess2 L_Intact L_Intact2 L_Roundtrip
  L_Sort2 L_Buffer L_Repair L_Repair2 L_Repair5 L_Repair6 L_Repair7 L_Repair8 L_Repair9 L_RepairCut P_Encode P_Roundtrip P_Guess P_Repair P_RepairGuess P_GuessWindow
  M_Codec L_Codec P_Codec.
Ltac Zify.zify_post_hook ::= idtac.

(* places of the blocks of the first sets, as many as the level says: row r, column c *)
Lemma first_sets me d p B r c : 1 <= d -> r < d + p -> c < B ->
  calc_data_block_write_index (1 + c * (d + p) + r) me (Some (d, p, B)) = N.min r p + 1 + r * B + c.
Proof.
  intros D R C. unfold calc_data_block_write_index, SBX_FIRST_DATA_SEQ_NUM. replace (1 + c * (d + p) + r - 1) with (c * (d + p) + r) by lia.
  destruct (N.eqb_spec B 0) as [->|NB]; [lia|]. cbv zeta.
  assert (S : c * (d + p) + r < (d + p) * B). { assert ((c + 1) * (d + p) <= B * (d + p)) by (apply N.mul_le_mono_r; lia). lia. }
  rewrite (N.div_small _ ((d + p) * B)), (N.mod_small _ ((d + p) * B)) by exact S.
  rewrite (N.add_comm (c * (d + p)) r), N.div_add, N.mod_add, (N.div_small r), (N.mod_small r) by lia. cbn [N.eqb]. rewrite N.mul_0_r.
  destruct (N.ltb_spec r (1 + p)) as [L|L]; [rewrite N.min_l by lia|rewrite N.min_r by lia]; lia.
Qed.
(* the first block of the set after those *)
Lemma next_sets me d p l : 1 <= d -> 1 <= l -> calc_data_block_write_index (1 + l * (d + p)) me (Some (d, p, l)) = p + 1 + (d + p) * l.
Proof.
  intros D L. unfold calc_data_block_write_index, SBX_FIRST_DATA_SEQ_NUM. replace (1 + l * (d + p) - 1) with ((d + p) * l) by lia.
  destruct (N.eqb_spec l 0); [lia|]. cbv zeta. assert (NZ : (d + p) * l <> 0) by (apply N.neq_mul_0; lia).
  rewrite N.div_same, N.mod_same by exact NZ. rewrite N.div_0_l, N.mod_0_l by lia. cbn [N.eqb]. lia.
Qed.

(* p bursts do not reach p + 1 places that are far enough from each other *)
Lemma one_hit B s l : StronglySorted (fun a b => a + B <= b) l -> lenN (filter (fun i => (s <=? i) && (i <? s + B)) l) <= 1.
Proof.
  induction 1 as [|a l SS IH FA]; cbn [filter]; [rewrite lenN_nil; lia|].
  destruct (N.leb_spec s a), (N.ltb_spec a (s + B)); cbn [andb]; try exact IH. rewrite lenN_cons.
  replace (filter _ l) with (@nil N); [rewrite lenN_nil; lia|]. symmetry. clear IH SS. induction FA as [|b l F1 FA IH]; [reflexivity|]. cbn [filter].
  destruct (N.leb_spec s b), (N.ltb_spec b (s + B)); cbn [andb]; try exact IH. lia.
Qed.
Lemma ss_filter {A} (R : A -> A -> Prop) g l : StronglySorted R l -> StronglySorted R (filter g l).
Proof.
  induction 1 as [|a l SS IH FA]; cbn [filter]; [constructor|]. destruct (g a); [|exact IH]. constructor; [exact IH|].
  apply Forall_forall. intros x I. apply filter_In in I as [I _]. rewrite Forall_forall in FA. exact (FA x I).
Qed.
Lemma filter_parts {A} (g : A -> bool) l : lenN l = lenN (filter g l) + lenN (filter (fun x => negb (g x)) l).
Proof. induction l as [|a l IH]; [reflexivity|]. cbn [filter]. destruct (g a); cbn [negb]; rewrite !lenN_cons, IH; lia. Qed.
Lemma far_spared B bursts : forall l, StronglySorted (fun a b => a + B <= b) l -> lenN bursts < lenN l -> exists i, In i l /\ ~ hit B bursts i.
Proof.
  induction bursts as [|s bursts IH]; intros l SS LT.
  - destruct l as [|i l]; [rewrite lenN_nil in LT; lia|]. exists i. split; [left; reflexivity|]. intros (s & [] & _).
  - pose proof (one_hit B s l SS) as O1. rewrite (filter_parts (fun i => (s <=? i) && (i <? s + B)) l) in LT. rewrite lenN_cons in LT.
    destruct (IH (filter (fun i => negb ((s <=? i) && (i <? s + B))) l)) as (i & I & NH); [apply ss_filter, SS|lia|].
    apply filter_In in I as [I N]. exists i. split; [exact I|]. intros (t & [<-|T] & X); [|apply NH; exists t; auto].
    destruct (N.leb_spec s i), (N.ltb_spec i (s + B)); try lia; discriminate N.
Qed.
Lemma places_sorted (w : N -> N) B : (forall i j, i < j -> w i + B <= w j) -> forall m, StronglySorted (fun a b => a + B <= b) (map w (rangeN 0 m)).
Proof.
  intros W m. assert (G : forall k a, StronglySorted (fun a b => a + B <= b) (map w (rangeN a (a + N.of_nat k)))).
  { induction k as [|k IH]; intro a; [rewrite rangeN_nil by lia; constructor|]. rewrite rangeN_cons by lia.
    cbn [map]. replace (a + N.of_nat (S k)) with (a + 1 + N.of_nat k) by lia. constructor; [apply IH|].
    apply Forall_forall. intros x I. apply in_map_iff in I as (j & <- & I). apply In_rangeN in I. apply W. lia. }
  specialize (G (N.to_nat m) 0). rewrite Nnat.N2Nat.id, N.add_0_l in G. exact G.
Qed.
Lemma large_level p B : 1 <= p -> p * B <= 1000 -> B <= 1000.
Proof. intros H1 H2. assert (1 * B <= p * B) by (apply N.mul_le_mono_r; exact H1). lia. Qed.

(* what is left shows every lower level to be wrong *)
Section Large.
Variables (d p B n : N) (bursts : list N) (there : N -> N -> Prop).
Hypotheses (P1 : 1 <= p) (D1 : 1 <= d) (LB : lenN bursts <= p) (SM1 : (p + 1) * B <= p + 1001) (SM2 : p * B <= 1000) (NF : B * (d + p) <= n).
Hypothesis DATA : forall s, 1 <= s <= n -> ~ hit B bursts (calc_data_block_write_index s (Some true) (Some (d, p, B))) -> there (calc_data_block_write_index s (Some true) (Some (d, p, B))) s.
Hypothesis META : forall i, meta_index (Some true) (Some (d, p, B)) i -> ~ hit B bursts i -> there i 0.
Lemma spared (w : N -> N) : (forall i j, i < j -> w i + B <= w j) -> exists j, j <= p /\ ~ hit B bursts (w j).
Proof.
  intro W. destruct (far_spared B bursts (map w (rangeN 0 (p + 1))) (places_sorted w B W (p + 1))) as (i & I & NH); [rewrite lenN_map, lenN_range; lia|].
  apply in_map_iff in I as (j & <- & I). apply In_rangeN in I. exists j. split; [lia|exact NH].
Qed.
(* block of row r <= p and column c: where it is, and that it is there *)
Lemma there_at r c : r <= p -> c < B -> ~ hit B bursts (r + 1 + r * B + c) -> there (r + 1 + r * B + c) (1 + c * (d + p) + r).
Proof.
  intros R C NH. pose proof (first_sets (Some true) d p B r c D1 ltac:(lia) C) as E. rewrite N.min_l in E by exact R. rewrite <- E in NH |- *. apply DATA; [|exact NH].
  assert ((c + 1) * (d + p) <= B * (d + p)) by (apply N.mul_le_mono_r; lia). lia.
Qed.
Lemma lower_wrong_large l : l < B -> exists i s, i < p + 1002 /\ there i s /\ ~ placed_at (Some (d, p, l)) i s.
Proof.
  intro LT. destruct (N.eq_dec l 0) as [->|NL].
  - destruct (N.eq_dec B 1) as [E|NB].
    + destruct (spared (fun j => if j =? p then 2 * p else if p <? j then 2 * j else 2 * j + 1)) as (j & J & NH).
      { intros i j IJ. rewrite E. destruct (N.eqb_spec i p), (N.eqb_spec j p), (N.ltb_spec p i), (N.ltb_spec p j); lia. }
      cbv beta in NH. destruct (N.eqb_spec j p) as [->|NJ].
      * exists (2 * p), 0. split; [rewrite E in SM1; lia|]. split; [apply META; [exists p; rewrite E; lia|exact NH]|]. intros [[_ (j & J' & X)]|[X _]]; lia.
      * destruct (N.ltb_spec p j); [lia|]. exists (j + 1 + j * B + 0), (1 + 0 * (d + p) + j). split; [rewrite E in *; lia|].
        split; [apply there_at; [exact J|lia|replace (j + 1 + j * B + 0) with (2 * j + 1) by (rewrite E; lia); exact NH]|].
        intros [[X _]|[_ X]]; [lia|]. unfold calc_data_block_write_index, SBX_FIRST_DATA_SEQ_NUM in X. cbn [N.eqb] in X. rewrite E in X. lia.
    + destruct (spared (fun j => j + 1 + j * B + (if j * B =? p then 1 else 0))) as (j & J & NH).
      { intros i j IJ. assert ((i + 1) * B <= j * B) by (apply N.mul_le_mono_r; lia). destruct (N.eqb_spec (i * B) p), (N.eqb_spec (j * B) p); lia. }
      cbv beta in NH. assert (JB : j * B <= p * B) by (apply N.mul_le_mono_r; exact J). destruct (N.eqb_spec (j * B) p) as [EP|NP].
      * exists (j + 1 + j * B + 1), (1 + 1 * (d + p) + j). split; [assert (j * 2 <= j * B) by (apply N.mul_le_mono_l; lia); lia|].
        split; [apply there_at; [exact J|lia|exact NH]|]. intros [[X _]|[_ X]]; [lia|]. unfold calc_data_block_write_index, SBX_FIRST_DATA_SEQ_NUM in X. cbn [N.eqb] in X. lia.
      * exists (j + 1 + j * B + 0), (1 + 0 * (d + p) + j). split; [lia|]. split; [apply there_at; [exact J|lia|exact NH]|].
        intros [[X _]|[_ X]]; [lia|]. unfold calc_data_block_write_index, SBX_FIRST_DATA_SEQ_NUM in X. cbn [N.eqb] in X. lia.
  - destruct (spared (fun j => j + 1 + j * B + (l - j))) as (j & J & NH).
    { intros i j IJ. assert ((i + 1) * B <= j * B) by (apply N.mul_le_mono_r; lia). lia. }
    cbv beta in NH. assert (JB : j * B <= p * B) by (apply N.mul_le_mono_r; exact J).
    exists (j + 1 + j * B + (l - j)), (1 + (l - j) * (d + p) + j). split; [lia|]. split; [apply there_at; [exact J|lia|exact NH]|].
    intros [[X _]|[_ X]]; [revert X; generalize ((l - j) * (d + p)); clear; lia|]. destruct (N.eq_dec j 0) as [->|NJ].
    + rewrite N.sub_0_r, N.add_0_r in X. rewrite next_sets in X by lia. assert (1 * l <= (d + p) * l) by (apply N.mul_le_mono_r; lia). lia.
    + rewrite first_sets in X by lia. rewrite N.min_l in X by exact J. assert (j * l < j * B) by (apply N.mul_lt_mono_pos_l; lia). lia.
Qed.
End Large.

(* C67 for containers whose data fill the first B sets (B: burst level), with any number of data shards: the guess is right if (par + 1) * B <= par + 1001
   (and par * B <= 1000, which follows if B > par). c67_window shows that this is the limit. *)
Theorem c67_guess_large H rs p cpus content out n d par B bursts f pos ref :
  enc_ok H rs cpus p -> bytes_ok content = true -> encoded H rs p content out ->
  block_count (e_ver p) (e_dpb p) (lenN content) n -> n <= U32_MAX -> content <> [] ->
  e_dpb p = Some (d, par, B) -> B * (d + par) <= n -> (par + 1) * B <= par + 1001 -> par * B <= 1000 ->
  let f0 := eo_file out in let bs := ver_to_block_size (e_ver p) in
  bytes_ok f = true -> lenN f = lenN f0 -> lenN bursts <= par ->
  (forall i, ~ hit B bursts (i / bs) -> nthN f i = nthN f0 i) ->
  (forall i seq pl, hit B bursts i -> block_at (e_ver p) (e_uid p) f (i * bs) seq pl -> block_at (e_ver p) (e_uid p) f0 (i * bs) seq pl) ->
  get_ref_block f None None false (MustBe TMeta) = ROk (Some (pos, ref)) ->
  b_version ref = e_ver p -> b_uid ref = e_uid p -> b_data ref = DMeta (recorded H p content) ->
  guess_burst f None false ref = ROk (Some B) /\
  forall rc dry, repair_file rc dry None f = repair_file rc dry (Some B) f.
Proof.
  intros OK HC EN HBC HN NE EO NF SM1 SM2 f0 bs HB LF LB OUT HIT G EV EU ED.
  destruct (encoded_intact H rs cpus p content out n OK HC EN HBC HN) as [IT FL]. fold f0 in IT, FL.
  assert (ME : meta_on p = true) by (apply (MEON _ _ _ _ _ _ _ _ _ IT); congruence).
  destruct (ref_meta _ _ _ _ _ _ _ _ _ IT (Prefer TMeta) false FL ME ltac:(auto)) as (ref' & GR' & _).
  assert (O1 : dpb_ok (e_dpb p)) by apply OK. rewrite EO in O1. destruct O1 as (D1 & P1 & DP).
  assert (B1000 : B <= 1000) by (apply (large_level par); assumption).
  assert (N1 : d + par <= n).
  { destruct HBC as (c & [HC1 _] & HS). rewrite EO in HS. destruct HS as (sets & [HS _] & ->). assert (1 <= lenN content) by (destruct content; [contradiction|rewrite lenN_cons; lia]).
    assert (1 <= c). { destruct c; [lia|]. lia. } assert (1 <= sets) by (destruct sets; lia). pose proof (N.mul_le_mono_r 1 sets (d + par) ltac:(lia)). lia. }
  destruct (c29_guess_intact H rs cpus p content out n d par B false ref' OK HC EN HBC HN EO B1000 ltac:(eexists; exact GR')) as (g & _ & _ & G3 & G4).
  rewrite (G4 ltac:(lia)) in G3. clear G4 g GR' ref'. fold f0 bs in G3.
  assert (VR : ver_uses_rs (b_version ref) = true). { rewrite EV. assert (X : ver_uses_rs (e_ver p) = (match e_dpb p with Some _ => true | None => false end)) by apply OK. rewrite EO in X. exact X. }
  assert (R1 : get_RSD ref = ROk d) by (unfold get_RSD; rewrite ED; unfold recorded; rewrite EO; destruct (e_in_name p), (e_fdt p); reflexivity).
  assert (R2 : get_RSP ref = ROk par) by (unfold get_RSP; rewrite ED; unfold recorded; rewrite EO; destruct (e_in_name p), (e_fdt p); reflexivity).
  destruct (c29_guess_minimises f None false ref d par 0 HB VR R1 R2 ltac:(lia) P1 DP eq_refl) as (r & miss & GB & CM & MIN). rewrite EV, EU in CM. fold bs in CM.
  destruct (whole_blocks _ _ _ _ _ _ _ _ _ IT) as (K & EK & UK). fold bs in EK. pose proof (block_size_pos (e_ver p)) as BZ. fold bs in BZ.
  rewrite LF, EK, N.sub_0_r, N.div_mul in CM by lia.
  assert (SAME : forall i, ~ hit B bursts i -> same_block (e_ver p) f0 f i) by (intros i NH x E; apply OUT; fold bs in E; rewrite E; exact NH).
  (* B puts every block where it is *)
  assert (M0 : miss B = 0).
  { destruct (CM B B1000) as (ks & _ & IK & <-). destruct ks as [|k ks]; [reflexivity|]. exfalso. destruct (proj1 (IK k) (or_introl eq_refl)) as (HK & seq & pl & BA & NP). rewrite N.add_0_l in BA. fold bs in BA.
    apply NP. apply (G3 k seq pl); [lia|]. destruct (hitb B bursts k) eqn:E.
    - apply HIT; [apply hit_b, E|exact BA].
    - apply (block_at_same (e_ver p) (e_uid p) f f0 k seq pl); [|lia|exact BA]. intros x Ex. symmetry. apply (SAME k); [rewrite hit_b; congruence|exact Ex]. }
  set (there := fun k s => k < K /\ exists pl, block_at (e_ver p) (e_uid p) f (k * bs) s pl).
  assert (TD : forall s, 1 <= s <= n -> ~ hit B bursts (calc_data_block_write_index s (Some true) (Some (d, par, B))) -> there (calc_data_block_write_index s (Some true) (Some (d, par, B))) s).
  { intros s Hs NH. rewrite ME, EO in UK. split; [apply UK; right; exists s; auto|]. destruct (data_block _ _ _ _ _ _ _ _ _ IT s Hs) as [BA _]. rewrite ME, EO in BA. eexists.
    eapply (block_at_same (e_ver p) (e_uid p) f0 f); [apply SAME, NH|lia|exact BA]. }
  assert (TM : forall i, meta_index (Some true) (Some (d, par, B)) i -> ~ hit B bursts i -> there i 0).
  { intros i MI NH. rewrite ME, EO in UK. split; [apply UK; left; exact MI|]. pose proof (meta_blk _ _ _ _ _ _ _ _ _ IT i) as MB. rewrite ME, EO in MB. destruct (MB MI) as (_ & h & pl & W & V & U & S & _). exists pl.
    apply (block_at_same (e_ver p) (e_uid p) f0 f i 0 pl); [apply SAME, NH|lia|]. exists h. auto. }
  assert (POS : forall l, l <= 1000 -> (exists i s, i < par + 1002 /\ there i s /\ ~ placed_at (Some (d, par, l)) i s) -> 1 <= miss l).
  { intros l Hl (i & s & HI & (HK & pl & BA) & NP). destruct (CM l Hl) as (ks & _ & IK & <-). assert (I : In i ks). { apply IK. split; [lia|]. exists s, pl. rewrite N.add_0_l. fold bs. auto. }
    destruct ks; [destruct I|]. rewrite lenN_cons. lia. }
  assert (RB : r = Some B).
  { destruct r as [g|].
    - destruct MIN as (G1 & G2 & G3'). f_equal. specialize (G2 B B1000). destruct (N.lt_trichotomy g B) as [L|[E|L]]; [|exact E|specialize (G3' B L); lia].
      specialize (POS g G1 (lower_wrong_large d par B n bursts there P1 D1 LB SM1 SM2 NF TD TM g L)). lia.
    - exfalso. destruct (N.eq_dec B 0) as [Z|NZ].
      + specialize (MIN B 1 B1000 ltac:(lia)). assert (1 <= miss 1); [|lia]. apply POS; [lia|]. exists 1, 0. split; [lia|]. split.
        * apply TM; [exists 1; rewrite Z; lia|]. intros (s & _ & X). lia.
        * intros [[_ (j & J & X)]|[X _]]; [lia|lia].
      + specialize (MIN B 0 B1000 ltac:(lia)). specialize (POS 0 ltac:(lia) (lower_wrong_large d par B n bursts there P1 D1 LB SM1 SM2 NF TD TM 0 ltac:(lia))). lia. }
  subst r. split; [exact GB|]. intros rc dry. unfold repair_file. rewrite G. cbn [rbind]. rewrite VR. cbn [negb].
  assert (E : get_data_par_burst f None None false ref = get_data_par_burst f (Some B) None false ref).
  { unfold get_data_par_burst, get_burst_or_guess. rewrite VR, R1, R2. cbn [rbind]. unfold is_data, block_type_of. rewrite ED, GB. reflexivity. }
  rewrite E. reflexivity.
Qed.


(* C67, repair without --burst for such containers *)
Theorem c67_repair_large H rs rc p cpus content mx n d par B :
  enc_ok H rs cpus p -> meta_fits H p -> input_ok (SrcFile content) -> content <> [] ->
  e_from p = None -> e_to p = None -> e_dpb p = Some (d, par, B) -> recon_ok rs rc d par ->
  ver_to_max_data_file_size (e_ver p) (e_dpb p) = ROk mx -> lenN content <= mx ->
  block_count (e_ver p) (e_dpb p) (lenN content) n -> n < U32_MAX ->
  B * (d + par) <= n -> (par + 1) * B <= par + 1001 -> par * B <= 1000 ->
  exists out, encode_file H rs cpus p (SrcFile content) = ROk out /\ eo_err out = false /\
  let f0 := eo_file out in let bs := ver_to_block_size (e_ver p) in
  forall bursts f, bytes_ok f = true -> lenN f = lenN f0 -> lenN bursts <= par ->
    (forall i, ~ hit B bursts (i / bs) -> nthN f i = nthN f0 i) ->
    (forall i seq pl, hit B bursts i -> block_at (e_ver p) (e_uid p) f (i * bs) seq pl -> block_at (e_ver p) (e_uid p) f0 (i * bs) seq pl) ->
    (~ hit B bursts 0 \/ exists pos ref, get_ref_block f None None false (MustBe TMeta) = ROk (Some (pos, ref)) /\
       b_version ref = e_ver p /\ b_uid ref = e_uid p /\ b_data ref = DMeta (recorded H p content)) ->
    exists t w, repair_file rc false None f = ROk (Some (t, w)) /\ restored (e_ver p) (e_dpb p) n f0 f w /\
      ((forall i, ~ used_index true (e_dpb p) n (i / bs) -> nthN f i = nthN f0 i) -> w = f0).
Proof.
  intros OK F IO NE EF ET EO HR HMX HL HBC HN NF SM1 SM2. destruct (c20_bursts H rs rc p cpus content mx n d par B OK F IO EF ET EO HR HMX HL HBC HN) as (out & E & EE & C20).
  exists out. split; [exact E|]. split; [exact EE|]. cbv zeta in *. intros bursts f HB LF LB OUT HIT REF.
  destruct (C20 bursts f HB LF LB OUT (fun i seq pl HH _ => HIT i seq pl HH) REF) as (t & w & RF & RS).
  destruct (c38_encoded_container_is_the_file H rs p cpus content mx n OK F IO EF ET HMX HL HBC HN) as (out' & E' & EN).
  rewrite E in E'. apply ROk_inj in E'. subst out'.
  assert (G : exists pos ref, get_ref_block f None None false (MustBe TMeta) = ROk (Some (pos, ref)) /\
       b_version ref = e_ver p /\ b_uid ref = e_uid p /\ b_data ref = DMeta (recorded H p content)).
  { destruct REF as [NH|G]; [|exact G]. exists 0. destruct (encoded_intact H rs cpus p content out n OK ltac:(apply IO) EN HBC ltac:(lia)) as [IT FL].
    assert (ME : meta_on p = true) by (apply (MEON _ _ _ _ _ _ _ _ _ IT); congruence). rewrite ME in IT. rewrite EO in *.
    assert (MP : forall i, meta_index (Some true) (Some (d, par, B)) i -> meta_plain (e_ver p) (e_uid p) (recorded H p content) (sliceN (i * ver_to_block_size (e_ver p)) (ver_to_block_size (e_ver p)) (eo_file out))).
    { destruct EN as (_ & (meta & C & M) & _). specialize (M ME). rewrite ME, EO in C. destruct C as (n' & _ & _ & C & _). intros i MI. rewrite (C i MI). apply M. }
    assert (FZ : get_meta_by_id (recorded H p content) IFSZ = Some (FSZ (lenN content))) by (unfold recorded; destruct (e_in_name p), (e_fdt p); reflexivity).
    assert (RD : get_meta_by_id (recorded H p content) IRSD = Some (RSD d)) by (unfold recorded; rewrite EO; destruct (e_in_name p), (e_fdt p); reflexivity).
    assert (RP : get_meta_by_id (recorded H p content) IRSP = Some (RSP par)) by (unfold recorded; rewrite EO; destruct (e_in_name p), (e_fdt p); reflexivity).
    assert (HIT' : forall i seq pl, hit B bursts i -> used_index true (Some (d, par, B)) n i ->
       block_at (e_ver p) (e_uid p) f (i * ver_to_block_size (e_ver p)) seq pl -> block_at (e_ver p) (e_uid p) (eo_file out) (i * ver_to_block_size (e_ver p)) seq pl) by (intros i seq pl HH _; apply HIT, HH).
    apply (first_spared (e_ver p) (e_uid p) rs (eo_file out) f d par B n (recorded H p content) content bursts); assumption. }
  destruct G as (pos & ref & G & EV & EU & ED).
  destruct (c67_guess_large H rs p cpus content out n d par B bursts f pos ref OK ltac:(apply IO) EN HBC ltac:(lia) NE EO NF SM1 SM2 HB LF LB OUT HIT G EV EU ED) as [_ RG].
  exists t, w. rewrite RG. split; [exact RF|exact RS].
Qed.

(* The limit: for a container whose data fill the first B sets, with more levels than parity shards, the level is guessed whatever bursts it has suffered
   if and only if (par + 1) * B <= par + 1001. (If par * B > par + 1001, bursts may leave none of the blocks the guess looks at.) *)
Theorem c67_guess_iff H rs p cpus content mx n d par B :
  enc_ok H rs cpus p -> meta_fits H p -> input_ok (SrcFile content) -> content <> [] ->
  e_from p = None -> e_to p = None -> e_dpb p = Some (d, par, B) -> B <= 1000 ->
  ver_to_max_data_file_size (e_ver p) (e_dpb p) = ROk mx -> lenN content <= mx ->
  block_count (e_ver p) (e_dpb p) (lenN content) n -> n < U32_MAX ->
  B * (d + par) <= n -> par < B -> par * B < par + 1002 ->
  exists out, encode_file H rs cpus p (SrcFile content) = ROk out /\
  ((forall bursts f pos ref, lenN bursts <= par -> damaged (e_ver p) (e_uid p) B bursts (eo_file out) f ->
      get_ref_block f None None false (MustBe TMeta) = ROk (Some (pos, ref)) ->
      b_version ref = e_ver p -> b_uid ref = e_uid p -> b_data ref = DMeta (recorded H p content) ->
      guess_burst f None false ref = ROk (Some B)) <->
   (par + 1) * B <= par + 1001).
Proof.
  intros OK F IO NE EF ET EO B1000 HMX HL HBC HN NF PB PB2.
  destruct (c38_encoded_container_is_the_file H rs p cpus content mx n OK F IO EF ET HMX HL HBC HN) as (out & E & EN).
  exists out. split; [exact E|]. split.
  - intro ALL. destruct (N.le_gt_cases ((par + 1) * B) (par + 1001)) as [|GT]; [assumption|]. exfalso.
    destruct (c67_window_refuted H rs p cpus content mx n d par B OK F IO NE EF ET EO B1000 ltac:(lia) PB2 HMX HL HBC HN) as (out' & bursts & f & ref & r & E' & C).
    rewrite E in E'. apply ROk_inj in E'. subst out'. cbv zeta in C. destruct C as (C1 & C2 & C3 & C4 & C5 & C6 & C7 & C8 & C9 & C10 & C11).
    apply C11. specialize (ALL bursts f 0 ref C3 (conj C1 (conj C2 (conj C4 C5))) C6 C7 C8 C9). rewrite C10 in ALL. apply ROk_inj in ALL. exact ALL.
  - intros SM bursts f pos ref LB (C1 & C2 & C4 & C5) G EV EU ED.
    apply (c67_guess_large H rs p cpus content out n d par B bursts f pos ref OK ltac:(apply IO) EN HBC ltac:(lia) NE EO NF SM ltac:(lia) C1 C2 LB C4 C5 G EV EU ED).
Qed.

(* the hypotheses are met: the container of c67_hypotheses, and one with a single data shard (where c67_guess does not apply) *)
Example c67_large_hypotheses : 2 * (3 + 2) <= 10 /\ (2 + 1) * 2 <= 2 + 1001 /\ 2 * 2 <= 1000.
Proof. repeat split; discriminate. Qed.
Example c67_iff_hypotheses : let p := toy_p V17 (Some (1, 1, 2)) in
  enc_ok toy_hash toy_rs 4 p /\ meta_fits toy_hash p /\ input_ok (SrcFile toy_content) /\ toy_content <> [] /\ e_from p = None /\ e_to p = None /\ recon_ok toy_rs toy_rc 1 1 /\
  (exists mx, ver_to_max_data_file_size V17 (Some (1, 1, 2)) = ROk mx /\ lenN toy_content <= mx) /\ block_count V17 (Some (1, 1, 2)) (lenN toy_content) 6 /\ 6 < U32_MAX /\
  2 * (1 + 1) <= 6 /\ 1 < 2 /\ 1 * 2 < 1 + 1002 /\ (1 + 1) * 2 <= 1 + 1001.
Proof.
  cbv zeta. split; [apply toy_ok; vm_compute; repeat split; congruence|]. split; [intros _; vm_compute; discriminate|]. split; [split; vm_compute; reflexivity|].
  split; [discriminate|]. split; [reflexivity|]. split; [reflexivity|]. split; [apply toy_rc_ok|]. split; [eexists; split; [vm_compute; reflexivity|vm_compute; discriminate]|].
  split; [apply block_count_iff; vm_compute; repeat split; congruence|]. repeat split; discriminate.
Qed.
Print Assumptions c67_guess_large.
Print Assumptions c67_repair_large.
Print Assumptions c67_guess_iff.
