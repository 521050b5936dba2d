(* C67: repair without --burst. *)
From Coq Require Import FinFun.
From Verif Require Import M_Base M_Specs M_Crc M_Header M_Multihash M_Metadata M_Block M_Index M_FileUtils M_Buffer M_Ranges M_Encode M_Scan M_Loop M_Decode M_Repair
  S_Crc S_Meta S_Block S_Index S_Container S_Scan S_Decode S_Encode S_Guess S_Repair
  L_Base L_Crc L_File L_Header L_Index L_Index2 L_Block L_Scan L_Container L_Ref L_Ranges L_Decode L_Guess L_Guess2 L_Intact L_Intact2 L_Roundtrip
  L_Sort2 L_Buffer L_Repair L_Repair2 L_Repair5 L_Repair6 L_Repair7 L_Repair8 L_Repair9 L_RepairCut P_Encode P_Roundtrip P_Guess P_Repair
M_Codec L_Codec P_Codec.
Ltac Zify.zify_post_hook ::= idtac.

(* places of the blocks of the first set *)
Lemma first_set me d p B k : 1 <= d -> k < d + p ->
  calc_data_block_write_index (1 + k) me (Some (d, p, B)) = if B =? 0 then 1 + p + k else N.min k p + 1 + k * B.
Proof.
  intros D K. unfold calc_data_block_write_index, SBX_FIRST_DATA_SEQ_NUM. replace (1 + k - 1) with k by lia. destruct (N.eqb_spec B 0) as [->|NB]; [lia|]. cbv zeta.
  assert (S : k < (d + p) * B). { destruct B as [|b]; [lia|]. replace (N.pos b) with (N.pred (N.pos b) + 1) by lia. rewrite N.mul_add_distr_l. generalize ((d + p) * N.pred (N.pos b)). intro x. lia. }
  rewrite (N.div_small k ((d + p) * B)), (N.mod_small k ((d + p) * B)) by exact S. rewrite (N.div_small k (d + p)), (N.mod_small k (d + p)) by exact K. cbn [N.eqb]. rewrite N.mul_0_r.
  destruct (N.ltb_spec k (1 + p)) as [L|L]; [rewrite N.min_l by lia|rewrite N.min_r by lia]; lia.
Qed.
(* two blocks of the first p + 2 of the first set are spared *)
Lemma two_spared p B bursts : lenN bursts <= p -> exists k1 k2, k1 < k2 /\ k2 <= p + 1 /\
  (forall k, k = k1 \/ k = k2 -> ~ hit B bursts (calc_data_block_write_index (1 + k) (Some true) (Some (2, p, B)))).
Proof.
  intro LB. destruct (burst_sets (Some true) 2 p B bursts 0 ltac:(lia) LB) as (_ & ND & EN). set (l := filter _ _) in EN. assert (NL : NoDup l) by (apply NoDup_filter, ND).
  assert (IL : forall s, In s l -> 1 <= s <= p + 2 /\ ~ hit B bursts (calc_data_block_write_index s (Some true) (Some (2, p, B)))).
  { intros s Hs. apply filter_In in Hs as [H1 H2]. split; [unfold seqs_of_set in H1; apply in_map_iff in H1 as (j & <- & H1); apply In_rangeN in H1; lia|].
    rewrite hit_b. destruct (hitb _ _ _); [discriminate|congruence]. }
  clearbody l. destruct l as [|a [|b l]]; rewrite ?lenN_cons, ?lenN_nil in EN; try lia. destruct (IL a ltac:(cbn; auto)) as [A1 A2]. destruct (IL b ltac:(cbn; auto)) as [B1 B2].
  assert (NE : a <> b) by (inversion NL as [|? ? X _]; intros ->; apply X; left; reflexivity).
  destruct (N.lt_ge_cases a b).
  - exists (a - 1), (b - 1). split; [lia|]. split; [lia|]. intros k [->| ->]; [replace (1 + (a - 1)) with a by lia|replace (1 + (b - 1)) with b by lia]; assumption.
  - exists (b - 1), (a - 1). split; [lia|]. split; [lia|]. intros k [->| ->]; [replace (1 + (b - 1)) with b by lia|replace (1 + (a - 1)) with a by lia]; assumption.
Qed.
(* bursts of one block: one of p + 1 places is spared *)
Lemma one_spared p bursts l : lenN bursts <= p -> NoDup l -> p < lenN l -> exists i, In i l /\ ~ hit 1 bursts i.
Proof.
  intros LB ND LL. destruct (existsb (fun i => negb (hitb 1 bursts i)) l) eqn:E.
  - apply existsb_exists in E as (i & Hi & H). exists i. split; [exact Hi|]. rewrite hit_b. destruct (hitb _ _ _); [discriminate|congruence].
  - exfalso. assert (I : incl l bursts).
    { intros i Hi. assert (H : hitb 1 bursts i = true). { destruct (hitb 1 bursts i) eqn:H; [reflexivity|]. assert (X : existsb (fun i => negb (hitb 1 bursts i)) l = true) by (apply existsb_exists; exists i; rewrite H; auto). congruence. }
      apply hit_b in H as (s & Hs & H). assert (X : s = i) by lia. rewrite <- X. exact Hs. }
    apply (NoDup_incl_length ND) in I. unfold lenN in *. lia.
Qed.

(* what is left shows every lower level to be wrong *)
Section Spared.
Variables (d p B n : N) (bursts : list N) (there : N -> N -> Prop).
Hypotheses (D2 : 2 <= d) (P1 : 1 <= p) (LB : lenN bursts <= p) (SM : (p + 1) * B <= 1000) (N1 : d + p <= n).
(* there k seq: block seq is at index k *)
Hypothesis DATA : forall s, 1 <= s <= n -> ~ hit B bursts (calc_data_block_write_index s (Some true) (Some (d, p, B))) -> there (calc_data_block_write_index s (Some true) (Some (d, p, B))) s.
Hypothesis META : forall i, meta_index (Some true) (Some (d, p, B)) i -> ~ hit B bursts i -> there i 0.
Lemma set_mismatch l k : 1 <= B -> k <= p + 1 -> ~ hit B bursts (calc_data_block_write_index (1 + k) (Some true) (Some (2, p, B))) ->
  (if l =? 0 then 1 + p + k else N.min k p + 1 + k * l) <> N.min k p + 1 + k * B ->
  exists i s, i < p + 1002 /\ there i s /\ ~ placed_at (Some (d, p, l)) i s.
Proof.
  intros HB K NH NE. rewrite first_set in NH by lia. destruct (N.eqb_spec B 0) as [|_]; [lia|].
  assert (W : calc_data_block_write_index (1 + k) (Some true) (Some (d, p, B)) = N.min k p + 1 + k * B) by (rewrite first_set by lia; destruct (N.eqb_spec B 0); lia).
  exists (N.min k p + 1 + k * B), (1 + k). split; [|split].
  - assert (k * B <= (p + 1) * B) by (apply N.mul_le_mono_r; exact K). lia.
  - rewrite <- W in NH |- *. apply DATA; [lia|exact NH].
  - intros [[X _]|[_ X]]; [lia|]. rewrite first_set in X by lia. apply NE. exact X.
Qed.
Lemma lower_wrong l : l < B -> exists i s, i < p + 1002 /\ there i s /\ ~ placed_at (Some (d, p, l)) i s.
Proof.
  intro LT. destruct (two_spared p B bursts LB) as (k1 & k2 & K1 & K2 & SP).
  destruct (N.eqb_spec l 0) as [->|NL].
  - destruct (N.eq_dec B 1) as [E|NB].
    + set (c := map (fun k => 2 * k + 1) (rangeN 0 p) ++ [2 * p]).
      destruct (one_spared p bursts c LB) as (i & Hi & NH).
      * unfold c. apply L_RepairCut.NoDup_app; [apply FinFun.Injective_map_NoDup; [intros x y Z; lia|apply NoDup_rangeN]|constructor; [intros []|constructor]|].
        intros x H1 [<-|[]]. apply in_map_iff in H1 as (y & H1 & _). lia.
      * unfold c. rewrite lenN_app, lenN_map, lenN_range. change (lenN [2 * p]) with 1. lia.
      * rewrite <- E in NH. apply in_app_iff in Hi as [Hi|[<-|[]]].
        -- apply in_map_iff in Hi as (k & <- & Hk). apply In_rangeN in Hk. apply (set_mismatch 0 k); [lia|lia| |].
           ++ rewrite first_set by lia. rewrite E in *. cbn [N.eqb]. rewrite N.min_l by lia. replace (k + 1 + k * 1) with (2 * k + 1) by lia. exact NH.
           ++ cbn [N.eqb]. rewrite N.min_l by lia. rewrite E. lia.
        -- exists (2 * p), 0. split; [rewrite E in SM; lia|]. split; [apply META; [exists p; rewrite E; lia|exact NH]|].
           intros [[_ (j & J & X)]|[X _]]; [lia|lia].
    + assert (C : 1 + p + k1 <> N.min k1 p + 1 + k1 * B \/ 1 + p + k2 <> N.min k2 p + 1 + k2 * B).
      { destruct (N.eq_dec (1 + p + k1) (N.min k1 p + 1 + k1 * B)) as [E1|]; [|auto]. right. intro E2. rewrite N.min_l in E1 by lia.
        assert (M : k1 * B + B <= k2 * B) by (assert (k1 + 1 <= k2) as X by lia; apply (N.mul_le_mono_r _ _ B) in X; lia).
        assert (G : k2 * 2 <= k2 * B) by (apply N.mul_le_mono_l; lia).
        destruct (N.le_gt_cases k2 p); [rewrite N.min_l in E2 by lia|rewrite N.min_r in E2 by lia]; lia. }
      destruct C as [C|C]; [apply (set_mismatch 0 k1)|apply (set_mismatch 0 k2)]; try lia; try (apply SP; auto); exact C.
  - apply (set_mismatch l k2); [lia|exact K2|apply SP; auto|]. destruct (N.eqb_spec l 0); [contradiction|].
    assert (k2 * l < k2 * B) by (apply N.mul_lt_mono_pos_l; lia). lia.
Qed.
End Spared.

(* C67. A container with d >= 2 data and p parity shards and burst level B, (p+1)B <= 1000, of a file that is not empty; p bursts or fewer, each
   destroying at most B consecutive blocks; what is left there is not mistaken for a block of this container. The program is not told B: it guesses B, and
   does the same as if it had been told. *)
Theorem c67_guess H rs p cpus content out n d par B bursts f pos ref :
  enc_ok H rs cpus p -> bytes_ok content = true -> encoded H rs p content out ->
  block_count (e_ver p) (e_dpb p) (lenN content) n -> n <= U32_MAX -> content <> [] ->
  e_dpb p = Some (d, par, B) -> 2 <= d -> (par + 1) * B <= 1000 ->
  let f0 := eo_file out in let bs := ver_to_block_size (e_ver p) in
  bytes_ok f = true -> lenN f = lenN f0 -> lenN bursts <= par ->
  (forall i, ~ hit B bursts (i / bs) -> nthN f i = nthN f0 i) ->
  (forall i seq pl, hit B bursts i -> block_at (e_ver p) (e_uid p) f (i * bs) seq pl -> block_at (e_ver p) (e_uid p) f0 (i * bs) seq pl) ->
  get_ref_block f None None false (MustBe TMeta) = ROk (Some (pos, ref)) ->
  b_version ref = e_ver p -> b_uid ref = e_uid p -> b_data ref = DMeta (recorded H p content) ->
  guess_burst f None false ref = ROk (Some B) /\
  forall rc dry, repair_file rc dry None f = repair_file rc dry (Some B) f.
Proof.
  intros OK HC EN HBC HN NE EO D2 SM f0 bs HB LF LB OUT HIT G EV EU ED.
  destruct (encoded_intact H rs cpus p content out n OK HC EN HBC HN) as [IT FL]. fold f0 in IT, FL.
  assert (ME : meta_on p = true) by (apply (MEON _ _ _ _ _ _ _ _ _ IT); congruence).
  destruct (ref_meta _ _ _ _ _ _ _ _ _ IT (Prefer TMeta) false FL ME ltac:(auto)) as (ref' & GR' & _).
  assert (O1 : dpb_ok (e_dpb p)) by apply OK. rewrite EO in O1. destruct O1 as (_ & P1 & DP).
  assert (N1 : d + par <= n).
  { destruct HBC as (c & [HC1 _] & HS). rewrite EO in HS. destruct HS as (sets & [HS _] & ->). assert (1 <= lenN content) by (destruct content; [contradiction|rewrite lenN_cons; lia]).
    assert (1 <= c). { destruct c; [lia|]. lia. } assert (1 <= sets) by (destruct sets; lia). pose proof (N.mul_le_mono_r 1 sets (d + par) ltac:(lia)). lia. }
  assert (B1000 : B <= 1000) by (assert (1 * B <= (par + 1) * B) by (apply N.mul_le_mono_r; lia); lia).
  destruct (c29_guess_intact H rs cpus p content out n d par B false ref' OK HC EN HBC HN EO B1000 ltac:(eexists; exact GR')) as (g & _ & _ & G3 & G4).
  rewrite (G4 ltac:(lia)) in G3. clear G4 g GR' ref'. fold f0 bs in G3.
  assert (VR : ver_uses_rs (b_version ref) = true). { rewrite EV. assert (X : ver_uses_rs (e_ver p) = (match e_dpb p with Some _ => true | None => false end)) by apply OK. rewrite EO in X. exact X. }
  assert (R1 : get_RSD ref = ROk d) by (unfold get_RSD; rewrite ED; unfold recorded; rewrite EO; destruct (e_in_name p), (e_fdt p); reflexivity).
  assert (R2 : get_RSP ref = ROk par) by (unfold get_RSP; rewrite ED; unfold recorded; rewrite EO; destruct (e_in_name p), (e_fdt p); reflexivity).
  destruct (c29_guess_minimises f None false ref d par 0 HB VR R1 R2 ltac:(lia) P1 DP eq_refl) as (r & miss & GB & CM & MIN). rewrite EV, EU in CM. fold bs in CM.
  destruct (whole_blocks _ _ _ _ _ _ _ _ _ IT) as (K & EK & UK). fold bs in EK. pose proof (block_size_pos (e_ver p)) as BZ. fold bs in BZ.
  rewrite LF, EK, N.sub_0_r, N.div_mul in CM by lia.
  assert (SAME : forall i, ~ hit B bursts i -> same_block (e_ver p) f0 f i) by (intros i NH x E; apply OUT; fold bs in E; rewrite E; exact NH).
  (* B puts every block where it is *)
  assert (M0 : miss B = 0).
  { destruct (CM B B1000) as (ks & _ & IK & <-). destruct ks as [|k ks]; [reflexivity|]. exfalso. destruct (proj1 (IK k) (or_introl eq_refl)) as (HK & seq & pl & BA & NP). rewrite N.add_0_l in BA. fold bs in BA.
    apply NP. apply (G3 k seq pl); [lia|]. destruct (hitb B bursts k) eqn:E.
    - apply HIT; [apply hit_b, E|exact BA].
    - apply (block_at_same (e_ver p) (e_uid p) f f0 k seq pl); [|lia|exact BA]. intros x Ex. symmetry. apply (SAME k); [rewrite hit_b; congruence|exact Ex]. }
  set (there := fun k s => k < K /\ exists pl, block_at (e_ver p) (e_uid p) f (k * bs) s pl).
  assert (TD : forall s, 1 <= s <= n -> ~ hit B bursts (calc_data_block_write_index s (Some true) (Some (d, par, B))) -> there (calc_data_block_write_index s (Some true) (Some (d, par, B))) s).
  { intros s Hs NH. rewrite ME, EO in UK. split; [apply UK; right; exists s; auto|]. destruct (data_block _ _ _ _ _ _ _ _ _ IT s Hs) as [BA _]. rewrite ME, EO in BA. eexists.
    eapply (block_at_same (e_ver p) (e_uid p) f0 f); [apply SAME, NH|lia|exact BA]. }
  assert (TM : forall i, meta_index (Some true) (Some (d, par, B)) i -> ~ hit B bursts i -> there i 0).
  { intros i MI NH. rewrite ME, EO in UK. split; [apply UK; left; exact MI|]. pose proof (meta_blk _ _ _ _ _ _ _ _ _ IT i) as MB. rewrite ME, EO in MB. destruct (MB MI) as (_ & h & pl & W & V & U & S & _). exists pl.
    apply (block_at_same (e_ver p) (e_uid p) f0 f i 0 pl); [apply SAME, NH|lia|]. exists h. auto. }
  assert (POS : forall l, l <= 1000 -> (exists i s, i < par + 1002 /\ there i s /\ ~ placed_at (Some (d, par, l)) i s) -> 1 <= miss l).
  { intros l Hl (i & s & HI & (HK & pl & BA) & NP). destruct (CM l Hl) as (ks & _ & IK & <-). assert (I : In i ks). { apply IK. split; [lia|]. exists s, pl. rewrite N.add_0_l. fold bs. auto. }
    destruct ks; [destruct I|]. rewrite lenN_cons. lia. }
  assert (RB : r = Some B).
  { destruct r as [g|].
    - destruct MIN as (G1 & G2 & G3'). f_equal. specialize (G2 B B1000). destruct (N.lt_trichotomy g B) as [L|[E|L]]; [|exact E|specialize (G3' B L); lia].
      specialize (POS g G1 (lower_wrong d par B n bursts there D2 P1 LB SM N1 TD TM g L)). lia.
    - exfalso. destruct (N.eq_dec B 0) as [Z|NZ].
      + specialize (MIN B 1 B1000 ltac:(lia)). assert (1 <= miss 1); [|lia]. apply POS; [lia|]. exists 1, 0. split; [lia|]. split.
        * apply TM; [exists 1; rewrite Z; lia|]. intros (s & _ & X). lia.
        * intros [[_ (j & J & X)]|[X _]]; [lia|lia].
      + specialize (MIN B 0 B1000 ltac:(lia)). specialize (POS 0 ltac:(lia) (lower_wrong d par B n bursts there D2 P1 LB SM N1 TD TM 0 ltac:(lia))). lia. }
  subst r. split; [exact GB|]. intros rc dry. unfold repair_file. rewrite G. cbn [rbind]. rewrite VR. cbn [negb].
  assert (E : get_data_par_burst f None None false ref = get_data_par_burst f (Some B) None false ref).
  { unfold get_data_par_burst, get_burst_or_guess. rewrite VR, R1, R2. cbn [rbind]. unfold is_data, block_type_of. rewrite ED, GB. reflexivity. }
  rewrite E. reflexivity.
Qed.
Print Assumptions c67_guess.

(* C67, repair: c20_bursts without --burst. *)
Theorem c67_repair_without_burst H rs rc p cpus content mx n d par B :
  enc_ok H rs cpus p -> meta_fits H p -> input_ok (SrcFile content) -> content <> [] ->
  e_from p = None -> e_to p = None -> e_dpb p = Some (d, par, B) -> recon_ok rs rc d par -> 2 <= d -> (par + 1) * B <= 1000 ->
  ver_to_max_data_file_size (e_ver p) (e_dpb p) = ROk mx -> lenN content <= mx ->
  block_count (e_ver p) (e_dpb p) (lenN content) n -> n < U32_MAX ->
  exists out, encode_file H rs cpus p (SrcFile content) = ROk out /\ eo_err out = false /\
  let f0 := eo_file out in let bs := ver_to_block_size (e_ver p) in
  forall bursts f, bytes_ok f = true -> lenN f = lenN f0 -> lenN bursts <= par ->
    (forall i, ~ hit B bursts (i / bs) -> nthN f i = nthN f0 i) ->
    (forall i seq pl, hit B bursts i -> block_at (e_ver p) (e_uid p) f (i * bs) seq pl -> block_at (e_ver p) (e_uid p) f0 (i * bs) seq pl) ->
    (~ hit B bursts 0 \/ exists pos ref, get_ref_block f None None false (MustBe TMeta) = ROk (Some (pos, ref)) /\
       b_version ref = e_ver p /\ b_uid ref = e_uid p /\ b_data ref = DMeta (recorded H p content)) ->
    exists t w, repair_file rc false None f = ROk (Some (t, w)) /\ restored (e_ver p) (e_dpb p) n f0 f w /\
      ((forall i, ~ used_index true (e_dpb p) n (i / bs) -> nthN f i = nthN f0 i) -> w = f0).
Proof.
  intros OK F IO NE EF ET EO HR D2 SM HMX HL HBC HN. destruct (c20_bursts H rs rc p cpus content mx n d par B OK F IO EF ET EO HR HMX HL HBC HN) as (out & E & EE & C20).
  exists out. split; [exact E|]. split; [exact EE|]. cbv zeta in *. intros bursts f HB LF LB OUT HIT REF.
  destruct (C20 bursts f HB LF LB OUT (fun i seq pl HH _ => HIT i seq pl HH) REF) as (t & w & RF & RS).
  destruct (c38_encoded_container_is_the_file H rs p cpus content mx n OK F IO EF ET HMX HL HBC HN) as (out' & E' & EN).
  rewrite E in E'. apply ROk_inj in E'. subst out'.
  assert (G : exists pos ref, get_ref_block f None None false (MustBe TMeta) = ROk (Some (pos, ref)) /\
       b_version ref = e_ver p /\ b_uid ref = e_uid p /\ b_data ref = DMeta (recorded H p content)).
  { destruct REF as [NH|G]; [|exact G]. exists 0. destruct (encoded_intact H rs cpus p content out n OK ltac:(apply IO) EN HBC ltac:(lia)) as [IT FL].
    assert (ME : meta_on p = true) by (apply (MEON _ _ _ _ _ _ _ _ _ IT); congruence). rewrite ME in IT. rewrite EO in *.
    assert (MP : forall i, meta_index (Some true) (Some (d, par, B)) i -> meta_plain (e_ver p) (e_uid p) (recorded H p content) (sliceN (i * ver_to_block_size (e_ver p)) (ver_to_block_size (e_ver p)) (eo_file out))).
    { destruct EN as (_ & (meta & C & M) & _). specialize (M ME). rewrite ME, EO in C. destruct C as (n' & _ & _ & C & _). intros i MI. rewrite (C i MI). apply M. }
    assert (FZ : get_meta_by_id (recorded H p content) IFSZ = Some (FSZ (lenN content))) by (unfold recorded; destruct (e_in_name p), (e_fdt p); reflexivity).
    assert (RD : get_meta_by_id (recorded H p content) IRSD = Some (RSD d)) by (unfold recorded; rewrite EO; destruct (e_in_name p), (e_fdt p); reflexivity).
    assert (RP : get_meta_by_id (recorded H p content) IRSP = Some (RSP par)) by (unfold recorded; rewrite EO; destruct (e_in_name p), (e_fdt p); reflexivity).
    assert (HIT' : forall i seq pl, hit B bursts i -> used_index true (Some (d, par, B)) n i ->
       block_at (e_ver p) (e_uid p) f (i * ver_to_block_size (e_ver p)) seq pl -> block_at (e_ver p) (e_uid p) (eo_file out) (i * ver_to_block_size (e_ver p)) seq pl) by (intros i seq pl HH _; apply HIT, HH).
    apply (first_spared (e_ver p) (e_uid p) rs (eo_file out) f d par B n (recorded H p content) content bursts); assumption. }
  destruct G as (pos & ref & G & EV & EU & ED).
  destruct (c67_guess H rs p cpus content out n d par B bursts f pos ref OK ltac:(apply IO) EN HBC ltac:(lia) NE EO D2 SM HB LF LB OUT HIT G EV EU ED) as [_ RG].
  exists t, w. rewrite RG. split; [exact RF|exact RS].
Qed.
Print Assumptions c67_repair_without_burst.

(* the container of P_Codec.v (3 data shards, 2 parity shards, burst level 2), blocks 1..4 overwritten; Reed-Solomon itself *)
Example c67_hypotheses : enc_ok toy_hash rs_encode 4 (toy_p V17 cod_o) /\ meta_fits toy_hash (toy_p V17 cod_o) /\ input_ok (SrcFile cod_content) /\ cod_content <> [] /\
  recon_ok rs_encode rs_reconstruct 3 2 /\ (2 + 1) * 2 <= 1000 /\ (exists mx, ver_to_max_data_file_size V17 cod_o = ROk mx /\ lenN cod_content <= mx) /\
  block_count V17 cod_o (lenN cod_content) 10 /\ 10 < U32_MAX /\
  bytes_ok cod_hit = true /\ lenN cod_hit = lenN cod_file /\ lenN [1; 3] <= 2 /\ eqbl cod_hit cod_file = false /\
  (forall i, ~ hit 2 [1; 3] (i / 512) -> nthN cod_hit i = nthN cod_file i) /\
  (forall i seq pl, hit 2 [1; 3] i -> ~ block_at V17 [1;2;3;4;5;6] cod_hit (i * 512) seq pl) /\ ~ hit 2 [1; 3] 0.
Proof.
  split. { destruct (c44_codec 3 2 2 ltac:(lia) ltac:(lia)) as [CO _]. pose proof (toy_ok V17 cod_o ltac:(vm_compute; repeat split; congruence) eq_refl ltac:(cbn; lia)) as (O1 & O2 & O3 & O4 & O5 & O6 & O7 & O8 & O9 & O10 & _ & O12). repeat (split; [assumption|]). exact O12. }
  split; [intros _; vm_compute; discriminate|].
  split; [split; vm_compute; reflexivity|]. split; [discriminate|]. split; [apply rs_reconstruct_ok; lia|]. split; [lia|]. split; [eexists; split; [vm_compute; reflexivity|vm_compute; discriminate]|].
  split; [apply block_count_iff; vm_compute; repeat split; congruence|]. split; [reflexivity|]. split; [vm_compute; reflexivity|]. split; [vm_compute; reflexivity|]. split; [vm_compute; discriminate|]. split; [vm_compute; reflexivity|].
  split; [|split].
  - apply out_check; vm_compute; reflexivity.
  - intros i seq pl (s & Hs & L). apply no_sig. assert (C : i = 1 \/ i = 2 \/ i = 3 \/ i = 4) by (destruct Hs as [<-|[<-|[]]]; lia).
    destruct C as [->|[->|[->| ->]]]; vm_compute; reflexivity.
  - intros (s & [<-|[<-|[]]] & L); lia.
Qed.
Definition guess_of (f : file) : option N := match get_ref_block f None None false (MustBe TMeta) with ROk (Some (_, ref)) => match guess_burst f None false ref with ROk r => r | _ => None end | _ => None end.
Example c67_run : guess_of cod_hit = Some 2.
Proof. vm_compute. reflexivity. Qed.

(* With one data shard the guess can be wrong although the damage is what the parameters allow for: one burst of two blocks leaves blocks 0 and 1 of a container
   with burst level 2, and they are also where level 1 would have them. Told 2, the program restores the file; left to guess, it says the same but does not. *)
Definition one_o : dpb := Some (1, 1, 2).
Definition one_file : list N := match encode_file toy_hash toy_rs 4 (toy_p V17 one_o) (SrcFile [1;2;3]) with ROk out => eo_file out | _ => [] end.
Definition one_hit : list N := takeN 1536 one_file ++ repN 1024 255 ++ dropN 2560 one_file.
Definition repaired (burst : option N) (f : file) : list N := match repair_file toy_rc false burst f with ROk (Some (t, w)) => w | _ => [] end.
Definition failures (burst : option N) (f : file) : option N := match repair_file toy_rc false burst f with ROk (Some (t, _)) => Some (ps_data_fail t) | _ => None end.
Theorem c67_one_data_shard_refuted : enc_ok toy_hash toy_rs 4 (toy_p V17 one_o) /\ recon_ok toy_rs toy_rc 1 1 /\
  lenN one_hit = lenN one_file /\ (forall i, ~ hit 2 [3] (i / 512) -> nthN one_hit i = nthN one_file i) /\
  (forall i seq pl, hit 2 [3] i -> ~ block_at V17 [1;2;3;4;5;6] one_hit (i * 512) seq pl) /\
  guess_of one_hit = Some 1 /\ repaired (Some 2) one_hit = one_file /\ repaired None one_hit <> one_file /\
  failures (Some 2) one_hit = Some 0 /\ failures None one_hit = Some 0.
Proof.
  split; [apply toy_ok; vm_compute; repeat split; congruence|]. split; [apply toy_rc_ok|]. split; [vm_compute; reflexivity|]. split; [apply out_check; vm_compute; reflexivity|].
  split. { intros i seq pl (s & [<-|[]] & L). apply no_sig. assert (C : i = 3 \/ i = 4) by lia. destruct C as [->| ->]; vm_compute; reflexivity. }
  split; [vm_compute; reflexivity|]. split; [apply eqbl_eq; vm_compute; reflexivity|].
  split; [|split; vm_compute; reflexivity]. intro X. apply (f_equal (fun l => eqbl l one_file)) in X. rewrite (proj2 (eqbl_eq one_file one_file) eq_refl) in X. revert X. vm_compute. discriminate.
Qed.
Print Assumptions c67_one_data_shard_refuted.

(* And the level must be right: given a wrong one, the program writes over good blocks of a container that had no fault. The third set of this container is
   nowhere in the result, and decoding it does not give the content any more. *)
Definition wrong_o : dpb := Some (1, 1, 4).
Definition wrong_content : list N := map (fun i => i mod 251 + 1) (rangeN 0 1984).
Definition wrong_file : list N := match encode_file toy_hash toy_rs 4 (toy_p V17 wrong_o) (SrcFile wrong_content) with ROk out => eo_file out | _ => [] end.
Theorem c67_wrong_burst_refuted : enc_ok toy_hash toy_rs 4 (toy_p V17 wrong_o) /\ recon_ok toy_rs toy_rc 1 1 /\
  toy_decode wrong_file = wrong_content /\ repaired None wrong_file = wrong_file /\ repaired (Some 4) wrong_file = wrong_file /\
  toy_decode (repaired (Some 1) wrong_file) <> wrong_content /\ toy_decode (repaired (Some 4) (repaired (Some 1) wrong_file)) <> wrong_content.
Proof.
  split; [apply toy_ok; vm_compute; repeat split; congruence|]. split; [apply toy_rc_ok|].
  split; [vm_compute; reflexivity|]. split; [apply eqbl_eq; vm_compute; reflexivity|]. split; [apply eqbl_eq; vm_compute; reflexivity|].
  split; intro X; apply (f_equal (fun l => eqbl l wrong_content)) in X; rewrite (proj2 (eqbl_eq wrong_content wrong_content) eq_refl) in X; revert X; vm_compute; discriminate.
Qed.
Print Assumptions c67_wrong_burst_refuted.
