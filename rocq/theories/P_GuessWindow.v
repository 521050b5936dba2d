(* C67: beyond the levels for which the guess is right. *)
From Verif Require Import M_Base M_Specs M_Crc M_Header M_Multihash M_Metadata M_Block M_Index M_FileUtils M_Buffer M_Ranges M_Encode M_Scan M_Loop M_Decode M_Repair
  S_Crc S_Meta S_Block S_Index S_Container S_Scan S_Decode S_Encode S_Guess S_Repair
  L_Base L_Crc L_File L_Header L_Index L_Index2 L_Block L_Scan L_Container L_Ref L_Ranges L_Decode L_Guess L_Guess2 L_Intact L_Intact2 L_Roundtrip
  L_Sort2 L_Buffer L_Repair L_Repair2 L_Repair5 L_Repair6 L_Repair7 L_Repair8 L_Repair9 L_RepairCut P_Encode P_Roundtrip P_Guess P_Repair P_RepairGuess
  M_Codec L_Codec P_Codec.
Ltac Zify.zify_post_hook ::= idtac.

(* the first l + 1 blocks are the same at every level from l on *)
Lemma first_blocks d p B l k seq : 1 <= d -> l <= B -> k <= l -> placed_at (Some (d, p, B)) k seq -> placed_at (Some (d, p, l)) k seq.
Proof.
  intros D LB KL [[S (j & J & E)]|[S E]].
  - left. split; [exact S|]. exists 0. split; [lia|]. destruct (N.eq_dec j 0) as [->|NZ]; [lia|]. assert (1 * (1 + B) <= j * (1 + B)) by (apply N.mul_le_mono_r; lia). lia.
  - right. split; [exact S|]. revert E. unfold calc_data_block_write_index, SBX_FIRST_DATA_SEQ_NUM. set (q := seq - 1). clearbody q. clear S.
    destruct (N.eqb_spec B 0) as [->|NB]; [lia|]. cbv zeta.
    destruct (N.eqb_spec (q / ((d + p) * B)) 0) as [Z|NZ].
    2:{ intro E. exfalso. assert (1 * B <= (d + p) * B) by (apply N.mul_le_mono_r; clear - D; lia).
        revert NZ E. generalize (q mod ((d + p) * B)). intro w. generalize (w / (d + p)), (w mod (d + p)). intros c r. generalize (q / ((d + p) * B)). intros t NZ E.
        assert ((d + p) * B * 1 <= (d + p) * B * t) by (apply N.mul_le_mono_l; clear - NZ; lia).
        clear - H H0 E KL LB NB. generalize dependent (r * B). generalize dependent ((d + p) * B * t). generalize dependent ((d + p) * B). intros. lia. }
    apply N.div_small_iff in Z; [|apply N.neq_mul_0; lia]. rewrite (N.mod_small q) by exact Z. rewrite (N.div_small q ((d + p) * B)) by exact Z.
    set (row := q mod (d + p)). set (col := q / (d + p)). intro E.
    assert (QE : q = (d + p) * col + row) by (apply N.div_mod; lia). assert (RL : row < d + p) by (apply N.mod_lt; lia).
    assert (R0 : row = 0). { destruct (N.eq_dec row 0) as [|NR]; [assumption|]. exfalso. assert (1 * B <= row * B) by (apply N.mul_le_mono_r; lia). destruct (row <? 1 + p); lia. }
    rewrite R0 in *. destruct (N.ltb_spec 0 (1 + p)) as [_|X]; [|lia].
    assert (CL : col < l) by lia.
    destruct (N.eqb_spec l 0) as [->|NL]; [lia|].
    assert (QL : q < (d + p) * l). { rewrite QE, N.add_0_r. apply N.mul_lt_mono_pos_l; lia. }
    rewrite (N.div_small q ((d + p) * l)), (N.mod_small q ((d + p) * l)) by exact QL. fold row col. rewrite R0. cbn [N.eqb].
    destruct (N.ltb_spec 0 (1 + p)) as [_|X]; lia.
Qed.
(* bursts that leave the first x blocks and nothing of the rest of the blocks the guess looks at *)
Definition tail_bursts (x par B : N) : list N := map (fun j => x + j * B) (rangeN 0 par).
Lemma tail_hit x par B i : 1 <= B -> x <= i < x + par * B -> hit B (tail_bursts x par B) i.
Proof.
  intros B1 HI. set (t := (i - x) / B). assert (TE : i - x = B * t + (i - x) mod B) by (apply N.div_mod; lia). assert (TL : (i - x) mod B < B) by (apply N.mod_lt; lia).
  assert (TP : t < par) by (apply N.div_lt_upper_bound; [lia|]; rewrite N.mul_comm; lia). clearbody t. generalize dependent ((i - x) mod B). intros w TE TL.
  exists (x + t * B). split; [|lia]. apply in_map_iff. exists t. split; [reflexivity|]. apply In_rangeN. lia.
Qed.
Lemma tail_first x par B i : i < x -> ~ hit B (tail_bursts x par B) i.
Proof. intros L (s & I & H). apply in_map_iff in I as (j & <- & _). lia. Qed.
(* the file with these blocks overwritten with zeros *)
Definition wiped (bs B : N) (bursts : list N) (f : file) : file := map (fun i => if hitb B bursts (i / bs) then 0 else nthN f i) (rangeN 0 (lenN f)).
Lemma wiped_ok bs B bursts f : bytes_ok f = true -> 1 <= bs -> bytes_ok (wiped bs B bursts f) = true /\ lenN (wiped bs B bursts f) = lenN f /\
  (forall i, ~ hit B bursts (i / bs) -> nthN (wiped bs B bursts f) i = nthN f i) /\ (forall i, hit B bursts i -> nthN (wiped bs B bursts f) (i * bs) = 0).
Proof.
  intros HB BS. assert (L : lenN (wiped bs B bursts f) = lenN f) by (unfold wiped; rewrite lenN_map, lenN_range; lia). split; [|split; [exact L|split]].
  - unfold bytes_ok, wiped. apply forallb_forall. intros b I. apply in_map_iff in I as (i & <- & _). destruct (hitb B bursts (i / bs)); [reflexivity|]. apply N.ltb_lt, L_Crc.nthN_byte, HB.
  - intros i NH. destruct (N.lt_ge_cases i (lenN f)) as [LT|GE]; [|rewrite !nthN_out by lia; reflexivity].
    unfold wiped. rewrite nthN_map_range by exact LT. rewrite hit_b in NH. destruct (hitb B bursts (i / bs)); [congruence|reflexivity].
  - intros i HH. destruct (N.lt_ge_cases (i * bs) (lenN f)) as [LT|GE]; [|apply nthN_out; lia].
    unfold wiped. rewrite nthN_map_range by exact LT. rewrite N.div_mul by lia. apply hit_b in HH. rewrite HH. reflexivity.
Qed.

(* C67 is false of levels with (par + 1) * B >= par + 1002, for every container: there is a placement of par bursts of B blocks such that, whatever is left there, if
   no block of this container is, the program guesses a lower level or none. *)
Theorem c67_window H rs p cpus content out n d par B :
  enc_ok H rs cpus p -> bytes_ok content = true -> encoded H rs p content out ->
  block_count (e_ver p) (e_dpb p) (lenN content) n -> n <= U32_MAX -> content <> [] ->
  e_dpb p = Some (d, par, B) -> B <= 1000 -> par + 1002 <= (par + 1) * B ->
  let f0 := eo_file out in let bs := ver_to_block_size (e_ver p) in
  exists bursts, lenN bursts = par /\ (par * B < par + 1002 -> ~ hit B bursts 0) /\
  forall f ref, bytes_ok f = true -> lenN f = lenN f0 ->
  (forall i, ~ hit B bursts (i / bs) -> nthN f i = nthN f0 i) ->
  (forall i seq pl, hit B bursts i -> ~ block_at (e_ver p) (e_uid p) f (i * bs) seq pl) ->
  b_version ref = e_ver p -> b_uid ref = e_uid p -> b_data ref = DMeta (recorded H p content) ->
  exists r, guess_burst f None false ref = ROk r /\ match r with Some g => g < B | None => True end.
Proof.
  intros OK HC EN HBC HN NE EO B1000 BIG f0 bs.
  assert (O1 : dpb_ok (e_dpb p)) by apply OK. rewrite EO in O1. destruct O1 as (D1 & P1 & DP).
  assert (B2 : 2 <= B). { destruct (N.le_gt_cases 2 B); [assumption|]. exfalso. assert ((par + 1) * B <= (par + 1) * 1) by (apply N.mul_le_mono_l; lia). lia. }
  assert (PB : par * 2 <= par * B) by (apply N.mul_le_mono_l; lia).
  set (x := par + 1002 - par * B). assert (XB : x <= B) by (unfold x; lia). assert (X1 : x - 1 <= 1000) by (unfold x; lia).
  exists (tail_bursts x par B). split; [unfold tail_bursts; rewrite lenN_map, lenN_range; lia|]. split; [intro PB'; apply tail_first; unfold x; lia|].
  intros f ref HB LF OUT HIT EV EU ED.
  destruct (encoded_intact H rs cpus p content out n OK HC EN HBC HN) as [IT FL]. fold f0 in IT, FL.
  assert (ME : meta_on p = true) by (apply (MEON _ _ _ _ _ _ _ _ _ IT); congruence).
  destruct (ref_meta _ _ _ _ _ _ _ _ _ IT (Prefer TMeta) false FL ME ltac:(auto)) as (ref' & GR' & _).
  assert (N1 : d + par <= n).
  { destruct HBC as (c & [HC1 _] & HS). rewrite EO in HS. destruct HS as (sets & [HS _] & ->). assert (1 <= lenN content) by (destruct content; [contradiction|rewrite lenN_cons; lia]).
    assert (1 <= c). { destruct c; [lia|]. lia. } assert (1 <= sets) by (destruct sets; lia). pose proof (N.mul_le_mono_r 1 sets (d + par) ltac:(lia)). lia. }
  destruct (c29_guess_intact H rs cpus p content out n d par B false ref' OK HC EN HBC HN EO B1000 ltac:(eexists; exact GR')) as (g & _ & _ & G3 & G4).
  rewrite (G4 ltac:(lia)) in G3. clear G4 g GR' ref'. fold f0 bs in G3.
  assert (VR : ver_uses_rs (b_version ref) = true). { rewrite EV. assert (X : ver_uses_rs (e_ver p) = (match e_dpb p with Some _ => true | None => false end)) by apply OK. rewrite EO in X. exact X. }
  assert (R1 : get_RSD ref = ROk d) by (unfold get_RSD; rewrite ED; unfold recorded; rewrite EO; destruct (e_in_name p), (e_fdt p); reflexivity).
  assert (R2 : get_RSP ref = ROk par) by (unfold get_RSP; rewrite ED; unfold recorded; rewrite EO; destruct (e_in_name p), (e_fdt p); reflexivity).
  destruct (c29_guess_minimises f None false ref d par 0 HB VR R1 R2 ltac:(lia) P1 DP eq_refl) as (r & miss & GB & CM & MIN). rewrite EV, EU in CM. fold bs in CM.
  destruct (whole_blocks _ _ _ _ _ _ _ _ _ IT) as (K & EK & UK). fold bs in EK. pose proof (block_size_pos (e_ver p)) as BZ. fold bs in BZ.
  rewrite LF, EK, N.sub_0_r, N.div_mul in CM by lia.
  assert (SAME : forall i, ~ hit B (tail_bursts x par B) i -> same_block (e_ver p) f0 f i) by (intros i NH y E; apply OUT; fold bs in E; rewrite E; exact NH).
  assert (M0 : miss (x - 1) = 0).
  { destruct (CM (x - 1) X1) as (ks & _ & IK & <-). destruct ks as [|k ks]; [reflexivity|]. exfalso. destruct (proj1 (IK k) (or_introl eq_refl)) as (HK & seq & pl & BA & NP). rewrite N.add_0_l in BA. fold bs in BA.
    destruct (N.lt_ge_cases k x) as [KX|KX].
    - apply NP. apply (first_blocks d par B); [lia|lia|lia|]. apply (G3 k seq pl); [lia|].
      apply (block_at_same (e_ver p) (e_uid p) f f0 k seq pl); [|lia|exact BA]. intros y Ey. symmetry. apply (SAME k); [apply tail_first, KX|exact Ey].
    - apply (HIT k seq pl); [|exact BA]. apply tail_hit; [lia|]. unfold x. lia. }
  exists r. split; [exact GB|]. destruct r as [g|]; [|exact Logic.I]. destruct MIN as (_ & _ & MIN).
  destruct (N.lt_ge_cases g B) as [|GE]; [assumption|]. exfalso. destruct (N.lt_ge_cases (x - 1) g) as [LT|LE]; [specialize (MIN (x - 1) LT); lia|lia].
Qed.

(* All that c67_guess asks for but the bound on the level, and the reference block is found: still the level is not guessed. *)
Theorem c67_window_refuted H rs p cpus content mx n d par B :
  enc_ok H rs cpus p -> meta_fits H p -> input_ok (SrcFile content) -> content <> [] ->
  e_from p = None -> e_to p = None -> e_dpb p = Some (d, par, B) -> B <= 1000 ->
  par + 1002 <= (par + 1) * B -> par * B < par + 1002 ->
  ver_to_max_data_file_size (e_ver p) (e_dpb p) = ROk mx -> lenN content <= mx ->
  block_count (e_ver p) (e_dpb p) (lenN content) n -> n < U32_MAX ->
  exists out bursts f ref r, encode_file H rs cpus p (SrcFile content) = ROk out /\
  let f0 := eo_file out in let bs := ver_to_block_size (e_ver p) in
    bytes_ok f = true /\ lenN f = lenN f0 /\ lenN bursts <= par /\
    (forall i, ~ hit B bursts (i / bs) -> nthN f i = nthN f0 i) /\
    (forall i seq pl, hit B bursts i -> block_at (e_ver p) (e_uid p) f (i * bs) seq pl -> block_at (e_ver p) (e_uid p) f0 (i * bs) seq pl) /\
    get_ref_block f None None false (MustBe TMeta) = ROk (Some (0, ref)) /\
    b_version ref = e_ver p /\ b_uid ref = e_uid p /\ b_data ref = DMeta (recorded H p content) /\
    guess_burst f None false ref = ROk r /\ r <> Some B.
Proof.
  intros OK F IO NE EF ET EO B1000 BIG SM HMX HL HBC HN.
  destruct (c38_encoded_container_is_the_file H rs p cpus content mx n OK F IO EF ET HMX HL HBC HN) as (out & E & EN).
  destruct (c67_window H rs p cpus content out n d par B OK ltac:(apply IO) EN HBC ltac:(lia) NE EO B1000 BIG) as (bursts & LB & FS & W). cbv zeta in W.
  destruct (encoded_intact H rs cpus p content out n OK ltac:(apply IO) EN HBC ltac:(lia)) as [IT FL].
  assert (ME : meta_on p = true) by (apply (MEON _ _ _ _ _ _ _ _ _ IT); congruence).
  assert (HB0 : bytes_ok (eo_file out) = true) by exact (container_bytes _ _ _ _ _ _ _ _ _ IT).
  pose proof (block_size_pos (e_ver p)) as BZ.
  destruct (wiped_ok (ver_to_block_size (e_ver p)) B bursts (eo_file out) HB0 ltac:(lia)) as (W1 & W2 & W3 & W4).
  set (f := wiped (ver_to_block_size (e_ver p)) B bursts (eo_file out)) in *. clearbody f.
  assert (NB : forall i seq pl, hit B bursts i -> ~ block_at (e_ver p) (e_uid p) f (i * ver_to_block_size (e_ver p)) seq pl) by (intros i seq pl HH; apply no_sig; rewrite W4 by exact HH; reflexivity).
  assert (G : exists ref, get_ref_block f None None false (MustBe TMeta) = ROk (Some (0, ref)) /\
       b_version ref = e_ver p /\ b_uid ref = e_uid p /\ b_data ref = DMeta (recorded H p content)).
  { rewrite ME in IT. rewrite EO in *.
    assert (MP : forall i, meta_index (Some true) (Some (d, par, B)) i -> meta_plain (e_ver p) (e_uid p) (recorded H p content) (sliceN (i * ver_to_block_size (e_ver p)) (ver_to_block_size (e_ver p)) (eo_file out))).
    { destruct EN as (_ & (meta & C & M) & _). specialize (M ME). rewrite ME, EO in C. destruct C as (n' & _ & _ & C & _). intros i MI. rewrite (C i MI). apply M. }
    assert (FZ : get_meta_by_id (recorded H p content) IFSZ = Some (FSZ (lenN content))) by (unfold recorded; destruct (e_in_name p), (e_fdt p); reflexivity).
    assert (RD : get_meta_by_id (recorded H p content) IRSD = Some (RSD d)) by (unfold recorded; rewrite EO; destruct (e_in_name p), (e_fdt p); reflexivity).
    assert (RP : get_meta_by_id (recorded H p content) IRSP = Some (RSP par)) by (unfold recorded; rewrite EO; destruct (e_in_name p), (e_fdt p); reflexivity).
    assert (HIT' : forall i seq pl, hit B bursts i -> used_index true (Some (d, par, B)) n i ->
       block_at (e_ver p) (e_uid p) f (i * ver_to_block_size (e_ver p)) seq pl -> block_at (e_ver p) (e_uid p) (eo_file out) (i * ver_to_block_size (e_ver p)) seq pl) by (intros i seq pl HH _ X; exfalso; exact (NB i seq pl HH X)).
    assert (LB' : lenN bursts <= par) by lia.
    apply (first_spared (e_ver p) (e_uid p) rs (eo_file out) f d par B n (recorded H p content) content bursts); try assumption. apply FS, SM. }
  destruct G as (ref & G & EV & EU & ED). destruct (W f ref W1 W2 W3 NB EV EU ED) as (r & GR & RB).
  exists out, bursts, f, ref, r. split; [exact E|]. cbv zeta. split; [exact W1|]. split; [exact W2|]. split; [lia|]. split; [exact W3|].
  split; [intros i seq pl HH X; exfalso; exact (NB i seq pl HH X)|]. split; [exact G|]. split; [exact EV|]. split; [exact EU|]. split; [exact ED|]. split; [exact GR|].
  intros ->. lia.
Qed.
(* the hypotheses are met: 3 data shards, 2 parity shards, burst level 400 *)
Example c67_window_hypotheses : let p := toy_p V17 (Some (3, 2, 400)) in
  enc_ok toy_hash rs_encode 4 p /\ meta_fits toy_hash p /\ input_ok (SrcFile cod_content) /\ cod_content <> [] /\ e_from p = None /\ e_to p = None /\
  400 <= 1000 /\ 2 + 1002 <= (2 + 1) * 400 /\ 2 * 400 < 2 + 1002 /\
  (exists mx, ver_to_max_data_file_size V17 (Some (3, 2, 400)) = ROk mx /\ lenN cod_content <= mx) /\ block_count V17 (Some (3, 2, 400)) (lenN cod_content) 10 /\ 10 < U32_MAX.
Proof.
  cbv zeta. split.
  { destruct (c44_codec 3 2 400 ltac:(lia) ltac:(lia)) as [CO _]. pose proof (toy_ok V17 (Some (3, 2, 400)) ltac:(vm_compute; repeat split; congruence) eq_refl ltac:(cbn; lia)) as (O1 & O2 & O3 & O4 & O5 & O6 & O7 & O8 & O9 & O10 & _ & O12). repeat (split; [assumption|]). exact O12. }
  split; [intros _; vm_compute; discriminate|]. split; [split; vm_compute; reflexivity|]. split; [discriminate|]. split; [reflexivity|]. split; [reflexivity|]. split; [discriminate|].
  split; [discriminate|]. split; [reflexivity|]. split; [eexists; split; [vm_compute; reflexivity|vm_compute; discriminate]|].
  split; [apply block_count_iff; vm_compute; repeat split; congruence|reflexivity].
Qed.
Print Assumptions c67_window.
Print Assumptions c67_window_refuted.
