(* C20, C21: repairing. *)
From Verif Require Import M_Base M_Specs M_Crc M_Header M_Multihash M_Metadata M_Block M_Index M_FileUtils M_Buffer M_Ranges M_Encode M_Scan M_Loop M_Decode M_Repair
  S_Crc S_Meta S_Block S_Index S_Container S_Scan S_Decode S_Encode S_Repair
  L_Base L_Crc L_File L_Header L_Index L_Index2 L_Block L_Scan L_Container L_Ref L_Ranges L_Decode L_Intact L_Intact2 L_Roundtrip
  L_Sort2 L_Buffer L_Repair L_Repair2 L_Repair5 L_Repair6 L_Repair7 L_Repair8 L_Repair9 P_Encode P_Roundtrip.

(* C20. f0 is an undamaged container of [data]; its metadata blocks are in the form the encoder writes. f is f0 with any
   damage that leaves at least d blocks in place in every set; the program found the container's reference block, shard
   counts, burst level and number of blocks. Then the repair succeeds and brings back every block of f0. *)
Theorem c20_repair_restores rs rc burst f f0 ref d p B n ms data :
  let v := b_version ref in let uid := b_uid ref in let o := Some (d, p, B) in let bs := ver_to_block_size v in
  recon_ok rs rc d p -> intact v uid true o rs ms data f0 n ->
  (forall i, meta_index (Some true) o i -> meta_plain v uid ms (sliceN (i * bs) bs f0)) ->
  bytes_ok f = true -> lenN f < 18446744073709551616 ->
  repair_setup burst f ref d p B n -> b_data ref = DMeta ms -> damaged v uid o n f0 f ->
  (forall seq, 1 <= seq <= n -> at_least d p d (in_place v uid d p B f) (set_of d p seq)) ->
  exists t w, repair_file rc false burst f = ROk (Some (t, w)) /\ restored v o n f0 f w.
Proof. exact (repair_restores rs rc burst f f0 ref d p B n ms data). Qed.
Print Assumptions c20_repair_restores.

(* [restored] is equality with f0 if the damage spared the gaps between the blocks. *)
Theorem c20_restored_is_identical v uid o rs ms data n f0 f w :
  intact v uid true o rs ms data f0 n -> restored v o n f0 f w ->
  (forall i, ~ used_index true o n (i / ver_to_block_size v) -> nthN f i = nthN f0 i) -> w = f0.
Proof. exact (restored_same v uid o rs ms data n f0 f w). Qed.
Print Assumptions c20_restored_is_identical.

(* C20 for the containers of the encoder: any file encoded with any d, p and burst level B. p bursts or fewer, each destroying
   at most B consecutive blocks, do not matter, as long as what is left there cannot be mistaken for a block of this container
   and the program is told B and finds one of the metadata blocks. *)
Theorem c20_bursts H rs rc p cpus content mx n d par B :
  enc_ok H rs cpus p -> meta_fits H p -> input_ok (SrcFile content) ->
  e_from p = None -> e_to p = None -> e_dpb p = Some (d, par, B) -> recon_ok rs rc d par ->
  ver_to_max_data_file_size (e_ver p) (e_dpb p) = ROk mx -> lenN content <= mx ->
  block_count (e_ver p) (e_dpb p) (lenN content) n -> n < U32_MAX ->
  exists out, encode_file H rs cpus p (SrcFile content) = ROk out /\ eo_err out = false /\
  let f0 := eo_file out in let bs := ver_to_block_size (e_ver p) in
  forall bursts f, bytes_ok f = true -> lenN f = lenN f0 -> lenN bursts <= par ->
    (forall i, ~ hit B bursts (i / bs) -> nthN f i = nthN f0 i) ->
    (forall i seq pl, hit B bursts i -> used_index true (e_dpb p) n i ->
       block_at (e_ver p) (e_uid p) f (i * bs) seq pl -> block_at (e_ver p) (e_uid p) f0 (i * bs) seq pl) ->
    (~ hit B bursts 0 \/ exists pos ref, get_ref_block f None None false (MustBe TMeta) = ROk (Some (pos, ref)) /\
       b_version ref = e_ver p /\ b_uid ref = e_uid p /\ b_data ref = DMeta (recorded H p content)) ->
    exists t w, repair_file rc false (Some B) f = ROk (Some (t, w)) /\ restored (e_ver p) (e_dpb p) n f0 f w /\
      ((forall i, ~ used_index true (e_dpb p) n (i / bs) -> nthN f i = nthN f0 i) -> w = f0).
Proof.
  intros OK F IO EF ET EO HR HMX HL HBC HN. destruct (c38_encoded_container_is_the_file H rs p cpus content mx n OK F IO EF ET HMX HL HBC HN) as (out & E & EN).
  exists out. split; [exact E|]. split; [apply EN|]. cbv zeta. intros bursts f HB LF LB OUT HIT REF.
  destruct IO as [IB IL]. destruct (encoded_intact H rs cpus p content out n OK IB EN HBC ltac:(lia)) as [IT FL].
  assert (ME : meta_on p = true). { apply (MEON _ _ _ _ _ _ _ _ _ IT). congruence. }
  rewrite ME in IT. rewrite EO in *.
  assert (MP : forall i, meta_index (Some true) (Some (d, par, B)) i -> meta_plain (e_ver p) (e_uid p) (recorded H p content) (sliceN (i * ver_to_block_size (e_ver p)) (ver_to_block_size (e_ver p)) (eo_file out))).
  { destruct EN as (_ & (meta & C & M) & _). specialize (M ME). rewrite ME, EO in C. destruct C as (n' & _ & _ & C & _). intros i MI. rewrite (C i MI). apply M. }
  assert (FZ : get_meta_by_id (recorded H p content) IFSZ = Some (FSZ (lenN content))) by (unfold recorded; destruct (e_in_name p), (e_fdt p); reflexivity).
  assert (RD : get_meta_by_id (recorded H p content) IRSD = Some (RSD d)) by (unfold recorded; rewrite EO; destruct (e_in_name p), (e_fdt p); reflexivity).
  assert (RP : get_meta_by_id (recorded H p content) IRSP = Some (RSP par)) by (unfold recorded; rewrite EO; destruct (e_in_name p), (e_fdt p); reflexivity).
  assert (G : exists pos ref, get_ref_block f None None false (MustBe TMeta) = ROk (Some (pos, ref)) /\
       b_version ref = e_ver p /\ b_uid ref = e_uid p /\ b_data ref = DMeta (recorded H p content)).
  { destruct REF as [NH|G]; [|exact G]. exists 0. apply (first_spared (e_ver p) (e_uid p) rs (eo_file out) f d par B n (recorded H p content) content bursts); assumption. }
  destruct G as (pos & ref & G & EV & EU & ED).
  destruct (burst_repaired (e_ver p) (e_uid p) rs rc (eo_file out) f d par B n (recorded H p content) content bursts HR IT MP FZ RD RP HB FL LF LB OUT HIT pos ref G EV EU ED) as (t & w & RF & RS).
  exists t, w. split; [exact RF|]. split; [exact RS|]. apply (restored_same _ _ _ _ _ _ _ _ _ _ IT RS).
Qed.
Print Assumptions c20_bursts.

(* C21. Whatever the file: repairing changes no block that can be read and is in its place, no set that has too few
   blocks, nothing outside the sets; and every set with enough blocks is complete afterwards, as are the metadata
   places. *)
Theorem c21_repair_does_no_harm rs rc burst f ref d p B m :
  recon_ok rs rc d p -> bytes_ok f = true -> lenN f < 18446744073709551616 -> repair_setup burst f ref d p B m ->
  exists t w, repair_file rc false burst f = ROk (Some (t, w)) /\
    no_harm (b_version ref) (b_uid ref) d p B m f w /\ all_repaired (b_version ref) (b_uid ref) d p B m f w.
Proof. exact (repair_safe rs rc burst f ref d p B m). Qed.
Print Assumptions c21_repair_does_no_harm.

(* A dry run writes nothing. *)
Theorem c21_dry_run_writes_nothing rs rc burst f ref d p B m :
  recon_ok rs rc d p -> bytes_ok f = true -> lenN f < 18446744073709551616 -> repair_setup burst f ref d p B m ->
  exists t, repair_file rc true burst f = ROk (Some (t, f)).
Proof. exact (dry_result rs rc burst f ref d p B m). Qed.
Print Assumptions c21_dry_run_writes_nothing.

(* The numbers reported, of a dry run on any file, of a real run on a file of whole blocks: ps_meta, ps_data count the
   metadata and data or parity blocks that can be read in their place; ps_meta_rep, ps_data_rep those (to be) repaired,
   ps_data_fail those that cannot be repaired, ps_failed all that could not be read. *)
Theorem c21_counters rs rc burst f ref d p B m dry :
  let v := b_version ref in let uid := b_uid ref in let o := Some (d, p, B) in
  recon_ok rs rc d p -> bytes_ok f = true -> lenN f < 18446744073709551616 -> repair_setup burst f ref d p B m ->
  dry = true \/ lenN f mod ver_to_block_size v = 0 ->
  exists t w, repair_file rc dry burst f = ROk (Some (t, w)) /\
  let repairable s := at_least d p d (in_place v uid d p B f) (set_of d p s) in
  let missing s := 1 <= s <= m /\ ~ in_place v uid d p B f s in
  let complete s := (set_of d p s + 1) * (d + p) <= m in
  exactly (fun i => meta_index (Some true) o i /\ some_block v uid f i) (ps_meta t) /\
  exactly (fun i => meta_index (Some true) o i /\ ~ some_block v uid f i) (ps_meta_rep t) /\
  exactly (fun s => 1 <= s <= m /\ in_place v uid d p B f s) (ps_data t) /\
  (exists c, exactly missing c /\ ps_failed t = ps_meta_rep t + c) /\
  exactly (fun s => missing s /\ complete s /\ repairable s) (ps_data_rep t) /\
  exactly (fun s => missing s /\ complete s /\ ~ repairable s) (ps_data_fail t).
Proof. exact (counters rs rc burst f ref d p B m dry). Qed.
Print Assumptions c21_counters.

(* A second repair changes nothing, if it makes the same choices. *)
Theorem c21_repair_twice rs rc burst f ref d p B m rc' burst' ref' t w :
  recon_ok rs rc d p -> bytes_ok f = true -> lenN f < 18446744073709551616 -> repair_setup burst f ref d p B m ->
  lenN f mod ver_to_block_size (b_version ref) = 0 -> recon_ok rs rc' d p ->
  repair_file rc false burst f = ROk (Some (t, w)) -> lenN w < 18446744073709551616 ->
  repair_setup burst' w ref' d p B m -> b_version ref' = b_version ref -> b_uid ref' = b_uid ref ->
  exists t', repair_file rc' false burst' w = ROk (Some (t', w)).
Proof. exact (fun HR HB HL SU => repair_twice rs rc burst f ref d p B m HR HB HL SU rc' burst' ref' t w). Qed.
Print Assumptions c21_repair_twice.

(* ---- concrete cases ---- *)
(* Reed-Solomon with one data shard: the parity shards are copies. *)
Definition toy_rc : recon := fun d p sh =>
  if d <=? countN snd sh then
    match filter snd sh with x :: _ => Some (map (fun y : list N * bool => if snd y then fst y else fst x) sh) | [] => None end
  else None.
Lemma toy_rc_ok p : recon_ok toy_rs toy_rc 1 p.
Proof.
  intros n sh L HX. unfold toy_rc. destruct (N.leb_spec 1 (countN snd sh)) as [C|C]; [|reflexivity].
  unfold countN in C. destruct (filter snd sh) as [|[x b] r] eqn:E; [rewrite lenN_nil in C; lia|].
  assert (Hx : In (x, b) sh /\ b = true) by (change b with (snd (x, b)) at 2; apply (filter_In snd (x, b) sh); rewrite E; left; reflexivity).
  destruct Hx as [Hx ->]. eexists. split; [reflexivity|]. split; [rewrite lenN_map; exact L|]. split; [|split].
  - intros y Hy. apply in_map_iff in Hy as ([z c] & <- & Hz). cbn [fst snd]. destruct c; [apply (HX _ _ Hz)|apply (HX _ _ Hx)].
  - intros i y Hy. rewrite getN_map, Hy. reflexivity.
  - intros data LD _ A. destruct data as [|a [|]]; rewrite ?lenN_cons, ?lenN_nil in LD; try lia.
    assert (EA : [a] ++ toy_rs 1 p [a] = repN (1 + p) a).
    { unfold toy_rs. cbn [nth app]. unfold repN. replace (N.to_nat (1 + p)) with (S (N.to_nat p)) by lia. reflexivity. }
    rewrite EA in *.
    assert (AL : forall y, In (y, true) sh -> y = a).
    { intros y Hy. apply In_nth_error in Hy as (i & Hi). specialize (A (N.of_nat i) y). unfold getN in A. rewrite Nat2N.id in A. specialize (A Hi).
      apply nth_error_In in A. unfold repN in A. apply repeat_spec in A. exact A. }
    apply list_by_get; [rewrite lenN_map, lenN_rep; exact L|]. intros j y Hy. rewrite getN_map in Hy. destruct (getN sh j) as [[z c]|] eqn:G; [|discriminate].
    apply Some_inj in Hy. pose proof (getN_lt _ _ _ G) as LJ. rewrite L in LJ; unfold getN, repN; rewrite nth_error_repeat by lia. f_equal. subst y.
    unfold getN in G. apply nth_error_In in G. cbn [fst snd]. destruct c; symmetry; apply AL; assumption.
Qed.
Definition rep_o : dpb := Some (1, 2, 2).
Definition rep_file : list N := match encode_file toy_hash toy_rs 4 (toy_p V17 rep_o) (SrcFile toy_content) with ROk out => eo_file out | _ => [] end.
(* blocks 2, 3 and 6, 7 are gone: two bursts of two blocks each *)
Definition rep_hit : list N := takeN 1024 rep_file ++ repN 1024 255 ++ sliceN 2048 1024 rep_file ++ repN 1024 255 ++ dropN 4096 rep_file.
Example c20_run : match repair_file toy_rc false (Some 2) rep_hit with ROk (Some (t, w)) => eqbl w rep_file && negb (eqbl w rep_hit) | _ => false end = true.
Proof. vm_compute. reflexivity. Qed.
Lemma out_check bs B bursts f f0 : lenN f = lenN f0 -> forallb (fun j => hitb B bursts (j / bs) || (nthN f j =? nthN f0 j)) (rangeN 0 (lenN f0)) = true ->
  forall i, ~ hit B bursts (i / bs) -> nthN f i = nthN f0 i.
Proof.
  intros E X i NH. destruct (N.lt_ge_cases i (lenN f0)) as [L|L].
  - rewrite forallb_forall in X. specialize (X i ltac:(apply In_rangeN; lia)). apply orb_true_iff in X as [X|X]; [apply hit_b in X; contradiction|]. apply N.eqb_eq, X.
  - rewrite !nthN_out by lia. reflexivity.
Qed.
Lemma no_sig v uid f pos seq pl : nthN f pos =? 83 = false -> ~ block_at v uid f pos seq pl.
Proof.
  intros NE (h & (_ & _ & W & _) & V & _). apply N.eqb_neq in NE. apply NE. apply (f_equal (fun l => nthN l 0)) in W.
  assert (X : nthN (header_to_bytes h ++ pl) 0 = 83) by reflexivity. rewrite X in W. rewrite V, nthN_take, nthN_slice in W.
  pose proof (block_size_pos v). destruct (N.ltb_spec 0 (ver_to_block_size v)); [|lia]. rewrite N.add_0_r in W. exact W.
Qed.
Example c20_hypotheses : enc_ok toy_hash toy_rs 4 (toy_p V17 rep_o) /\ meta_fits toy_hash (toy_p V17 rep_o) /\ input_ok (SrcFile toy_content) /\
  recon_ok toy_rs toy_rc 1 2 /\ (exists mx, ver_to_max_data_file_size V17 rep_o = ROk mx /\ lenN toy_content <= mx) /\
  block_count V17 rep_o (lenN toy_content) 9 /\ 9 < U32_MAX /\
  bytes_ok rep_hit = true /\ lenN rep_hit = lenN rep_file /\
  (forall i, ~ hit 2 [2; 6] (i / 512) -> nthN rep_hit i = nthN rep_file i) /\
  (forall i seq pl, hit 2 [2; 6] i -> ~ block_at V17 [1;2;3;4;5;6] rep_hit (i * 512) seq pl) /\ ~ hit 2 [2; 6] 0.
Proof.
  split; [apply toy_ok; vm_compute; repeat split; congruence|]. split; [intros _; vm_compute; discriminate|].
  split; [split; vm_compute; reflexivity|]. split; [apply toy_rc_ok|]. split; [eexists; split; [vm_compute; reflexivity|vm_compute; discriminate]|].
  split; [apply block_count_iff; vm_compute; repeat split; congruence|]. split; [reflexivity|]. split; [vm_compute; reflexivity|]. split; [vm_compute; reflexivity|].
  split; [|split].
  - apply out_check; vm_compute; reflexivity.
  - intros i seq pl (s & Hs & L). apply no_sig. assert (C : i = 2 \/ i = 3 \/ i = 6 \/ i = 7) by (destruct Hs as [<-|[<-|[]]]; lia).
    destruct C as [->|[->|[->| ->]]]; vm_compute; reflexivity.
  - intros (s & [<-|[<-|[]]] & L); lia.
Qed.
(* set 0 has lost all its blocks (1, 4, 7), set 1 one (2); the metadata block at 6 is gone *)
Definition rep_lost : list N := takeN 512 rep_file ++ repN 1024 0 ++ sliceN 1536 512 rep_file ++ repN 512 0 ++ sliceN 2560 512 rep_file ++ repN 1024 0 ++ dropN 4096 rep_file.
Example c21_run :
  match repair_file toy_rc false (Some 2) rep_lost, repair_file toy_rc true (Some 2) rep_lost with
  | ROk (Some (t, w)), ROk (Some (t', w')) => eqbl w' rep_lost && eqbl (sliceN 3072 512 w) (sliceN 3072 512 rep_file) && eqbl (sliceN 1024 512 w) (sliceN 1024 512 rep_file) && eqbl (sliceN 512 512 w) (repN 512 0) &&
      (ps_meta t =? 2) && (ps_meta_rep t =? 1) && (ps_data t =? 5) && (ps_data_rep t =? 1) && (ps_data_fail t =? 3) && (ps_failed t' =? 5)
  | _, _ => false end = true.
Proof. vm_compute. reflexivity. Qed.
Lemma setup_run f d p B m r : match get_ref_block f None None false (MustBe TMeta) with
    | ROk (Some (_, ref)) => (match b_version ref with V17 => true | _ => false end) && eqbl (b_uid ref) r &&
        match get_data_par_burst f (Some B) None false ref with ROk (Some (d', p', B')) => (d' =? d) && (p' =? p) && (B' =? B) | _ => false end &&
        match get_FSZ ref with Some x => (m =? N.min U32_MAX (calc_data_block_count_exc_burst_gaps V17 (Some (d, p, B)) x)) | None => false end
    | _ => false end = true -> dpb_ok (Some (d, p, B)) ->
  exists ref, repair_setup (Some B) f ref d p B m /\ b_version ref = V17 /\ b_uid ref = r.
Proof.
  intros H O. destruct (get_ref_block f None None false (MustBe TMeta)) as [[[pos ref]|]|e|] eqn:G; try discriminate.
  apply andb_true_iff in H as [H H4]. apply andb_true_iff in H as [H H3]. apply andb_true_iff in H as [H1 H2].
  assert (V : b_version ref = V17) by (destruct (b_version ref); (reflexivity || discriminate)). apply eqbl_eq in H2.
  exists ref. split; [|auto]. split; [exists pos; exact G|]. rewrite V. split; [reflexivity|]. split.
  - destruct (get_data_par_burst _ _ _ _ _) as [[[[d' p'] B']|]|e|]; try discriminate. apply andb_true_iff in H3 as [H3 H5]. apply andb_true_iff in H3 as [H3 H6].
    apply N.eqb_eq in H3, H5, H6. subst. reflexivity.
  - destruct (get_FSZ ref) as [x|]; [|discriminate]. apply N.eqb_eq in H4. eexists. split; [|exact H4]. apply block_count_iff; [exact O|reflexivity].
Qed.
Example c21_hypotheses : recon_ok toy_rs toy_rc 1 2 /\ bytes_ok rep_lost = true /\ lenN rep_lost < 18446744073709551616 /\
  lenN rep_lost mod 512 = 0 /\ exists ref, repair_setup (Some 2) rep_lost ref 1 2 2 9 /\ b_version ref = V17 /\ b_uid ref = [1;2;3;4;5;6].
Proof.
  split; [apply toy_rc_ok|]. split; [vm_compute; reflexivity|]. split; [vm_compute; reflexivity|]. split; [vm_compute; reflexivity|].
  apply setup_run; [vm_compute; reflexivity|cbn; lia].
Qed.

(* Finding F10: a metadata place is considered fine if any block of the container is there, whatever its number: here
   the first metadata block is overwritten by data block 1, and the repair neither reports nor repairs it. *)
Definition rep_wrong : list N := takeN 1536 rep_file ++ sliceN 512 512 rep_file ++ dropN 2048 rep_file.
Theorem c21_metadata_all_repaired_refuted : ~ forall rs rc burst f ref d p B m t w,
  recon_ok rs rc d p -> bytes_ok f = true -> lenN f < 18446744073709551616 -> repair_setup burst f ref d p B m ->
  repair_file rc false burst f = ROk (Some (t, w)) ->
  forall i, meta_index (Some true) (Some (d, p, B)) i ->
    exists pl, block_at (b_version ref) (b_uid ref) w (i * ver_to_block_size (b_version ref)) 0 pl.
Proof.
  intro A. destruct (setup_run rep_wrong 1 2 2 9 [1;2;3;4;5;6]) as (ref & SU & EV & EU); [vm_compute; reflexivity|cbn; lia|].
  assert (X : match repair_file toy_rc false (Some 2) rep_wrong with ROk (Some (t, w)) => eqbl (sliceN 1536 512 w) (sliceN 512 512 rep_file) | _ => false end = true) by (vm_compute; reflexivity).
  destruct (repair_file toy_rc false (Some 2) rep_wrong) as [[[t w]|]|e|] eqn:E; [|discriminate X..]. apply eqbl_eq in X.
  destruct (A toy_rs toy_rc (Some 2) rep_wrong ref 1 2 2 9 t w (toy_rc_ok 2) ltac:(vm_compute; reflexivity) ltac:(vm_compute; reflexivity) SU E 3) as (pl & h & W & V & U & S).
  - exists 1. vm_compute. split; reflexivity || (repeat split; discriminate).
  - rewrite EV in W. change (3 * ver_to_block_size V17) with 1536 in W. change (ver_to_block_size V17) with 512 in W. rewrite X in W.
    destruct W as (_ & _ & W & _). apply (f_equal (fun l => nthN l 15)) in W. rewrite V, EV in W. change (ver_to_block_size V17) with 512 in W.
    assert (Y : nthN (header_to_bytes h ++ pl) 15 = 0).
    { destruct h as [hv hc hu hs]. cbn [h_seq_num h_uid] in *. subst hu hs. rewrite EU. destruct hv; reflexivity. }
    rewrite Y in W. revert W. vm_compute. discriminate.
Qed.
Print Assumptions c21_metadata_all_repaired_refuted.
