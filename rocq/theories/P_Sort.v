(* C22 and the sorting part of C23. *)
From Verif Require Import M_Base M_Specs M_Crc M_Header M_Multihash M_Metadata M_Block M_Index M_FileUtils M_Buffer M_Ranges M_Encode M_Scan M_Loop M_Decode M_Sort
  S_Crc S_Meta S_Block S_Index S_Container S_Encode S_Scan S_Decode S_Sort
  L_Base L_Crc L_File L_Header L_Index L_Index2 L_Block L_Scan L_Container L_Ref L_Ranges L_Decode L_Decode2 L_Guess L_Intact L_Intact2 L_Roundtrip
  L_Sort L_Sort2 L_Sort3 L_Sort4 P_Encode P_Decode P_Roundtrip.

(* C22, for every input file: the output of sort (not in skip-good mode) is the file before (empty unless in a
   multi-pass mode) with every block found in the input at the place where it belongs. *)
Theorem c22_sorted_file cpus p f old t u out :
  1 <= cpus -> bytes_ok f = true -> lenN f < 18446744073709551616 -> is_skip_good (dc_multi (sp_scan p)) = false ->
  sort_file cpus p f (Some old) = ROk (t, u, out) ->
  exists ref o len lo w, setup (sp_scan p) f ref o len lo /\ dpb_ok o /\ out = Some w /\
    sort_result (b_version ref) (b_uid ref) o f lo len (start_file (sp_scan p) old) w.
Proof.
  intros CP HB HL SG E. destruct (sort_file_char _ _ _ _ _ _ _ CP HB HL E) as (ref & o & len & lo & y1 & y2 & m & ST & EY & _ & MO & _ & _ & EO).
  destruct (setup_ok _ _ _ _ _ _ HB HL ST) as (HO & _). cbn [sort_start option_map] in EO. exists ref, o, len, lo. eexists. split; [exact ST|]. split; [exact HO|]. split; [exact EO|].
  assert (Y1 : forall s, In s y1 -> In s (somes (map (semit f ref) (sposs f ref lo len)))) by (intros s Hs; rewrite EY; apply in_app_iff; auto).
  assert (Y2 : forall s, In s y2 -> In s (somes (map (semit f ref) (sposs f ref lo len)))) by (intros s Hs; rewrite EY; apply in_app_iff; auto).
  pose proof (sorted_ok cpus f ref o (dc_multi (sp_scan p)) lo len CP HB HO y1 y2 m (start_file (sp_scan p) old) EY MO) as R.
  rewrite (sput_fold cpus f ref o (dc_multi (sp_scan p)) lo len CP HB SG y1 _ Y1), (sput_fold cpus f ref o (dc_multi (sp_scan p)) lo len CP HB SG y2 _ Y2).
  destruct m as [d|]; [rewrite (wmeta_plain cpus f ref o (dc_multi (sp_scan p)) lo len CP SG d)|]; exact R.
Qed.

(* C22: the command succeeds whenever a reference block and the layout are found; nothing is written in a dry run. *)
Theorem c22_sort_ends cpus p f old ref o len lo : 1 <= cpus -> bytes_ok f = true ->
  setup (sp_scan p) f ref o len lo -> exists t u out, sort_file cpus p f old = ROk (t, u, out) /\ (old = None -> out = None) /\ (old <> None -> out <> None).
Proof.
  intros CP HB ST. destruct (sort_file_total cpus p f old ref o len lo CP HB ST) as ([[t u] out] & E). exists t, u, out. split; [exact E|].
  assert (HL : True) by exact I. clear HL. unfold sort_file in E.
  destruct ST as ((pos & G) & D & R). rewrite G in E. cbn [rbind] in E. rewrite D in E. cbn [rbind] in E. fold (scan_range (sp_scan p) f ref) in E. rewrite R in E.
  match type of E with context [(?s, no_ostats)] => set (start := s) in E end.
  destruct (sort_loop cpus f ref o (dc_multi (sp_scan p)) (sp_report_blank p) lo len CP HB start (S (S (length f))) ltac:(lia)) as (st & w & EL & ES & P1 & P2 & P3).
  rewrite EL in E. cbn [rbind] in E. apply ROk_inj, pair_inj in E as [_ E3]. rewrite <- E3.
  assert (W : fst w = None <-> start = None).
  { destruct (so_meta st); [destruct P3 as (y1 & y2 & _ & P3)|]; rewrite P3; destruct start; split; intro X; try discriminate X; reflexivity. }
  rewrite W. unfold start. destruct old; split; congruence.
Qed.

(* C22, statistics: every block read is counted once, as what it is; data and parity blocks also as being at their
   place or not. *)
Theorem c22_sort_statistics cpus p f old t u out :
  1 <= cpus -> bytes_ok f = true -> lenN f < 18446744073709551616 -> sort_file cpus p f old = ROk (t, u, out) ->
  exists ref o len lo xs, setup (sp_scan p) f ref o len lo /\ sort_counts (sp_report_blank p) t u xs /\
    (forall k, visited (ver_to_block_size (b_version ref)) f lo len k <-> k < lenN xs) /\
    forall k x, nth_optN xs k = Some x -> report_at (b_version ref) (b_uid ref) o f lo k x.
Proof.
  intros CP HB HL E. destruct (sort_file_char _ _ _ _ _ _ _ CP HB HL E) as (ref & o & len & lo & y1 & y2 & m & ST & _ & _ & _ & ET & EU & _).
  destruct (setup_ok _ _ _ _ _ _ HB HL ST) as (HO & HV & _). set (bs := ver_to_block_size (b_version ref)).
  exists ref, o, len, lo, (map (report f ref o lo) (rangeN 0 (nvisit bs f lo len))). split; [exact ST|]. rewrite ET, EU.
  split; [apply (stats_ok cpus f ref o _ _ lo len CP HB HL HO HV _ (N.le_refl _))|].
  assert (BP : 1 <= bs) by (pose proof (block_size_pos (b_version ref)); unfold bs; lia).
  assert (LP : lenN (map (report f ref o lo) (rangeN 0 (nvisit bs f lo len))) = nvisit bs f lo len) by (rewrite lenN_map, lenN_range; apply N.sub_0_r).
  split; [intro k; rewrite LP; apply visited_iff, BP|]. intros k x Hx.
  assert (LK : k < nvisit bs f lo len). { rewrite <- LP. apply N.nle_gt. intro L. apply nth_optN_None in L. congruence. }
  rewrite nth_optN_map, nth_optN_range in Hx by lia. cbn [option_map] in Hx. apply Some_inj in Hx. subst x. rewrite N.add_0_l.
  apply (report_ok cpus f ref o lo len CP HB HL HO HV k LK).
Qed.

(* The metadata block counted as "same order" are the metadata positions, from the start of the scan on, holding a
   copy of the first metadata block read. *)
Theorem c22_sort_metadata_statistics cpus p f old t u out :
  1 <= cpus -> bytes_ok f = true -> lenN f < 18446744073709551616 -> sort_file cpus p f old = ROk (t, u, out) ->
  exists ref o len lo l, setup (sp_scan p) f ref o len lo /\ NoDup l /\ (forall i, In i l <-> meta_index (Some true) o i) /\
    let bs := ver_to_block_size (b_version ref) in
    let meta k := exists pl, block_at (b_version ref) (b_uid ref) f (lo + k * bs) 0 pl in
    (ss_meta_same t = 0 /\ ss_meta_diff t = 0 /\ (forall k, visited bs f lo len k -> ~ meta k)) \/
    exists k, visited bs f lo len k /\ meta k /\ (forall k', k' < k -> ~ meta k') /\
      ss_meta_same t = countN (fun i => eqbl (sliceN (lo + i * bs) bs f) (sliceN (lo + k * bs) bs f)) l /\
      ss_meta_same t + ss_meta_diff t = lenN l.
Proof.
  intros CP HB HL E. destruct (sort_file_char _ _ _ _ _ _ _ CP HB HL E) as (ref & o & len & lo & y1 & y2 & m & ST & _ & EM & MO & ET & _).
  destruct (setup_ok _ _ _ _ _ _ HB HL ST) as (HO & HV & _). set (bs := ver_to_block_size (b_version ref)) in *.
  assert (BP : 1 <= bs) by (pose proof (block_size_pos (b_version ref)); unfold bs; lia).
  exists ref, o, len, lo, (midx ref o). split; [exact ST|]. split.
  { unfold midx. fold bs. pose proof (meta_positions (b_version ref) o) as (_ & ND & IN). fold bs in IN. revert ND IN. generalize (calc_meta_block_all_write_pos_s (b_version ref) o).
    intros l ND IN. assert (IN' : forall q, In q l -> exists i, q = i * bs) by (intros q Hq; apply IN in Hq as (i & _ & ->); eauto). clear IN.
    induction ND as [|a l NI ND IH]; [constructor|]. cbn [map]. constructor; [|apply IH; intros q Hq; apply IN'; right; exact Hq].
    intro X. apply in_map_iff in X as (b & X & Hb). destruct (IN' a (or_introl eq_refl)) as (i & ->), (IN' b (or_intror Hb)) as (j & ->). rewrite !N.div_mul in X by lia. subst j. auto. }
  split; [intro i; apply (midx_in cpus f ref o lo len CP HO)|]. cbv zeta.
  assert (GEN : forall q, q <= nvisit bs f lo len -> let r := fold_left (scnt f ref o (sp_report_blank p) lo) (map (fun k => lo + k * bs) (rangeN 0 q)) (None, no_sstats) in
    match fst r with None => ss_meta_same (snd r) = 0 /\ ss_meta_diff (snd r) = 0 | Some d => ss_meta_same (snd r) = fst (check_meta_blocks f (b_version ref) o lo d) /\ ss_meta_diff (snd r) = snd (check_meta_blocks f (b_version ref) o lo d) end).
  { intro q. induction q as [|q IH] using N.peano_ind; intro Hq; [split; reflexivity|]. rewrite <- N.add_1_r in *. cbv zeta. rewrite rangeN_snoc by lia. rewrite map_app, fold_left_app. cbn [map fold_left].
    specialize (IH ltac:(lia)). cbv zeta in IH. destruct (fold_left _ (map _ (rangeN 0 q)) _) as [mm tt]. cbn [fst snd] in IH.
    unfold scnt. cbn [fst snd]. fold bs. destruct (accept ref _) as [b|]; [destruct (is_meta b)|]; cbn [fst snd].
    - unfold bump_meta. destruct mm; cbn [ss_meta_same ss_meta_diff]; [exact IH|auto].
    - unfold bump_data. destruct (is_parity_w_dpb b o); exact IH.
    - unfold bump_failed. destruct (_ && _); exact IH. }
  specialize (GEN _ (N.le_refl _)). cbv zeta in GEN. change (map _ (rangeN 0 _)) with (sposs f ref lo len) in GEN. rewrite <- ET, <- EM in GEN. unfold meta_ok in MO. fold bs in MO. destruct m as [d|].
  - right. destruct MO as (k & Hk & MA & Ed & MF). exists k. split; [apply visited_iff; assumption|]. split; [exact MA|]. split; [exact MF|].
    destruct GEN as [-> ->]. unfold check_meta_blocks. cbn [fst snd]. rewrite (midx_pos cpus f ref o lo len CP). fold bs. rewrite <- Ed.
    assert (CM : forall (g : N -> bool) (l : list N), countN g (map (fun i => i * bs) l) = countN (fun i => g (i * bs)) l).
    { intros g l. unfold countN. induction l as [|a l IH]; [reflexivity|]. cbn [map filter]. destruct (g (a * bs)); cbn [lenN length]; [rewrite !lenN_cons, IH|]; congruence || exact IH. }
    rewrite !CM. split.
    + unfold countN. f_equal. apply filter_ext. intro i. unfold file_read. rewrite N.add_comm. reflexivity.
    + unfold countN. induction (midx ref o) as [|a l IH]; [reflexivity|]. cbn [filter]. destruct (eqbl _ _); cbn [negb]; rewrite ?lenN_cons; lia.
  - left. destruct GEN as [-> ->]. split; [reflexivity|]. split; [reflexivity|]. intros k Hk MA. apply visited_iff in Hk; [|exact BP]. exact (MO k Hk MA).
Qed.

(* C22, shuffled containers: if the part of the file read holds the blocks of an undamaged container (with metadata)
   in any order, any number of times, with anything between them, then sort rebuilds that container byte for byte. *)
Theorem c22_sort_rebuilds cpus p f old t u out ref o len lo rs ms data f0 n :
  1 <= cpus -> bytes_ok f = true -> lenN f < 18446744073709551616 -> dc_multi (sp_scan p) = None ->
  setup (sp_scan p) f ref o len lo ->
  intact (b_version ref) (b_uid ref) true o rs ms data f0 n ->
  same_blocks (b_version ref) (b_uid ref) f lo len f0 0 (lenN f0) ->
  sort_file cpus p f (Some old) = ROk (t, u, out) -> out = Some f0.
Proof.
  intros CP HB HL MP ST IT SB E. destruct (c22_sorted_file cpus p f old t u out CP HB HL) as (ref' & o' & len' & lo' & w & ST' & _ & EO & SR); [rewrite MP; reflexivity|exact E|].
  destruct (setup_unique _ _ _ _ _ _ _ _ _ _ ST ST') as (<- & <- & <- & <-). unfold start_file in SR. rewrite MP in SR. rewrite EO. f_equal.
  exact (rebuilt ref o rs ms data f0 n f lo len w IT HB SB SR).
Qed.

(* C23, sorting in skip-good mode: every input file, every earlier output. *)
Theorem c23_sort_skip_good_partial cpus p f old t u out :
  1 <= cpus -> bytes_ok f = true -> lenN f < 18446744073709551616 -> dc_multi (sp_scan p) = Some SkipGood ->
  bytes_ok (start_file (sp_scan p) old) = true ->
  sort_file cpus p f (Some old) = ROk (t, u, out) ->
  exists ref o len lo w, setup (sp_scan p) f ref o len lo /\ out = Some w /\
    skip_result (b_version ref) (b_uid ref) o f lo len (start_file (sp_scan p) old) w.
Proof.
  intros CP HB HL SG BW E. destruct (sort_file_char _ _ _ _ _ _ _ CP HB HL E) as (ref & o & len & lo & y1 & y2 & m & ST & EY & _ & MO & _ & _ & EO).
  destruct (setup_ok _ _ _ _ _ _ HB HL ST) as (HO & _). cbn [sort_start option_map] in EO. exists ref, o, len, lo. eexists. split; [exact ST|]. split; [exact EO|].
  exact (skip_ok cpus f ref o (dc_multi (sp_scan p)) lo len CP HB HO SG y1 y2 m (start_file (sp_scan p) old) EY MO BW).
Qed.

(* ---- concrete cases ---- *)
Definition toy_s (m : option multi_pass) (from : option N) : sparam :=
  mkSparam (mkDparam (Prefer TMeta) None None None false m from None false (Some 4)) false.
Definition toy_shuffled : file := concat (flat_map (fun b => [repN 512 7; b; b]) (rev (toy_blocks toy_file))).
Definition toy_sorted (p : sparam) (f : file) (old : option file) : file :=
  match sort_file 2 p f (Some old) with ROk (_, _, Some w) => w | _ => [] end.
Example c22_run : toy_sorted (toy_s None None) toy_shuffled None = toy_file /\ toy_sorted (toy_s None None) toy_file (Some [1; 2; 3]) = toy_file.
Proof. vm_compute. split; reflexivity. Qed.
(* counts on the shuffled container: all metadata, data, parity and other blocks are seen; 2 * 12 blank ones are not
   failures *)
Example c22_run_counts : match sort_file 2 (toy_s None None) toy_shuffled None with
  | ROk (t, u, None) => (ss_meta t, ss_data t, ss_parity t, ss_failed t, ss_blank t, os_data_same u + os_data_diff u, os_parity_same u + os_parity_diff u) = (6, 6, 4, 20, 24, 6, 4)
  | _ => False end.
Proof. vm_compute. reflexivity. Qed.
(* the same container name and layout with other content *)
Definition toy_other : list N := match encode_file toy_hash toy_rs 4 (toy_p V17 toy_o) (SrcFile (repN 1200 5)) with ROk out => eo_file out | _ => [] end.
(* skip-good: blocks of the earlier output stay, the damaged one is replaced *)
Example c23_sort_run :
  let old := takeN 512 toy_other ++ repN 512 0 ++ dropN 1024 toy_other in
  let w := toy_sorted (toy_s (Some SkipGood) None) toy_file (Some old) in
  sliceN 512 512 w = sliceN 512 512 toy_file /\ sliceN 3072 512 w = sliceN 3072 512 toy_other /\ sliceN 3072 512 toy_other <> sliceN 3072 512 toy_file.
Proof. cbv zeta. split; [vm_compute; reflexivity|]. split; [vm_compute; reflexivity|]. intro E. apply (f_equal (fun l => nthN l 20)) in E. revert E. vm_compute. discriminate. Qed.

(* A well-formed block found by reading a file *)
Lemma toy_block_at f pos seq ref : bytes_ok f = true -> 
  match accept ref (sliceN pos (ver_to_block_size (b_version ref)) f) with Some b => b_seq_num b =? seq | None => false end = true ->
  exists pl, block_at (b_version ref) (b_uid ref) f pos seq pl.
Proof.
  intros HB H. pose proof (accept_block_at ref f pos HB) as A. destruct (accept ref _) as [b|]; [|discriminate]. apply N.eqb_eq in H. subst seq. destruct A as [A _]. eauto.
Qed.

(* Finding F8: with blocks smaller than 4096 bytes, skip-good mode overwrites good blocks near the end of the output:
   here block 19 of the earlier output is well-formed, of the same container and with the right number. *)
Theorem c23_sort_skip_good_refuted : exists p f old t u w ref o len lo i seq k,
  bytes_ok f = true /\ bytes_ok old = true /\ dc_multi (sp_scan p) = Some SkipGood /\
  sort_file 2 p f (Some (Some old)) = ROk (t, u, Some w) /\ setup (sp_scan p) f ref o len lo /\
  let bs := ver_to_block_size (b_version ref) in
  belongs (b_version ref) (b_uid ref) o f lo len i seq k /\
  (i + 1) * bs <= lenN old /\ (exists pl, block_at (b_version ref) (b_uid ref) old (i * bs) seq pl) /\
  sliceN (i * bs) bs w <> sliceN (i * bs) bs old.
Proof.
  destruct (get_ref_block toy_file (ref_from_pos None None) None false (Prefer TMeta)) as [[[pos ref]|]|e|] eqn:G; [|exfalso; revert G; vm_compute; discriminate..].
  destruct (sort_file 2 (toy_s (Some SkipGood) None) toy_file (Some (Some toy_other))) as [[[t u] [w|]]|e|] eqn:E; [|exfalso; revert E; vm_compute; discriminate..].
  assert (RR : (b_version ref, b_uid ref) = (V17, [1;2;3;4;5;6])) by (revert G; vm_compute; intro G; injection G as _ <-; reflexivity).
  injection RR as RV RU.
  assert (HB : bytes_ok toy_file = true) by (vm_compute; reflexivity). assert (HB' : bytes_ok toy_other = true) by (vm_compute; reflexivity).
  exists (toy_s (Some SkipGood) None), toy_file, toy_other, t, u, w, ref, toy_o, 10240, 0, 19, 5, 19.
  assert (A : forall f x, match accept ref x with Some b => b_seq_num b =? f | None => false end = match accept (match get_ref_block toy_file (ref_from_pos None None) None false (Prefer TMeta) with ROk (Some (_, r)) => r | _ => block_dummy end) x with Some b => b_seq_num b =? f | None => false end) by (intros; rewrite G; reflexivity).
  split; [exact HB|]. split; [exact HB'|]. split; [reflexivity|]. split; [exact E|]. split.
  { split; [exists pos; exact G|]. split; [revert G; vm_compute; intro G; injection G as _ <-; reflexivity|]. unfold scan_range. rewrite RV. vm_compute. reflexivity. }
  cbv zeta. split.
  { split; [rewrite RV; split; vm_compute; congruence|]. split; [|left; split; [lia|vm_compute; reflexivity]].
    apply toy_block_at; [exact HB|]. rewrite A, RV. vm_compute. reflexivity. }
  split; [rewrite RV; vm_compute; discriminate|]. split; [apply toy_block_at; [exact HB'|]; rewrite A, RV; vm_compute; reflexivity|].
  rewrite RV. intro X. apply (f_equal (fun l => nthN l 20)) in X.
  assert (Y : match sort_file 2 (toy_s (Some SkipGood) None) toy_file (Some (Some toy_other)) with ROk (_, _, Some w) => nthN (sliceN (19 * 512) 512 w) 20 =? nthN (sliceN (19 * 512) 512 toy_other) 20 | _ => true end = false) by (vm_compute; reflexivity).
  rewrite E in Y. apply N.eqb_neq in Y. apply Y. exact X.
Qed.

(* Finding F9: reading from a later block on, metadata blocks that are at their places are reported as being out of
   order (data and parity blocks are not). *)
Theorem c22_metadata_order_refuted : exists p f t u,
  sort_file 2 p f None = ROk (t, u, None) /\ f = toy_file /\ dc_from (sp_scan p) = Some 512 /\
  os_data_diff u = 0 /\ os_parity_diff u = 0 /\ ss_meta t = 2 /\ ss_meta_same t = 0.
Proof.
  destruct (sort_file 2 (toy_s None (Some 512)) toy_file None) as [[[t u] out]|e|] eqn:E; [|exfalso; revert E; vm_compute; discriminate..].
  exists (toy_s None (Some 512)), toy_file, t, u.
  assert (Y : match sort_file 2 (toy_s None (Some 512)) toy_file None with ROk (t, u, None) => (os_data_diff u, os_parity_diff u, ss_meta t, ss_meta_same t) = (0, 0, 2, 0) | _ => False end) by (vm_compute; reflexivity).
  rewrite E in Y. destruct out; [contradiction|]. injection Y as Y1 Y2 Y3 Y4. repeat split; assumption.
Qed.
(* hypotheses of c22_sort_rebuilds: the toy container, shuffled *)
Example c22_rebuilds_hypotheses : exists ref len lo n, setup (sp_scan (toy_s None None)) toy_shuffled ref toy_o len lo /\
  intact (b_version ref) (b_uid ref) true toy_o toy_rs (recorded toy_hash (toy_p V17 toy_o) toy_content) toy_content toy_file n.
Proof.
  destruct c18_hypotheses as (n & _ & _ & IT & _).
  destruct (get_ref_block toy_shuffled (ref_from_pos None None) None false (Prefer TMeta)) as [[[pos ref]|]|e|] eqn:G; [|exfalso; revert G; vm_compute; discriminate..].
  assert (RR : (b_version ref, b_uid ref) = (V17, [1;2;3;4;5;6])) by (revert G; vm_compute; intro G; injection G as _ <-; reflexivity).
  injection RR as RV RU. exists ref, (lenN toy_shuffled), 0, n. split; [|rewrite RV, RU; exact IT].
  split; [exists pos; exact G|]. split; [revert G; vm_compute; intro G; injection G as _ <-; reflexivity|]. unfold scan_range. rewrite RV. vm_compute. reflexivity.
Qed.
(* all of them together, the container being in order already *)
Example c22_rebuilds_hypotheses_all : exists ref n, setup (sp_scan (toy_s None None)) toy_file ref toy_o 10240 0 /\
  intact (b_version ref) (b_uid ref) true toy_o toy_rs (recorded toy_hash (toy_p V17 toy_o) toy_content) toy_content toy_file n /\
  same_blocks (b_version ref) (b_uid ref) toy_file 0 10240 toy_file 0 (lenN toy_file).
Proof.
  destruct c18_hypotheses as (n & _ & _ & IT & _).
  destruct (get_ref_block toy_file (ref_from_pos None None) None false (Prefer TMeta)) as [[[pos ref]|]|e|] eqn:G; [|exfalso; revert G; vm_compute; discriminate..].
  assert (RR : (b_version ref, b_uid ref) = (V17, [1;2;3;4;5;6])) by (revert G; vm_compute; intro G; injection G as _ <-; reflexivity).
  injection RR as RV RU. exists ref, n. split; [|split; [rewrite RV, RU; exact IT|]].
  - split; [exists pos; exact G|]. split; [revert G; vm_compute; intro G; injection G as _ <-; reflexivity|]. unfold scan_range. rewrite RV. vm_compute. reflexivity.
  - replace (lenN toy_file) with 10240 by (vm_compute; reflexivity). intros seq pl. tauto.
Qed.

Print Assumptions c22_sorted_file.
Print Assumptions c22_sort_ends.
Print Assumptions c22_sort_statistics.
Print Assumptions c22_sort_metadata_statistics.
Print Assumptions c22_sort_rebuilds.
Print Assumptions c23_sort_skip_good_partial.
Print Assumptions c23_sort_skip_good_refuted.
Print Assumptions c22_metadata_order_refuted.
