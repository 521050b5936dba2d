(* C74: sorting keeps what decoding gives, and sorting again changes nothing, for arbitrary input files. *)
From Verif Require Import M_Base M_Specs M_Header M_Metadata M_Block M_Index M_FileUtils M_Buffer M_Ranges M_Encode M_Scan M_Loop M_Decode M_Sort
  S_Crc S_Meta S_Block S_Index S_Container S_Encode S_Scan S_Decode S_Sort
  L_Base L_File L_Crc L_Header L_Index L_Index2 L_Block L_Scan L_Ref L_Ranges L_Container L_Decode L_Decode2 L_Intact L_Intact2 L_Sort2 L_Sort3 L_Sort4 L_Roundtrip L_Guess L_SortAgain
  P_Decode P_Encode P_Roundtrip P_Sort.
Ltac Zify.zify_post_hook ::= idtac.

(* The first metadata block read records what the reference block records. *)
Definition reference_read (ref : block) (f : file) (lo len : N) : Prop :=
  let bs := ver_to_block_size (b_version ref) in
  let meta k pl := block_at (b_version ref) (b_uid ref) f (lo + k * bs) 0 pl in
  exists k pl, visited bs f lo len k /\ meta k pl /\ (forall k' pl', k' < k -> ~ meta k' pl') /\
    b_data ref = DMeta (metas_from_bytes pl).

(* the layout does not depend on anything but the reference block and the burst level *)
Lemma same_chunks p f ref o len lo p' f' ref' o' len' lo' : bytes_ok f = true -> lenN f < 18446744073709551616 -> bytes_ok f' = true -> lenN f' < 18446744073709551616 ->
  setup p f ref o len lo -> setup p' f' ref' o' len' lo' -> b_version ref = b_version ref' -> b_data ref = b_data ref' ->
  forall seq j, is_chunk o seq j <-> is_chunk o' seq j.
Proof.
  intros HB HL HB' HL' ST ST' EV ED.
  destruct (setup_ok _ _ _ _ _ _ HB HL ST) as (_ & _ & (h & pl & RA & BP & _) & _), (setup_ok _ _ _ _ _ _ HB' HL' ST') as (_ & _ & (h' & pl' & RA' & BP' & _) & _).
  destruct ST as (_ & D & _), ST' as (_ & D' & _). apply (ref_dpb _ _ _ _ _ _ _ _ BP RA) in D as [_ D]. apply (ref_dpb _ _ _ _ _ _ _ _ BP' RA') in D' as [_ D'].
  unfold get_RSD, get_RSP in *. rewrite <- ED, <- EV in D'. intros seq j. destruct o as [[[d q] B]|], o' as [[[d' q'] B']|]; try reflexivity.
  - destruct D as (_ & A & C), D' as (_ & A' & C'). rewrite A in A'. rewrite C in C'. apply ROk_inj in A', C'. subst. reflexivity.
  - destruct D. congruence.
  - destruct D'. congruence.
Qed.

(* C74. Sorting a file and decoding the result gives what decoding the file gives: same options for the input,
   any for decoding the sorted file as long as it is read whole and the same container is meant. The input is
   arbitrary: blocks missing, damaged, repeated with different content, in any order, among anything else. *)
Theorem c74_sort_keeps_content cpus p f old t u w ref o len lo H order cpus1 limit p1 old1 out H' order' cpus2 limit' q old2 out' ref' o' len' lo' :
  1 <= cpus -> 1 <= cpus1 -> 1 <= cpus2 -> bytes_ok f = true -> lenN f < 18446744073709551616 -> lenN w < 18446744073709551616 ->
  dc_multi (sp_scan p) = None -> sort_file cpus p f (Some old) = ROk (t, u, Some w) -> setup (sp_scan p) f ref o len lo ->
  dc_multi p1 = None -> decode_file H order cpus1 limit p1 f (ToFile old1) = ROk out -> setup p1 f ref o len lo ->
  L_Roundtrip.plain q -> decode_file H' order' cpus2 limit' q w (ToFile old2) = ROk out' -> setup q w ref' o' len' lo' ->
  b_version ref = b_version ref' -> b_uid ref = b_uid ref' -> b_data ref = b_data ref' ->
  do_out out' = do_out out.
Proof.
  intros CP CP1 CP2 HB HL HW M E ST M1 D1 ST1 PQ D2 ST2 EV EU ED.
  destruct (c22_sorted_file cpus p f old t u (Some w) CP HB HL) as (r & o1 & l1 & lo1 & w1 & S1 & HO & EO & SR); [rewrite M; reflexivity|exact E|].
  destruct (setup_unique _ _ _ _ _ _ _ _ _ _ ST S1) as (<- & <- & <- & <-). apply Some_inj in EO. subst w1. unfold start_file in SR. rewrite M in SR.
  pose proof (sa_bytes ref o f lo len w HB HO SR) as BW.
  pose proof (same_chunks _ _ _ _ _ _ _ _ _ _ _ _ HB HL BW HW ST ST2 EV ED) as IC.
  pose proof (plain_range w q HW PQ ref') as RG. destruct ST2 as (G2 & B2 & R2). rewrite RG in R2. apply pair_inj in R2 as [<- <-].
  assert (ST2 : setup q w ref' o' (N.max 1 (lenN w)) 0) by (split; [exact G2|]; split; [exact B2|exact RG]).
  assert (MQ : dc_multi q = None) by apply PQ.
  destruct (c17_decoded_file _ _ _ _ _ _ _ _ CP1 HB HL (f_equal is_skip_good M1) D1) as (ra & oa & la & loa & Sa & _ & Ba & Fa).
  destruct (setup_unique _ _ _ _ _ _ _ _ _ _ ST1 Sa) as (<- & <- & <- & <-).
  destruct (c17_decoded_file _ _ _ _ _ _ _ _ CP2 BW HW (f_equal is_skip_good MQ) D2) as (rb & ob & lb & lob & Sb & _ & Bb & Fb).
  destruct (setup_unique _ _ _ _ _ _ _ _ _ _ ST2 Sb) as (<- & <- & <- & <-).
  assert (FS : start_file p1 old1 = [] /\ start_file q old2 = []) by (unfold start_file; rewrite M1, MQ; auto). destruct FS as [FS1 FS2].
  rewrite FS1 in Ba, Fa. rewrite FS2 in Bb, Fb. rewrite <- EV, <- EU in Bb, Fb. clear FS1 FS2 Sa Sb.
  assert (LL : lenN w <= N.max 1 (lenN w)) by lia.
  assert (FZ : get_FSZ ref' = get_FSZ ref) by (unfold get_FSZ, block_get_meta; rewrite ED; reflexivity). rewrite FZ in Fb.
  assert (LE : lenN (do_out out') = lenN (do_out out)).
  { destruct (get_FSZ ref) as [n|]; [congruence|]. symmetry. exact (sa_extent ref o f lo len w HB HO SR o' _ _ _ LL IC Fa Fb). }
  apply list_ext_N; [exact LE|]. intros i Hi. symmetry.
  refine (sa_restored ref o f lo len w HB HO SR o' _ i _ _ LL IC (Ba i _) (Bb i Hi)). lia.
Qed.

(* the sorted file starts with the metadata block kept *)
Lemma sorted_reference cpus p f old t u w ref o len lo q :
  1 <= cpus -> bytes_ok f = true -> lenN f < 18446744073709551616 -> lenN w < 18446744073709551616 ->
  dc_multi (sp_scan p) = None -> sort_file cpus p f (Some old) = ROk (t, u, Some w) -> setup (sp_scan p) f ref o len lo ->
  reference_read ref f lo len -> L_Roundtrip.plain q -> (dc_choice q = Any \/ dc_choice q = Prefer TMeta \/ dc_choice q = MustBe TMeta) ->
  (forall d pa B, o = Some (d, pa, B) -> dc_burst q = Some B) ->
  exists ref', setup q w ref' o (N.max 1 (lenN w)) 0 /\ b_version ref = b_version ref' /\ b_uid ref = b_uid ref' /\ b_data ref = b_data ref'.
Proof.
  intros CP HB HL HW M E ST (k & pl & V & BM & FM & ED) PQ CH BG.
  destruct (c22_sorted_file cpus p f old t u (Some w) CP HB HL) as (r & o1 & l1 & lo1 & w1 & S1 & HO & EO & SR); [rewrite M; reflexivity|exact E|].
  destruct (setup_unique _ _ _ _ _ _ _ _ _ _ ST S1) as (<- & <- & <- & <-). apply Some_inj in EO. subst w1. unfold start_file in SR. rewrite M in SR. clear S1.
  pose proof (sa_bytes ref o f lo len w HB HO SR) as BW. set (v := b_version ref) in *. set (uid := b_uid ref) in *. set (bs := ver_to_block_size v) in *.
  assert (MZ : meta_index (Some true) o 0) by (destruct o as [[[d pa] B]|]; cbn; [exists 0; lia|split; [discriminate|reflexivity]]).
  assert (B0 : belongs v uid o f lo len 0 0 k) by (split; [exact V|]; split; [eauto|]; right; auto).
  assert (C0 : chosen v uid o f lo len 0 k).
  { exists 0. split; [exact B0|]. intros k' (_ & (pl' & B') & _). cbn [N.eqb]. apply N.nlt_ge. intro L. exact (FM k' pl' L B'). }
  pose proof (proj1 SR 0 k C0) as EQ. fold bs in EQ. rewrite N.mul_0_l in EQ.
  assert (B1 : block_at v uid w 0 0 pl) by (unfold block_at in BM |- *; fold bs in BM |- *; rewrite EQ; exact BM).
  destruct B1 as (h & WF & HV & HU & HS).
  assert (WA : any_block_at w 0 h pl) by (unfold any_block_at; unfold sliceN in WF; apply wf_take in WF; [exact WF|]; rewrite HV; reflexivity).
  pose proof PQ as (P1 & P2 & P3 & P4 & P5 & P6).
  assert (GR : exists ref', get_ref_block w None None (dc_misalign q) (dc_choice q) = ROk (Some (0, ref')) /\ reads_as h pl ref').
  { pose proof (get_ref_block_ok w None None (dc_misalign q) (dc_choice q) BW) as K. rewrite range_whole in K by (exact HW || (unfold mult_of, SBX_SCAN_BLOCK_SIZE; lia)).
    destruct (K ltac:(lia)) as (r & EK & R). clear K. rewrite EK. clear EK.
    assert (RR : forall P : header -> Prop, P h -> found w 0 (0 + N.max 1 (lenN w)) P r -> exists b, r = Some (0, b) /\ reads_as h pl b).
    { intros P PH F. destruct r as [[x b]|]; cbn [found] in F.
      - destruct F as (h' & pl' & (F1 & F2 & F3 & F4) & F5). destruct (N.eq_dec x 0) as [->|NZ].
        + rewrite N.add_0_l in F2. destruct (any_block_fun w 0 _ _ _ _ WA F2) as [-> ->]. exists b. auto.
        + exfalso. apply (F4 0 h pl); [constructor; lia|lia|exact WA|exact PH].
      - exfalso. apply (F 0 h pl); [constructor; lia|exact WA|exact PH]. }
    assert (exists b, r = Some (0, b) /\ reads_as h pl b) as (b & -> & RB).
    { destruct CH as [CH|[CH|CH]]; rewrite CH in R; cbn [ref_spec] in R.
      - apply (RR _ Logic.I R).
      - destruct R as [[_ R]|[R _]]; [exact (RR (of_type TMeta) HS R)|]. exfalso. apply (R 0 h pl); [constructor; lia|exact WA|exact HS].
      - exact (RR (of_type TMeta) HS R). }
    eauto. }
  destruct GR as (ref' & GR & RB & RD). rewrite HS in RD. cbn [N.eqb] in RD.
  assert (EV : b_version ref' = v) by (unfold b_version; rewrite RB; exact HV). assert (EU : b_uid ref' = uid) by (unfold b_uid; rewrite RB; exact HU).
  exists ref'. split; [|split; [symmetry; exact EV|split; [symmetry; exact EU|congruence]]].
  split; [exists 0; rewrite P1, P4, P2; exact GR|]. split; [|exact (plain_range w q HW PQ ref')].
  destruct (setup_ok _ _ _ _ _ _ HB HL ST) as (_ & _ & (h0 & pl0 & RA & BP & _) & _). destruct ST as (_ & D & _). apply (ref_dpb _ _ _ _ _ _ _ _ BP RA) in D as [_ D].
  unfold get_data_par_burst. rewrite EV. destruct o as [[[d pa] B]|].
  - destruct D as (D1 & D2 & D3). fold v in D1. rewrite D1. unfold get_RSD, get_RSP in *. replace (b_data ref') with (b_data ref) by congruence. rewrite D2, D3. cbn [rbind].
    unfold get_burst_or_guess. rewrite (BG d pa B eq_refl). reflexivity.
  - fold v in D. rewrite D. reflexivity.
Qed.

(* C74. With the metadata among what is read, and the burst level told if the version has one, decoding the sorted file
   succeeds and gives what decoding the input gives. *)
Theorem c74_sort_then_decode cpus p f old t u w ref o len lo H order cpus1 limit p1 old1 out H' order' cpus2 limit' q :
  1 <= cpus -> 1 <= cpus1 -> 1 <= cpus2 -> bytes_ok f = true -> lenN f < 18446744073709551616 -> lenN w < 18446744073709551616 ->
  dc_multi (sp_scan p) = None -> sort_file cpus p f (Some old) = ROk (t, u, Some w) -> setup (sp_scan p) f ref o len lo ->
  dc_multi p1 = None -> decode_file H order cpus1 limit p1 f (ToFile old1) = ROk out -> setup p1 f ref o len lo ->
  reference_read ref f lo len -> L_Roundtrip.plain q -> (dc_choice q = Any \/ dc_choice q = Prefer TMeta \/ dc_choice q = MustBe TMeta) ->
  (forall d pa B, o = Some (d, pa, B) -> dc_burst q = Some B) ->
  exists out', decode_file H' order' cpus2 limit' q w (ToFile None) = ROk out' /\ do_out out' = do_out out.
Proof.
  intros CP CP1 CP2 HB HL HW M E ST M1 D1 ST1 RR PQ CH BG.
  destruct (sorted_reference _ _ _ _ _ _ _ _ _ _ _ q CP HB HL HW M E ST RR PQ CH BG) as (ref' & ST2 & EV & EU & ED).
  destruct (decode_file_total H' order' cpus2 limit' q w None ref' o _ _ CP2 ST2) as (out' & D2); [unfold is_data, is_meta, block_type_of; rewrite <- ED; destruct RR as (? & ? & _ & _ & _ & ->); apply andb_false_r|auto|].
  exists out'. split; [exact D2|]. exact (c74_sort_keeps_content cpus p f old t u w ref o len lo H order cpus1 limit p1 old1 out H' order' cpus2 limit' q None out' ref' o _ _ CP CP1 CP2 HB HL HW M E ST M1 D1 ST1 PQ D2 ST2 EV EU ED).
Qed.

(* C74. Sorting a sorted file writes the same file, and reports every block as being in place. *)
Theorem c74_sort_again cpus p f old t u w ref o len lo cpus' q old' :
  1 <= cpus -> 1 <= cpus' -> bytes_ok f = true -> lenN f < 18446744073709551616 -> lenN w < 18446744073709551616 ->
  dc_multi (sp_scan p) = None -> sort_file cpus p f (Some old) = ROk (t, u, Some w) -> setup (sp_scan p) f ref o len lo ->
  reference_read ref f lo len -> L_Roundtrip.plain (sp_scan q) ->
  (dc_choice (sp_scan q) = Any \/ dc_choice (sp_scan q) = Prefer TMeta \/ dc_choice (sp_scan q) = MustBe TMeta) ->
  (forall d pa B, o = Some (d, pa, B) -> dc_burst (sp_scan q) = Some B) ->
  exists t' u', sort_file cpus' q w (Some old') = ROk (t', u', Some w) /\
    os_data_diff u' = 0 /\ os_parity_diff u' = 0 /\ ss_meta_diff t' = 0.
Proof.
  intros CP CP' HB HL HW M E ST RR PQ CH BG.
  destruct (sorted_reference _ _ _ _ _ _ _ _ _ _ _ (sp_scan q) CP HB HL HW M E ST RR PQ CH BG) as (ref' & ST2 & EV & EU & ED).
  destruct (c22_sorted_file cpus p f old t u (Some w) CP HB HL) as (r & o1 & l1 & lo1 & w1 & S1 & HO & EO & SR); [rewrite M; reflexivity|exact E|].
  destruct (setup_unique _ _ _ _ _ _ _ _ _ _ ST S1) as (<- & <- & <- & <-). apply Some_inj in EO. subst w1. unfold start_file in SR. rewrite M in SR. clear S1.
  pose proof (sa_bytes ref o f lo len w HB HO SR) as BW. assert (MQ : dc_multi (sp_scan q) = None) by apply PQ. assert (LL : lenN w <= N.max 1 (lenN w)) by lia.
  destruct (c22_sort_ends cpus' q w (Some old') ref' o _ _ CP' BW ST2) as (t' & u' & out & E2 & _).
  destruct (c22_sorted_file cpus' q w old' t' u' out CP' BW HW) as (r2 & o2 & l2 & lo2 & w2 & S2 & _ & EO2 & SR2); [rewrite MQ; reflexivity|exact E2|].
  destruct (setup_unique _ _ _ _ _ _ _ _ _ _ ST2 S2) as (<- & <- & <- & <-). unfold start_file in SR2. rewrite MQ in SR2. rewrite <- EV, <- EU in SR2.
  pose proof (sa_again ref o f lo len w HB HO SR _ w2 LL SR2) as ->. rewrite EO2 in E2. exists t', u'. split; [exact E2|].
  destruct (c22_sort_statistics cpus' q w (Some old') t' u' (Some w) CP' BW HW E2) as (r3 & o3 & l3 & lo3 & xs & S3 & SC & VX & RX).
  destruct (setup_unique _ _ _ _ _ _ _ _ _ _ ST2 S3) as (<- & <- & <- & <-). rewrite <- EV in VX. rewrite <- EV, <- EU in RX.
  destruct SC as (_ & _ & _ & _ & _ & _ & CD & _ & CQ). cbv zeta in CD, CQ.
  assert (SAME : forall x, In x xs -> fst (fst x) = KData \/ fst (fst x) = KParity -> snd x = true).
  { intros [[kd z] same] Hx K. cbn [fst snd] in K |- *. apply In_nth_error in Hx as (k0 & Hx). set (k := N.of_nat k0). assert (Hx' : nth_optN xs k = Some (kd, z, same)) by (unfold nth_optN, k; rewrite Nat2N.id; exact Hx). clear Hx. rename Hx' into Hx. pose proof (RX k _ Hx) as (A & _ & B). apply B.
    assert (BA : exists seq pl, block_at (b_version ref) (b_uid ref) w (0 + k * ver_to_block_size (b_version ref)) seq pl /\ 1 <= seq).
    { destruct K as [-> | ->]; cbn [kind_at] in A; [destruct A as (seq & pl & j & A & C); apply is_chunk_pos in C|destruct A as (seq & pl & A & C & _)]; eauto. }
    destruct BA as (seq & pl & BA & SP). exists seq, pl. split; [exact BA|]. split; [exact SP|]. rewrite N.add_0_l in BA.
    destruct (sa_from ref o f lo len w HB HO SR _ _ _ BA) as (k1 & _ & (_ & _ & [[_ X]|[X _]]) & _); [|lia]. rewrite <- X. rewrite N.div_0_l; [symmetry; apply N.add_0_l|].
    pose proof (block_size_pos (b_version ref)). lia. }
  split; [|split].
  - rewrite CD. apply L_Guess.countN_zero. intros [[kd z] same] Hx. specialize (SAME _ Hx). cbn [fst snd] in SAME. destruct kd; cbn; try reflexivity. rewrite SAME by auto. reflexivity.
  - rewrite CQ. apply L_Guess.countN_zero. intros [[kd z] same] Hx. specialize (SAME _ Hx). cbn [fst snd] in SAME. destruct kd; cbn; try reflexivity. rewrite SAME by auto. reflexivity.
  - destruct (c22_sort_metadata_statistics cpus' q w (Some old') t' u' (Some w) CP' BW HW E2) as (r4 & o4 & l4 & lo4 & l & S4 & ND & IL & MS).
    destruct (setup_unique _ _ _ _ _ _ _ _ _ _ ST2 S4) as (<- & <- & <- & <-). cbv zeta in MS. rewrite <- EV, <- EU in MS.
    destruct MS as [(_ & Z & _)|(k & V & (pl & BA) & _ & CS & TOT)]; [exact Z|].
    assert (AL : countN (fun i => eqbl (sliceN (0 + i * ver_to_block_size (b_version ref)) (ver_to_block_size (b_version ref)) w) (sliceN (0 + k * ver_to_block_size (b_version ref)) (ver_to_block_size (b_version ref)) w)) l = lenN l).
    { apply L_Guess.countN_all. intros i Hi. apply IL in Hi.
      assert (BL : belongs (b_version ref) (b_uid ref) o w 0 (N.max 1 (lenN w)) i 0 k) by (split; [exact V|]; split; [eauto|]; right; auto).
      destruct (sa_place ref o f lo len w HB HO SR _ _ _ _ LL BL) as (_ & Q). rewrite !N.add_0_l, Q. apply eqbl_refl. }
    rewrite AL in CS. lia.
Qed.

(* ---- concrete cases ---- *)
(* A container (version 17, 3 data and 2 parity blocks a set, burst level 4) of which two blocks are lost, behind blocks
   of another file encoded under the same UID, with rubbish between *)
Definition again_file : file :=
  sliceN 512 512 toy_other ++ sliceN 3072 512 toy_other ++ repN 512 7 ++
  takeN 1024 toy_file ++ repN 512 9 ++ sliceN 1536 2048 toy_file ++ dropN 6144 toy_file.
Definition again_decoded (p : dparam) (f : file) : list N :=
  match decode_file toy_hash (fun l => l) 2 8 p f (ToFile None) with ROk out => do_out out | _ => [] end.
Example c74_run : let w := toy_sorted (toy_s None None) again_file None in
  again_decoded (sp_scan (toy_s None None)) w = again_decoded (sp_scan (toy_s None None)) again_file /\
  toy_sorted (toy_s None None) w (Some [1]) = w /\ lenN w = 10240 /\ eqbl w toy_file = false /\ eqbl (again_decoded (sp_scan (toy_s None None)) w) toy_content = false.
Proof. cbv zeta. vm_compute. repeat split. Qed.
(* the hypotheses of the theorems, with that file *)
Example c74_hypotheses : exists t u w ref len out, let q := sp_scan (toy_s None None) in
  bytes_ok again_file = true /\ lenN again_file < 18446744073709551616 /\ lenN w < 18446744073709551616 /\ dc_multi q = None /\
  sort_file 2 (toy_s None None) again_file (Some None) = ROk (t, u, Some w) /\ setup q again_file ref toy_o len 0 /\
  decode_file toy_hash (fun l => l) 2 8 q again_file (ToFile None) = ROk out /\
  reference_read ref again_file 0 len /\ L_Roundtrip.plain q /\ dc_choice q = Prefer TMeta /\ (forall d pa B, toy_o = Some (d, pa, B) -> dc_burst q = Some B).
Proof.
  destruct (get_ref_block again_file (ref_from_pos None None) None false (Prefer TMeta)) as [[[pos ref]|]|e|] eqn:G; [|exfalso; revert G; vm_compute; discriminate..].
  destruct (sort_file 2 (toy_s None None) again_file (Some None)) as [[[t u] [w|]]|e|] eqn:E; [|exfalso; revert E; vm_compute; discriminate..].
  destruct (decode_file toy_hash (fun l => l) 2 8 (sp_scan (toy_s None None)) again_file (ToFile None)) as [out|e|] eqn:D; [|exfalso; revert D; vm_compute; discriminate..].
  assert (RR : (b_version ref, b_uid ref) = (V17, [1;2;3;4;5;6])) by (revert G; vm_compute; intro G; injection G as _ <-; reflexivity).
  injection RR as RV RU. assert (HB : bytes_ok again_file = true) by (vm_compute; reflexivity).
  exists t, u, w, ref, (lenN again_file), out. cbv zeta. split; [exact HB|]. split; [vm_compute; reflexivity|].
  split. { assert (Y : match sort_file 2 (toy_s None None) again_file (Some None) with ROk (_, _, Some w) => lenN w <? 18446744073709551616 | _ => false end = true) by (vm_compute; reflexivity). rewrite E in Y. apply N.ltb_lt, Y. }
  split; [reflexivity|]. split; [reflexivity|]. split.
  { split; [exists pos; exact G|]. split; [revert G; vm_compute; intro G; injection G as _ <-; reflexivity|]. unfold scan_range. rewrite RV. vm_compute. reflexivity. }
  split; [exact D|]. split; [|split; [repeat split|split; [reflexivity|intros d pa B Q; injection Q as _ _ <-; reflexivity]]].
  unfold reference_read. cbv zeta.
  assert (AT : match accept ref (sliceN (0 + 3 * ver_to_block_size (b_version ref)) (ver_to_block_size (b_version ref)) again_file) with Some b => b_seq_num b =? 0 | None => false end = true /\
    b_data ref = DMeta (metas_from_bytes (slice_data_buf (b_version ref) (sliceN (0 + 3 * ver_to_block_size (b_version ref)) (ver_to_block_size (b_version ref)) again_file)))).
  { assert (Y : match get_ref_block again_file (ref_from_pos None None) None false (Prefer TMeta) with ROk (Some (_, ref)) =>
      match accept ref (sliceN (0 + 3 * ver_to_block_size (b_version ref)) (ver_to_block_size (b_version ref)) again_file) with Some b => b_seq_num b =? 0 | None => false end = true /\
      b_data ref = DMeta (metas_from_bytes (slice_data_buf (b_version ref) (sliceN (0 + 3 * ver_to_block_size (b_version ref)) (ver_to_block_size (b_version ref)) again_file))) | _ => False end) by (vm_compute; split; reflexivity).
    rewrite G in Y. exact Y. }
  destruct AT as [AT ED]. pose proof (accept_block_at ref again_file (0 + 3 * ver_to_block_size (b_version ref)) HB) as A.
  destruct (accept ref _) as [b|] eqn:EA in A; [|rewrite EA in AT; discriminate AT]. rewrite EA in AT. apply N.eqb_eq in AT. destruct A as [A _]. rewrite AT in A.
  exists 3. eexists. split; [rewrite RV; split; vm_compute; [reflexivity|discriminate]|]. split; [exact A|]. split; [|exact ED].
  intros k' pl' K BA.
  assert (NB : forall k, (k =? 0) || (k =? 1) || (k =? 2) = true -> match accept ref (sliceN (0 + k * ver_to_block_size (b_version ref)) (ver_to_block_size (b_version ref)) again_file) with Some b => negb (b_seq_num b =? 0) | None => true end = true).
  { intros k HK.
    assert (Y : match get_ref_block again_file (ref_from_pos None None) None false (Prefer TMeta) with ROk (Some (_, ref)) =>
      forallb (fun k => match accept ref (sliceN (0 + k * ver_to_block_size (b_version ref)) (ver_to_block_size (b_version ref)) again_file) with Some b => negb (b_seq_num b =? 0) | None => true end) [0; 1; 2] = true | _ => False end) by (vm_compute; reflexivity).
    rewrite G in Y. rewrite forallb_forall in Y. apply (Y k). apply orb_prop in HK as [HK|HK]; [apply orb_prop in HK as [HK|HK]|]; apply N.eqb_eq in HK; subst k; cbn [In]; auto. }
  assert (K3 : (k' =? 0) || (k' =? 1) || (k' =? 2) = true).
  { destruct (N.eqb_spec k' 0); [reflexivity|]. destruct (N.eqb_spec k' 1); [reflexivity|]. destruct (N.eqb_spec k' 2); [reflexivity|]. clear - K n n0 n1. lia. }
  specialize (NB k' K3). pose proof (accept_block_at ref again_file (0 + k' * ver_to_block_size (b_version ref)) HB) as A'.
  destruct (accept ref (sliceN (0 + k' * _) _ _)) as [b'|]; [|elim (A' _ _ BA)]. destruct A' as [A' _]. destruct (block_at_unique _ _ _ _ _ _ _ _ A' BA) as [Z _]. rewrite Z in NB. discriminate NB.
Qed.

Print Assumptions c74_sort_keeps_content.
Print Assumptions c74_sort_then_decode.
Print Assumptions c74_sort_again.
