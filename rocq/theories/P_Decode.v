(* C17, C18, C23 (decoding part), C27 (decoding part): decoding to a file, for arbitrary input files. *)
From Verif Require Import M_Base M_Specs M_Header M_Multihash M_Metadata M_Block M_Index M_FileUtils M_Buffer M_Ranges M_Encode M_Scan M_Loop M_Decode
  S_Crc S_Meta S_Block S_Index S_Scan S_Decode L_Base L_File L_Index L_Index2 L_Block L_Scan L_Ref L_Ranges L_Decode L_Decode2.

(* What decoding produces, for every input file: each byte of the output comes from the last block read that
   holds its chunk, wherever that block is; bytes of chunks found nowhere keep what was there (zero in a new
   file). The length is the recorded size, or if there is none, the end of the last chunk found. *)
Theorem c17_decoded_file H order cpus limit p f old out :
  1 <= cpus -> bytes_ok f = true -> lenN f < 18446744073709551616 -> is_skip_good (dc_multi p) = false ->
  decode_file H order cpus limit p f (ToFile old) = ROk out ->
  exists ref o len lo, setup p f ref o len lo /\ dpb_ok o /\
    (forall i, i < lenN (do_out out) ->
       restored (b_version ref) (b_uid ref) o f lo len (start_file p old) i (nthN (do_out out) i)) /\
    match get_FSZ ref with
    | Some n => lenN (do_out out) = n
    | None => extent (b_version ref) (b_uid ref) o f lo len (start_file p old) (lenN (do_out out))
    end.
Proof.
  intros CP HB HL SG E. destruct (decode_file_char _ _ _ _ _ _ _ _ CP HB HL E) as (ref & o & len & lo & ST & EO).
  exists ref, o, len, lo. destruct (setup_ok _ _ _ _ _ _ HB HL ST) as (HO & _). split; [exact ST|]. split; [exact HO|]. cbv zeta in EO.
  rewrite EO. cbn [do_out]. split.
  - intros i Hi. rewrite nthN_fsz by exact Hi. apply restored_ok; assumption.
  - destruct (get_FSZ ref) as [n|]; [apply lenN_set_len|apply extent_ok; assumption].
Qed.

(* The statistics count each block read once, by kind. *)
Theorem c17_decode_statistics H order cpus limit p f old out :
  1 <= cpus -> bytes_ok f = true -> lenN f < 18446744073709551616 ->
  decode_file H order cpus limit p f (ToFile old) = ROk out ->
  exists ref o len lo ks, setup p f ref o len lo /\ counts (do_stats out) ks /\
    let bs := ver_to_block_size (b_version ref) in
    (forall k, visited bs f lo len k <-> k < lenN ks) /\
    forall k x, nth_optN ks k = Some x -> kind_at (b_version ref) (b_uid ref) o f (lo + k * bs) x.
Proof.
  intros CP HB HL E. destruct (decode_file_char _ _ _ _ _ _ _ _ CP HB HL E) as (ref & o & len & lo & ST & EO).
  destruct (setup_ok _ _ _ _ _ _ HB HL ST) as (HO & HV & _).
  exists ref, o, len, lo, (map (kind_of f ref o) (poss f ref lo len)). split; [exact ST|]. cbv zeta in EO. rewrite EO. cbn [do_stats].
  split; [apply (counts_ok cpus f ref o CP)|]. cbv zeta. set (bs := ver_to_block_size (b_version ref)).
  assert (BP : 1 <= bs) by (pose proof (block_size_pos (b_version ref)); unfold bs; lia).
  assert (LP : lenN (map (kind_of f ref o) (poss f ref lo len)) = nvisit bs f lo len).
  { unfold poss. rewrite !lenN_map, lenN_range. fold bs. apply N.sub_0_r. }
  split; [intro k; rewrite LP; apply visited_iff, BP|]. intros k x Hx.
  assert (LK : k < nvisit bs f lo len). { rewrite <- LP. apply N.nle_gt. intro L. apply nth_optN_None in L. congruence. }
  rewrite nth_optN_map in Hx. unfold poss in Hx. rewrite nth_optN_map, nth_optN_range in Hx by (fold bs; lia). cbn [option_map] in Hx.
  apply Some_inj in Hx. subst x. rewrite N.add_0_l. apply (kind_of_ok cpus f ref o true CP HB HO HV).
Qed.

(* C17: two input files holding the same blocks of the container, in whatever order and number and among
   whatever else, give the same output file; also with different numbers of CPUs and burst levels. *)
Theorem c17_same_blocks_same_file H order cpus limit p f old out H' order' cpus' limit' p' f' old' out' ref ref' o o' len len' lo lo' :
  1 <= cpus -> bytes_ok f = true -> lenN f < 18446744073709551616 ->
  1 <= cpus' -> bytes_ok f' = true -> lenN f' < 18446744073709551616 ->
  dc_multi p = None -> dc_multi p' = None ->
  decode_file H order cpus limit p f (ToFile old) = ROk out ->
  decode_file H' order' cpus' limit' p' f' (ToFile old') = ROk out' ->
  setup p f ref o len lo -> setup p' f' ref' o' len' lo' ->
  b_version ref = b_version ref' -> b_uid ref = b_uid ref' -> b_data ref = b_data ref' ->
  same_blocks (b_version ref) (b_uid ref) f lo len f' lo' len' ->
  consistent (b_version ref) (b_uid ref) f lo len ->
  do_out out = do_out out'.
Proof.
  intros CP HB HL CP' HB' HL' M M' E E' ST ST' EV EU ED SB CO.
  assert (SG : is_skip_good (dc_multi p) = false) by (rewrite M; reflexivity).
  assert (SG' : is_skip_good (dc_multi p') = false) by (rewrite M'; reflexivity).
  destruct (c17_decoded_file _ _ _ _ _ _ _ _ CP HB HL SG E) as (r1 & o1 & l1 & lo1 & S1 & O1 & B1 & F1).
  destruct (c17_decoded_file _ _ _ _ _ _ _ _ CP' HB' HL' SG' E') as (r2 & o2 & l2 & lo2 & S2 & O2 & B2 & F2).
  assert (UN : forall p f r1 o1 l1 lo1 r2 o2 l2 lo2, setup p f r1 o1 l1 lo1 -> setup p f r2 o2 l2 lo2 -> r1 = r2 /\ o1 = o2 /\ l1 = l2 /\ lo1 = lo2).
  { clear. intros p f r1 o1 l1 lo1 r2 o2 l2 lo2 ((x & A) & B & C) ((x' & A') & B' & C'). rewrite A in A'. apply ROk_inj, Some_inj, pair_inj in A' as [_ <-].
    rewrite B in B'. apply ROk_inj in B'. rewrite C in C'. apply pair_inj in C' as [<- <-]. auto. }
  destruct (UN _ _ _ _ _ _ _ _ _ _ ST S1) as (<- & <- & <- & <-). destruct (UN _ _ _ _ _ _ _ _ _ _ ST' S2) as (<- & <- & <- & <-). clear UN S1 S2.
  (* chunks do not depend on the burst level *)
  assert (IC : forall seq j, is_chunk o seq j <-> is_chunk o' seq j).
  { destruct (setup_ok _ _ _ _ _ _ HB HL ST) as (_ & _ & (h & pl & RA & BP & _) & _), (setup_ok _ _ _ _ _ _ HB' HL' ST') as (_ & _ & (h' & pl' & RA' & BP' & _) & _).
    destruct ST as (_ & D & _), ST' as (_ & D' & _). apply (ref_dpb _ _ _ _ _ _ _ _ BP RA) in D as [_ D]. apply (ref_dpb _ _ _ _ _ _ _ _ BP' RA') in D' as [_ D'].
    unfold get_RSD, get_RSP in *. rewrite <- ED, <- EV in D'. intros seq j. destruct o as [[[d q] B]|], o' as [[[d' q'] B']|]; try reflexivity.
    - destruct D as (_ & A & C), D' as (_ & A' & C'). rewrite A in A'. rewrite C in C'. apply ROk_inj in A', C'. subst. reflexivity.
    - destruct D. congruence.
    - destruct D'. congruence. }
  assert (SF : start_file p old = [] /\ start_file p' old' = []) by (unfold start_file; rewrite M, M'; auto). destruct SF as [SF SF'].
  rewrite SF in *. rewrite SF' in *. rewrite <- EV, <- EU in B2, F2. set (v := b_version ref) in *. set (uid := b_uid ref) in *.
  assert (FZ : get_FSZ ref' = get_FSZ ref) by (unfold get_FSZ, block_get_meta; rewrite ED; reflexivity). rewrite FZ in F2.
  assert (LE : lenN (do_out out) = lenN (do_out out')).
  { destruct (get_FSZ ref) as [n|]; [congruence|]. destruct F1 as (_ & A & B), F2 as (_ & A' & B').
    assert (U : lenN (do_out out) <= lenN (do_out out')).
    { destruct B as [B|(k & seq & pl & j & V & BA & C & B)]; [rewrite B; apply N.le_0_l|].
      destruct (proj1 (SB seq pl) (ex_intro _ k (conj V BA))) as (k' & V' & BA'). rewrite B. apply (A' k' seq pl j V' BA'). apply IC, C. }
    assert (W : lenN (do_out out') <= lenN (do_out out)).
    { destruct B' as [B'|(k & seq & pl & j & V & BA & C & B')]; [rewrite B'; apply N.le_0_l|].
      destruct (proj2 (SB seq pl) (ex_intro _ k (conj V BA))) as (k' & V' & BA'). rewrite B'. apply (A k' seq pl j V' BA'). apply IC, C. }
    lia. }
  apply list_ext_N; [exact LE|]. intros i Hi. specialize (B1 i Hi). specialize (B2 i ltac:(lia)). unfold restored in B1, B2. cbv zeta in B1, B2.
  destruct B1 as [(k & seq & pl & V & BA & C & X & _)|[NO X]], B2 as [(k2 & seq2 & pl2 & V2 & BA2 & C2 & X2 & _)|[NO2 X2]].
  - destruct (proj2 (SB seq2 pl2) (ex_intro _ k2 (conj V2 BA2))) as (k' & V' & BA').
    assert (seq = seq2).
    { apply IC in C2. apply (chunk_index_iff o _ _ O1) in C, C2. revert C C2. clear - O1. unfold calc_data_chunk_write_index, SBX_FIRST_DATA_SEQ_NUM, dp_of.
      destruct (N.ltb_spec seq 1); [discriminate|]. destruct (N.ltb_spec seq2 1); [discriminate|].
      destruct o as [[[d q] B]|]; intros C C2.
      - revert C C2. rewrite !parity_mod by assumption. destruct (N.leb_spec d ((seq - 1) mod (d + q))); [discriminate|]. destruct (N.leb_spec d ((seq2 - 1) mod (d + q))); [discriminate|].
        intros C C2. apply Some_inj in C, C2. destruct O1 as (D1 & _).
        pose proof (N.div_mod' (seq - 1) (d + q)) as DM. pose proof (N.div_mod' (seq2 - 1) (d + q)) as DM2.
        revert C C2 DM DM2 H1 H2. generalize ((seq - 1) / (d + q)), ((seq - 1) mod (d + q)), ((seq2 - 1) / (d + q)), ((seq2 - 1) mod (d + q)). intros a b a2 b2 C C2 DM DM2 HB1 HB2.
        assert (a = a2 /\ b = b2) as [-> ->]; [|lia]. apply (N.div_mod_unique d a a2 b b2); lia.
      - apply Some_inj in C, C2. lia. }
    subst seq2. rewrite X, X2. f_equal. apply (CO k k' seq pl pl2 V V' BA BA').
  - exfalso. destruct (proj1 (SB seq pl) (ex_intro _ k (conj V BA))) as (k' & V' & BA'). apply (NO2 k' seq pl V' BA'). apply IC, C.
  - exfalso. destruct (proj2 (SB seq2 pl2) (ex_intro _ k2 (conj V2 BA2))) as (k' & V' & BA'). apply (NO k' seq2 pl2 V' BA'). apply IC, C2.
  - rewrite X, X2. reflexivity.
Qed.

(* C18: if every block of the container that is still readable is right, that is, carries the bytes of the original
   data at its chunk's place, then the output has the recorded size, every byte of a surviving chunk is right, and
   all others are zero. *)
Theorem c18_survivors H order cpus limit p f old out ref o len lo data :
  1 <= cpus -> bytes_ok f = true -> lenN f < 18446744073709551616 -> dc_multi p = None ->
  decode_file H order cpus limit p f (ToFile old) = ROk out -> setup p f ref o len lo ->
  get_FSZ ref = Some (lenN data) ->
  let bs := ver_to_block_size (b_version ref) in let ds := bs - 16 in
  let reads k seq pl := visited bs f lo len k /\ block_at (b_version ref) (b_uid ref) f (lo + k * bs) seq pl in
  (forall k seq pl j, reads k seq pl -> is_chunk o seq j ->
     forall r, r < ds -> j * ds + r < lenN data -> nthN pl r = nthN data (j * ds + r)) ->
  lenN (do_out out) = lenN data /\
  forall i, i < lenN data ->
    (forall k seq pl, reads k seq pl -> is_chunk o seq (i / ds) -> nthN (do_out out) i = nthN data i) /\
    ((forall k seq pl, reads k seq pl -> ~ is_chunk o seq (i / ds)) -> nthN (do_out out) i = 0).
Proof.
  intros CP HB HL M E ST FZ bs ds reads OK. assert (SG : is_skip_good (dc_multi p) = false) by (rewrite M; reflexivity).
  destruct (c17_decoded_file _ _ _ _ _ _ _ _ CP HB HL SG E) as (r1 & o1 & l1 & lo1 & S1 & O1 & B1 & F1).
  assert (UN : r1 = ref /\ o1 = o /\ l1 = len /\ lo1 = lo).
  { destruct ST as ((x & A) & B & C), S1 as ((x' & A') & B' & C'). rewrite A in A'. apply ROk_inj, Some_inj, pair_inj in A' as [_ <-].
    rewrite B in B'. apply ROk_inj in B'. rewrite C in C'. apply pair_inj in C' as [<- <-]. auto. }
  destruct UN as (-> & -> & -> & ->). rewrite FZ in F1. split; [exact F1|]. intros i Hi. specialize (B1 i ltac:(lia)).
  assert (SF : start_file p old = []) by (unfold start_file; rewrite M; auto). rewrite SF in B1. unfold restored in B1. cbv zeta in B1. fold bs ds in B1.
  assert (DP : 1 <= ds) by (pose proof (data_size_pos (b_version ref)); unfold ds, bs; lia).
  pose proof (N.div_mod' i ds) as DM. pose proof (N.mod_lt i ds ltac:(lia)) as ML.
  destruct B1 as [(k & seq & pl & V & BA & C & X & _)|[NO X]].
  - split.
    + intros _ _ _ _ _. rewrite X, (OK k seq pl (i / ds) (conj V BA) C (i mod ds) ML ltac:(lia)). f_equal. lia.
    + intro NO. exfalso. exact (NO k seq pl (conj V BA) C).
  - split.
    + intros k seq pl [V BA] C. exfalso. exact (NO k seq pl V BA C).
    + intros _. rewrite X. apply nthN_nil.
Qed.

(* C23, decoding: in skip-good mode (--multi-pass) a chunk of the existing output file that is complete and not
   all zero is left as it is; a chunk that is all zero or missing is filled from some block holding it. *)
Theorem c23_decode_skip_good H order cpus limit p f x out :
  1 <= cpus -> bytes_ok f = true -> lenN f < 18446744073709551616 -> dc_multi p = Some SkipGood ->
  decode_file H order cpus limit p f (ToFile (Some x)) = ROk out ->
  exists ref o len lo, setup p f ref o len lo /\
  let bs := ver_to_block_size (b_version ref) in let ds := bs - 16 in
  let reads k seq pl := visited bs f lo len k /\ block_at (b_version ref) (b_uid ref) f (lo + k * bs) seq pl in
  (match get_FSZ ref with Some n => lenN (do_out out) = n | None => lenN x <= lenN (do_out out) end) /\
  forall j,
  ((j + 1) * ds <= lenN x -> (exists i, i / ds = j /\ nthN x i <> 0) ->
     forall i, i / ds = j -> i < lenN (do_out out) -> nthN (do_out out) i = nthN x i) /\
  ((forall i, i / ds = j -> nthN x i = 0) ->
     (exists k seq pl, reads k seq pl /\ is_chunk o seq j /\
        forall i, i / ds = j -> i < lenN (do_out out) -> nthN (do_out out) i = nthN pl (i mod ds)) \/
     ((forall k seq pl, reads k seq pl -> ~ is_chunk o seq j) /\
        forall i, i / ds = j -> i < lenN (do_out out) -> nthN (do_out out) i = 0)).
Proof.
  intros CP HB HL M E. destruct (decode_file_char _ _ _ _ _ _ _ _ CP HB HL E) as (ref & o & len & lo & ST & EO).
  exists ref, o, len, lo. destruct (setup_ok _ _ _ _ _ _ HB HL ST) as (HO & _). split; [exact ST|]. cbv zeta in EO |- *. rewrite EO. cbn [do_out].
  assert (SG : is_skip_good (dc_multi p) = true) by (rewrite M; reflexivity). assert (SF : start_file p (Some x) = x) by (unfold start_file; rewrite M; reflexivity).
  rewrite SF. set (bs := ver_to_block_size (b_version ref)). pose proof (data_size_pos (b_version ref)) as [DP DE]. fold bs in DE.
  assert (BP : 1 <= bs) by (pose proof (block_size_pos (b_version ref)); unfold bs; lia).
  rewrite <- DE. set (ds := ver_to_data_size (b_version ref)) in *.
  set (raw := raw_out cpus p f ref o x len lo). assert (NF := fun i H => nthN_fsz raw (get_FSZ ref) i H). split.
  - destruct (get_FSZ ref); [apply lenN_set_len|]. unfold raw, raw_out. generalize (nvisit (ver_to_block_size (b_version ref)) f lo len). intro n.
    induction n as [|n IH] using N.peano_ind; [apply N.le_refl|]. rewrite <- N.add_1_r, out_succ by exact CP.
    destruct (step_cases cpus f ref o (is_skip_good (dc_multi p)) lo HB HO (out_n cpus f ref o (is_skip_good (dc_multi p)) lo x n) n) as [(j & pl & _ & _ & ->)|[_ ->]]; [|exact IH].
    destruct (_ && _); [exact IH|]. rewrite lenN_file_write. destruct (lenN pl =? 0); [exact IH|]. clear - IH. lia.
  - intro j. assert (SL : forall g i, i / ds = j -> nthN (sliceN (j * ds) ds g) (i mod ds) = nthN g i).
    { intros g i Hi. rewrite nthN_slice. pose proof (N.div_mod' i ds) as DM. pose proof (N.mod_lt i ds ltac:(lia)) as ML. rewrite Hi in DM.
      destruct (N.ltb_spec (i mod ds) ds); [f_equal; lia|lia]. }
    split.
    + intros HJ (i0 & I0 & NZ) i Hi Li. rewrite NF by exact Li. destruct (skip_keeps cpus f ref o (is_skip_good (dc_multi p)) lo CP HB HO x (nvisit bs f lo len) j SG HJ) as [K _].
      * apply not_true_is_false. intro B. apply NZ. fold ds in B. rewrite <- SL by exact I0. apply (proj1 (blank_nth _)), B.
      * fold ds in K. rewrite <- (SL raw i Hi), <- (SL x i Hi). unfold raw, raw_out. fold bs. rewrite K. reflexivity.
    + intro Z. destruct (skip_fills cpus f ref o (is_skip_good (dc_multi p)) lo CP HB HO x (nvisit bs f lo len) j SG) as [(k & pl & K1 & (seq & K2 & K3) & K4)|[K1 K2]].
      * apply blank_nth. intro r. fold ds. rewrite nthN_slice. destruct (N.ltb_spec r ds); [|reflexivity]. apply Z. symmetry. apply N.div_unique with (r := r); lia.
      * left. exists k, seq, pl. split; [split; [apply visited_iff; assumption|exact K2]|]. split; [exact K3|]. intros i Hi Li. rewrite NF by exact Li.
        fold ds in K4. unfold raw, raw_out. fold bs. rewrite <- (SL _ i Hi), K4. reflexivity.
      * right. split.
        -- intros k seq pl [V BA] C. apply visited_iff in V; [|exact BP]. apply (K1 k pl V). exists seq. auto.
        -- intros i Hi Li. rewrite NF by exact Li. unfold raw, raw_out. fold bs. rewrite (K2 i Hi). apply Z, Hi.
Qed.

(* C27, decoding to a file: it ends, with a result, for every input file, once the reference block and the
   shard counts are known. *)
Theorem c27_decode_ends H order cpus limit p f old ref o len lo :
  1 <= cpus -> setup p f ref o len lo -> ver_uses_rs (b_version ref) && is_data ref = false ->
  (dc_force_write p = true \/ dc_multi p <> None \/ old = None) ->
  exists out, decode_file H order cpus limit p f (ToFile old) = ROk out.
Proof. apply decode_file_total. Qed.
