(* C16: encoding followed by decoding. C17, C18 for containers of the encoder. C29. *)
From Verif Require Import M_Base M_Specs M_Crc M_Header M_Multihash M_Metadata M_Block M_Index M_FileUtils M_Buffer M_Ranges M_Encode M_Scan M_Loop M_Decode
  S_Crc S_Meta S_Block S_Index S_Container S_Encode S_Scan S_Decode
  L_Base L_Crc L_File L_Header L_Index L_Index2 L_Block L_Scan L_Container L_Ref L_Ranges L_Decode L_Decode2 L_Guess L_Intact L_Intact2 L_Roundtrip P_Encode P_Decode.

Lemma block_count_pos v o (content : list N) n : content <> [] -> block_count v o (lenN content) n -> match o with Some (d, p, _) => 1 <= d | None => True end -> 1 <= n.
Proof.
  intros NE (c & (C1 & _) & HC) HD. assert (L : 1 <= lenN content) by (destruct content; [congruence|rewrite lenN_cons; lia]).
  assert (1 <= c) by (destruct (N.eq_dec c 0) as [->|]; lia). destruct o as [[[d p] B]|]; [|lia]. destruct HC as (s & (S1 & _) & ->).
  assert (1 <= s) by (destruct (N.eq_dec s 0) as [->|]; lia). assert (1 * 1 <= s * (d + p)) by (apply N.mul_le_mono; lia). lia.
Qed.

(* C16. Any file within the size limit, encoded with any version, UID, shard counts and burst level, and decoded
   to a new file without further options, gives the file back; the hash recorded equals the hash of the output.
   The burst level must be told to the decoder if it is more than 1000 and the file is empty. *)
Theorem c16_roundtrip H rs p cpus content mx n :
  enc_ok H rs cpus p -> meta_fits H p -> input_ok (SrcFile content) ->
  e_from p = None -> e_to p = None -> meta_on p = true ->
  ver_to_max_data_file_size (e_ver p) (e_dpb p) = ROk mx -> lenN content <= mx ->
  block_count (e_ver p) (e_dpb p) (lenN content) n -> n < U32_MAX ->
  exists out, encode_file H rs cpus p (SrcFile content) = ROk out /\ eo_err out = false /\
  forall order cpus' limit q old,
    1 <= cpus' -> plain q -> (dc_choice q = Any \/ dc_choice q = Prefer TMeta \/ dc_choice q = MustBe TMeta) ->
    match e_dpb p with Some (_, _, B) => dc_burst q = None -> B <= SBX_MAX_BURST_ERR_RESISTANCE \/ content <> [] | None => True end ->
    (dc_force_write q = true \/ old = None) ->
    exists dout, decode_file H order cpus' limit q (eo_file out) (ToFile old) = ROk dout /\
      do_out dout = content /\ do_size dout = lenN content /\
      do_recorded dout = Some (canon_hash (e_hash p), H (canon_hash (e_hash p)) content) /\ do_computed dout = do_recorded dout.
Proof.
  intros OK F IO EF ET ME HMX HL HBC HN. destruct (c38_encoded_container_is_the_file H rs p cpus content mx n OK F IO EF ET HMX HL HBC HN) as (out & E & EN).
  exists out. split; [exact E|]. split; [apply EN|]. intros order cpus' limit q old CP PQ CH BU FW.
  destruct IO as [IB IL]. destruct (encoded_intact H rs cpus p content out n OK IB EN HBC ltac:(lia)) as [IT FL].
  assert (MD : match e_dpb p with
    | Some (d, par, B) => get_meta_by_id (recorded H p content) IRSD = Some (RSD d) /\ get_meta_by_id (recorded H p content) IRSP = Some (RSP par) /\ (dc_burst q = None -> B <= SBX_MAX_BURST_ERR_RESISTANCE \/ 1 <= n)
    | None => True end).
  { destruct (e_dpb p) as [[[d par] B]|] eqn:EO; [|exact Logic.I].
    assert (BU' : dc_burst q = None -> B <= SBX_MAX_BURST_ERR_RESISTANCE \/ 1 <= n) by (intro Q; destruct (BU Q) as [X|X]; [auto|right; refine (block_count_pos _ _ content _ X HBC _); destruct OK as (_ & _ & O & _); rewrite EO in O; apply O]).
    unfold recorded. rewrite EO. destruct (e_in_name p), (e_fdt p); cbn; auto. }
  destruct (setup_meta_large _ _ _ _ _ _ _ _ _ q IT FL PQ ME CH MD) as (ref & o' & ST & RV & RU & RD & IC).
  assert (BO := file_bytes _ _ _ _ _ _ _ _ _ IT).
  assert (ID : is_data ref = false) by (unfold is_data, block_type_of; rewrite RD; reflexivity).
  destruct (decode_file_total H order cpus' limit q (eo_file out) old ref o' _ 0 CP ST) as (dout & ED).
  { rewrite ID. apply andb_false_r. } { destruct FW; auto. }
  exists dout. split; [exact ED|].
  assert (PM : dc_multi q = None) by apply PQ. assert (SG : is_skip_good (dc_multi q) = false) by (rewrite PM; reflexivity).
  assert (GF : get_FSZ ref = Some (lenN content)).
  { unfold get_FSZ, block_get_meta. rewrite RD. unfold recorded. destruct (e_in_name p), (e_fdt p); reflexivity. }
  assert (GH : get_HSH ref = Some (canon_hash (e_hash p), H (canon_hash (e_hash p)) content)).
  { unfold get_HSH, block_get_meta. rewrite RD. unfold recorded. destruct (e_in_name p), (e_fdt p); reflexivity. }
  assert (DO : do_out dout = content).
  { destruct (c17_decoded_file _ _ _ _ _ _ _ _ CP BO FL SG ED) as (r1 & o1 & l1 & lo1 & S1 & _ & B1 & F1).
    destruct (setup_unique _ _ _ _ _ _ _ _ _ _ ST S1) as (<- & <- & <- & <-). rewrite GF in F1.
    apply list_ext_N; [exact F1|]. intros i Hi. rewrite F1 in Hi. specialize (B1 i ltac:(lia)). rewrite RV, RU in B1.
    apply (restored_byte _ _ _ _ _ _ _ _ _ IT o' _ i _ IC B1 Hi). }
  destruct (decode_file_char _ _ _ _ _ _ _ _ CP BO FL ED) as (r1 & o1 & l1 & lo1 & S1 & EQ).
  destruct (setup_unique _ _ _ _ _ _ _ _ _ _ ST S1) as (<- & <- & <- & <-). cbv zeta in EQ. rewrite GH in EQ.
  split; [exact DO|]. rewrite EQ in DO. cbn [do_out] in DO. rewrite EQ. cbn [do_size do_recorded do_computed]. rewrite DO.
  split; [reflexivity|]. split; [reflexivity|]. unfold hash_output. rewrite GH.
  assert (HS : hash_supported (e_hash p) = true) by apply OK.
  unfold finish_hash. destruct (e_hash p); try discriminate; reflexivity.
Qed.

(* C16 without metadata: there is no recorded size, and the padding of the last payload is kept. *)
Theorem c16_roundtrip_no_metadata H rs p cpus content mx n :
  enc_ok H rs cpus p -> meta_fits H p -> input_ok (SrcFile content) ->
  e_from p = None -> e_to p = None -> meta_on p = false -> 1 <= lenN content ->
  ver_to_max_data_file_size (e_ver p) (e_dpb p) = ROk mx -> lenN content <= mx ->
  block_count (e_ver p) (e_dpb p) (lenN content) n -> n < U32_MAX ->
  exists out, encode_file H rs cpus p (SrcFile content) = ROk out /\ eo_err out = false /\
  forall order cpus' limit q old,
    1 <= cpus' -> plain q -> (dc_choice q = Any \/ (exists t, dc_choice q = Prefer t) \/ dc_choice q = MustBe TData) ->
    (dc_force_write q = true \/ old = None) ->
    exists dout, decode_file H order cpus' limit q (eo_file out) (ToFile old) = ROk dout /\
      do_out dout = content ++ repN (n * (ver_to_block_size (e_ver p) - 16) - lenN content) 26 /\
      do_recorded dout = None /\ do_computed dout = None.
Proof.
  intros OK F IO EF ET ME L1 HMX HL HBC HN. destruct (c38_encoded_container_is_the_file H rs p cpus content mx n OK F IO EF ET HMX HL HBC HN) as (out & E & EN).
  exists out. split; [exact E|]. split; [apply EN|]. intros order cpus' limit q old CP PQ CH FW.
  destruct IO as [IB IL]. destruct (encoded_intact H rs cpus p content out n OK IB EN HBC ltac:(lia)) as [IT FL].
  set (v := e_ver p) in *. set (ds := ver_to_block_size v - 16). assert (DP : 1 <= ds) by (pose proof (block_size_pos v); unfold ds; lia).
  assert (EO : e_dpb p = None) by (pose proof (MEON _ _ _ _ _ _ _ _ _ IT) as MO; destruct (e_dpb p) as [x|]; [rewrite MO in ME; discriminate|reflexivity]).
  assert (NC : lenN content <= n * ds /\ (n - 1) * ds < lenN content).
  { destruct HBC as (c & [C1 C2] & C3). rewrite EO in C3. subst c. fold ds in C1, C2. split; [exact C1|]. apply N.nle_gt. intro L. apply C2 in L. assert (n = 0) by lia. subst n. lia. }
  assert (N1 : 1 <= n) by (destruct (N.eq_dec n 0) as [Z|]; [rewrite Z in NC; lia|lia]).
  destruct (setup_data _ _ _ _ _ _ _ _ _ q IT FL PQ ME N1 CH) as (ref & ST & RV & RU & RD & _).
  assert (BO := file_bytes _ _ _ _ _ _ _ _ _ IT).
  assert (RS : ver_uses_rs (b_version ref) = false). { rewrite RV. destruct OK as (_ & _ & _ & O2 & _). fold v in O2. rewrite O2, EO. reflexivity. }
  destruct (decode_file_total H order cpus' limit q (eo_file out) old ref None _ 0 CP ST) as (dout & ED).
  { rewrite RS. reflexivity. } { destruct FW; auto. }
  exists dout. split; [exact ED|].
  assert (PM : dc_multi q = None) by apply PQ. assert (SG : is_skip_good (dc_multi q) = false) by (rewrite PM; reflexivity).
  assert (GF : get_FSZ ref = None) by (unfold get_FSZ, block_get_meta; rewrite RD; reflexivity).
  assert (GH : get_HSH ref = None) by (unfold get_HSH, block_get_meta; rewrite RD; reflexivity).
  destruct (decode_file_char _ _ _ _ _ _ _ _ CP BO FL ED) as (r0 & o0 & l0 & lo0 & S0 & EQ).
  destruct (setup_unique _ _ _ _ _ _ _ _ _ _ ST S0) as (<- & <- & <- & <-). cbv zeta in EQ.
  split; [|rewrite EQ; cbn [do_recorded do_computed]; unfold hash_output; rewrite GH; auto].
  destruct (c17_decoded_file _ _ _ _ _ _ _ _ CP BO FL SG ED) as (r1 & o1 & l1 & lo1 & S1 & _ & B1 & F1).
  destruct (setup_unique _ _ _ _ _ _ _ _ _ _ ST S1) as (<- & <- & <- & <-). rewrite GF in F1.
  assert (IC : forall seq j, is_chunk None seq j <-> is_chunk (e_dpb p) seq j) by (rewrite EO; tauto).
  assert (LE : lenN (do_out dout) = n * ds).
  { unfold extent in F1. cbv zeta in F1. rewrite RV, RU in F1. fold ds in F1. destruct F1 as (_ & A & B).
    assert (SF : start_file q old = []) by (unfold start_file; rewrite PM; reflexivity). rewrite SF in B.
    assert (G : n * ds <= lenN (do_out dout)).
    { pose proof (A _ n _ (n - 1) (visited_used _ _ _ _ _ _ _ _ _ IT n ltac:(lia)) ltac:(rewrite N.add_0_l; apply (data_block _ _ _ _ _ _ _ _ _ IT n); lia) ltac:(cbn; lia)) as G.
      replace (n - 1 + 1) with n in G by lia. exact G. }
    destruct B as [B|(k & seq & pl & j & V & BA & C & B)]; [change (lenN (@nil N)) with 0 in B; nia|]. rewrite N.add_0_l in BA.
    destruct (block_inv _ _ _ _ _ _ _ _ _ IT _ _ _ BA) as [[-> M]|(Hs & _)]; [cbn in C; lia|].
    assert ((j + 1) * ds <= n * ds) by (apply N.mul_le_mono_r; cbn in C; lia). lia. }
  apply list_ext_N; [rewrite LE, lenN_app, lenN_rep; lia|]. intros i Hi. rewrite LE in Hi. specialize (B1 i ltac:(lia)). rewrite RV, RU in B1.
  pose proof (N.div_mod' i ds) as DM. pose proof (N.mod_lt i ds ltac:(lia)) as ML.
  assert (IJ : i / ds < n) by (apply N.div_lt_upper_bound; lia).
  rewrite nthN_app. destruct (N.ltb_spec i (lenN content)) as [HI|HI]; [apply (restored_byte _ _ _ _ _ _ _ _ _ IT None _ i _ IC B1 HI)|].
  assert (IN : i / ds = n - 1). { assert ((n - 1) < i / ds + 1); [|lia]. apply (N.mul_lt_mono_pos_r ds); lia. }
  rewrite (restored_chunk _ _ _ _ _ _ _ _ _ IT None _ i _ IC B1) by (fold ds; rewrite IN; lia). fold ds. unfold chunk. rewrite nthN_app, lenN_slice.
  destruct (N.ltb_spec (i mod ds) (N.min ds (lenN content - i / ds * ds))); [lia|]. rewrite !nthN_rep.
  destruct (N.ltb_spec (i - lenN content) (n * ds - lenN content)) as [_|L]; [|exfalso; clear - L Hi HI; lia].
  set (m := N.min ds (lenN content - i / ds * ds)) in *. destruct (N.ltb_spec (i mod ds - m) (ds - m)) as [_|L]; [reflexivity|].
  clear - L ML H0. lia.
Qed.

(* C18 for containers. f is an undamaged container of [data]; f' is any file. The decoder found a reference block of
   the container's version and UID, with its metadata. Every block of this version and UID it reads in f' is one of
   the blocks of f (at any place). Then the output has the right length, is right in every chunk that is still
   there, and zero in every other. *)
Theorem c18_damaged_container v uid o rs ms data f n H order cpus limit q f' old dout ref o' len lo :
  intact v uid true o rs ms data f n ->
  match o with Some (d, p, _) => get_meta_by_id ms IRSD = Some (RSD d) /\ get_meta_by_id ms IRSP = Some (RSP p) | None => True end ->
  get_meta_by_id ms IFSZ = Some (FSZ (lenN data)) ->
  1 <= cpus -> bytes_ok f' = true -> lenN f' < 18446744073709551616 -> dc_multi q = None ->
  decode_file H order cpus limit q f' (ToFile old) = ROk dout -> setup q f' ref o' len lo ->
  b_version ref = v -> b_uid ref = uid -> b_data ref = DMeta ms ->
  let bs := ver_to_block_size v in let ds := bs - 16 in
  let reads k seq pl := visited bs f' lo len k /\ block_at v uid f' (lo + k * bs) seq pl in
  (forall k seq pl, reads k seq pl -> exists i, block_at v uid f (i * bs) seq pl) ->
  lenN (do_out dout) = lenN data /\
  forall i, i < lenN data ->
    (forall k seq pl, reads k seq pl -> is_chunk o seq (i / ds) -> nthN (do_out dout) i = nthN data i) /\
    ((forall k seq pl, reads k seq pl -> ~ is_chunk o seq (i / ds)) -> nthN (do_out dout) i = 0).
Proof.
  intros IT MD FZ CP HB HL M E ST RV RU RD bs ds reads OK.
  assert (IC : forall seq j, is_chunk o' seq j <-> is_chunk o seq j).
  { destruct (setup_ok _ _ _ _ _ _ HB HL ST) as (_ & _ & (h & pl & RA & BP & _) & _). pose proof ST as (_ & D & _).
    apply (ref_dpb _ _ _ _ _ _ _ _ BP RA) in D as [_ D]. unfold get_RSD, get_RSP in D. rewrite RD, RV in D.
    assert (RS : ver_uses_rs v = match o with Some _ => true | None => false end) by apply IT. rewrite RS in D. intros seq j.
    destruct o as [[[d p] B]|], o' as [[[d' p'] B']|]; try reflexivity; try (destruct D; discriminate); try discriminate.
    destruct MD as [M1 M2], D as (_ & D1 & D2). rewrite M1 in D1. rewrite M2 in D2. apply ROk_inj in D1, D2. subst. reflexivity. }
  assert (GF : get_FSZ ref = Some (lenN data)) by (unfold get_FSZ, block_get_meta; rewrite RD, FZ; reflexivity).
  pose proof (c18_survivors H order cpus limit q f' old dout ref o' len lo data CP HB HL M E ST GF) as C. cbv zeta in C. rewrite RV, RU in C. fold bs ds in C.
  destruct C as [C1 C2].
  - intros k seq pl j R C r Hr Hj. destruct (OK k seq pl R) as (i & BA). apply IC in C.
    destruct (block_inv _ _ _ _ _ _ _ _ _ IT _ _ _ BA) as [[-> _]|(_ & _ & ->)].
    + exfalso. unfold is_chunk in C. destruct o as [[[d p] B]|]; [destruct C as (s & x & _ & C & _); lia|lia].
    + rewrite (payload_chunk _ _ _ _ _ _ C). apply nth_chunk; assumption.
  - split; [exact C1|]. intros i Hi. destruct (C2 i Hi) as [A B]. split.
    + intros k seq pl R C. apply (A k seq pl R). apply IC, C.
    + intro NO. apply B. intros k seq pl R C. apply (NO k seq pl R). apply IC, C.
Qed.

(* C17 for containers: if in addition every data block of f is somewhere in the part of f' that is read, in any order
   and number, decoding gives the data back. *)
Theorem c17_shuffled_container v uid o rs ms data f n H order cpus limit q f' old dout ref o' len lo :
  intact v uid true o rs ms data f n ->
  match o with Some (d, p, _) => get_meta_by_id ms IRSD = Some (RSD d) /\ get_meta_by_id ms IRSP = Some (RSP p) | None => True end ->
  get_meta_by_id ms IFSZ = Some (FSZ (lenN data)) ->
  1 <= cpus -> bytes_ok f' = true -> lenN f' < 18446744073709551616 -> dc_multi q = None ->
  decode_file H order cpus limit q f' (ToFile old) = ROk dout -> setup q f' ref o' len lo ->
  b_version ref = v -> b_uid ref = uid -> b_data ref = DMeta ms ->
  let bs := ver_to_block_size v in
  let reads k seq pl := visited bs f' lo len k /\ block_at v uid f' (lo + k * bs) seq pl in
  (forall k seq pl, reads k seq pl -> exists i, block_at v uid f (i * bs) seq pl) ->
  (forall i seq pl, block_at v uid f (i * bs) seq pl -> (exists j, is_chunk o seq j) -> exists k, reads k seq pl) ->
  do_out dout = data.
Proof.
  intros IT MD FZ CP HB HL M E ST RV RU RD bs reads OK ALL.
  destruct (c18_damaged_container _ _ _ _ _ _ _ _ _ _ _ _ _ _ _ _ _ _ _ _ IT MD FZ CP HB HL M E ST RV RU RD OK) as [L C].
  apply list_ext_N; [exact L|]. intros i Hi. rewrite L in Hi. destruct (C i Hi) as [A _].
  set (ds := bs - 16). assert (DP : 1 <= ds) by (pose proof (block_size_pos v); unfold ds, bs; lia).
  pose proof (N.div_mod' i ds) as DM. pose proof (N.mod_lt i ds ltac:(lia)) as ML.
  destruct (chunk_seq _ _ _ _ _ _ _ _ _ IT (i / ds)) as (seq & Hs & CH); [fold bs ds; lia|].
  destruct (data_block _ _ _ _ _ _ _ _ _ IT seq Hs) as [BA _].
  destruct (ALL _ _ _ BA (ex_intro _ _ CH)) as (k & R). exact (A k seq _ R CH).
Qed.

Definition toy_q : dparam := mkDparam (Prefer TMeta) None None None false None None None false None.
(* The burst level does have to be told if it is larger than 1000 and the file is empty: when the second copy of the
   metadata block is not among the blocks sampled, decoding with the default options gives an error. *)
Theorem c16_empty_large_burst H rs p cpus d par B mx n :
  enc_ok H rs cpus p -> meta_fits H p -> e_from p = None -> e_to p = None -> meta_on p = true ->
  e_dpb p = Some (d, par, B) -> par + 1001 <= B ->
  ver_to_max_data_file_size (e_ver p) (e_dpb p) = ROk mx -> block_count (e_ver p) (e_dpb p) 0 n ->
  exists out, encode_file H rs cpus p (SrcFile []) = ROk out /\ eo_err out = false /\
  forall order cpus' limit q old,
    plain q -> (dc_choice q = Any \/ dc_choice q = Prefer TMeta \/ dc_choice q = MustBe TMeta) -> dc_burst q = None ->
    decode_file H order cpus' limit q (eo_file out) (ToFile old) = RErr OtherError.
Proof.
  intros OK F EF ET ME EO HB HMX HBC.
  assert (DD : 1 <= d). { destruct OK as (_ & _ & O & _). rewrite EO in O. apply O. }
  assert (N0 : n = 0).
  { destruct HBC as (c & (_ & C2) & HC). rewrite EO in HC. destruct HC as (s & (_ & S2) & ->). assert (c = 0) by (specialize (C2 0 ltac:(lia)); lia). subst c. specialize (S2 0 ltac:(lia)). lia. }
  destruct (c38_encoded_container_is_the_file H rs p cpus [] mx n OK F ltac:(split; [reflexivity|vm_compute; reflexivity]) EF ET HMX (N.le_0_l mx) HBC ltac:(rewrite N0; reflexivity)) as (out & E & EN).
  exists out. split; [exact E|]. split; [apply EN|]. intros order cpus' limit q old PQ CH BU.
  destruct (encoded_intact H rs cpus p [] out n OK eq_refl EN HBC ltac:(rewrite N0; discriminate)) as [IT FL].
  destruct (ref_meta _ _ _ _ _ _ _ _ _ IT (dc_choice q) (dc_misalign q) FL ME CH) as (ref & GR & RV & RU & RDT).
  pose proof PQ as (P1 & P2 & P3 & P4 & P5 & P6).
  assert (RD : get_RSD ref = ROk d) by (unfold get_RSD; rewrite RDT; unfold recorded; rewrite EO; destruct (e_in_name p), (e_fdt p); reflexivity).
  assert (RP : get_RSP ref = ROk par) by (unfold get_RSP; rewrite RDT; unfold recorded; rewrite EO; destruct (e_in_name p), (e_fdt p); reflexivity).
  assert (RS : ver_uses_rs (e_ver p) = true). { destruct IT as (_ & _ & _ & _ & _ & X & _). rewrite X, EO. reflexivity. }
  unfold decode_file. rewrite P1, P2, P4. cbn [ref_from_pos]. rewrite GR. cbn [rbind]. destruct (_ && _ && _); [reflexivity|]. unfold decode.
  unfold get_data_par_burst, get_burst_or_guess. rewrite BU, P3, P4. cbn [guess_from_param]. rewrite RV, RS, RD, RP. cbn [rbind]. unfold is_data, block_type_of. rewrite RDT.
  rewrite (guess_empty _ _ _ _ _ _ _ _ _ IT d par B ref (dc_misalign q) EO RV RU RD RP N0 HB). reflexivity.
Qed.
Theorem c16_large_burst_refuted : exists p out,
  enc_ok toy_hash toy_rs 4 p /\ meta_fits toy_hash p /\ e_from p = None /\ e_to p = None /\ meta_on p = true /\
  encode_file toy_hash toy_rs 4 p (SrcFile []) = ROk out /\ eo_err out = false /\ plain toy_q /\
  decode_file toy_hash (fun l => l) 4 0%nat toy_q (eo_file out) (ToFile None) = RErr OtherError.
Proof.
  assert (OK : enc_ok toy_hash toy_rs 4 (toy_p V18 (Some (1, 1, 1003)))) by (apply toy_ok; [cbn; lia|reflexivity|lia]).
  assert (F : meta_fits toy_hash (toy_p V18 (Some (1, 1, 1003)))) by (intros _; vm_compute; discriminate).
  destruct (c16_empty_large_burst toy_hash toy_rs (toy_p V18 (Some (1, 1, 1003))) 4 1 1 1003 _ 0 OK F eq_refl eq_refl eq_refl eq_refl ltac:(lia) ltac:(vm_compute; reflexivity)) as (out & E & EE & D).
  { apply block_count_iff; vm_compute; repeat split; congruence. }
  exists (toy_p V18 (Some (1, 1, 1003))), out. repeat (split; [assumption || reflexivity || (repeat split; reflexivity)|]). apply D; [repeat split; reflexivity|auto|reflexivity].
Qed.

(* A container of 1200 bytes: the decoder gives them back; with a data block overwritten its bytes are zero; with
   the blocks in reverse order, and some other bytes between, the file is the same. *)
Definition toy_content : list N := map (fun i => i mod 251) (rangeN 0 1200).
Definition toy_file : list N := match encode_file toy_hash toy_rs 4 (toy_p V17 toy_o) (SrcFile toy_content) with ROk out => eo_file out | _ => [] end.
Definition toy_decode (f : file) : list N := match decode_file toy_hash (fun l => l) 2 0%nat toy_q f (ToFile None) with ROk x => do_out x | _ => [] end.
Example c16_run : toy_decode toy_file = toy_content.
Proof. vm_compute. reflexivity. Qed.
Example c16_hypotheses : enc_ok toy_hash toy_rs 4 (toy_p V17 toy_o) /\ meta_fits toy_hash (toy_p V17 toy_o) /\ input_ok (SrcFile toy_content) /\
  (exists mx, ver_to_max_data_file_size V17 toy_o = ROk mx /\ lenN toy_content <= mx) /\ meta_on (toy_p V17 toy_o) = true /\ plain toy_q /\
  block_count V17 toy_o (lenN toy_content) 5 /\ 5 < U32_MAX.
Proof.
  split; [apply toy_ok; vm_compute; repeat split; congruence|]. split; [intros _; vm_compute; discriminate|]. split; [split; vm_compute; reflexivity|].
  split; [eexists; split; [vm_compute; reflexivity|vm_compute; discriminate]|]. split; [reflexivity|]. split; [repeat split; reflexivity|].
  split; [apply block_count_iff; vm_compute; repeat split; congruence|reflexivity].
Qed.
Definition toy_blocks (f : file) : list (list N) := map (fun k => sliceN (k * 512) 512 f) (rangeN 0 (lenN f / 512)).
Example c17_run : toy_decode (concat (rev (toy_blocks toy_file))) = toy_content /\
  toy_decode (concat (flat_map (fun b => [repN 512 7; b; b]) (rev (toy_blocks toy_file)))) = toy_content.
Proof. vm_compute. split; reflexivity. Qed.
Example c18_run : toy_decode (takeN 1024 toy_file ++ repN 512 255 ++ dropN 1536 toy_file) = toy_content /\
  toy_decode (takeN 512 toy_file ++ repN 512 255 ++ dropN 1024 toy_file) = repN 496 0 ++ dropN 496 toy_content.
Proof. vm_compute. split; reflexivity. Qed.
(* multi-pass: the first chunk is not blank and stays, the second and the missing third are filled in *)
Example c23_run : match decode_file toy_hash (fun l => l) 2 0%nat (mkDparam (Prefer TMeta) None None None false (Some SkipGood) None None false None)
    toy_file (ToFile (Some (repN 496 9 ++ repN 496 0))) with
  | ROk x => do_out x | _ => [] end = repN 496 9 ++ dropN 496 toy_content.
Proof. vm_compute. reflexivity. Qed.
(* the hypotheses of c17_shuffled_container and c18_damaged_container hold of it *)
Example c18_hypotheses : exists n ref o', intact V17 [1;2;3;4;5;6] true toy_o toy_rs (recorded toy_hash (toy_p V17 toy_o) toy_content) toy_content toy_file n /\
  setup toy_q toy_file ref o' (N.max 1 (lenN toy_file)) 0 /\ b_version ref = V17 /\ b_uid ref = [1;2;3;4;5;6] /\
  b_data ref = DMeta (recorded toy_hash (toy_p V17 toy_o) toy_content).
Proof.
  destruct c16_hypotheses as (OK & F & IO & (mx & HMX & HL) & ME & PQ & HBC & HN).
  destruct (c38_encoded_container_is_the_file toy_hash toy_rs (toy_p V17 toy_o) 4 toy_content mx 5 OK F IO eq_refl eq_refl HMX HL HBC HN) as (out & E & EN).
  assert (EF : toy_file = eo_file out) by (unfold toy_file; rewrite E; reflexivity). rewrite EF.
  destruct (encoded_intact toy_hash toy_rs 4 (toy_p V17 toy_o) toy_content out 5 OK ltac:(apply IO) EN HBC ltac:(lia)) as [IT FL].
  destruct (setup_meta _ _ _ _ _ _ _ _ _ toy_q IT FL PQ eq_refl ltac:(auto)) as (ref & o' & ST & RV & RU & RD & _); [cbn; repeat split; vm_compute; congruence|].
  exists 5, ref, o'. split; [exact IT|]. split; [exact ST|]. auto.
Qed.

Print Assumptions c16_roundtrip.
Print Assumptions c16_roundtrip_no_metadata.
Print Assumptions c16_empty_large_burst.
Print Assumptions c16_large_burst_refuted.
Print Assumptions c17_shuffled_container.
Print Assumptions c18_damaged_container.
Print Assumptions c17_decoded_file.
Print Assumptions c17_decode_statistics.
Print Assumptions c17_same_blocks_same_file.
Print Assumptions c18_survivors.
Print Assumptions c23_decode_skip_good.
Print Assumptions c27_decode_ends.
