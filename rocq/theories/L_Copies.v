From Coq Require Import String Ascii Permutation.
From Verif Require Import M_Base M_Specs M_Header M_Multihash M_Metadata M_Block M_Index M_FileUtils M_Buffer M_Ranges M_Encode M_Scan M_Loop M_Decode
  S_Crc S_Meta S_Block S_Index S_Container S_Encode S_Scan S_Decode S_Copies L_Base L_File L_Index L_Index2 L_Block L_Scan L_Ref L_Ranges L_Decode L_Decode2 L_Intact L_Roundtrip P_Scan P_Decode P_Roundtrip.

(* one pass *)
Section Pass.
Variables (cpus : N) (p : dparam) (f : file) (ref : block) (o : dpb) (len lo : N) (x data : file).
Hypothesis CP : 1 <= cpus.
Hypothesis HB : bytes_ok f = true.
Hypothesis HO : dpb_ok o.
Let bs := ver_to_block_size (b_version ref).
Let ds := bs - 16.
Let reads k seq pl := visited bs f lo len k /\ block_at (b_version ref) (b_uid ref) f (lo + k * bs) seq pl.
Hypothesis OK : forall k seq pl j, reads k seq pl -> is_chunk o seq j -> forall r, r < ds -> j * ds + r < lenN data -> nthN pl r = nthN data (j * ds + r).
Let raw := raw_out cpus p f ref o x len lo.
Lemma found_dec j n : (exists k pl, k < n /\ holds f ref o lo k j pl) \/ (forall k pl, k < n -> ~ holds f ref o lo k j pl).
Proof using All.
  induction n as [|n IH] using N.peano_ind; [right; intros; lia|]. destruct IH as [(k & pl & L & X)|X]; [left; exists k, pl; split; [lia|exact X]|].
  destruct (step_cases cpus f ref o false lo HB HO [] n) as [(j' & pl & H & _)|[H _]].
  - destruct (N.eq_dec j' j) as [->|NE]; [left; exists n, pl; split; [lia|exact H]|]. right. intros k pl' L H'.
    destruct (N.eq_dec k n) as [->|]; [|apply (X k pl'); [lia|exact H']]. assert (Q : j' = j) by (apply (holds_fun f ref o lo HO _ _ _ _ _ H H')). congruence.
  - right. intros k pl' L H'. destruct (N.eq_dec k n) as [->|]; [exact (H _ _ H')|apply (X k pl'); [lia|exact H']].
Qed.
Lemma ds_eq : ds = ver_to_data_size (b_version ref) /\ 1 <= ds /\ 1 <= bs.
Proof using All. pose proof (data_size_pos (b_version ref)) as [DP DE]. fold bs in DE. fold ds in DE. pose proof (block_size_pos (b_version ref)). fold bs in H. split; [symmetry; exact DE|]. split; lia. Qed.
Lemma holds_right k j pl : k < nvisit bs f lo len -> holds f ref o lo k j pl -> forall i, i / ds = j -> i < lenN data -> nthN pl (i mod ds) = nthN data i.
Proof using All.
  intros K (seq & B & C) i HI HL. destruct ds_eq as (DE & DP & BP). pose proof (N.div_mod' i ds) as DM. pose proof (N.mod_lt i ds ltac:(lia)) as ML.
  rewrite (OK k seq pl j) with (r := i mod ds); [f_equal; rewrite HI in DM; lia| |exact C|exact ML|rewrite HI in DM; lia].
  split; [apply visited_iff; assumption|exact B].
Qed.
Lemma pass_raw : incomplete ds data x -> forall j,
  ((exists k seq pl, reads k seq pl /\ is_chunk o seq j) /\ has_part ds data raw j) \/
  ((forall k seq pl, reads k seq pl -> ~ is_chunk o seq j) /\ forall i, i / ds = j -> nthN raw i = nthN x i).
Proof using All.
  intros INC j. destruct ds_eq as (DE & DP & BP). set (n := nvisit bs f lo len).
  assert (AN : forall i, i / ds = j -> (exists k pl, k < n /\ holds f ref o lo k j pl /\ nthN raw i = nthN pl (i mod ds)) \/ nthN raw i = nthN x i).
  { intros i HI. pose proof (out_any cpus f ref o (is_skip_good (dc_multi p)) lo CP HB HO x n i) as A. rewrite <- DE, HI in A. exact A. }
  destruct (found_dec j n) as [(k & pl & K & HK)|NF].
  - left. split. { destruct HK as (seq & B & C). exists k, seq, pl. split; [split; [apply visited_iff; assumption|exact B]|exact C]. }
    intros i HI HL. destruct (INC j) as [HX|LX].
    + destruct (AN i HI) as [(k' & pl' & K' & H' & ->)| -> ]; [exact (holds_right k' j pl' K' H' i HI HL)|exact (HX i HI HL)].
    + destruct (is_skip_good (dc_multi p)) eqn:SG.
      * destruct (skip_fills cpus f ref o (is_skip_good (dc_multi p)) lo CP HB HO x n j SG) as [(k' & pl' & K' & H' & E')|[X _]].
        -- apply blank_nth. intro r. rewrite <- DE. rewrite nthN_slice. destruct (N.ltb_spec r ds); [|reflexivity]. apply LX. symmetry. apply N.div_unique with (r := r); lia.
        -- rewrite <- (holds_right k' j pl' K' H' i HI HL), <- E', <- DE. unfold raw, raw_out. fold bs n. rewrite nthN_slice.
           pose proof (N.div_mod' i ds) as DM. pose proof (N.mod_lt i ds ltac:(lia)) as ML. destruct (N.ltb_spec (i mod ds) ds); [|lia]. f_equal. rewrite HI in DM. lia.
        -- exfalso. exact (X k pl K HK).
      * destruct (out_bytes cpus f ref o (is_skip_good (dc_multi p)) lo CP HB HO x n i SG) as [(k' & pl' & K' & H' & E' & _)|[X _]].
        -- rewrite <- DE, HI in H'. rewrite <- DE in E'. unfold raw, raw_out. fold bs n. rewrite E'. exact (holds_right k' j pl' K' H' i HI HL).
        -- exfalso. rewrite <- DE, HI in X. exact (X k pl K HK).
  - right. split.
    + intros k seq pl [V B] C. apply visited_iff in V; [|exact BP]. apply (NF k pl V). exists seq. auto.
    + intros i HI. destruct (AN i HI) as [(k' & pl' & K' & H' & _)|E]; [exfalso; exact (NF k' pl' K' H')|exact E].
Qed.
End Pass.

(* a copy of a container *)
Section Copy.
Variables (v : version) (uid : list N) (o : dpb) (rs : codec) (ms : list metadata) (data f0 : list N) (n : N).
Hypothesis IT : intact v uid true o rs ms data f0 n.
Hypothesis MD : match o with Some (d, p, _) => get_meta_by_id ms IRSD = Some (RSD d) /\ get_meta_by_id ms IRSP = Some (RSP p) | None => True end.
Hypothesis FZ : get_meta_by_id ms IFSZ = Some (FSZ (lenN data)).
Let bs := ver_to_block_size v.
Let ds := bs - 16.
Lemma copy_visited g k : visited bs g 0 (N.max 1 (lenN g)) k <-> (k + 1) * bs <= lenN g.
Proof. pose proof (block_size_pos v) as BP. fold bs in BP. unfold visited. rewrite N.add_0_l. split; [intros [_ X]; exact X|]. intro X. split; [nia|exact X]. Qed.
Lemma copy_ref g choice mis : copy_of v uid f0 g -> (choice = Prefer TMeta \/ choice = MustBe TMeta) ->
  exists pos ref, get_ref_block g None None mis choice = ROk (Some (pos, ref)) /\ b_version ref = v /\ b_uid ref = uid /\ b_data ref = DMeta ms.
Proof using All.
  intros (GB & GL & (pos0 & h0 & pl0 & i & FB & V & U & B) & _) CH.
  pose proof (get_ref_block_ok g None None mis choice GB) as K. rewrite range_whole in K by (exact GL || (unfold mult_of, SBX_SCAN_BLOCK_SIZE; lia)).
  destruct (K ltac:(lia)) as (r & E & R). clear K. rewrite E. clear E. rewrite N.add_0_l in R.
  assert (L1 : N.max 1 (lenN g) = lenN g).
  { destruct FB as (LD & _). assert (0 < lenN g) by (clear - LD; induction LD; [assumption|lia]). lia. }
  rewrite L1 in R. pose proof FB as (LD & W & T & FST).
  assert (F : found g 0 (lenN g) (of_type TMeta) r).
  { destruct CH as [-> | ->]; cbn [ref_spec] in R; [destruct R as [[_ R]|[R _]]; [exact R|exfalso; exact (R _ _ _ LD W T)]|exact R]. }
  destruct r as [[pos b]|]; cbn [found] in F; [|exfalso; exact (F _ _ _ LD W T)].
  destruct F as (h & pl & (LD' & W' & T' & FST') & RH & RD). rewrite N.add_0_l in LD', W', FST'.
  assert (PE : pos = pos0).
  { destruct (N.lt_trichotomy pos pos0) as [X|[X|X]]; [exfalso; exact (FST _ _ _ LD' X W' T')|exact X|exfalso; exact (FST' _ _ _ LD X W T)]. }
  subst pos0. destruct (wf_unique _ _ _ _ _ W' W) as [-> ->]. cbn [of_type] in T. rewrite T in RD. cbn in RD.
  exists pos, b. split; [reflexivity|]. unfold b_version, b_uid. rewrite RH. split; [exact V|]. split; [exact U|]. rewrite RD. f_equal.
  destruct (block_inv _ _ _ _ _ _ _ _ _ IT _ _ _ B) as [[_ M]|(A & _)]; [|lia].
  destruct (meta_blk _ _ _ _ _ _ _ _ _ IT i M) as (_ & h' & pl' & W2 & V' & U' & S' & <-).
  assert (B' : block_at v uid f0 (i * bs) 0 pl') by (exists h'; auto). destruct (block_at_unique _ _ _ _ _ _ _ _ B B') as [_ ->]. reflexivity.
Qed.
Lemma copy_setup q g : copy_of v uid f0 g -> whole_copy o q ->
  exists ref o', setup q g ref o' (N.max 1 (lenN g)) 0 /\ b_version ref = v /\ b_uid ref = uid /\ b_data ref = DMeta ms /\ (forall seq j, is_chunk o' seq j <-> is_chunk o seq j).
Proof using All.
  intros CO (P1 & P2 & P3 & P4 & P5 & CH & BU). destruct (copy_ref g (dc_choice q) (dc_misalign q) CO CH) as (pos & ref & GR & RV & RU & RD).
  assert (EX : exists o', get_data_par_burst g (dc_burst q) (guess_from_param (dc_guess q) (dc_from q)) (dc_misalign q) ref = ROk o' /\ (forall seq j, is_chunk o' seq j <-> is_chunk o seq j)).
  { unfold get_data_par_burst. rewrite RV. assert (RS : ver_uses_rs v = match o with Some _ => true | None => false end) by apply IT.
    destruct o as [[[d p] B]|]; rewrite RS; [|exists None; split; reflexivity]. destruct MD as (M1 & M2).
    assert (RDD : get_RSD ref = ROk d) by (unfold get_RSD; rewrite RD, M1; reflexivity).
    assert (RP : get_RSP ref = ROk p) by (unfold get_RSP; rewrite RD, M2; reflexivity).
    rewrite RDD, RP. cbn [rbind]. unfold get_burst_or_guess. destruct (dc_burst q) as [b|]; [|destruct BU as [BU|BU]; [discriminate BU|contradiction]].
    cbn [rbind]. exists (Some (d, p, b)). split; reflexivity. }
  destruct EX as (o' & GD & EO). exists ref, o'. split; [|auto].
  split; [exists pos; rewrite P1, P2, P4; exact GR|]. split; [exact GD|]. destruct CO as (_ & GL & _).
  unfold scan_range. rewrite P4, P5. apply range_whole; [|exact GL]. cbn [mult_of]. pose proof (block_size_pos (b_version ref)). lia.
Qed.
Lemma copy_pass H order cpus limit q g old out : 1 <= cpus -> copy_of v uid f0 g -> whole_copy o q ->
  decode_file H order cpus limit q g (ToFile old) = ROk out -> let x := start_file q old in incomplete ds data x ->
  lenN (do_out out) = lenN data /\ forall j,
    (holds_part v uid o g j /\ has_part ds data (do_out out) j) \/
    (~ holds_part v uid o g j /\ (has_part ds data x j -> has_part ds data (do_out out) j) /\ (lacks_part ds x j -> lacks_part ds (do_out out) j)).
Proof using All.
  intros CP CO WQ E x INC. pose proof CO as (GB & GL & _ & ALL).
  destruct (decode_file_char _ _ _ _ _ _ _ _ CP GB GL E) as (ref & o' & len & lo & ST & EO). fold x in EO.
  destruct (copy_setup q g CO WQ) as (ref1 & o1 & ST1 & RV & RU & RD & IC).
  destruct (setup_unique _ _ _ _ _ _ _ _ _ _ ST ST1) as (-> & -> & -> & ->).
  destruct (setup_ok _ _ _ _ _ _ GB GL ST) as (HO & _). cbv zeta in EO.
  assert (GF : get_FSZ ref1 = Some (lenN data)) by (unfold get_FSZ, block_get_meta; rewrite RD, FZ; reflexivity). rewrite GF in EO.
  set (raw := raw_out cpus q g ref1 o1 x (N.max 1 (lenN g)) 0) in *. subst out. cbn [do_out]. split; [apply lenN_set_len|].
  assert (NR : forall i, i < lenN data -> nthN (file_set_len raw (lenN data)) i = nthN raw i) by (intros i Hi; apply (nthN_fsz raw (Some (lenN data))); rewrite lenN_set_len; exact Hi).
  assert (NZ : forall i, lenN data <= i -> nthN (file_set_len raw (lenN data)) i = 0) by (intros i Hi; apply nthN_out; rewrite lenN_set_len; exact Hi).
  intro j. destruct (pass_raw cpus q g ref1 o1 (N.max 1 (lenN g)) 0 x data CP GB HO) with (j := j) as [[F HP]|[F KP]].
  - rewrite RV, RU. fold bs ds. intros k seq pl j' [VK BK] C r Hr Hj. rewrite N.add_0_l in BK. apply copy_visited in VK. destruct (ALL k seq pl VK BK) as (i & BA). apply IC in C.
    destruct (block_inv _ _ _ _ _ _ _ _ _ IT _ _ _ BA) as [[-> _]|(_ & _ & ->)].
    + exfalso. unfold is_chunk in C. destruct o as [[[d p] B]|]; [destruct C as (s & y & _ & C & _); lia|lia].
    + rewrite (payload_chunk _ _ _ _ _ _ C). apply nth_chunk; assumption.
  - rewrite RV. exact INC.
  - left. rewrite RV, RU in F. fold bs in F. rewrite RV in HP. fold bs in HP. fold ds in HP. fold raw in HP. split.
    + destruct F as (k & seq & pl & [VK BK] & C). exists k, seq, pl. fold bs. rewrite N.add_0_l in BK. split; [apply copy_visited, VK|]. split; [exact BK|]. apply IC, C.
    + intros i HI HL. rewrite NR by exact HL. exact (HP i HI HL).
  - right. rewrite RV, RU in F. fold bs in F. rewrite RV in KP. fold bs in KP. fold ds in KP. fold raw in KP. split; [|split].
    + intros (k & seq & pl & VK & BK & C). fold bs in VK, BK. apply (F k seq pl); [split; [apply copy_visited, VK|rewrite N.add_0_l; exact BK]|apply IC, C].
    + intros HX i HI HL. rewrite NR, (KP i HI) by exact HL. exact (HX i HI HL).
    + intros LX i HI. destruct (N.lt_ge_cases i (lenN data)) as [L|L]; [rewrite NR, (KP i HI) by exact L; exact (LX i HI)|exact (NZ i L)].
Qed.
End Copy.
