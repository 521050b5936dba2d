(* Encoding and decoding together. *)
From Verif Require Import M_Base M_Specs M_Crc M_Header M_Multihash M_Metadata M_Block M_Index M_FileUtils M_Buffer M_Ranges M_Encode M_Scan M_Loop M_Decode
  S_Crc S_Meta S_Block S_Index S_Container S_Encode S_Scan S_Decode
  L_Base L_Crc L_File L_Header L_Index L_Index2 L_Block L_Scan L_Container L_Ref L_Ranges L_Decode L_Decode2 L_Guess L_Intact L_Intact2 P_Decode.

Lemma encoded_intact H rs cpus p data out n : enc_ok H rs cpus p -> bytes_ok data = true -> encoded H rs p data out ->
  block_count (e_ver p) (e_dpb p) (lenN data) n -> n <= U32_MAX ->
  intact (e_ver p) (e_uid p) (meta_on p) (e_dpb p) rs (recorded H p data) data (eo_file out) n /\
  lenN (eo_file out) < 18446744073709551616.
Proof.
  intros (U1 & U2 & O1 & O2 & O3 & _ & _ & _ & _ & _ & HC & _) HD (_ & HM & _) BC HN.
  assert (IT : intact (e_ver p) (e_uid p) (meta_on p) (e_dpb p) rs (recorded H p data) data (eo_file out) n).
  { split; [exact U1|]. split; [exact U2|]. split; [exact HD|]. split; [exact O1|]. split; [exact HC|]. split; [exact O2|]. split.
    - intro NE. unfold meta_on. destruct (e_dpb p) as [x|]; [|congruence]. revert O2. destruct (e_ver p); cbn; congruence.
    - split; [exact BC|]. split; [exact HN|]. destruct HM as (meta & HM1 & HM2). exists meta. split; [exact HM1|]. intro X. apply (HM2 X). }
  split; [exact IT|]. apply (file_len_bound _ _ _ _ _ _ _ _ _ IT). destruct (e_dpb p) as [[[d q] B]|]; [|exact Logic.I].
  destruct O1 as (D1 & P1 & _). unfold U32_MAX. nia.
Qed.

Lemma setup_unique p f r1 o1 l1 lo1 r2 o2 l2 lo2 : setup p f r1 o1 l1 lo1 -> setup p f r2 o2 l2 lo2 -> r1 = r2 /\ o1 = o2 /\ l1 = l2 /\ lo1 = lo2.
Proof.
  intros ((x & A) & B & C) ((x' & A') & B' & C'). rewrite A in A'. apply ROk_inj, Some_inj, pair_inj in A' as [_ <-].
  rewrite B in B'. apply ROk_inj in B'. rewrite C in C'. apply pair_inj in C' as [<- <-]. auto.
Qed.

(* decoding with the default options: whole file, nothing told about the layout except possibly the burst level *)
Definition plain (q : dparam) : Prop :=
  dc_ref_from q = None /\ dc_ref_to q = None /\ dc_guess q = None /\ dc_from q = None /\ dc_to q = None /\ dc_multi q = None.

Section RT.
Variables (v : version) (uid : list N) (me : bool) (o : dpb) (rs : codec) (ms : list metadata) (data f : list N) (n : N) (q : dparam).
Hypothesis IT : intact v uid me o rs ms data f n.
Hypothesis FL : lenN f < 18446744073709551616.
Hypothesis PL : plain q.
Lemma plain_range ref : scan_range q f ref = (N.max 1 (lenN f), 0).
Proof using FL PL.
  destruct PL as (_ & _ & _ & F & T & _). unfold scan_range. rewrite F, T. apply range_whole; [|exact FL].
  cbn [mult_of]. pose proof (block_size_pos (b_version ref)). lia.
Qed.
Lemma setup_meta_large : me = true -> (dc_choice q = Any \/ dc_choice q = Prefer TMeta \/ dc_choice q = MustBe TMeta) ->
  match o with
  | Some (d, p, B) => get_meta_by_id ms IRSD = Some (RSD d) /\ get_meta_by_id ms IRSP = Some (RSP p) /\ (dc_burst q = None -> B <= SBX_MAX_BURST_ERR_RESISTANCE \/ 1 <= n)
  | None => True end ->
  exists ref o', setup q f ref o' (N.max 1 (lenN f)) 0 /\ b_version ref = v /\ b_uid ref = uid /\ b_data ref = DMeta ms /\
    (forall seq j, is_chunk o' seq j <-> is_chunk o seq j).
Proof using IT FL PL.
  intros ME CH MD. destruct (ref_meta _ _ _ _ _ _ _ _ _ IT (dc_choice q) (dc_misalign q) FL ME CH) as (ref & GR & RV & RU & RDT).
  pose proof PL as (P1 & P2 & P3 & P4 & P5 & P6).
  assert (EX : exists o', get_data_par_burst f (dc_burst q) (guess_from_param (dc_guess q) (dc_from q)) (dc_misalign q) ref = ROk o' /\ forall seq j, is_chunk o' seq j <-> is_chunk o seq j).
  { unfold get_data_par_burst. rewrite RV. assert (RS : ver_uses_rs v = match o with Some _ => true | None => false end) by apply IT.
    destruct o as [[[d p] B]|] eqn:EO; rewrite RS; [|exists None; split; [reflexivity|tauto]]. destruct MD as (M1 & M2 & M3).
    assert (RD : get_RSD ref = ROk d) by (unfold get_RSD; rewrite RDT, M1; reflexivity).
    assert (RP : get_RSP ref = ROk p) by (unfold get_RSP; rewrite RDT, M2; reflexivity).
    rewrite RD, RP. cbn [rbind]. unfold get_burst_or_guess. rewrite P3, P4. cbn [guess_from_param].
    destruct (dc_burst q) as [b|]; [cbn [rbind]; exists (Some (d, p, b)); split; [reflexivity|tauto]|].
    rewrite RV, RS. unfold is_data, block_type_of. rewrite RDT.
    assert (GS : exists g, guess_burst f None (dc_misalign q) ref = ROk (Some g)).
    { destruct (N.lt_ge_cases B LEVELS) as [L|L].
      - destruct (guess_intact _ _ _ _ _ _ _ _ _ IT d p B ref (dc_misalign q) eq_refl RV RU RD RP L) as (g & G & _). eauto.
      - apply (guess_large _ _ _ _ _ _ _ _ _ IT d p B ref (dc_misalign q) eq_refl RV RU RD RP); [|exact L]. unfold LEVELS in L. destruct (M3 eq_refl); [lia|assumption]. }
    destruct GS as (g & G). rewrite G. cbn [rbind]. exists (Some (d, p, g)). split; [reflexivity|tauto]. }
  destruct EX as (o' & GD & IC). exists ref, o'. split; [|auto]. split.
  - exists 0. rewrite P1, P2, P4. exact GR.
  - split; [exact GD|apply plain_range].
Qed.
Lemma setup_meta : me = true -> (dc_choice q = Any \/ dc_choice q = Prefer TMeta \/ dc_choice q = MustBe TMeta) ->
  match o with
  | Some (d, p, B) => get_meta_by_id ms IRSD = Some (RSD d) /\ get_meta_by_id ms IRSP = Some (RSP p) /\ (dc_burst q = None -> B <= SBX_MAX_BURST_ERR_RESISTANCE)
  | None => True end ->
  exists ref o', setup q f ref o' (N.max 1 (lenN f)) 0 /\ b_version ref = v /\ b_uid ref = uid /\ b_data ref = DMeta ms /\
    (forall seq j, is_chunk o' seq j <-> is_chunk o seq j).
Proof using IT FL PL.
  intros ME CH MD. apply setup_meta_large; try assumption. destruct o as [[[d p] B]|]; [|exact Logic.I]. destruct MD as (M1 & M2 & M3). auto.
Qed.
Lemma setup_data : me = false -> 1 <= n -> (dc_choice q = Any \/ (exists t, dc_choice q = Prefer t) \/ dc_choice q = MustBe TData) ->
  exists ref, setup q f ref None (N.max 1 (lenN f)) 0 /\ b_version ref = v /\ b_uid ref = uid /\ b_data ref = DData /\ o = None.
Proof using IT FL PL.
  intros ME N1 CH. assert (EO : o = None) by (pose proof (MEON _ _ _ _ _ _ _ _ _ IT) as MO; destruct o as [x|]; [rewrite MO in ME; discriminate|reflexivity]).
  destruct (ref_data _ _ _ _ _ _ _ _ _ IT (dc_choice q) (dc_misalign q) FL ME N1 CH) as (ref & GR & RV & RU & RDT).
  pose proof PL as (P1 & P2 & P3 & P4 & P5 & P6). exists ref. split; [|auto]. split; [exists 0; rewrite P1, P2, P4; exact GR|]. split; [|apply plain_range].
  unfold get_data_par_burst. rewrite RV. assert (RS : ver_uses_rs v = match o with Some _ => true | None => false end) by apply IT.
  rewrite RS, EO. reflexivity.
Qed.
End RT.
