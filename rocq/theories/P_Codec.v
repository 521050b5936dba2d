(* C44: the Reed-Solomon code, and repair with it. *)
From Verif Require Import M_Base M_Specs M_Crc M_Header M_Multihash M_Metadata M_Block M_Index M_FileUtils M_Buffer M_Ranges M_Encode M_Scan M_Loop M_Decode M_Repair M_Codec
  S_Crc S_Meta S_Block S_Index S_Container S_Scan S_Decode S_Encode S_Repair
  L_Base L_Buffer L_Repair2 L_Repair6 L_Repair8 L_Container L_Roundtrip L_Repair9 L_Codec P_Encode P_Roundtrip P_Repair.

(* C44. Any d shards of a code word, wherever they are, give back the whole code word; what is in the places of the others
   does not matter. With fewer, nothing is made up: the result is an error. *)
Theorem c44_any_d_shards d p n data sh : 1 <= d -> d + p <= 256 ->
  lenN data = d -> (forall x, In x data -> lenN x = n /\ bytes_ok x = true) ->
  let word := data ++ rs_encode d p data in
  lenN sh = d + p -> (forall x b, In (x, b) sh -> lenN x = n /\ bytes_ok x = true) ->
  (forall i x, getN sh i = Some (x, true) -> getN word i = Some x) ->
  rs_reconstruct d p sh = if d <=? countN snd sh then Some word else None.
Proof.
  intros D DP LD HD word LS HS A. pose proof (rs_reconstruct_ok d p D DP n sh LS HS) as R. destruct (d <=? countN snd sh); [|exact R].
  destruct R as (out & -> & _ & _ & _ & C). f_equal. apply C; assumption.
Qed.
Print Assumptions c44_any_d_shards.

(* The parity has the right shape, and all assumptions the theorems about encoding and repair make on the library hold. *)
Theorem c44_codec d p B : 1 <= d -> d + p <= 256 ->
  codec_ok rs_encode (Some (d, p, B)) /\ recon_ok rs_encode rs_reconstruct d p.
Proof. intros D DP. split; [apply rs_encode_ok|apply rs_reconstruct_ok]; assumption. Qed.
Print Assumptions c44_codec.

(* Code words of different data differ in at least p + 1 of the d + p shards: a change of p shards or fewer never turns
   a code word into another. *)
Theorem c44_distance d p n a b : 1 <= d -> d + p <= 256 ->
  lenN a = d -> (forall x, In x a -> lenN x = n /\ bytes_ok x = true) -> lenN b = d -> (forall x, In x b -> lenN x = n /\ bytes_ok x = true) -> a <> b ->
  p + 1 <= countN (fun k => negb (eqbl (fst k) (snd k))) (combine (a ++ rs_encode d p a) (b ++ rs_encode d p b)).
Proof.
  intros D DP LA HA LB HB NE.
  destruct (rs_encode_ok d p 0 D DP n a LA HA) as [LWA HWA]. destruct (rs_encode_ok d p 0 D DP n b LB HB) as [LWB HWB].
  set (wa := a ++ rs_encode d p a) in *. set (wb := b ++ rs_encode d p b) in *.
  assert (La : lenN wa = d + p) by (unfold wa; rewrite lenN_app; lia). assert (Lb : lenN wb = d + p) by (unfold wb; rewrite lenN_app; lia).
  pose proof (countN_split (fun k : list N * list N => eqbl (fst k) (snd k)) (combine wa wb)) as S.
  assert (LC : lenN (combine wa wb) = d + p) by (unfold lenN in *; rewrite combine_length; lia). rewrite LC in S.
  destruct (N.lt_ge_cases (countN (fun k => eqbl (fst k) (snd k)) (combine wa wb)) d) as [LT|GE]; [lia|]. exfalso. apply NE.
  set (sh := map (fun k : list N * list N => (fst k, eqbl (fst k) (snd k))) (combine wa wb)).
  assert (LS : lenN sh = d + p) by (unfold sh; rewrite lenN_map; exact LC).
  assert (IA : forall x, In x wa -> lenN x = n /\ bytes_ok x = true) by (intros x X; apply in_app_or in X as [X|X]; auto).
  assert (HS : forall x b, In (x, b) sh -> lenN x = n /\ bytes_ok x = true).
  { intros x c I. unfold sh in I. apply in_map_iff in I as ([y z] & E & I). cbn [fst] in E. injection E as -> _. apply IA. apply in_combine_l in I. exact I. }
  assert (CS : countN snd sh = countN (fun k : list N * list N => eqbl (fst k) (snd k)) (combine wa wb)) by (unfold sh; rewrite countN_map; reflexivity).
  assert (G : forall i x c, getN sh i = Some (x, c) -> getN wa i = Some x /\ exists y, getN wb i = Some y /\ c = eqbl x y).
  { intros i x c E. unfold sh in E. rewrite getN_map in E. destruct (getN (combine wa wb) i) as [[y z]|] eqn:F; [|discriminate]. cbn [option_map fst snd] in E. injection E as -> <-.
    apply getN_combine in F as [F1 F2]. split; [exact F1|]. exists z. auto. }
  pose proof (c44_any_d_shards d p n a sh D DP LA HA LS HS) as RA. pose proof (c44_any_d_shards d p n b sh D DP LB HB LS HS) as RB.
  rewrite CS in RA, RB. destruct (N.leb_spec d (countN (fun k : list N * list N => eqbl (fst k) (snd k)) (combine wa wb))) as [_|]; [|lia].
  rewrite RA in RB by (intros i x E; apply (G i x true E)). apply Some_inj in RB.
  - destruct (app_inj_len a (rs_encode d p a) b (rs_encode d p b)) as [X _]; [congruence|exact RB|exact X].
  - intros i x E. destruct (G i x true E) as (_ & y & Y & T). symmetry in T. apply eqbl_eq in T. subst y. exact Y.
Qed.
Print Assumptions c44_distance.

(* C20 and C16 put together, with this code and so with no assumption on it: a file is encoded with any d, p and burst
   level; up to p bursts of B blocks each hit the container; it is repaired, and decoding gives back the file. *)
Theorem c44_encode_damage_repair_decode H p cpus content mx n d par B :
  enc_ok H rs_encode cpus p -> meta_fits H p -> input_ok (SrcFile content) ->
  e_from p = None -> e_to p = None -> e_dpb p = Some (d, par, B) ->
  ver_to_max_data_file_size (e_ver p) (e_dpb p) = ROk mx -> lenN content <= mx ->
  block_count (e_ver p) (e_dpb p) (lenN content) n -> n < U32_MAX ->
  exists out, encode_file H rs_encode cpus p (SrcFile content) = ROk out /\ eo_err out = false /\
  let f0 := eo_file out in let bs := ver_to_block_size (e_ver p) in
  forall bursts f, bytes_ok f = true -> lenN f = lenN f0 -> lenN bursts <= par ->
    (* outside the bursts, and in the gaps between the blocks, nothing is changed *)
    (forall i, ~ hit B bursts (i / bs) \/ ~ used_index true (e_dpb p) n (i / bs) -> nthN f i = nthN f0 i) ->
    (* what the bursts leave cannot be mistaken for a block of this container *)
    (forall i seq pl, hit B bursts i -> used_index true (e_dpb p) n i ->
       block_at (e_ver p) (e_uid p) f (i * bs) seq pl -> block_at (e_ver p) (e_uid p) f0 (i * bs) seq pl) ->
    (* a metadata block is found *)
    (~ hit B bursts 0 \/ exists pos ref, get_ref_block f None None false (MustBe TMeta) = ROk (Some (pos, ref)) /\
       b_version ref = e_ver p /\ b_uid ref = e_uid p /\ b_data ref = DMeta (recorded H p content)) ->
    exists t, repair_file rs_reconstruct false (Some B) f = ROk (Some (t, f0)) /\
    forall order cpus' limit q old,
      1 <= cpus' -> plain q -> (dc_choice q = Any \/ dc_choice q = Prefer TMeta \/ dc_choice q = MustBe TMeta) ->
      (dc_burst q = None -> B <= SBX_MAX_BURST_ERR_RESISTANCE \/ content <> []) -> (dc_force_write q = true \/ old = None) ->
      exists dout, decode_file H order cpus' limit q f0 (ToFile old) = ROk dout /\ do_out dout = content.
Proof.
  intros OK F IO EF ET EO HMX HL HBC HN.
  assert (DP : 1 <= d /\ 1 <= par /\ d + par <= 256) by (destruct OK as (_ & _ & DK & _); rewrite EO in DK; exact DK).
  destruct (c20_bursts H rs_encode rs_reconstruct p cpus content mx n d par B OK F IO EF ET EO) as (out & E & NE & R); try assumption; [apply rs_reconstruct_ok; lia|].
  assert (ME : meta_on p = true) by (destruct OK as (_ & _ & _ & RS & _); rewrite EO in RS; unfold meta_on; destruct (e_ver p); (discriminate RS || reflexivity)).
  destruct (c16_roundtrip H rs_encode p cpus content mx n OK F IO EF ET ME HMX HL HBC HN) as (out' & E' & _ & DEC).
  rewrite E in E'. apply ROk_inj in E'. subst out'.
  exists out. split; [exact E|]. split; [exact NE|]. cbv zeta in *. intros bursts f HB LF LB OUT HIT REF.
  destruct (R bursts f HB LF LB) as (t & w & RF & _ & RW); try assumption; [intros i NH; apply OUT; left; exact NH|].
  rewrite RW in RF by (intros i NU; apply OUT; right; exact NU). exists t. split; [exact RF|].
  intros order cpus' limit q old CP PQ CH BL FW. destruct (DEC order cpus' limit q old CP PQ CH) as (dout & DE & DO & _); [rewrite EO; exact BL|exact FW|].
  exists dout. split; [exact DE|exact DO].
Qed.
Print Assumptions c44_encode_damage_repair_decode.

(* ---- concrete cases ---- *)
(* the test vector the library ships with (5 + 5 shards of 2 bytes) *)
Example c44_vector : rs_encode 5 5 [[0;1];[4;5];[2;3];[6;7];[8;9]] = [[12;13];[10;11];[14;15];[90;91];[94;95]].
Proof. vm_compute. reflexivity. Qed.
Definition vec : list (list N) := [[0;1];[4;5];[2;3];[6;7];[8;9]].
(* five of the ten shards are lost, two of them overwritten with other bytes *)
Definition vec_hit : list (list N * bool) :=
  [([9;9], false); ([4;5], true); ([0;0], false); ([6;7], true); ([0;0], false); ([12;13], true); ([0;0], false); ([7;7], false); ([90;91], true); ([94;95], true)].
Example c44_hypotheses : lenN vec = 5 /\ (forall x, In x vec -> lenN x = 2 /\ bytes_ok x = true) /\ lenN vec_hit = 5 + 5 /\
  (forall x b, In (x, b) vec_hit -> lenN x = 2 /\ bytes_ok x = true) /\
  (forall i x, getN vec_hit i = Some (x, true) -> getN (vec ++ rs_encode 5 5 vec) i = Some x) /\ countN snd vec_hit = 5.
Proof.
  split; [reflexivity|]. split; [intros x I; cbn in I; repeat (destruct I as [<-|I]; [split; reflexivity|]); destruct I|]. split; [reflexivity|].
  split; [intros x b I; cbn in I; repeat (destruct I as [I|I]; [injection I as <- <-; split; reflexivity|]); destruct I|]. split; [|reflexivity].
  unfold vec at 2. rewrite c44_vector. intros i x G. pose proof (getN_lt _ _ _ G) as LT. assert (L : lenN vec_hit = 10) by reflexivity. rewrite L in LT.
  assert (C : i = 0 \/ i = 1 \/ i = 2 \/ i = 3 \/ i = 4 \/ i = 5 \/ i = 6 \/ i = 7 \/ i = 8 \/ i = 9) by lia.
  repeat (destruct C as [->|C]; [vm_compute in G; (discriminate || (injection G as <-; reflexivity))|]). subst i. vm_compute in G. injection G as <-. reflexivity.
Qed.
Example c44_run : rs_reconstruct 5 5 vec_hit = Some (vec ++ rs_encode 5 5 vec) /\
  rs_reconstruct 5 5 (([9;9], false) :: ([4;5], false) :: dropN 2 vec_hit) = None.
Proof. split; vm_compute; reflexivity. Qed.
Lemma rs_ok v o : dpb_ok o -> ver_uses_rs v = match o with Some _ => true | None => false end ->
  match o with Some (d, par, B) => (d + par) * B < 4294967296 | None => True end -> enc_ok toy_hash rs_encode 4 (toy_p v o).
Proof.
  intros D V B. destruct (toy_ok v o D V B) as (A1 & A2 & A3 & A4 & A5 & A6 & A7 & A8 & A9 & A10 & _ & A12).
  do 10 (split; [assumption|]). split; [|exact A12]. cbn [toy_p e_dpb]. destruct o as [[[d p] b]|]; [|exact I]. apply rs_encode_ok; unfold dpb_ok in D; lia.
Qed.
(* a container of 3 + 2 shards, burst level 2; two bursts hit blocks 1 to 4 *)
Definition cod_o : dpb := Some (3, 2, 2).
Definition cod_content : list N := map (fun i => i * i mod 251) (rangeN 0 1600).
Definition cod_file : list N := match encode_file toy_hash rs_encode 4 (toy_p V17 cod_o) (SrcFile cod_content) with ROk out => eo_file out | _ => [] end.
Definition cod_hit : list N := takeN 512 cod_file ++ repN 2048 255 ++ dropN 2560 cod_file.
Example c44_run_container : match repair_file rs_reconstruct false (Some 2) cod_hit with ROk (Some (t, w)) => eqbl w cod_file && negb (eqbl w cod_hit) && (lenN w =? 6656) | _ => false end = true.
Proof. vm_compute. reflexivity. Qed.
