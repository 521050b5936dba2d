(* C58: a repair cut short. *)
From Coq Require Import String Ascii.
From Verif Require Import L_Update P_Update M_Base M_Specs M_Crc M_Header M_Multihash M_Metadata M_Block M_Index M_FileUtils M_Buffer M_Ranges M_Encode M_Scan M_Loop M_Decode M_Repair M_Codec M_Json M_Path M_Cli M_RepairCut
  S_Crc S_Meta S_Block S_Index S_Container S_Scan S_Decode S_Encode S_Repair S_Cli S_History S_Cut
  L_Base L_File L_Crc L_Index L_Index2 L_Scan L_Ranges L_Decode2 L_Ref L_Intact L_Intact2 L_Repair L_Repair2 L_Repair5 L_Path L_Cli L_Cli2 P_Options L_LostCmd L_History L_Halfway2 L_RepairCut P_Cli P_Commands P_History.
Ltac Zify.zify_post_hook ::= idtac.

Lemma chosen_dpb burst f pos ref o : bytes_ok f = true -> lenN f < 18446744073709551616 ->
  get_ref_block f None None false (MustBe TMeta) = ROk (Some (pos, ref)) -> get_data_par_burst f burst None false ref = ROk o -> dpb_ok o.
Proof.
  intros HB HL G D. pose proof (get_ref_block_ok f None None false (MustBe TMeta) HB) as K.
  pose proof (fun req lo => range_in_file None None false (lenN f) None req lo ltac:(discriminate) HL) as RG.
  destruct (calc_required_len_and_seek_to_from_byte_range _ _ _ _ _ None) as [req l0].
  destruct K as (r & K1 & K2); [apply (RG req l0 eq_refl)|]. rewrite G in K1. apply ROk_inj in K1. subst r.
  apply ref_block_reads in K2 as (h & pl & W & RA & BP); [|exact HB]. exact (proj1 (ref_dpb _ _ _ _ _ _ _ _ BP RA D)).
Qed.
(* Whatever file it is run on: cut short, repair leaves a mixture of the file before and the file after. *)
Theorem c58_cut_is_mixture rc burst f t w : bytes_ok f = true -> lenN f < 18446744073709551616 ->
  repair_file rc false burst f = ROk (Some (t, w)) ->
  exists js, repair_file_noted rc false burst f = ROk (Some (t, (w, js))) /\ forall k, mixture f w (disk_after k f js).
Proof.
  intros HB HL RF. rewrite <- file_same in RF. destruct (repair_file_noted rc false burst f) as [[[t' [w' js]]|]| |] eqn:N; cbn [rmap option_map fst snd] in RF; try discriminate.
  apply ROk_inj in RF. injection RF as <- <-. exists js. split; [reflexivity|]. pose proof N as N0. unfold repair_file_noted in N0.
  destruct (get_ref_block f None None false (MustBe TMeta)) as [[[pos ref]|]| |] eqn:G; cbn [rbind] in N0; try discriminate. destruct (negb _); [discriminate|].
  destruct (get_data_par_burst f burst None false ref) as [[[[d p] B]|]| |] eqn:D; cbn [rbind] in N0; try discriminate. clear N0.
  destruct (file_journal rc burst f t' w' js pos ref d p B G D (chosen_dpb _ _ _ _ _ HB HL G D) N) as (-> & J1 & J2). intro k.
  apply (disk_mix (ver_to_block_size (b_version ref)) (bs_pos _) js (conj J1 J2)).
Qed.
Print Assumptions c58_cut_is_mixture.

Lemma cut_gives E k m s inp li f t w js B : value_of m A_in_file = Some inp -> (exists x, file_name_of inp x) -> named E s inp li -> s li = Some (NFile f) -> v_can E li = true ->
  verbosity_option m -> number_option m A_burst B -> is_present m A_dry_run = false -> agreed E m ->
  repair_file_noted (v_rc E) false B f = ROk (Some (t, (w, js))) -> repair_cmd_cut E k m s = upd s li (NFile (disk_after k f js)).
Proof.
  intros VI (x & FNX) FR FS FC VB NB DR AN RF.
  assert (GI : get_in_file E s m = Go inp) by (unfold get_in_file; rewrite VI; apply check_in_file_iff; split; [reflexivity|]; exists li, f, x; auto).
  apply (verbosity_iff m tt) in VB. apply number_iff in NB.
  assert (AR : asked_and_refused E m = false).
  { unfold asked_and_refused. destruct AN as [->|[->|(rest & AN)]]; [reflexivity|apply andb_false_iff; left; apply andb_false_r|]. unfold wish_to_continue. rewrite AN. apply andb_false_r. }
  unfold repair_cmd_cut. rewrite GI. cbn [gbind]. rewrite VB. cbn [gbind]. rewrite NB. cbn [gbind run]. rewrite AR. unfold open_read. unfold named in FR. rewrite FR, FS, FC, DR, RF. reflexivity.
Qed.
Lemma mixture_damage v uid d par B n bursts g hurt h : bytes_ok g = true -> burst_damage v uid d par B n bursts g hurt -> mixture hurt g h ->
  (forall i, hit B bursts i -> used_index true (Some (d, par, B)) n i -> whole_or_broken v uid hurt g h i) -> burst_damage v uid d par B n bursts g h.
Proof.
  intros BG (HB & LF & LB & NH & OUT & HIT) ((L1 & L2) & MX) WB. assert (LH : lenN h = lenN g) by lia. split; [|split; [exact LH|split; [exact LB|split; [exact NH|split]]]].
  - apply bytes_nth. intro i. destruct (MX i) as [->| ->]; apply nthN_byte; assumption.
  - intros i C. destruct (MX i) as [->| ->]; [exact (OUT i C)|reflexivity].
  - intros i seq pl X U BA. assert (SY : forall f, same_block v f h i -> same_block v h f i) by (intros f S j J; symmetry; exact (S j J)).
    destruct (WB i X U) as [S|[S|K]]; [|exact (block_at_same v uid h g i seq pl (SY _ S) ltac:(lia) BA)|exact (K seq pl BA)].
    exact (HIT i seq pl X U (block_at_same v uid h hurt i seq pl (SY _ S) ltac:(lia) BA)).
Qed.

(* A container after any history (C56) is damaged within the limits, and the run of repair that would make it good is cut short, at any moment: after any number of
   bytes. What is left is a mixture of the damaged and the sound container. From any such mixture, in which no torn block happens to be another block of the container,
   repair makes the sound container, byte for byte. *)
Theorem c58_interrupted_repair E m s inp li content v d par B n uid :
  machine_ok E -> text_ok m -> value_of m A_in_file = Some inp -> file_at E s inp li content ->
  bytes_ok content = true -> lenN content < 18446744073709551616 -> content <> [] ->
  whole_file m -> with_metadata m (Some (d, par, B)) -> spares_input E m s li -> version_options m v (Some (d, par, B)) -> uid_option E m uid ->
  (d + par) * B < 4294967296 -> v_rs E = rs_encode ->
  block_count v (Some (d, par, B)) (lenN content) n -> n < U32_MAX ->
  rn_exit (encode_cmd E m s) = Exit 0 ->
  exists place container name, derived_place E m s (container_ext m) place /\ rn_fs (encode_cmd E m s) place = Some (NFile container) /\ file_name_of inp name /\
  forall g nm, life (v_H E) v uid (Some (d, par, B)) n container (Some name) g nm ->
  forall bursts hurt, burst_damage v uid d par B n bursts g hurt ->
  (forall E1 k m1 s1 inp1 l1 h, v_rc E1 = rs_reconstruct -> value_of m1 A_in_file = Some inp1 -> file_at E1 s1 inp1 l1 hurt -> (exists x, file_name_of inp1 x) ->
     verbosity_option m1 -> number_option m1 A_burst (Some B) -> is_present m1 A_dry_run = false -> agreed E1 m1 ->
     repair_cmd_cut E1 k m1 s1 l1 = Some (NFile h) -> mixture hurt g h /\ same_but l1 s1 (repair_cmd_cut E1 k m1 s1)) /\
  forall h, mixture hurt g h -> (forall i, hit B bursts i -> used_index true (Some (d, par, B)) n i -> whole_or_broken v uid hurt g h i) ->
  forall E2 m2 s2 inp2 l2, v_rc E2 = rs_reconstruct -> value_of m2 A_in_file = Some inp2 -> file_at E2 s2 inp2 l2 h -> (exists x, file_name_of inp2 x) ->
     verbosity_option m2 -> number_option m2 A_burst (Some B) -> is_present m2 A_dry_run = false -> agreed E2 m2 ->
     let r := repair_cmd E2 m2 s2 in
     rn_exit r = Exit 0 /\ rn_fs r l2 = Some (NFile g) /\ same_but l2 s2 (rn_fs r).
Proof.
  intros MO TX VI FA CB CL CN WF WM NF VO UO OB CR BC HN X.
  destruct (encode_kept E m s inp li content v (Some (d, par, B)) n uid MO TX VI FA CB CL CN WF WM NF VO UO OB CR BC HN X) as (lc & f0 & name & ms0 & DP & RC & FN & HF & L1 & N1 & K0).
  exists lc, f0, name. split; [exact DP|]. split; [exact RC|]. split; [exact FN|]. intros g nm LI bursts hurt BD.
  destruct (life_kept _ _ _ _ _ _ _ _ _ _ _ HF L1 N1 K0 LI) as (ms & K). assert (BG : bytes_ok g = true) by (destruct K as [IT _ _ _ _ _ _]; exact (file_bytes _ _ _ _ _ _ _ _ _ IT)).
  assert (LG : lenN g < 18446744073709551616) by (apply K). split.
  - intros E1 k m1 s1 inp1 l1 h RC1 VI1 (ND & FR & FS & FC) NM VB NB DR AG R. destruct (kept_repair _ _ _ _ _ _ _ _ _ _ _ _ _ K BD) as (t & RF). rewrite <- RC1 in RF.
    pose proof BD as (HB & LF & _). destruct (c58_cut_is_mixture _ _ _ _ _ HB ltac:(lia) RF) as (js & RN & MX).
    rewrite (cut_gives E1 k m1 s1 inp1 l1 hurt t g js (Some B) VI1 NM FR FS FC VB NB DR AG RN) in *. rewrite upd_same in R. injection R as <-. split; [apply MX|]. intros y D. apply upd_other. exact D.
  - intros h MX WB E2 m2 s2 inp2 l2 RC2 VI2 (ND & FR & FS & FC) NM VB NB DR AG. cbv zeta.
    destruct (kept_repair _ _ _ _ _ _ _ _ _ _ _ _ _ K (mixture_damage _ _ _ _ _ _ _ _ _ _ BG BD MX WB)) as (t & RF). rewrite <- RC2 in RF.
    rewrite (repair_gives E2 m2 s2 inp2 l2 h t g (Some B) VI2 NM FR FS FC VB NB DR AG RF). cbn. split; [reflexivity|]. split; [apply upd_same|]. intros y D. apply upd_other. exact D.
Qed.
Print Assumptions c58_interrupted_repair.

(* ---- a concrete case: the repair of the damage in P_History, stopped within the block it writes ---- *)
Definition rc_cut : list N := takeN 612 his_c1 ++ repN 412 255 ++ dropN 1024 his_c1.
Example c58_cut : repair_cmd_cut mach 100 his_m3 his_s3 (w_ ++ [str "y"]) = Some (NFile rc_cut) /\ eqbl rc_cut his_h = false /\ eqbl rc_cut his_c1 = false.
Proof. split; [vm_compute; reflexivity|]. split; vm_compute; reflexivity. Qed.
Lemma mixture_by f w h : lenN f = lenN h -> lenN w = lenN h -> forallb (fun i => (nthN h i =? nthN f i) || (nthN h i =? nthN w i)) (rangeN 0 (lenN h)) = true -> mixture f w h.
Proof.
  intros L1 L2 X. split; [lia|]. intro i. destruct (N.lt_ge_cases i (lenN h)) as [L|L]; [|left; rewrite !nthN_out by lia; reflexivity].
  rewrite forallb_forall in X. specialize (X i ltac:(apply In_rangeN; lia)). apply orb_true_iff in X as [X|X]; apply N.eqb_eq in X; auto.
Qed.
Example c58_meets : burst_damage V17 [1;2;3;4;5;6] 2 1 2 3 [1] his_c1 his_h /\ mixture his_h his_c1 rc_cut /\
  (forall i, hit 2 [1] i -> used_index true (Some (2, 1, 2)) 3 i -> whole_or_broken V17 [1;2;3;4;5;6] his_h his_c1 rc_cut i).
Proof.
  split; [exact his_damage|]. split; [apply mixture_by; vm_compute; reflexivity|].
  intros i (s & [<-|[]] & L) U. assert (C : i = 1 \/ i = 2) by lia. destruct C as [->| ->].
  - right. right. intros seq pl BA. exfalso.
    assert (M : mmark (mkBlock (mkHeader V17 0 [1;2;3;4;5;6] 0) DData) rc_cut 1 = false) by (vm_compute; reflexivity).
    assert (SB : some_block V17 [1;2;3;4;5;6] rc_cut 1) by (exists seq, pl; exact BA).
    apply (mmark_iff (mkBlock (mkHeader V17 0 [1;2;3;4;5;6] 0) DData)) in SB; [|vm_compute; reflexivity]. rewrite M in SB. discriminate.
  - exfalso. destruct U as [(k & Hk)|(k & Hk & U)]; [lia|]. assert (C : k = 1 \/ k = 2 \/ k = 3) by lia. destruct C as [->|[->| ->] ]; vm_compute in U; discriminate.
Qed.
