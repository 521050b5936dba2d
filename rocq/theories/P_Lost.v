(* C51: rescuing from a disk. C52, C53: a container on a disk whose file system is lost. *)
From Coq Require Import Permutation.
From Verif Require Import M_Base M_Specs M_Crc M_Header M_Multihash M_Metadata M_Block M_Index M_FileUtils M_Buffer M_Ranges M_Encode M_Scan M_Loop M_Decode M_Sort M_Repair M_Rescue M_Codec
  S_Crc S_Meta S_Block S_Index S_Container S_Encode S_Scan S_Decode S_Sort S_Repair S_Rescue S_Lost
  L_Base L_Crc L_File L_Header L_Index2 L_Block L_Block2 L_Container L_Intact L_Intact2 L_Roundtrip P_Encode P_Decode P_Roundtrip P_Rescue L_Codec P_Repair P_Codec L_Lost L_Lost2 L_Lost4.

(* C51. The disk is any sequence of blocks, sound or not, of any containers and versions, and of other things that do
   not look like a header. A rescue of all of it appends to the file of every UID that was asked for exactly the sound
   blocks of this UID, in the order they have on the disk, each complete and once. No other file changes. *)
Theorem c51_disk ps rest f p order size fuel w :
  disk_of ps rest f -> bytes_ok f = true -> 0 < lenN f < 18446744073709551616 -> (forall k x, Permutation (order k x) x) ->
  1 <= size -> lenN f < N.of_nat fuel -> rp_from p = None -> rp_to p = None -> rp_type p = None ->
  exists w' s, rescue_from_file order size fuel p f None None w = Some (w', ROk s) /\
    (forall u l, bytes_ok u = true -> (rp_uid p = None \/ rp_uid p = Some u) -> kept_blocks u ps l ->
       content w' (name_of u) = content w (name_of u) ++ concat (map bytes_of l)) /\
    (forall n, (forall h pl, In (Blk h pl) ps -> sound h pl -> (rp_uid p = None \/ rp_uid p = Some (h_uid h)) -> n <> name_of (h_uid h)) -> w' n = w n).
Proof. exact (disk_rescue ps rest f p order size fuel w). Qed.

(* every disk has exactly one list of sound blocks of a UID *)
Theorem c51_kept_unique u ps l l' : kept_blocks u ps l -> kept_blocks u ps l' -> l = l'.
Proof.
  intro K. revert l'. induction K as [|h pl ps l HU HS K IH|p ps l HN K IH]; intros l' K'.
  - inversion K'. reflexivity.
  - inversion K' as [|? ? ? ? _ _ K2|? ? ? N2 K2]; subst; [f_equal; apply IH; exact K2|]. exfalso. exact (N2 _ _ eq_refl eq_refl HS).
  - inversion K' as [|h pl ? ? U2 S2 K2|? ? ? _ K2]; subst; [exfalso; exact (HN _ _ eq_refl eq_refl S2)|]. apply IH. exact K2.
Qed.

(* ---- what is rescued ---- *)
Section Rescued.
Variables (v : version) (uid : list N) (f0 : list N) (ps : list piece) (rest disk : list N) (rp : rparam).
Variables (order : nat -> list (list N * list (list N)) -> list (list N * list (list N))) (size : N) (fuel : nat) (w : dir).
Hypothesis (DK : disk_of ps rest disk) (DB : bytes_ok disk = true) (DL : 0 < lenN disk < 18446744073709551616).
Hypothesis (OR : forall k x, Permutation (order k x) x) (SZ : 1 <= size) (FU : lenN disk < N.of_nat fuel).
Hypothesis (RP : rescues_all rp uid) (UB : bytes_ok uid = true) (W0 : w (name_of uid) = None) (OF : only_from v uid f0 ps).
Hypothesis MB : exists pl, on_disk v uid ps 0 pl.
Lemma rescued_heap : exists w' s hp, rescue_from_file order size fuel rp disk None None w = Some (w', ROk s) /\
  w' (name_of uid) = Some (concat (map bytes_of hp)) /\
  Forall (fun q => exists h pl, q = Blk h pl /\ piece_ok q /\ sound h pl /\ h_version h = v /\ h_uid h = uid /\
    exists i, block_at v uid f0 (i * ver_to_block_size v) (h_seq_num h) pl) hp /\
  bytes_ok (concat (map bytes_of hp)) = true /\ lenN (concat (map bytes_of hp)) < 18446744073709551616 /\
  (forall seq pl, on_disk v uid ps seq pl -> exists h, In (Blk h pl) hp /\ h_seq_num h = seq).
Proof using All.
  pose proof RP as (R1 & R2 & R3 & R4). pose proof DK as (EF & _ & PO).
  assert (PB : Forall (fun p => bytes_ok (bytes_of p) = true) ps).
  { apply Forall_forall. intros x I. apply in_split in I as (a & b & E). rewrite EF, E, map_app, concat_app in DB. cbn [map concat] in DB.
    rewrite !bytes_ok_app in DB. apply andb_true_iff in DB as [DB _]. apply andb_true_iff in DB as [_ DB]. apply andb_true_iff in DB as [DB _]. exact DB. }
  destruct (kept_exists uid ps PO PB) as (hp & K). pose proof (fun x => kept_in uid ps hp x K) as KI.
  destruct (disk_rescue ps rest disk rp order size fuel w DK DB DL OR SZ FU R1 R2 R3) as (w' & s & E & C & _).
  specialize (C uid hp UB R4 K). unfold content at 2 in C. rewrite W0 in C. cbn [app] in C.
  assert (ON : forall seq pl, on_disk v uid ps seq pl -> exists h, In (Blk h pl) hp /\ h_seq_num h = seq).
  { intros seq pl (h & I & S & _ & U & Q). exists h. split; [|exact Q]. apply KI. exists h, pl. auto. }
  exists w', s, hp. split; [exact E|]. split.
  { unfold content in C. destruct (w' (name_of uid)) as [c|]; [f_equal; exact C|]. exfalso. destruct MB as (pl & O). destruct (ON _ _ O) as (h & I & _).
    apply in_split in I as (a & b & EH). pose proof (f_equal (@lenN N) C) as L. rewrite EH, map_app, concat_app in L. cbn [map concat] in L. rewrite !lenN_app in L.
    assert (PI : piece_ok (Blk h pl)). { destruct O as (h' & I' & _). assert (X : In (Blk h pl) hp) by (rewrite EH; apply in_elt). apply KI in X as (h2 & pl2 & I2 & _ & _ & X). rewrite X. rewrite Forall_forall in PO. apply PO. exact I2. }
    apply piece_len_ge in PI. change (lenN (@nil N)) with 0 in L. lia. }
  split.
  { apply Forall_forall. intros x I. apply KI in I as (h & pl & I & S & U & ->). exists h, pl. split; [reflexivity|]. split; [rewrite Forall_forall in PO; apply PO; exact I|].
    split; [exact S|]. destruct (OF h pl I S U) as [V B]. auto. }
  split.
  { clear - PB KI. assert (X : Forall (fun p => bytes_ok (bytes_of p) = true) hp).
    { apply Forall_forall. intros x I. apply KI in I as (h & pl & I & _ & _ & ->). rewrite Forall_forall in PB. apply PB. exact I. }
    clear KI PB. induction X as [|x l H _ IH]; [reflexivity|]. cbn [map concat]. rewrite bytes_ok_app, H. exact IH. }
  split; [|exact ON]. pose proof (kept_len uid ps hp K) as L. rewrite EF, lenN_app in DL. lia.
Qed.
End Rescued.

(* ---- from the encoder to the disk and back ---- *)
(* C52. Encode a file, put the container's blocks on a disk in any order, any number of times, among anything else, and
   lose the file system: as long as a metadata block and the blocks with the content are there, rescuing and decoding
   what was rescued gives the file back. Decoding never gives anything else; it succeeds for sure if the container
   has no parity blocks or the burst level is told to the decoder. *)
Theorem c52_lost_file_system H rs p cpus content mx n :
  enc_ok H rs cpus p -> meta_fits H p -> input_ok (SrcFile content) -> e_from p = None -> e_to p = None -> meta_on p = true ->
  ver_to_max_data_file_size (e_ver p) (e_dpb p) = ROk mx -> lenN content <= mx ->
  block_count (e_ver p) (e_dpb p) (lenN content) n -> n < U32_MAX ->
  exists out, encode_file H rs cpus p (SrcFile content) = ROk out /\ eo_err out = false /\
  forall ps rest disk, disk_of ps rest disk -> bytes_ok disk = true -> 0 < lenN disk < 18446744073709551616 ->
    only_from (e_ver p) (e_uid p) (eo_file out) ps -> nothing_lost (e_ver p) (e_uid p) (e_dpb p) (lenN content) (eo_file out) ps ->
  forall rp order size fuel w, rescues_all rp (e_uid p) -> (forall k x, Permutation (order k x) x) -> 1 <= size -> lenN disk < N.of_nat fuel ->
    w (name_of (e_uid p)) = None ->
  exists w' s g, rescue_from_file order size fuel rp disk None None w = Some (w', ROk s) /\ w' (name_of (e_uid p)) = Some g /\
  forall order' cpus' limit q old, 1 <= cpus' -> plain q -> (dc_choice q = Prefer TMeta \/ dc_choice q = MustBe TMeta) ->
    (forall dout, decode_file H order' cpus' limit q g (ToFile old) = ROk dout -> do_out dout = content) /\
    ((e_dpb p = None \/ dc_burst q <> None) -> (dc_force_write q = true \/ old = None) ->
     exists dout, decode_file H order' cpus' limit q g (ToFile old) = ROk dout /\ do_out dout = content).
Proof.
  intros OK F IO EF ET ME HMX HL HBC HN. destruct (c38_encoded_container_is_the_file H rs p cpus content mx n OK F IO EF ET HMX HL HBC HN) as (out & E & EN).
  exists out. split; [exact E|]. split; [apply EN|]. intros ps rest disk DK DB DL OF [MB ALL] rp order size fuel w RA PM SZ FU W0.
  assert (UB : bytes_ok (e_uid p) = true) by apply OK.
  destruct IO as [IB IL]. destruct (encoded_intact H rs cpus p content out n OK IB EN HBC ltac:(lia)) as [IT _]. rewrite ME in IT.
  destruct (rescued_heap (e_ver p) (e_uid p) (eo_file out) ps rest disk rp order size fuel w DK DB DL PM SZ FU RA UB W0 OF MB) as (w' & s & hp & RE & WG & HP & GB & GL & ON).
  exists w', s, (concat (map bytes_of hp)). split; [exact RE|]. split; [exact WG|]. intros order' cpus' limit q old CP PQ CH.
  assert (FZ : get_meta_by_id (recorded H p content) IFSZ = Some (FSZ (lenN content))) by (unfold recorded; destruct (e_in_name p), (e_fdt p); reflexivity).
  assert (MD : match e_dpb p with Some (d, par, _) => get_meta_by_id (recorded H p content) IRSD = Some (RSD d) /\ get_meta_by_id (recorded H p content) IRSP = Some (RSP par) | None => True end).
  { destruct (e_dpb p) as [[[d par] B]|] eqn:EO; [|exact Logic.I]. unfold recorded. rewrite EO. destruct (e_in_name p), (e_fdt p); split; reflexivity. }
  assert (MH : exists h pl, In (Blk h pl) hp /\ h_seq_num h = 0). { destruct MB as (pl & O). destruct (ON _ _ O) as (h & I & Q). exists h, pl. auto. }
  assert (RT : forall dout, decode_file H order' cpus' limit q (concat (map bytes_of hp)) (ToFile old) = ROk dout -> do_out dout = content).
  { intros dout. apply (heap_right _ _ _ _ _ _ _ _ _ IT HP GB GL); try assumption. intros i seq pl BA HC. apply ON. exact (ALL i seq pl BA HC). }
  split; [exact RT|]. intros BU FW.
  destruct (heap_decodes _ _ _ _ _ _ _ _ _ IT HP GB GL H order' cpus' limit q old CP PQ) as (dout & DE); [|exact CH|exact FW|exact MH|exists dout; auto].
  destruct (e_dpb p) as [[[d par] B]|]; [|exact Logic.I]. destruct MD. split; [assumption|]. split; [assumption|]. destruct BU as [|]; [discriminate|assumption].
Qed.
Print Assumptions c52_lost_file_system.

(* C53. If blocks are lost as well, but of every set of d + par blocks at least d are left, then rescuing, sorting
   with the burst level and repairing gives the container back, byte for byte, and so the file. *)
Theorem c53_lost_blocks H p cpus content mx n d par B :
  enc_ok H rs_encode cpus p -> meta_fits H p -> input_ok (SrcFile content) -> e_from p = None -> e_to p = None -> e_dpb p = Some (d, par, B) ->
  ver_to_max_data_file_size (e_ver p) (e_dpb p) = ROk mx -> lenN content <= mx ->
  block_count (e_ver p) (e_dpb p) (lenN content) n -> n < U32_MAX ->
  exists out, encode_file H rs_encode cpus p (SrcFile content) = ROk out /\ eo_err out = false /\
  let f0 := eo_file out in
  forall ps rest disk, disk_of ps rest disk -> bytes_ok disk = true -> 0 < lenN disk < 18446744073709551616 ->
    only_from (e_ver p) (e_uid p) f0 ps -> enough_left (e_ver p) (e_uid p) d par n ps ->
  forall rp order size fuel w, rescues_all rp (e_uid p) -> (forall k x, Permutation (order k x) x) -> 1 <= size -> lenN disk < N.of_nat fuel ->
    w (name_of (e_uid p)) = None ->
  exists w' s g, rescue_from_file order size fuel rp disk None None w = Some (w', ROk s) /\ w' (name_of (e_uid p)) = Some g /\
  forall cpus' q rb old, 1 <= cpus' -> plain q -> dc_burst q = Some B -> (dc_choice q = Prefer TMeta \/ dc_choice q = MustBe TMeta) ->
  exists t u srt t', sort_file cpus' (mkSparam q rb) g (Some old) = ROk (t, u, Some srt) /\
    repair_file rs_reconstruct false (Some B) srt = ROk (Some (t', f0)) /\
  forall order' cpus2 limit q2 old2,
    1 <= cpus2 -> plain q2 -> (dc_choice q2 = Any \/ dc_choice q2 = Prefer TMeta \/ dc_choice q2 = MustBe TMeta) ->
    (dc_burst q2 = None -> B <= SBX_MAX_BURST_ERR_RESISTANCE \/ content <> []) -> (dc_force_write q2 = true \/ old2 = None) ->
    exists dout, decode_file H order' cpus2 limit q2 f0 (ToFile old2) = ROk dout /\ do_out dout = content.
Proof.
  intros OK F IO EF ET EO HMX HL HBC HN.
  assert (DP : 1 <= d /\ 1 <= par /\ d + par <= 256) by (destruct OK as (_ & _ & DK & _); rewrite EO in DK; exact DK).
  assert (ME : meta_on p = true) by (destruct OK as (_ & _ & _ & RS & _); rewrite EO in RS; unfold meta_on; destruct (e_ver p); (discriminate RS || reflexivity)).
  destruct (c16_roundtrip H rs_encode p cpus content mx n OK F IO EF ET ME HMX HL HBC HN) as (out' & E' & _ & DEC).
  destruct (c38_encoded_container_is_the_file H rs_encode p cpus content mx n OK F IO EF ET HMX HL HBC HN) as (out & E & EN).
  rewrite E in E'. apply ROk_inj in E'. subst out'.
  exists out. split; [exact E|]. split; [apply EN|]. cbv zeta. intros ps rest disk DK DB DL OF [MB ALL] rp order size fuel w RA PM SZ FU W0.
  assert (UB : bytes_ok (e_uid p) = true) by apply OK.
  destruct IO as [IB IL]. destruct (encoded_intact H rs_encode cpus p content out n OK IB EN HBC ltac:(lia)) as [IT FL]. rewrite ME in IT. rewrite EO in *.
  destruct (rescued_heap (e_ver p) (e_uid p) (eo_file out) ps rest disk rp order size fuel w DK DB DL PM SZ FU RA UB W0 OF MB) as (w' & s & hp & RE & WG & HP & GB & GL & ON).
  exists w', s, (concat (map bytes_of hp)). split; [exact RE|]. split; [exact WG|]. intros cpus' q rb old CP PQ BU CH.
  assert (MP : forall i, meta_index (Some true) (Some (d, par, B)) i -> meta_plain (e_ver p) (e_uid p) (recorded H p content) (sliceN (i * ver_to_block_size (e_ver p)) (ver_to_block_size (e_ver p)) (eo_file out))).
  { destruct EN as (_ & (meta & C & M) & _). specialize (M ME). rewrite ME, EO in C. destruct C as (n' & _ & _ & C & _). intros i MI. rewrite (C i MI). apply M. }
  assert (FZ : get_meta_by_id (recorded H p content) IFSZ = Some (FSZ (lenN content))) by (unfold recorded; destruct (e_in_name p), (e_fdt p); reflexivity).
  assert (RD : get_meta_by_id (recorded H p content) IRSD = Some (RSD d)) by (unfold recorded; rewrite EO; destruct (e_in_name p), (e_fdt p); reflexivity).
  assert (RPP : get_meta_by_id (recorded H p content) IRSP = Some (RSP par)) by (unfold recorded; rewrite EO; destruct (e_in_name p), (e_fdt p); reflexivity).
  assert (MH : exists h pl, In (Blk h pl) hp /\ h_seq_num h = 0). { destruct MB as (pl & O). destruct (ON _ _ O) as (h & I & Q). exists h, pl. auto. }
  destruct (heap_rebuild (e_ver p) (e_uid p) d par B rs_encode rs_reconstruct (recorded H p content) content (eo_file out) n hp cpus' q rb old IT) as (t & u & srt & t' & ES & _ & ER); try assumption.
  - apply rs_reconstruct_ok; lia.
  - intros seq SQ. destruct (ALL seq SQ) as (l & ND & LL & HI). exists l. split; [exact ND|]. split; [exact LL|]. intros x I. destruct (HI x I) as (A1 & A2 & pl & O).
    split; [exact A1|]. split; [exact A2|]. destruct (ON _ _ O) as (h & J & Q). exists h, pl. auto.
  - exists t, u, srt, t'. split; [exact ES|]. split; [exact ER|]. intros order' cpus2 limit q2 old2 CP2 PQ2 CH2 BL FW.
    destruct (DEC order' cpus2 limit q2 old2 CP2 PQ2 CH2) as (dout & DE & DO & _); [exact BL|exact FW|]. exists dout. auto.
Qed.
Print Assumptions c53_lost_blocks.

(* ---- a concrete disk ---- *)
Definition okb (p : piece) : bool :=
  match p with
  | Blk h pl => header_ok h && (lenN pl =? ver_to_block_size (h_version h) - 16) && bytes_ok pl
  | Other x => (lenN x =? 128) && match header_from_bytes (takeN 16 x) with ROk _ => false | _ => true end
  end.
Definition crc_of (h : header) (pl : list N) : N := crc_ccitt_generic (ver_to_usize (h_version h)) (h_uid h ++ be_bytes 4 (h_seq_num h) ++ pl).
Lemma okb_ok p : okb p = true -> piece_ok p.
Proof.
  destruct p as [h pl|x]; cbn [okb piece_ok]; intro H.
  - apply andb_true_iff in H as [H _]. apply andb_true_iff in H as [H H1]. split; [exact H|apply N.eqb_eq; assumption].
  - apply andb_true_iff in H as [H H1]. split; [apply N.eqb_eq; exact H|]. intros h HO E. rewrite E, (header_roundtrip h HO) in *. discriminate.
Qed.
Lemma crc_sound h pl : okb (Blk h pl) = true -> sound h pl <-> h_crc h = crc_of h pl.
Proof.
  intro OK. cbn [okb] in OK. apply andb_true_iff in OK as [OK PB]. apply andb_true_iff in OK as [OK _]. apply header_ok_spec in OK as (_ & _ & UB & _).
  assert (C : is_crc (ver_to_usize (h_version h)) (h_uid h ++ be_bytes 4 (h_seq_num h) ++ pl) (crc_of h pl)).
  { apply crc_is_remainder; [pose proof (ver_usize_lt (h_version h)); lia|]. rewrite !bytes_ok_app, UB, bytes_ok_be. assumption. }
  split; [intro S; exact (is_crc_unique _ _ _ _ S C)|intro E; unfold sound; rewrite E; exact C].
Qed.
Definition piece_eqb (p q : piece) : bool := match p, q with Blk _ _, Blk _ _ | Other _, Other _ => eqbl (bytes_of p) (bytes_of q) | _, _ => false end.
(* the piece at a place of a container *)
Definition piece_at (v : version) (f : list N) (i : N) : piece :=
  let b := sliceN (i * ver_to_block_size v) (ver_to_block_size v) f in
  match header_from_bytes (takeN 16 b) with ROk h => Blk h (dropN 16 b) | _ => Other b end.
Definition of_container (v : version) (uid : list N) (f : list N) (p : piece) : bool :=
  match p with
  | Blk h pl => negb (h_crc h =? crc_of h pl) || negb (eqbl (h_uid h) uid) ||
      ((ver_to_usize (h_version h) =? ver_to_usize v) && existsb (fun i => eqbl (sliceN (i * ver_to_block_size v) (ver_to_block_size v) f) (bytes_of p)) (rangeN 0 (lenN f / ver_to_block_size v)))
  | Other _ => true
  end.
Lemma from_check v uid f ps : forallb okb ps = true -> forallb (of_container v uid f) ps = true -> only_from v uid f ps.
Proof.
  intros OK H h pl I S U. rewrite forallb_forall in OK, H. specialize (OK _ I). specialize (H _ I). cbn [of_container] in H.
  apply (crc_sound h pl OK) in S as SC. rewrite SC, N.eqb_refl, U, eqbl_refl in H. cbn [negb orb] in H.
  assert (V : h_version h = v) by (apply andb_true_iff in H as [H _]; apply N.eqb_eq in H; destruct (h_version h), v; (reflexivity || discriminate H)).
  apply andb_true_iff in H as [_ H]. apply existsb_exists in H as (i & _ & E). apply eqbl_eq in E. split; [exact V|]. exists i, h.
  split; [|split; [exact V|split; [exact U|reflexivity]]]. rewrite E. rewrite <- (app_nil_r (bytes_of _)). apply blk_wf; [apply okb_ok; exact OK|exact S].
Qed.
Definition lost_p : eparam := toy_p V18 (Some (2, 1, 1)).
Definition lost_uid : list N := [1;2;3;4;5;6].
Definition lost_content : list N := map (fun i => i * i mod 251) (rangeN 0 200).
Definition lost_f0 : list N := match encode_file toy_hash rs_encode 4 lost_p (SrcFile lost_content) with ROk out => eo_file out | _ => [] end.
(* the places of the container: metadata, block 1, metadata, block 2, block 3 (parity) *)
Definition spoilt (p : piece) : piece := match p with Blk h pl => Blk h (repN (lenN pl) 7) | _ => p end.
Definition foreign : piece := piece_at V2 (toy_block V2 uB 1 7) 0.
Definition lost_disk : list piece := [spoilt (piece_at V18 lost_f0 1); piece_at V18 lost_f0 0; Other (repN 128 83); piece_at V18 lost_f0 4; foreign; piece_at V18 lost_f0 3; piece_at V18 lost_f0 1].
Definition lost_bytes (ps : list piece) : list N := concat (map bytes_of ps) ++ [1;2;3;4;5].
(* here block 2 is lost as well *)
Definition lost_disk2 : list piece := [Other (repN 128 83); piece_at V18 lost_f0 4; spoilt (piece_at V18 lost_f0 3); piece_at V18 lost_f0 2; foreign; piece_at V18 lost_f0 1].
Definition lost_ok (ps : list piece) : bool := forallb okb ps && forallb (of_container V18 lost_uid lost_f0) ps && bytes_ok (lost_bytes ps) && (lenN (lost_bytes ps) =? 5 + 128 * lenN ps).
Example c52_disk : lost_ok lost_disk && lost_ok lost_disk2 = true.
Proof. vm_compute. reflexivity. Qed.
Lemma lost_is ps : lost_ok ps = true -> disk_of ps [1;2;3;4;5] (lost_bytes ps) /\ bytes_ok (lost_bytes ps) = true /\ lenN (lost_bytes ps) = 5 + 128 * lenN ps /\ only_from V18 lost_uid lost_f0 ps.
Proof.
  unfold lost_ok. intro H. do 3 (apply andb_true_iff in H as [H ?]). split; [split; [reflexivity|split; [reflexivity|]]|].
  - apply Forall_forall. intros p I. apply okb_ok. rewrite forallb_forall in H. apply H. exact I.
  - split; [assumption|]. split; [apply N.eqb_eq; assumption|]. apply from_check; assumption.
Qed.
Lemma lost_okb ps : lost_ok ps = true -> forallb okb ps = true.
Proof. unfold lost_ok. intro H. do 3 (apply andb_true_iff in H as [H _]). exact H. Qed.
(* sound blocks of the container on a disk *)
Definition has (ps : list piece) (seq : N) (pl : list N) : bool :=
  existsb (fun p => match p with Blk h x => eqbl x pl && (h_crc h =? crc_of h x) && (ver_to_usize (h_version h) =? 18) && eqbl (h_uid h) lost_uid && (h_seq_num h =? seq) | _ => false end) ps.
Lemma has_on ps seq pl : forallb okb ps = true -> has ps seq pl = true -> on_disk V18 lost_uid ps seq pl.
Proof.
  intros OK H. apply existsb_exists in H as (p & I & H). destruct p as [h x|]; [|discriminate]. repeat (apply andb_true_iff in H as [H ?]).
  apply eqbl_eq in H. subst x. exists h. split; [exact I|]. rewrite forallb_forall in OK. specialize (OK _ I). split; [apply (crc_sound h pl OK); apply N.eqb_eq; assumption|].
  split; [match goal with X : (ver_to_usize _ =? 18) = true |- _ => destruct (h_version h); (reflexivity || discriminate X) end|]. split; [apply eqbl_eq; assumption|apply N.eqb_eq; assumption].
Qed.
(* what the container has at a place *)
Definition at_place (i : N) : option (N * list N) := match piece_at V18 lost_f0 i with Blk h pl => Some (h_seq_num h, pl) | _ => None end.
Definition payload_at (i : N) : list N := match at_place i with Some (_, pl) => pl | None => [] end.
Lemma place_of i seq pl : block_at V18 lost_uid lost_f0 (i * 128) seq pl -> i < 5 /\ at_place i = Some (seq, pl).
Proof.
  intros (h & (H1 & H2 & H3 & _) & HV & _ & HS). rewrite HV in H2, H3. change (ver_to_block_size V18) with 128 in *. change (128 - 16) with 112 in H2.
  assert (L : lenN (header_to_bytes h) = 16) by (apply header_ok_spec in H1 as (_ & U & _); apply lenN_header_to_bytes; exact U).
  assert (FL : lenN lost_f0 = 640) by (vm_compute; reflexivity).
  assert (LT : i < 5). { apply (f_equal (@lenN N)) in H3. rewrite lenN_app, L, H2, lenN_take, lenN_slice, FL in H3. lia. }
  split; [exact LT|]. unfold at_place, piece_at. change (ver_to_block_size V18) with 128. rewrite take_all in H3 by (rewrite lenN_slice; lia). rewrite H3.
  rewrite take_app_exact by (symmetry; exact L). rewrite (header_roundtrip h H1), drop_app_exact by (symmetry; exact L). rewrite HS. reflexivity.
Qed.
Definition all_there (ps : list piece) : bool :=
  forallb (fun i => match at_place i with Some (seq, pl) => has ps seq pl | _ => true end) [1; 3].
Lemma lost_places : option_map fst (at_place 0) = Some 0 /\ option_map fst (at_place 2) = Some 0 /\ option_map fst (at_place 4) = Some 3.
Proof. split; [|split]; vm_compute; reflexivity. Qed.
Lemma lost_all : all_there lost_disk && has lost_disk 0 (payload_at 0) && has lost_disk2 0 (payload_at 2) && has lost_disk2 1 (payload_at 1) && has lost_disk2 3 (payload_at 4) = true.
Proof. vm_compute. reflexivity. Qed.
Lemma lost_sizes : 5 + 128 * lenN lost_disk = 901.
Proof. reflexivity. Qed.
Opaque lost_f0 at_place payload_at.
Example c52_hypotheses : disk_of lost_disk [1;2;3;4;5] (lost_bytes lost_disk) /\ lenN (lost_bytes lost_disk) = 901 /\
  only_from V18 lost_uid lost_f0 lost_disk /\ nothing_lost V18 lost_uid (Some (2, 1, 1)) (lenN lost_content) lost_f0 lost_disk.
Proof.
  pose proof c52_disk as OK. apply andb_true_iff in OK as [OK _]. destruct (lost_is _ OK) as (D & _ & L & O). rewrite lost_sizes in L. split; [exact D|]. split; [exact L|]. split; [exact O|].
  apply lost_okb in OK. pose proof lost_all as A. do 3 (apply andb_true_iff in A as [A _]). apply andb_true_iff in A as [A A0].
  split; [exists (payload_at 0); apply has_on; [exact OK|exact A0]|].
  intros i seq pl B (j & IC & _). change (ver_to_block_size V18) with 128 in B. destruct (place_of _ _ _ B) as [LT E]. clear B.
  unfold all_there in A. rewrite forallb_forall in A.
  assert (C : i = 1 \/ i = 3 \/ (i = 0 \/ i = 2 \/ i = 4)) by lia. destruct C as [->|[->|C] ].
  - specialize (A 1 (or_introl eq_refl)). cbv beta in A. rewrite E in A. apply has_on; [exact OK|exact A].
  - specialize (A 3 (or_intror (or_introl eq_refl))). cbv beta in A. rewrite E in A. apply has_on; [exact OK|exact A].
  - exfalso. apply (f_equal (option_map fst)) in E. destruct lost_places as (M0 & M2 & M4).
    assert (S : seq = 0 \/ seq = 3).
    { destruct C as [->|[->| ->] ]; [rewrite M0 in E; left|rewrite M2 in E; left|rewrite M4 in E; right]; cbn [option_map fst] in E; injection E as <-; reflexivity. }
    destruct IC as (set & k & K & SE & _). destruct S as [->| ->]; lia.
Qed.
Transparent lost_f0 at_place payload_at.
Definition lost_rp : rparam := mkRparam None None false None None.
Definition lost_got (ps : list piece) : list N := match rescue_from_file rev_order 2 2000 lost_rp (lost_bytes ps) None None no_files with Some (w', ROk _) => content w' (name_of lost_uid) | _ => [] end.
Definition lost_q (burst : option N) : dparam := mkDparam (Prefer TMeta) None None None false None None None false burst.
Example c52_run : match decode_file toy_hash (fun l => l) 2 0%nat (lost_q (Some 1)) (lost_got lost_disk) (ToFile None) with ROk x => eqbl (do_out x) lost_content | _ => false end = true.
Proof. vm_compute. reflexivity. Qed.
(* Finding F29: without the burst level decoding can refuse although nothing is lost. *)
Theorem c52_without_burst_refuted : exists ps g, ps = lost_disk /\ g = lost_got ps /\ 0 < lenN g /\ decode_file toy_hash (fun l => l) 2 0%nat (lost_q None) g (ToFile None) = RErr OtherError.
Proof. exists lost_disk, (lost_got lost_disk). split; [reflexivity|]. split; [reflexivity|]. split; vm_compute; reflexivity. Qed.
Example c53_hypotheses : disk_of lost_disk2 [1;2;3;4;5] (lost_bytes lost_disk2) /\ only_from V18 lost_uid lost_f0 lost_disk2 /\ enough_left V18 lost_uid 2 1 3 lost_disk2 /\ block_count V18 (Some (2, 1, 1)) (lenN lost_content) 3.
Proof.
  pose proof c52_disk as OK. apply andb_true_iff in OK as [_ OK]. destruct (lost_is _ OK) as (D & _ & L & O). split; [exact D|]. split; [exact O|].
  apply lost_okb in OK. pose proof lost_all as A. apply andb_true_iff in A as [A A4]. apply andb_true_iff in A as [A A1]. apply andb_true_iff in A as [_ A2].
  split; [|apply block_count_iff; vm_compute; repeat split; congruence]. split; [exists (payload_at 2); apply has_on; [exact OK|exact A2]|].
  intros seq SQ. exists [1; 3]. split; [repeat constructor; cbn; intuition discriminate|]. split; [reflexivity|].
  assert (Z : set_of 2 1 seq = 0) by (unfold set_of; apply N.div_small; lia).
  intros s [<-|[<-|[] ] ]; (split; [lia|]; split; [rewrite Z; reflexivity|]).
  - exists (payload_at 1). apply has_on; [exact OK|exact A1].
  - exists (payload_at 4). apply has_on; [exact OK|exact A4].
Qed.
Example c53_run : match sort_file 2 (mkSparam (lost_q (Some 1)) false) (lost_got lost_disk2) (Some None) with
  | ROk (_, _, Some srt) => match repair_file rs_reconstruct false (Some 1) srt with ROk (Some (_, w)) => eqbl w lost_f0 && negb (eqbl srt lost_f0) | _ => false end | _ => false end = true.
Proof. vm_compute. reflexivity. Qed.
Example c52_encoder : enc_ok toy_hash rs_encode 4 lost_p /\ meta_fits toy_hash lost_p /\ input_ok (SrcFile lost_content) /\ meta_on lost_p = true /\ (exists mx, ver_to_max_data_file_size V18 (Some (2, 1, 1)) = ROk mx /\ lenN lost_content <= mx).
Proof.
  split; [apply rs_ok; [vm_compute; repeat split; discriminate|reflexivity|vm_compute; reflexivity]|]. split; [intros _; vm_compute; discriminate|].
  split; [split; vm_compute; reflexivity|]. split; [reflexivity|]. eexists. split; [vm_compute; reflexivity|vm_compute; discriminate].
Qed.
Print Assumptions c51_disk.
Print Assumptions c51_kept_unique.
Print Assumptions c52_without_burst_refuted.
