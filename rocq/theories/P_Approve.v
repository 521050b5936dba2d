(* C63: what check --hash approves can be decoded. *)
From Verif Require Import M_Base M_Specs M_Header M_Multihash M_Metadata M_Block M_Index M_FileUtils M_Buffer M_Ranges M_Encode M_Scan M_Loop M_Decode M_Content M_Check
  S_Meta S_Block S_Index S_Container S_Encode S_Scan S_Decode S_Content S_Repair S_Check
  L_Base L_File L_Block L_Ranges L_Scan L_Decode L_Decode2 L_Chunks L_Repair L_Check P_Encode P_Decode P_Content P_Roundtrip P_Check.

(* decode is given the same options as check; both read the whole file *)
Definition same_options (p : cparam) (q : dparam) : Prop :=
  cp_from p = None /\ cp_to p = None /\ dc_from q = None /\ dc_to q = None /\ dc_choice q = cp_choice p /\ dc_ref_from q = cp_ref_from p /\ dc_ref_to q = cp_ref_to p /\
  dc_misalign q = cp_misalign p /\ dc_burst q = cp_burst p /\ dc_guess q = cp_guess p /\ dc_multi q = None.

(* Whatever the file is: if check finds that the hash matches, decode succeeds, and what it writes has the recorded size and hash, provided that no two blocks
   of the container in the file have the same number and different contents. *)
Theorem c63_approved_decodes H cpus p f x ref o len lo order cpus' limit q old size :
  1 <= cpus -> 1 <= cpus' -> bytes_ok f = true -> lenN f < 18446744073709551616 -> same_options p q -> (dc_force_write q = true \/ old = None) ->
  check_file H cpus p f = ROk x -> verdict x = Some true ->
  setup q f ref o len lo -> get_FSZ ref = Some size -> 1 <= size -> numbered (b_version ref) o size ->
  consistent (b_version ref) (b_uid ref) f lo len ->
  exists out h, decode_file H order cpus' limit q f (ToFile old) = ROk out /\ get_HSH ref = Some h /\
    lenN (do_out out) = size /\ H (ctx_hash_type (fst h)) (do_out out) = snd h /\
    do_recorded out = Some h /\ do_computed out = Some (ctx_hash_type (fst h), snd h).
Proof.
  intros CP CP' HB HL (P1 & P2 & Q1 & Q2 & Q3 & Q4 & Q5 & Q6 & Q7 & Q8 & Q9) FW CF VD SE FSZ S1 NU CON.
  assert (ST : check_setup p f ref len lo).
  { destruct SE as ((y & G) & _ & R). unfold scan_range in R. split; [exists y; rewrite P1, <- Q3, <- Q4, <- Q5, <- Q6, <- Q1; exact G|]. rewrite P1, P2, <- Q6. rewrite Q1, Q2 in R. exact R. }
  assert (NH : cp_hash p <> NoHash). { intro Z. unfold check_file in CF. rewrite Z in CF. destruct (get_ref_block _ _ _ _ _) as [[[pos r]|]| |]; try discriminate. cbn [rbind] in CF.
    destruct (calc_required_len_and_seek_to_from_byte_range _ _ _ _ _ _) as [l1 l2]. cbn [rbind] in CF. destruct (check_blocks _ _ _ _ _); try discriminate. apply ROk_inj in CF. subst x. discriminate. }
  destruct (check_file_ok _ _ _ _ _ HB HL CF) as (ref' & len' & lo' & ST' & _ & _ & [[C _]|(_ & total & h & r & HS & KO & EX & NP)]); [congruence|].
  pose proof ST as [(y & G) R]. destruct ST' as [(y' & G') R']. rewrite G in G'. apply ROk_inj, Some_inj, pair_inj in G' as [<- <-]. clear R'.
  assert (ID : is_data ref = false /\ get_HSH ref = Some h /\ hash_supported (fst h) = true).
  { unfold check_hash_setup in HS. destruct (is_data ref); [discriminate|]. rewrite FSZ in HS. destruct (get_HSH ref) as [h'|]; [|discriminate]. destruct (hash_supported (fst h')) eqn:SU; [|discriminate].
    apply ROk_inj, pair_inj in HS as [_ <-]. auto. }
  destruct ID as (ID & GH & SU).
  assert (GD : get_data_par_burst f (cp_burst p) (guess_from_param (cp_guess p) (cp_from p)) (cp_misalign p) ref = ROk o).
  { destruct SE as (_ & GD & _). rewrite Q7, Q8, Q1, Q6 in GD. rewrite P1. exact GD. }
  destruct (setup_ok _ _ _ _ _ _ HB HL SE) as (HO & _).
  destruct (proj1 (c37_verdict H cpus p f x ref len lo o size h CP HB HL CF NH ST GD FSZ GH S1 NU true) VD) as (data & LD & DP & HH).
  destruct (c27_decode_ends H order cpus' limit q f old ref o len lo CP' SE) as (out & DE); [rewrite ID; apply andb_false_r|destruct FW; auto|].
  assert (R0 : len = N.max 1 (lenN f) /\ lo = 0).
  { rewrite P1, P2, range_whole in R; [apply pair_inj in R as [<- <-]; auto|cbn [mult_of]; pose proof (block_size_pos (b_version ref)); lia|exact HL]. }
  destruct R0 as (-> & ->).
  set (bs := ver_to_block_size (b_version ref)) in *. pose proof (block_size_pos (b_version ref)) as BP. fold bs in BP.
  assert (INP : forall j, j * (bs - 16) < lenN data -> exists k seq pl, visited bs f 0 (N.max 1 (lenN f)) k /\ block_at (b_version ref) (b_uid ref) f (0 + k * bs) seq pl /\ is_chunk o seq j /\
     sliceN (j * (bs - 16)) (bs - 16) data = takeN (lenN data - j * (bs - 16)) pl).
  { intros j Hj. destruct (DP j Hj) as (pl & (seq & CH & B) & SL). eexists _, seq, pl. split; [|split; [rewrite N.add_0_l; exact B|split; [exact CH|exact SL]]].
    apply block_at_len in B. fold bs in B. unfold visited. rewrite N.add_0_l. clear - B BP. nia. }
  assert (EQ : do_out out = data).
  { destruct (c18_survivors H order cpus' limit q f old out ref o _ _ data CP' HB HL Q9 DE SE) as (L & V); [rewrite LD; exact FSZ| |].
    - intros k seq pl j (VK & B) CH i RL Hr. destruct (INP j ltac:(fold bs in RL |- *; lia)) as (k' & seq' & pl' & VK' & B' & CH' & SL).
      assert (seq' = seq) as -> by (rewrite (chunk_dseq _ _ _ HO CH), (chunk_dseq _ _ _ HO CH'); reflexivity). rewrite (CON _ _ _ _ _ VK VK' B B'). fold bs in RL, Hr |- *.
      apply (f_equal (fun l => nthN l i)) in SL. rewrite nthN_slice, nthN_take in SL. destruct (N.ltb_spec i (bs - 16)); [|lia]. destruct (N.ltb_spec i (lenN data - j * (bs - 16))); [|lia]. symmetry. exact SL.
    - apply list_ext_N; [exact L|]. rewrite L. intros i Hi. destruct (V i Hi) as [V1 _]. pose proof (N.div_mod' i (bs - 16)). 
      destruct (INP (i / (bs - 16)) ltac:(nia)) as (k & seq & pl & VK & B & CH & _). apply (V1 k seq pl); [split; assumption|exact CH]. }
  exists out, h. split; [exact DE|]. split; [exact GH|]. rewrite EQ. split; [exact LD|]. assert (HX : H (ctx_hash_type (fst h)) data = snd h) by (apply HH; reflexivity). split; [exact HX|].
  destruct (decode_file_char _ _ _ _ _ _ _ _ CP' HB HL DE) as (ref2 & o2 & len2 & lo2 & ((z & G2) & _) & EO). destruct SE as ((z' & G3) & _). rewrite G3 in G2. apply ROk_inj, Some_inj, pair_inj in G2 as [_ <-].
  cbv zeta in EO. rewrite FSZ in EO. rewrite EO in EQ |- *. cbn [do_out do_recorded do_computed] in *. split; [exact GH|]. rewrite EQ. unfold hash_output. rewrite GH. destruct h as [t d]. cbn [fst snd] in *. rewrite SU. unfold finish_hash. rewrite HX. reflexivity.
Qed.
Print Assumptions c63_approved_decodes.

(* Two containers with the same UID, and a hash that tells their contents apart. *)
Definition sum_hash : hash_fn := fun t data => repN (hash_len t) (fold_right N.add 0 data mod 256).
Definition small (data : list N) : list N := match encode_file sum_hash toy_rs 2 (toy_p V2 None) (SrcFile data) with ROk out => eo_file out | _ => [] end.
Definition a_check : cparam := mkCparam (Prefer TMeta) None None None false None None false HashAfterCheck None false.
Definition a_decode : dparam := mkDparam (Prefer TMeta) None None None false None None None false None.
Definition ref_of (f : file) : block := match get_ref_block f None None false (Prefer TMeta) with ROk (Some (_, b)) => b | _ => block_dummy end.
(* a container with rubbish behind it *)
Definition approved : file := small [10;20;30] ++ [1;2;3;4;5].
(* a container with the data block of the other one appended *)
Definition doubled : file := small [10;20;30] ++ dropN 128 (small [40;50;60]).

Lemma accepted ref f pos s : bytes_ok f = true ->
  match accept ref (sliceN pos (ver_to_block_size (b_version ref)) f) with Some b => b_seq_num b =? s | None => false end = true ->
  exists pl, block_at (b_version ref) (b_uid ref) f pos s pl.
Proof.
  intros HB A. pose proof (accept_block_at ref f pos HB) as Q. destruct (accept _ _) as [b|]; [|discriminate]. apply N.eqb_eq in A. rewrite A in Q. destruct Q as (Q & _). eauto.
Qed.
Example c63_hypotheses : exists x len lo size,
  bytes_ok approved = true /\ lenN approved < 18446744073709551616 /\ same_options a_check a_decode /\
  check_file sum_hash 2 a_check approved = ROk x /\ verdict x = Some true /\ setup a_decode approved (ref_of approved) None len lo /\
  get_FSZ (ref_of approved) = Some size /\ 1 <= size /\ numbered (b_version (ref_of approved)) None size /\
  consistent (b_version (ref_of approved)) (b_uid (ref_of approved)) approved lo len.
Proof.
  assert (C : exists x, check_file sum_hash 2 a_check approved = ROk x /\ verdict x = Some true).
  { assert (X : match check_file sum_hash 2 a_check approved with ROk x => match verdict x with Some true => true | _ => false end | _ => false end = true) by (vm_compute; reflexivity).
    destruct (check_file _ _ _ _) as [x| |]; try discriminate. exists x. destruct (verdict x) as [[]|]; try discriminate. auto. }
  destruct C as (x & C & V). exists x, 261, 0, 3.
  split; [vm_compute; reflexivity|]. split; [vm_compute; reflexivity|]. split; [repeat split|]. split; [exact C|]. split; [exact V|].
  split. { split; [exists 0; vm_compute; reflexivity|split; vm_compute; reflexivity]. }
  split; [vm_compute; reflexivity|]. split; [discriminate|].
  split. { exists 1. split; [|discriminate]. exists 1. split; [|reflexivity]. replace (b_version (ref_of approved)) with V2 by (vm_compute; reflexivity). split; [discriminate|]. intros m M. lia. }
  unfold consistent. set (bs := ver_to_block_size _). intros k k' seq pl pl' K0 K1 B B'. destruct K0 as [_ K], K1 as [_ K'].
  assert (BB : bytes_ok approved = true) by (vm_compute; reflexivity).
  assert (LB : lenN approved = 261) by (vm_compute; reflexivity). assert (BS : bs = 128) by (vm_compute; reflexivity). rewrite LB, BS in *.
  destruct (accepted (ref_of approved) approved (0 + 0 * 128) 0 BB) as (p0 & Q0); [vm_compute; reflexivity|].
  destruct (accepted (ref_of approved) approved (0 + 1 * 128) 1 BB) as (p1 & Q1); [vm_compute; reflexivity|].
  assert (k = 0 \/ k = 1) as [->| ->] by lia; assert (k' = 0 \/ k' = 1) as [->| ->] by lia.
  - destruct (block_at_unique _ _ _ _ _ _ _ _ B B') as [_ E]. exact E.
  - destruct (block_at_unique _ _ _ _ _ _ _ _ B Q0) as [E _], (block_at_unique _ _ _ _ _ _ _ _ B' Q1) as [E' _]. congruence.
  - destruct (block_at_unique _ _ _ _ _ _ _ _ B Q1) as [E _], (block_at_unique _ _ _ _ _ _ _ _ B' Q0) as [E' _]. congruence.
  - destruct (block_at_unique _ _ _ _ _ _ _ _ B B') as [_ E]. exact E.
Qed.
Definition approves (f : file) : bool := match check_file sum_hash 2 a_check f with ROk x => match verdict x with Some true => true | _ => false end | _ => false end.
Lemma approves_iff f : approves f = true -> exists x, check_file sum_hash 2 a_check f = ROk x /\ verdict x = Some true.
Proof. unfold approves. destruct (check_file _ _ _ _) as [x| |]; try discriminate. destruct (verdict x) as [[]|] eqn:V; try discriminate. eauto. Qed.
Definition decoded (f : file) : option (list N) := match decode_file sum_hash (fun l => l) 2 0%nat a_decode f (ToFile None) with ROk x => Some (do_out x) | _ => None end.
Example c63_run : approves approved = true /\ decoded approved = Some [10;20;30] /\ approves (small [10;20;31]) = true /\
  approves (takeN 128 (small [10;20;30]) ++ dropN 128 (small [10;20;31])) = false.
Proof. repeat split; vm_compute; reflexivity. Qed.

(* Finding F34: without this proviso it is false. check reads the blocks at the places where they belong, decode takes the last one in the file. *)
Theorem c63_doubled_refuted :
  ~ (forall H cpus p f x ref o len lo order cpus' limit q old size,
  1 <= cpus -> 1 <= cpus' -> bytes_ok f = true -> lenN f < 18446744073709551616 -> same_options p q -> (dc_force_write q = true \/ old = None) ->
  check_file H cpus p f = ROk x -> verdict x = Some true ->
  setup q f ref o len lo -> get_FSZ ref = Some size -> 1 <= size -> numbered (b_version ref) o size ->
  exists out h, decode_file H order cpus' limit q f (ToFile old) = ROk out /\ get_HSH ref = Some h /\ H (ctx_hash_type (fst h)) (do_out out) = snd h).
Proof.
  intro A. destruct (approves_iff doubled) as (x & C & V); [vm_compute; reflexivity|].
  destruct (A sum_hash 2 a_check doubled x (ref_of doubled) None 384 0 (fun l => l) 2 0%nat a_decode None 3) as (out & h & D & G & HH).
  - discriminate.
  - discriminate.
  - vm_compute. reflexivity.
  - vm_compute. reflexivity.
  - repeat split.
  - right. reflexivity.
  - exact C.
  - exact V.
  - split; [exists 0; vm_compute; reflexivity|split; vm_compute; reflexivity].
  - vm_compute. reflexivity.
  - discriminate.
  - exists 1. split; [|discriminate]. exists 1. split; [|reflexivity]. replace (b_version (ref_of doubled)) with V2 by (vm_compute; reflexivity). split; [discriminate|]. intros m M. lia.
  - assert (Y : decoded doubled = Some [40;50;60]) by (vm_compute; reflexivity). unfold decoded in Y. rewrite D in Y. apply Some_inj in Y. rewrite Y in HH.
    assert (G' : get_HSH (ref_of doubled) = Some (SHA256, repN 32 60)) by (vm_compute; reflexivity). rewrite G' in G. apply Some_inj in G. subst h. clear - HH.
    assert (Z : eqbl (sum_hash (ctx_hash_type (fst (SHA256, repN 32 60))) [40;50;60]) (snd (SHA256, repN 32 60)) = false) by (vm_compute; reflexivity).
    rewrite HH in Z. vm_compute in Z. discriminate Z.
Qed.
Print Assumptions c63_doubled_refuted.
