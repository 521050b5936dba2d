(* C59: the reports of check, repair, sort, decode and encode, and their exit codes. *)
From Coq Require Import String Ascii ZArith.
From Verif Require Import M_Base M_Specs M_Header M_Multihash M_Metadata M_Block M_Index M_FileUtils M_Buffer M_Ranges M_Encode M_Scan M_Loop M_Decode
  M_Content M_Check M_Repair M_Sort M_Hex M_Rescue M_Json M_Show M_Report
  S_Crc S_Meta S_Block S_Index S_Container S_Encode S_Scan S_Decode S_Sort S_Content S_Repair S_Check S_Json S_Show S_Report
  L_Base L_File L_Header L_Meta L_Block L_Index L_Index2 L_Ranges L_Ref L_Decode L_Decode2 L_Repair5 L_Repair6 L_Roundtrip L_Json L_Json2 L_Show P_Json L_Report
  P_Encode P_Decode P_Roundtrip P_Repair P_Sort P_Check.
Ltac Zify.zify_post_hook ::= idtac.

(* ---- bounds ---- *)
Lemma exactly_le P c b : exactly P c -> (forall i, P i -> i < b) -> c <= b.
Proof.
  intros (l & ND & IN & <-) H. assert (I : incl l (rangeN 0 b)). { intros i Hi. apply In_rangeN. apply IN, H in Hi. lia. }
  apply (NoDup_incl_length ND) in I. pose proof (lenN_range 0 b) as L. unfold lenN in *. lia.
Qed.
Lemma exactly_inj P c b (g : N -> N) : exactly P c -> (forall i, P i -> exists j, j < b /\ i = g j) -> c <= b.
Proof.
  intros (l & ND & IN & <-) H. assert (I : incl l (map g (rangeN 0 b))).
  { intros i Hi. apply IN, H in Hi as (j & J & ->). apply in_map, In_rangeN. lia. }
  apply (NoDup_incl_length ND) in I. rewrite map_length in I. pose proof (lenN_range 0 b) as L. unfold lenN in *. lia.
Qed.
Lemma count_le {A} (g : A -> bool) l : countN g l <= lenN l.
Proof. unfold countN, lenN. induction l as [|a l IH]; [cbn; lia|]. cbn [filter]. destruct (g a); cbn [length] in *; lia. Qed.
(* what a reference block found is like *)
Lemma ref_fine f from to mis choice pos ref : bytes_ok f = true -> lenN f < 18446744073709551616 -> get_ref_block f from to mis choice = ROk (Some (pos, ref)) ->
  pos < 18446744073709551616 /\ lenN (b_uid ref) = 6 /\ bytes_ok (b_uid ref) = true /\ forall h, get_HSH ref = Some h -> hash_fine h.
Proof.
  intros HB HL G. pose proof (get_ref_block_ok f from to mis choice HB) as K. destruct (calc_required_len_and_seek_to_from_byte_range _ _ _ _ _ _) as [req lo] eqn:E.
  destruct (range_in_file _ _ _ _ None _ _ ltac:(unfold mult_of; lia) HL E) as (LO & R1 & R2 & R3). destruct (K LO) as (r & ER & S). rewrite G in ER. apply ROk_inj in ER. subst r.
  assert (F : exists P, found f lo (lo + req) P (Some (pos, ref))). { destruct choice; cbn [ref_spec] in S; [eexists; exact S|destruct S as [[_ S]|[_ S]]; eexists; exact S|eexists; exact S]. }
  destruct F as (P & h & pl & (LD & (HO & LP & TK & _) & _) & R). apply lands_ge in LD.
  assert (BP : bytes_ok pl = true).
  { assert (X : bytes_ok (takeN (ver_to_block_size (h_version h)) (dropN (lo + pos) f)) = true) by (apply bytes_ok_take, bytes_ok_drop, HB). rewrite TK in X.
    rewrite bytes_ok_app in X. apply Bool.andb_true_iff in X. apply X. }
  apply header_ok_spec in HO. destruct R as [RH RD].
  split. { destruct (N.eq_dec (lenN f) 0) as [Z|Z]; [destruct (R3 Z); lia|assert (lo + req <= lenN f) by (apply R2; lia); lia]. }
  split; [unfold b_uid; rewrite RH; apply HO|]. split; [unfold b_uid; rewrite RH; apply HO|].
  intros x E'. unfold get_HSH in E'. destruct (block_get_meta ref IHSH) as [[]|] eqn:M; try discriminate E'. injection E' as <-.
  unfold block_get_meta in M. rewrite RD in M. destruct (h_seq_num h =? 0); [|discriminate]. apply get_first_with in M as (pre & post & EQ & _).
  pose proof (from_bytes_fields_ok pl BP) as FO. rewrite EQ in FO. apply Forall_app in FO as [_ FO]. apply Forall_inv in FO. destruct h0 as [ht d]. exact FO.
Qed.
Lemma finish_fine H t w : hash_fn_ok H -> hash_fine (finish_hash H t w).
Proof. intro HF. apply HF. Qed.
Lemma info_members (verbose : bool) pos ref : pos < 18446744073709551616 ->
  exists items, members items (if verbose then [ref_info pos ref] else []) /\ (if verbose then report_ref_block_info pos ref else []) = flat_map calls items.
Proof.
  intro P. destruct verbose; [|exists []; split; [apply ms_nil|reflexivity] ]. eexists. split; [|apply info_items].
  pose proof (info_member pos ref P) as M. destruct (ref_info pos ref) as [k j]. apply ms_cons; [exact M|apply ms_nil].
Qed.
Lemma members_app l1 ms1 l2 ms2 : members l1 ms1 -> members l2 ms2 -> members (l1 ++ l2) (ms1 ++ ms2).
Proof. intros M1 M2. revert ms1 M1. induction l1 as [|i l1 IH]; intros ms1 M1; inversion M1; subst; [exact M2|]. cbn [app]. apply ms_cons; [assumption|apply IH; assumption]. Qed.
Lemma member_one i k j : member i k j -> members [i] [(k, j)].
Proof. intro M. apply ms_cons; [exact M|apply ms_nil]. Qed.

(* ---- the clock ---- *)
(* Durations are printed as hours, minutes and seconds: they add up, minutes and seconds are below 60. *)
Theorem c59_clock t : (0 <= t)%Z -> exists h m s, fmt_hms t = two h ++ str ":" ++ two m ++ str ":" ++ two s /\ m < 60 /\ s < 60 /\ h * 3600 + m * 60 + s = Z.to_N t.
Proof.
  intro T. rewrite hms_ok by exact T. set (n := Z.to_N t). exists (n / 3600), (n / 60 mod 60), (n mod 60). split; [reflexivity|].
  pose proof (N.mod_lt (n / 60) 60). pose proof (N.mod_lt n 60). split; [lia|]. split; [lia|].
  pose proof (N.div_mod n 60). pose proof (N.div_mod (n / 60) 60). change 3600 with (60 * 60). rewrite <- N.div_div by lia. lia.
Qed.

(* ---- check ---- *)
(* A run of check that gets through prints, as one JSON value and no other: on demand the reference block and the positions of the messages, then the
   burst level if it is needed for hashing and known, the counters of C37, the recorded hash and the hash found (C36) or the text of the error met when hashing, and the times. The counters are the numbers
   of places holding metadata blocks, data or parity blocks, broken ones, blank ones. The exit code is 0. *)
Theorem c59_check H cpus p f out t_check t_hash etext :
  bytes_ok f = true -> lenN f < 18446744073709551616 -> hash_fn_ok H -> (0 <= t_check)%Z -> (0 <= t_hash)%Z -> error_text etext ->
  check_file H cpus p f = ROk out ->
  exists pos ref len lo cs,
    get_ref_block f (ref_from_pos (cp_ref_from p) (cp_from p)) (cp_ref_to p) (cp_misalign p) (cp_choice p) = ROk (Some (pos, ref)) /\ check_setup p f ref len lo /\
    check_report H cpus p f t_check t_hash etext = ROk (cs, 0) /\ stands_for cs (check_output p pos ref
      (get_data_par_burst f (cp_burst p) (guess_from_param (cp_guess p) (cp_from p)) (cp_misalign p) ref) out t_check t_hash etext) /\
    (ko_check out = None <-> cp_hash p = HashOnly) /\
    (forall s ps, ko_check out = Some (s, ps) -> check_counts (b_version ref) (b_uid ref) f lo len (cp_report_blank p) s).
Proof.
  intros HB HL HF TC TH ET E. destruct (check_file_ok _ _ _ _ _ HB HL E) as (ref & len & lo & ST & LO & CK & HK). destruct ST as [(pos & G) R].
  destruct (ref_fine _ _ _ _ _ _ _ HB HL G) as (HP & _ & _ & HH).
  assert (CC : forall s ps, ko_check out = Some (s, ps) -> check_counts (b_version ref) (b_uid ref) f lo len (cp_report_blank p) s /\ small_cstats s /\ Forall (fun q => q < 18446744073709551616) ps).
  { intros s ps K. assert (NH : cp_hash p <> HashOnly) by (destruct CK as [[_ C]|[C _]]; [congruence|exact C]).
    destruct (c37_every_block_counted _ _ _ _ _ HB HL E NH) as (ref' & len' & lo' & s' & ps' & ST' & K' & C & X). rewrite K in K'. apply Some_inj, pair_inj in K' as [<- <-].
    destruct ST' as [(z & G') R']. rewrite G in G'. apply ROk_inj, Some_inj, pair_inj in G' as [<- <-]. rewrite R in R'. apply pair_inj in R' as [<- <-].
    split; [exact C|]. pose proof (block_size_pos (b_version ref)) as BP. split.
    - unfold small_cstats. apply (exactly_le _ _ (lenN f)) in X; [lia|]. intros i [_ V]. nia.
    - apply Forall_forall. intros q I. apply (c37_messages_partial H cpus p f out s ps ref len lo HB HL E K (conj (ex_intro _ pos G) R)) in I as (_ & _ & k & [_ V] & _ & ->). nia. }
  destruct (info_members (cp_verbose p) pos ref HP) as (il & IM & IE).
  assert (FM : exists fl, members fl (match ko_check out with Some (_, ps) => if cp_verbose p then [(str "blocksFailed", failed_json ps)] else [] | None => [] end) /\
     check_failed_calls p out = flat_map calls fl).
  { unfold check_failed_calls. destruct (ko_check out) as [[s ps]|]; [|exists []; split; [apply ms_nil|reflexivity] ]. destruct (cp_verbose p); [|exists []; split; [apply ms_nil|reflexivity] ].
    eexists. split; [apply member_one, failed_member; apply (CC s ps eq_refl)|]. rewrite failed_items. cbn [flat_map calls]. rewrite app_nil_r. reflexivity. }
  destruct FM as (fl & FM & FE).
  assert (LM : exists ll, members ll (match cp_hash p with NoHash => [] | _ => level_known (get_data_par_burst f (cp_burst p) (guess_from_param (cp_guess p) (cp_from p)) (cp_misalign p) ref) end) /\
     check_level_calls p f ref = flat_map calls ll).
  { unfold check_level_calls. destruct (cp_hash p); [exists []; split; [apply ms_nil|reflexivity]|eexists; split; [apply level_members|apply level_calls_items]..]. }
  destruct LM as (ll & LM & LE).
  assert (SM : member (GroupItem (Some (str "stats")) Curly (fields_of (check_stats_calls (b_version ref) out t_check t_hash etext))) (str "stats") (check_json (b_version ref) out t_check t_hash etext)).
  { apply check_stats_members; [exact TC|exact TH|intros s ps K; apply (CC s ps K)|]. intros h r K. destruct HK as [[_ C]|(_ & total & h' & x & HS & C & EX & NP)]; [congruence|].
    rewrite K in C. apply Some_inj, pair_inj in C as [<- <-]. split.
    - apply HH. unfold check_hash_setup in HS. destruct (is_data ref); [discriminate|]. destruct (get_FSZ ref); [|discriminate]. destruct (get_HSH ref) as [h0|]; [|discriminate].
      destruct (hash_supported (fst h0)); [|discriminate]. apply ROk_inj, pair_inj in HS as [_ <-]. reflexivity.
    - destruct r as [h'|e|]; [|apply fine_text; apply ET|congruence]. symmetry in EX. destruct (get_data_par_burst _ _ _ _ _) as [o| |]; [|discriminate..]. cbn [rbind] in EX.
      unfold content_hash in EX. destruct (content_bytes _ _ _ _ _) as [w| |]; [|discriminate..]. cbn [rbind] in EX. apply ROk_inj in EX. rewrite <- EX. apply finish_fine, HF. }
  exists pos, ref, len, lo. eexists. split; [exact G|]. split; [split; [exists pos; exact G|exact R]|]. split; [unfold check_report; rewrite G; cbn [rbind]; rewrite E; reflexivity|]. split; [|split].
  - unfold check_output. apply (report_ok (il ++ fl ++ ll ++ [GroupItem (Some (str "stats")) Curly (fields_of (check_stats_calls (b_version ref) out t_check t_hash etext))])).
    + apply members_app; [exact IM|]. apply members_app; [exact FM|]. apply members_app; [exact LM|]. apply member_one, SM.
    + rewrite IE, FE, LE, (check_stats_items (b_version ref) out t_check t_hash etext) at 1. rewrite !flat_map_app. reflexivity.
  - destruct CK as [[A B]|[A (x & B & _)]]; split; congruence.
  - intros s ps K. apply (CC s ps K).
Qed.
(* If it does not: the reason, with exit code 2. *)
Theorem c59_check_error H cpus p f e t_check t_hash etext : bytes_ok f = true -> lenN f < 18446744073709551616 -> error_text etext ->
  check_file H cpus p f = RErr e ->
  exists cs ms msg, check_report H cpus p f t_check t_hash etext = ROk (cs, 2) /\ stands_for cs (error_json ms msg) /\
    ((get_ref_block f (ref_from_pos (cp_ref_from p) (cp_from p)) (cp_ref_to p) (cp_misalign p) (cp_choice p) = ROk None /\ ms = [] /\ msg = str "Error : Failed to find reference block") \/
     (exists pos ref, get_ref_block f (ref_from_pos (cp_ref_from p) (cp_from p)) (cp_ref_to p) (cp_misalign p) (cp_choice p) = ROk (Some (pos, ref)) /\
        ms = (if cp_verbose p then [ref_info pos ref] else []) /\ msg = etext)).
Proof.
  intros HB HL ET E. unfold check_report.
  pose proof (get_ref_block_ok f (ref_from_pos (cp_ref_from p) (cp_from p)) (cp_ref_to p) (cp_misalign p) (cp_choice p) HB) as K.
  destruct (calc_required_len_and_seek_to_from_byte_range _ _ _ _ _ None) as [req lo] eqn:R. destruct (range_in_file _ _ _ _ None _ _ ltac:(unfold mult_of; lia) HL R) as (LO & _).
  destruct (K LO) as (r & G & _). rewrite G. cbn [rbind]. destruct r as [[pos ref]|].
  - destruct (ref_fine _ _ _ _ _ _ _ HB HL G) as (HP & _). destruct (info_members (cp_verbose p) pos ref HP) as (il & IM & IE). rewrite E. eexists _, _, _. split; [reflexivity|].
    split; [apply (report_error il _ _ _ IM IE ET)|]. right. exists pos, ref. split; [reflexivity|]. split; reflexivity.
  - eexists _, _, _. split; [reflexivity|]. split; [apply (report_error [] [] _ _ ms_nil eq_refl)|left; split; [reflexivity|split; reflexivity] ].
    split; [is_plain|cbn; tauto].
Qed.

(* ---- repair ---- *)
Theorem c59_repair rs rc burst f ref d p B m dry t etext :
  recon_ok rs rc d p -> bytes_ok f = true -> lenN f < 18446744073709551616 -> repair_setup burst f ref d p B m ->
  dry = true \/ lenN f mod ver_to_block_size (b_version ref) = 0 -> (0 <= t)%Z ->
  exists s w cs, repair_file rc dry burst f = ROk (Some (s, w)) /\ repair_report rc dry burst f t etext = ROk (cs, 0) /\
    stands_for cs (repair_output (b_version ref) (Some (d, p, B)) s t).
Proof.
  intros HR HB HL SU DR T. destruct (c21_counters rs rc burst f ref d p B m dry HR HB HL SU DR) as (s & w & E & C1 & C2 & C3 & (c & C4 & C5) & C6 & C7).
  pose proof (proj1 (setup_facts burst f ref d p B m HB HL SU)) as HO. destruct SU as ((pos & G) & VR & DP & FS). destruct (ref_fine _ _ _ _ _ _ _ HB HL G) as (HP & _).
  assert (M : m <= U32_MAX) by (destruct (get_FSZ ref); [destruct FS as (? & _ & ->)|rewrite FS]; apply N.le_min_l). change U32_MAX with 4294967295 in M.
  assert (PP : p < 4294967296) by (cbn [dpb_ok] in HO; lia).
  assert (SM : small_pstats s).
  { assert (MI : forall c P, exactly (fun i => meta_index (Some true) (Some (d, p, B)) i /\ P i) c -> c <= p + 1).
    { intros c' P X. apply (exactly_inj _ _ (p + 1) (fun j => j * (1 + B))) in X; [exact X|]. intros i ((j & J & ->) & _). exists j. split; [lia|reflexivity]. }
    assert (DI : forall c (P : N -> Prop), exactly P c -> (forall i, P i -> 1 <= i <= m) -> c <= m + 1).
    { intros c' P X Y. apply (exactly_le _ _ (m + 1)) in X; [exact X|]. intros i Z. apply Y in Z. lia. }
    apply MI in C1. apply MI in C2. apply DI in C3; [|intros i Z; apply Z]. apply DI in C4; [|intros i Z; apply Z].
    apply DI in C6; [|intros i Z; apply Z]. apply DI in C7; [|intros i Z; apply Z]. unfold small_pstats. rewrite C5. lia. }
  eexists s, w, _. split; [exact E|]. split; [unfold repair_report; rewrite G; cbn [rbind]; rewrite E; reflexivity|].
  unfold repair_output. rewrite DP. pose proof (level_members (ROk (Some (d, p, B)))) as LM. cbn [level_known] in LM.
  apply (report_ok (level_items (ROk (Some (d, p, B))) ++ [GroupItem (Some (str "metadata repairs")) Square []; GroupItem (Some (str "data repairs")) Square [];
    GroupItem (Some (str "stats")) Curly (fields_of (repair_stats_calls (b_version ref) s t))])).
  - apply members_app; [exact LM|]. apply ms_cons; [apply group_lit; try reflexivity; apply c_array, es_nil|]. apply ms_cons; [apply group_lit; try reflexivity; apply c_array, es_nil|].
    apply ms_cons; [apply repair_stats_members; assumption|apply ms_nil].
  - rewrite level_calls_items, (repair_stats_items (b_version ref) s t) at 1. rewrite flat_map_app. reflexivity.
Qed.

(* ---- sort ---- *)
Theorem c59_sort cpus verbose p f old s u out t etext :
  1 <= cpus -> bytes_ok f = true -> lenN f < 18446744073709551616 -> (0 <= t)%Z -> sort_file cpus p f old = ROk (s, u, out) ->
  exists pos ref o len lo cs, let q := M_Sort.sp_scan p in
    get_ref_block f (ref_from_pos (dc_ref_from q) (dc_from q)) (dc_ref_to q) (dc_misalign q) (dc_choice q) = ROk (Some (pos, ref)) /\ setup q f ref o len lo /\
    sort_report cpus verbose p f old t etext = ROk (cs, 0) /\ stands_for cs (sort_output verbose pos ref o s u t).
Proof.
  intros CP HB HL T E. destruct (c22_sort_statistics cpus p f old s u out CP HB HL E) as (ref & o & len & lo & xs & ST & SC & VX & _).
  destruct (c22_sort_metadata_statistics cpus p f old s u out CP HB HL E) as (ref' & o' & len' & lo' & l & ST' & ND & IN & MS).
  pose proof ST as ((pos & G) & DP & SR). pose proof ST' as ((pos' & G') & DP' & _). rewrite G in G'. apply ROk_inj, Some_inj, pair_inj in G' as [<- <-]. rewrite DP in DP'. apply ROk_inj in DP'. subst o'.
  destruct (ref_fine _ _ _ _ _ _ _ HB HL G) as (HP & _). destruct (setup_ok _ _ _ _ _ _ HB HL ST) as (HO & _).
  assert (LX : lenN xs * 6 < 18446744073709551616).
  { destruct (N.eq_dec (lenN xs) 0) as [->|NZ]; [lia|]. destruct (proj2 (VX (lenN xs - 1))) as [_ V]; [lia|].
    assert (B : 128 <= ver_to_block_size (b_version ref)) by (destruct (b_version ref); vm_compute; discriminate). nia. }
  assert (LL : lenN l < 4294967296).
  { assert (X : exactly (meta_index (Some true) o) (lenN l)) by (exists l; split; [exact ND|split; [exact IN|reflexivity] ]).
    destruct o as [[[d q] B]|].
    - apply (exactly_inj _ _ (q + 1) (fun j => j * (1 + B))) in X; [|intros i (j & J & ->); exists j; split; [lia|reflexivity] ]. cbn [dpb_ok] in HO. lia.
    - apply (exactly_le _ _ 1) in X; [lia|]. intros i [_ ->]. lia. }
  assert (SM : small_sort s u).
  { destruct SC as (E1 & E2 & E3 & E4 & E5 & E6 & E7 & E8 & E9). unfold small_sort. rewrite E1, E2, E3, E4, E5, E6, E7, E8, E9.
    repeat match goal with |- context [countN ?g xs] => let n := fresh "n" in pose proof (count_le g xs); set (n := countN g xs) in *; clearbody n end.
    destruct MS as [(-> & -> & _)|(k & _ & _ & _ & _ & ->)]; lia. }
  destruct (info_members verbose pos ref HP) as (il & IM & IE).
  exists pos, ref, o, len, lo. eexists. cbv zeta. split; [exact G|]. split; [exact ST|]. split; [unfold sort_report; rewrite G; cbn [rbind]; rewrite E; reflexivity|].
  rewrite DP. pose proof (level_members (ROk o)) as LM. cbn [level_known] in LM.
  unfold sort_output. apply (report_ok (il ++ level_items (ROk o) ++ [GroupItem (Some (str "stats")) Curly (fields_of (sort_stats_calls (b_version ref) s u t))])).
  - apply members_app; [exact IM|]. apply members_app; [exact LM|]. apply member_one, sort_stats_members; assumption.
  - rewrite IE, level_calls_items, (sort_stats_items (b_version ref) s u t) at 1. rewrite !flat_map_app, <- !app_assoc. reflexivity.
Qed.

(* ---- decode ---- *)
Lemma decode_fields H order cpus limit p f target x : decode_file H order cpus limit p f target = ROk x ->
  exists pos ref, get_ref_block f (ref_from_pos (dc_ref_from p) (dc_from p)) (dc_ref_to p) (dc_misalign p) (dc_choice p) = ROk (Some (pos, ref)) /\
    (exists o, get_data_par_burst f (dc_burst p) (guess_from_param (dc_guess p) (dc_from p)) (dc_misalign p) ref = ROk o) /\
    negb (dc_force_write p) && match dc_multi p with None => true | _ => false end && match target with ToFile (Some _) => true | _ => false end = false /\
    do_recorded x = get_HSH ref /\ (do_computed x = None \/ exists t w, do_computed x = Some (finish_hash H t w)).
Proof.
  unfold decode_file. destruct (get_ref_block _ _ _ _ _) as [[[pos ref]|]|e|]; try discriminate. cbn [rbind].
  destruct (_ && _) eqn:RF; [discriminate|].
  unfold decode. destruct (get_data_par_burst _ _ _ _ _) as [o|e|] eqn:DP; try discriminate. cbn [rbind]. destruct (_ && is_data ref); [discriminate|]. intro E. exists pos, ref. split; [reflexivity|].
  split; [exists o; exact DP|]. split; [reflexivity|].
  assert (HO : forall w, hash_output H ref w = None \/ exists t w', hash_output H ref w = Some (finish_hash H t w')).
  { intro w. unfold hash_output. destruct (get_HSH ref) as [[ht hd]|]; [|left; reflexivity]. destruct (hash_supported ht); [right; eauto|left; reflexivity]. }
  destruct target as [|old].
  - destruct (decode_to_stdout _ _ _ _ _ _ _) as [[[st w] w']|e|]; try discriminate. cbn [rbind] in E. apply ROk_inj in E. subst x. split; [reflexivity|apply HO].
  - destruct (decode_to_file _ _ _ _ _ _) as [[st w]|e|]; try discriminate. cbn [rbind] in E. apply ROk_inj in E. subst x. split; [reflexivity|apply HO].
Qed.
(* for the two kinds of output; the counters are those of a 64 bit machine *)
Theorem c59_decode H order cpus limit verbose p f target x t_decode t_hash etext :
  bytes_ok f = true -> lenN f < 18446744073709551616 -> hash_fn_ok H -> (0 <= t_decode)%Z -> (0 <= t_hash)%Z ->
  small_dstats (do_stats x) -> do_size x < 18446744073709551616 ->
  decode_file H order cpus limit p f target = ROk x ->
  exists pos ref o cs,
    get_ref_block f (ref_from_pos (dc_ref_from p) (dc_from p)) (dc_ref_to p) (dc_misalign p) (dc_choice p) = ROk (Some (pos, ref)) /\
    get_data_par_burst f (dc_burst p) (guess_from_param (dc_guess p) (dc_from p)) (dc_misalign p) ref = ROk o /\
    decode_report H order cpus limit verbose p f target t_decode t_hash etext = ROk (cs, 0) /\
    stands_for cs (decode_output verbose pos ref o f x (match target with ToFile _ => true | ToStdout => false end) t_decode t_hash).
Proof.
  intros HB HL HF TD TH SM SZ E. destruct (decode_fields _ _ _ _ _ _ _ _ E) as (pos & ref & G & (o & DP) & RF & RC & CP). destruct (ref_fine _ _ _ _ _ _ _ HB HL G) as (HP & U1 & U2 & HH).
  destruct (info_members verbose pos ref HP) as (il & IM & IE). set (tf := match target with ToFile _ => true | ToStdout => false end).
  exists pos, ref, o. eexists. split; [exact G|]. split; [exact DP|]. split; [unfold decode_report; rewrite G; cbn [rbind]; rewrite E; reflexivity|]. fold tf. cbv zeta. rewrite RF, DP. clearbody tf.
  pose proof (level_members (ROk o)) as LM. cbn [level_known] in LM.
  unfold decode_output. apply (report_ok (il ++ level_items (ROk o) ++ [GroupItem (Some (str "stats")) Curly (fields_of (decode_stats_calls ref f x tf t_decode t_hash))])).
  - apply members_app; [exact IM|]. apply members_app; [exact LM|]. apply member_one, decode_stats_members; try assumption.
    + intros h EH. apply HH. congruence.
    + intros h EH. destruct CP as [CP|(ht & w & CP)]; rewrite EH in CP; [discriminate|]. apply Some_inj in CP. subst h. apply finish_fine, HF.
  - rewrite IE, level_calls_items, (decode_stats_items ref f x tf t_decode t_hash) at 1. rewrite !flat_map_app, <- !app_assoc. reflexivity.
Qed.
(* To a file: the counters are the numbers of places holding metadata, data, parity blocks, and others (C17); the size is that of the output file, the hash is the hash
   of the output file. *)
Theorem c59_decode_to_file H order cpus limit verbose p f old x t_decode t_hash etext :
  1 <= cpus -> bytes_ok f = true -> lenN f < 18446744073709551616 -> hash_fn_ok H -> (0 <= t_decode)%Z -> (0 <= t_hash)%Z ->
  lenN (do_out x) < 18446744073709551616 -> decode_file H order cpus limit p f (ToFile old) = ROk x ->
  exists pos ref o len lo ks cs,
    get_ref_block f (ref_from_pos (dc_ref_from p) (dc_from p)) (dc_ref_to p) (dc_misalign p) (dc_choice p) = ROk (Some (pos, ref)) /\ setup p f ref o len lo /\
    decode_report H order cpus limit verbose p f (ToFile old) t_decode t_hash etext = ROk (cs, 0) /\
    stands_for cs (decode_output verbose pos ref o f x true t_decode t_hash) /\
    do_size x = lenN (do_out x) /\ do_recorded x = get_HSH ref /\ (forall h, do_computed x = Some h -> h = finish_hash H (fst h) (do_out x)) /\
    counts (do_stats x) ks /\ let bs := ver_to_block_size (b_version ref) in
    (forall k, visited bs f lo len k <-> k < lenN ks) /\
    forall k y, nth_optN ks k = Some y -> kind_at (b_version ref) (b_uid ref) o f (lo + k * bs) y.
Proof.
  intros CP HB HL HF TD TH SZ E. destruct (c17_decode_statistics _ _ _ _ _ _ _ _ CP HB HL E) as (ref & o & len & lo & ks & ST & CT & VX & KA). cbv zeta in VX, KA.
  assert (LX : lenN ks * 4 < 18446744073709551616).
  { destruct (N.eq_dec (lenN ks) 0) as [->|NZ]; [lia|]. destruct (proj2 (VX (lenN ks - 1))) as [_ V]; [lia|].
    assert (B : 128 <= ver_to_block_size (b_version ref)) by (destruct (b_version ref); vm_compute; discriminate). nia. }
  assert (SM : small_dstats (do_stats x)).
  { destruct CT as (E1 & E2 & E3 & E4 & E5 & E6 & E7). unfold small_dstats. rewrite E1, E2, E3, E4, E5, E6, E7.
    pose proof (count_le (kind_eqb KMeta) ks). pose proof (count_le (kind_eqb KData) ks). pose proof (count_le (kind_eqb KParity) ks). pose proof (count_le (kind_eqb KBad) ks). lia. }
  destruct (decode_file_char _ _ _ _ _ _ _ _ CP HB HL E) as (ref' & o' & len' & lo' & ST' & EO). cbv zeta in EO.
  assert (DS : do_size x = lenN (do_out x) /\ do_recorded x = get_HSH ref' /\ do_computed x = hash_output H ref' (do_out x)) by (rewrite EO; repeat split).
  destruct DS as (D1 & D2 & D3).
  destruct (c59_decode H order cpus limit verbose p f (ToFile old) x t_decode t_hash etext HB HL HF TD TH SM ltac:(lia) E) as (pos & r & ol & cs & G & DP & R & S).
  pose proof ST as ((z & G1) & DP1 & _). pose proof ST' as ((z' & G2) & _). rewrite G in G1, G2. apply ROk_inj, Some_inj, pair_inj in G1 as [_ <-]. apply ROk_inj, Some_inj, pair_inj in G2 as [_ <-].
  rewrite DP in DP1. apply ROk_inj in DP1. subst ol.
  exists pos, r, o, len, lo, ks, cs. split; [exact G|]. split; [exact ST|]. split; [exact R|]. split; [exact S|]. split; [exact D1|]. split; [exact D2|]. split.
  - intros h EH. rewrite D3 in EH. unfold hash_output in EH. destruct (get_HSH r) as [[ht hd]|]; [|discriminate]. destruct (hash_supported ht); [|discriminate]. apply Some_inj in EH. subst h.
    unfold finish_hash. cbn [fst]. destruct ht; reflexivity.
  - split; [exact CT|]. split; [exact VX|exact KA].
Qed.

(* ---- encode ---- *)
(* The report of encode: the UID, the sizes, the blocks written, how much was encoded, how long the container is, the hash recorded. *)
Theorem c59_encode H rs p cpus content mx n t etext :
  enc_ok H rs cpus p -> meta_fits H p -> input_ok (SrcFile content) -> e_from p = None -> e_to p = None ->
  ver_to_max_data_file_size (e_ver p) (e_dpb p) = ROk mx -> lenN content <= mx ->
  block_count (e_ver p) (e_dpb p) (lenN content) n -> n < U32_MAX -> (0 <= t)%Z ->
  exists out cs, encode_file H rs cpus p (SrcFile content) = ROk out /\ encoded H rs p content out /\
    encode_report H rs cpus p (SrcFile content) t etext = ROk (cs, 0) /\
    stands_for cs (success_json [(str "stats", encode_json p (lenN content) out t)]).
Proof.
  intros OK MF IO F1 F2 MX LM BC NU T. destruct (c38_encoded_container_is_the_file H rs p cpus content mx n OK MF IO F1 F2 MX LM BC NU) as (out & E & EN).
  pose proof EN as (ER & _ & EH & ES & EM & ED & n' & BC' & EB). destruct IO as [IB IL]. destruct (encoded_intact H rs cpus p content out n OK IB EN BC ltac:(lia)) as [_ FL].
  destruct OK as (U1 & U2 & DO & _ & _ & _ & _ & _ & _ & _ & _ & HF & _).
  assert (n' = n) as ->. { apply block_count_iff in BC; [|exact DO]. apply block_count_iff in BC'; [|exact DO]. congruence. }
  exists out. eexists. split; [exact E|]. split; [exact EN|]. split; [unfold encode_report; rewrite E, ER; reflexivity|].
  apply (report_ok [GroupItem (Some (str "stats")) Curly (fields_of (encode_stats_calls p out t))]).
  - apply member_one, encode_stats_members; try assumption.
    + unfold small_estats. rewrite ED. split; [|exact IL]. change U32_MAX with 4294967295 in NU. rewrite EM.
      destruct (e_dpb p) as [[[d par] B]|]; cbn [dpb_ok] in DO.
      * destruct EB as (sets & -> & -> & ->). destruct (meta_on p); nia.
      * destruct EB as [-> ->]. destruct (meta_on p); lia.
    + rewrite ES. exact FL.
    + intros h EH'. rewrite EH in EH'. destruct (meta_on p); [|discriminate]. apply Some_inj in EH'. subst h. apply HF.
  - apply encode_stats_items.
Qed.
(* a file too large for the version: nothing is written, exit code 2 *)
Theorem c59_encode_error H rs p cpus content mx t etext : error_text etext ->
  ver_to_max_data_file_size (e_ver p) (e_dpb p) = ROk mx -> mx < fst (asked p content) ->
  exists out cs, encode_file H rs cpus p (SrcFile content) = ROk out /\ eo_file out = [] /\
    encode_report H rs cpus p (SrcFile content) t etext = ROk (cs, 2) /\ stands_for cs (error_json [] etext).
Proof.
  intros ET MX LA. destruct (c38_too_large_refused H rs p cpus content mx MX LA) as (out & E & ER & EF). exists out. eexists. split; [exact E|]. split; [exact EF|].
  split; [unfold encode_report; rewrite E, ER; reflexivity|]. apply (report_error [] [] _ _ ms_nil eq_refl ET).
Qed.

(* ---- exit codes ---- *)
(* The documentation (BLKAR_SPECS.md, Exit code) promises 2 if an error is detected during operation. For check this should mean:
     check_report H cpus p f t_check t_hash etext = ROk (cs, 0) -> no block failed and the hash matches.
   For decode: no block failed to decode and the hash of the output is the recorded one. For repair: all blocks that failed the check are repaired.
   All three are false (finding F32): scripts that look at the exit code only take a broken container for a good one. *)
Definition exits (r : result (list call * N)) : option N := match r with ROk (_, n) => Some n | _ => None end.
Lemma ok_with {A} (r : result A) (g : A -> bool) : match r with ROk x => g x | _ => false end = true -> exists x, r = ROk x /\ g x = true.
Proof. destruct r as [x| |]; [intro E; exists x; split; [reflexivity|exact E]|discriminate..]. Qed.
Lemma check_exits H cpus p f out t t' e : check_file H cpus p f = ROk out -> exits (check_report H cpus p f t t' e) = Some 0.
Proof.
  intro E. unfold check_report. rewrite E. unfold check_file in E. destruct (get_ref_block _ _ _ _ _) as [[[pos ref]|]|x|]; try discriminate E. reflexivity.
Qed.
Lemma decode_exits H order cpus limit v p f target out t t' e : decode_file H order cpus limit p f target = ROk out ->
  exits (decode_report H order cpus limit v p f target t t' e) = Some 0.
Proof.
  intro E. unfold decode_report. rewrite E. unfold decode_file in E. destruct (get_ref_block _ _ _ _ _) as [[[pos ref]|]|x|]; try discriminate E. reflexivity.
Qed.
Lemma repair_exits rc dry burst f s w t e : repair_file rc dry burst f = ROk (Some (s, w)) -> exits (repair_report rc dry burst f t e) = Some 0.
Proof.
  intro E. unfold repair_report. rewrite E. unfold repair_file in E. destruct (get_ref_block _ _ _ _ _) as [[[pos ref]|]|x|]; try discriminate E. reflexivity.
Qed.
(* the container of C16 with a hash that depends on all bytes, then a byte of its second block changed *)
Definition sum_hash : hash_fn := fun t data => repN (hash_len t) (fold_left N.add data 0 mod 256).
Definition sum_file : list N := match encode_file sum_hash toy_rs 4 (toy_p V17 toy_o) (SrcFile toy_content) with ROk out => eo_file out | _ => [] end.
Definition sum_broken : list N := takeN 600 sum_file ++ [nthN sum_file 600 + 1] ++ dropN 601 sum_file.
Theorem c59_exit_code_refuted :
  (exists f out s ps, bytes_ok f = true /\ check_file toy_hash 2 (toy_check NoHash false None) f = ROk out /\ ko_check out = Some (s, ps) /\ ck_failed s = 1 /\
     forall t t' e, exits (check_report toy_hash 2 (toy_check NoHash false None) f t t' e) = Some 0) /\
  (exists f out, bytes_ok f = true /\ check_file toy_hash 2 (toy_check HashOnly false None) f = ROk out /\ verdict out <> Some true /\
     forall t t' e, exits (check_report toy_hash 2 (toy_check HashOnly false None) f t t' e) = Some 0) /\
  (exists f out h h', bytes_ok f = true /\ decode_file sum_hash (fun l => l) 4 0%nat toy_q f (ToFile None) = ROk out /\ ds_failed (do_stats out) <> 0 /\
     do_recorded out = Some h /\ do_computed out = Some h' /\ h <> h' /\
     forall t t' e, exits (decode_report sum_hash (fun l => l) 4 0%nat false toy_q f (ToFile None) t t' e) = Some 0) /\
  (exists f s w, bytes_ok f = true /\ repair_file toy_rc false (Some 2) f = ROk (Some (s, w)) /\ ps_data_fail s <> 0 /\
     forall t e, exits (repair_report toy_rc false (Some 2) f t e) = Some 0).
Proof.
  split; [|split; [|split]].
  - destruct (ok_with (check_file toy_hash 2 (toy_check NoHash false None) toy_broken) (fun out => match ko_check out with Some (s, ps) => ck_failed s =? 1 | None => false end)) as (out & E & X); [vm_compute; reflexivity|].
    destruct (ko_check out) as [[s ps]|] eqn:K; [|discriminate X].
    exists toy_broken, out, s, ps. split; [vm_compute; reflexivity|]. split; [exact E|]. split; [exact K|]. split; [apply N.eqb_eq, X|]. intros. exact (check_exits _ _ _ _ _ _ _ _ E).
  - destruct (ok_with (check_file toy_hash 2 (toy_check HashOnly false None) toy_broken) (fun out => match verdict out with Some true => false | _ => true end)) as (out & E & X); [vm_compute; reflexivity|].
    exists toy_broken, out. split; [vm_compute; reflexivity|]. split; [exact E|]. split; [intro V; rewrite V in X; discriminate X|]. intros. exact (check_exits _ _ _ _ _ _ _ _ E).
  - destruct (ok_with (decode_file sum_hash (fun l => l) 4 0%nat toy_q sum_broken (ToFile None)) (fun out => negb (ds_failed (do_stats out) =? 0) &&
      match do_recorded out, do_computed out with Some h, Some h' => negb (eqbl (snd h) (snd h')) | _, _ => false end)) as (out & E & X); [vm_compute; reflexivity|].
    apply Bool.andb_true_iff in X as [X1 X2]. destruct (do_recorded out) as [h|] eqn:E1; [|discriminate X2]. destruct (do_computed out) as [h'|] eqn:E2; [|discriminate X2].
    exists sum_broken, out, h, h'. split; [vm_compute; reflexivity|]. split; [exact E|]. split; [intro Z; rewrite Z in X1; discriminate X1|]. split; [exact E1|]. split; [exact E2|].
    split; [intros ->; rewrite (proj2 (eqbl_eq _ _) eq_refl) in X2; discriminate X2|]. intros. exact (decode_exits _ _ _ _ _ _ _ _ _ _ _ _ E).
  - destruct (ok_with (repair_file toy_rc false (Some 2) rep_lost) (fun r => match r with Some (s, w) => negb (ps_data_fail s =? 0) | None => false end)) as ([[s w]|] & E & X); [vm_compute; reflexivity| |discriminate X].
    exists rep_lost, s, w. split; [vm_compute; reflexivity|]. split; [exact E|]. split; [intro Z; rewrite Z in X; discriminate X|]. intros. exact (repair_exits _ _ _ _ _ _ _ _ E).
Qed.

(* ---- examples: the report on a container with a broken block; on the encoding of the content of C16 ---- *)
Definition lost : list N := str "Error : data block lost".
Definition text_of (r : result (list call * N)) : option (list N * N) :=
  match r with ROk (cs, n) => match do_calls cs [] with ROk (t, []) => Some (t, n) | _ => None end | _ => None end.
Definition parsed (r : result (list call * N)) : option (json * N) := match text_of r with Some (t, n) => option_map (fun j => (j, n)) (parse_json t) | None => None end.
Example c59_run :
  parsed (check_report toy_hash 2 (toy_check HashAfterCheck false None) toy_broken 3661 5 lost) =
  Some (JObj [(str "refBlockInfo", JObj [(str "type", JStr (str "metadata")); (str "ver", num 17); (str "pos", num 0)]);
              (str "blocksFailed", JArr []); (str "burstErrorResistanceLevel", num 4);
              (str "stats", JObj [(str "sbxVersion", num 17); (str "blockSizeUsedInChecking", num 512); (str "numberOfBlocksProcessed", num 20);
                 (str "numberOfBlocksPassedCheckMetadata", num 3); (str "numberOfBlocksPassedCheckData", num 4); (str "numberOfBlocksFailedCheck", num 1);
                 (str "timeElapsedForBlockCheck", JStr (str "01:01:01")); (str "recordedHash", hash_json (SHA256, repN 32 176)); (str "hashOfStoredData", JStr lost);
                 (str "timeElapsedForHashing", JStr (str "00:00:00")); (str "timeElapsed", JStr (str "01:01:01"))]);
              (str "error", JNull)], 0) /\
  parsed (encode_report toy_hash toy_rs 4 (toy_p V17 toy_o) (SrcFile toy_content) 59 lost) =
  Some (JObj [(str "stats", JObj [(str "fileUID", JStr (str "010203040506")); (str "sbxVersion", num 17); (str "blockSizeUsedInEncoding", num 512); (str "dataSizeUsedInEncoding", num 496);
                 (str "numberOfBlocksWritten", num 8); (str "numberOfBlocksWrittenMetadata", num 3); (str "numberOfBlocksWrittenData", num 3); (str "numberOfBlocksWrittenParity", num 2);
                 (str "amountOfDataEncodedBytes", num 1200); (str "fileSize", num 1200); (str "sbxContainerSize", num (lenN toy_file));
                 (str "hash", hash_json (SHA256, repN 32 176)); (str "timeElapsed", JStr (str "00:00:59"))]);
              (str "error", JNull)], 0).
Proof. split; vm_compute; reflexivity. Qed.
Example c59_hypotheses : hash_fn_ok toy_hash /\ error_text lost /\
  (exists out, check_file toy_hash 2 (toy_check HashAfterCheck false None) toy_broken = ROk out) /\
  (exists x, decode_file sum_hash (fun l => l) 4 0%nat toy_q sum_broken (ToFile None) = ROk x /\ lenN (do_out x) < 18446744073709551616).
Proof.
  split; [|split; [split; [is_plain|cbn; tauto]|split] ].
  - exact toy_hash_ok.
  - destruct (ok_with (check_file toy_hash 2 (toy_check HashAfterCheck false None) toy_broken) (fun _ => true)) as (out & E & _); [vm_compute; reflexivity|]. exists out. exact E.
  - destruct (ok_with (decode_file sum_hash (fun l => l) 4 0%nat toy_q sum_broken (ToFile None)) (fun x => lenN (do_out x) <? 5000)) as (x & E & L); [vm_compute; reflexivity|].
    exists x. split; [exact E|]. apply N.ltb_lt in L. lia.
Qed.
(* What the exit code does tell: 0 that the command got to its end (C59 above); then the numbers in the report tell the rest. *)
Print Assumptions c59_clock.
Print Assumptions c59_check.
Print Assumptions c59_check_error.
Print Assumptions c59_repair.
Print Assumptions c59_sort.
Print Assumptions c59_decode.
Print Assumptions c59_decode_to_file.
Print Assumptions c59_encode.
Print Assumptions c59_encode_error.
Print Assumptions c59_exit_code_refuted.
