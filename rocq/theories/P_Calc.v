(* C50: calc. *)
From Coq Require Import String Ascii FinFun.
From Verif Require Import M_Base M_Specs M_Header M_Multihash M_Metadata M_Block M_Index M_FileUtils M_Buffer M_Ranges M_Encode
  M_Scan M_Loop M_Decode M_Sort M_Repair M_Rescue M_Hex M_Json M_Show M_Codec M_Path M_Cli M_Calc S_Meta S_Block S_Index S_Container S_Encode S_Scan S_Decode S_Repair S_Json S_Show S_Cli S_Calc
  L_Base L_File L_Index L_Index2 L_Intact L_Intact2 L_Repair8 L_Repair9 L_Tolerance L_Block L_Path L_Cli L_Cli2 L_Cli3 L_Roundtrip L_Calc P_Json P_Show P_Index P_Encode P_Decode P_Repair P_Roundtrip P_Codec P_Cli P_Options P_Commands.
Ltac Zify.zify_post_hook ::= idtac.

(* exactly the options of C48 are accepted *)
Theorem c50_options m r : calc_cmd m = Go r ->
  version_options m (cr_ver r) (cr_dpb r) /\ number_option m A_in_file_size (Some (cr_file_size r)).
Proof.
  unfold calc_cmd. destruct (get_ver_and_data_par_burst_w_defaults m) as [[v o]|] eqn:G; [|discriminate]. cbn [gbind]. apply version_options_iff in G.
  unfold number_option. destruct (value_of m A_in_file_size) as [x|]; [|discriminate]. destruct (parse_unsigned x) as [size|] eqn:P; [|discriminate].
  destruct (calc_container_size _ _ _ _) as [sz| |]; [|discriminate..]. destruct (calc_data_only_and_parity_block_count_exc_burst_gaps v o size) as [a b].
  intro E. injection E as <-. cbn [cr_ver cr_dpb cr_file_size]. split; [exact G|]. apply parse_number. exact P.
Qed.
Lemma options_ok m v o : version_options m v o -> dpb_ok o /\ ver_uses_rs v = (match o with Some _ => true | None => false end) /\
  match o with Some (d, p, B) => small64 d /\ small64 p /\ small64 B | None => True end.
Proof.
  unfold version_options, small64. destruct (value_of m A_sbx_version) as [x|].
  - intros (_ & X). destruct o as [[[d p] B]|].
    + destruct X as (V & ND & NP & D1 & P1 & DP & NB). split; [cbn; auto|]. split; [destruct V as [-> | [-> | ->] ]; reflexivity|]. split; [lia|]. split; [lia|].
      destruct NB as [NB|(_ & ->)]; [|lia]. unfold number_option in NB. destruct (value_of m A_burst); [|contradiction]. destruct NB as (dd & _ & _ & _ & _ & NB); exact NB.
    + split; [exact Logic.I|]. split; [destruct X as [-> | [-> | ->] ]; reflexivity|exact Logic.I].
  - intros (_ & _ & _ & -> & ->). split; [cbn; lia|]. split; [reflexivity|]. lia.
Qed.
(* the counts in terms of the layout *)
Definition layout_counts (v : version) (me : bool) (o : dpb) (n : N) (r : calc_report) : Prop :=
  exactly (meta_index (Some me) o) (cr_meta r) /\ exactly (used_index me o n) (cr_total r) /\
  match o with
  | None => cr_data r = n /\ cr_parity r = 0
  | Some (d, p, _) => exists sets, n = sets * (d + p) /\ cr_data r = sets * d /\ cr_parity r = sets * p
  end /\
  (forall i, used_index me o n i -> (i + 1) * ver_to_block_size v <= cr_size r) /\
  (cr_size r = 0 \/ exists i, used_index me o n i /\ cr_size r = (i + 1) * ver_to_block_size v).
Lemma meta_count me o : exactly (meta_index (Some me) o) (calc_meta_block_count_exc_burst_gaps (Some me) o).
Proof.
  unfold exactly, meta_index, calc_meta_block_count_exc_burst_gaps. destruct o as [[[d p] B]|].
  - exists (map (fun j => j * (1 + B)) (rangeN 0 (1 + p))). split; [apply Injective_map_NoDup; [intros a b E; nia|apply NoDup_rangeN]|]. split.
    + intro i. rewrite in_map_iff. split; [intros (j & <- & I); apply In_rangeN in I; exists j; split; [lia|reflexivity]|].
      intros (j & J & ->). exists j. split; [reflexivity|]. apply In_rangeN. lia.
    + unfold lenN. rewrite map_length. fold (lenN (rangeN 0 (1 + p))). rewrite lenN_range. lia.
  - destruct me.
    + exists [0]. split; [constructor; [intros []|constructor]|]. split; [|reflexivity]. intro i. cbn. split; [intros [<-|[]]; split; [discriminate|reflexivity]|intros (_ & ->); auto].
    + exists []. split; [constructor|]. split; [|reflexivity]. intro i. split; [intros []|intros (X & _); congruence].
Qed.
Lemma nodup_both (l l' : list N) : NoDup l -> NoDup l' -> (forall i, In i l -> In i l' -> False) -> NoDup (l ++ l').
Proof.
  induction 1 as [|x l NI ND IH]; intros N2 D; [exact N2|]. cbn [app]. constructor.
  - rewrite in_app_iff. intros [I|I]; [contradiction|]. apply (D x); [left; reflexivity|exact I].
  - apply IH; [exact N2|]. intros i A. apply D. right. exact A.
Qed.
Lemma total_count me o n : dpb_ok o -> exactly (used_index me o n) (calc_meta_block_count_exc_burst_gaps (Some me) o + n).
Proof.
  intro DO. destruct (meta_count me o) as (l & N1 & I1 & L1). set (w := fun s => calc_data_block_write_index s (Some me) o).
  exists (l ++ map w (rangeN 1 (1 + n))). assert (WI : forall i, In i (map w (rangeN 1 (1 + n))) <-> exists seq, 1 <= seq <= n /\ w seq = i).
  { intro i. rewrite in_map_iff. split; intros (s & A & B); exists s; [apply In_rangeN in B; split; [lia|exact A]|split; [exact B|apply In_rangeN; lia]]. }
  split; [|split].
  - apply nodup_both; [exact N1| |].
    + assert (X : forall l, NoDup l -> (forall s, In s l -> 1 <= s) -> NoDup (map w l)).
      { induction 1 as [|s l' NI ND IH]; intro P; [constructor|]. cbn [map]. constructor; [|apply IH; intros; apply P; right; assumption].
        intro I. apply in_map_iff in I as (s' & E & I). apply (write_index_inj (Some me) o) in E; [congruence|exact DO|apply P; right; exact I|apply P; left; reflexivity]. }
      apply X; [apply NoDup_rangeN|]. intros s I. apply In_rangeN in I. lia.
    + intros i A B. apply I1 in A. apply WI in B as (s & S & <-). exact (write_index_not_meta (Some me) o s DO ltac:(lia) A).
  - intro i. rewrite in_app_iff, I1, WI. reflexivity.
  - rewrite lenN_app, L1. f_equal. unfold lenN. rewrite map_length. fold (lenN (rangeN 1 (1 + n))). rewrite lenN_range. lia.
Qed.
Lemma calc_runs m v o size n : version_options m v o -> number_option m A_in_file_size (Some size) ->
  match o with Some (d, p, B) => (d + p) * B < 4294967296 | None => True end -> block_count v o size n -> n < U32_MAX ->
  exists r, calc_cmd m = Go r /\ cr_ver r = v /\ cr_dpb r = o /\ cr_file_size r = size /\
    layout_counts v (ver_forces_meta_enabled v || negb (is_present m A_no_meta)) o n r.
Proof.
  intros VO NO OB BC HN. destruct (options_ok m v o VO) as (DO & VR & _). pose proof (proj2 (version_options_iff m v o) VO) as GV.
  unfold calc_cmd. rewrite GV. cbn [gbind]. unfold number_option in NO. destruct (value_of m A_in_file_size) as [x|]; [|contradiction]. apply parse_number in NO. rewrite NO.
  set (me := negb (is_present m A_no_meta)).
  destruct (container_size_ok v (Some me) o size n DO BC HN OB) as (sz & -> & SE1 & SE2).
  pose proof BC as EN. apply block_count_iff in EN; [|exact DO].
  assert (ME : o = None -> ver_forces_meta_enabled v = false) by (intros ->; destruct v; try discriminate; reflexivity).
  assert (MC : calc_meta_block_count_exc_burst_gaps (Some me) o = calc_meta_block_count_exc_burst_gaps (Some (ver_forces_meta_enabled v || me)) o).
  { destruct o as [[[d p] B]|]; [reflexivity|]. rewrite (ME eq_refl). reflexivity. }
  assert (WU : forall i, written (Some me) o n i <-> used_index (ver_forces_meta_enabled v || me) o n i).
  { intro i. destruct o as [[[d p] B]|]; [reflexivity|]. rewrite (ME eq_refl). reflexivity. }
  unfold calc_total_block_count_exc_burst_gaps. rewrite <- EN, MC. unfold calc_data_block_count_exc_burst_gaps in EN.
  destruct (calc_data_only_and_parity_block_count_exc_burst_gaps v o size) as [a b] eqn:AB.
  eexists. split; [reflexivity|]. split; [reflexivity|]. split; [reflexivity|]. split; [reflexivity|]. unfold layout_counts. cbn [cr_meta cr_total cr_data cr_parity cr_size].
  split; [apply meta_count|]. split; [apply total_count; exact DO|]. split.
  { unfold calc_data_only_and_parity_block_count_exc_burst_gaps in AB. destruct o as [[[d p] B]|]; injection AB as <- <-; [|split; [lia|reflexivity]].
    eexists. split; [|split; reflexivity]. rewrite EN. ring. }
  split.
  - intros i U. rewrite N.mul_comm. apply SE1, WU, U.
  - destruct SE2 as [(-> & _)|(i & W & ->)]; [left; reflexivity|right]. exists i. split; [apply WU, W|apply N.mul_comm].
Qed.
(* For every file encode can take, calc ends with exit code 0, and the numbers of blocks and the size are those of the container encode writes,
   whatever the options. *)
Theorem c50_predicts_encode H rs p cpus content mx n m :
  enc_ok H rs cpus p -> meta_fits H p -> input_ok (SrcFile content) -> e_from p = None -> e_to p = None ->
  ver_to_max_data_file_size (e_ver p) (e_dpb p) = ROk mx -> lenN content <= mx ->
  block_count (e_ver p) (e_dpb p) (lenN content) n -> n < U32_MAX ->
  version_options m (e_ver p) (e_dpb p) -> e_meta p = negb (is_present m A_no_meta) -> number_option m A_in_file_size (Some (lenN content)) ->
  exists r out, calc_exit m = Exit 0 /\ calc_cmd m = Go r /\ encode_file H rs cpus p (SrcFile content) = ROk out /\ eo_err out = false /\
    cr_size r = lenN (eo_file out) /\ cr_file_size r = lenN content /\
    cr_meta r = st_meta (eo_stats out) /\ cr_data r = st_data (eo_stats out) /\ cr_parity r = st_parity (eo_stats out) /\
    cr_total r = cr_meta r + cr_data r + cr_parity r /\ layout_counts (e_ver p) (meta_on p) (e_dpb p) n r.
Proof.
  intros OK MF IO EF ET HMX LM BC HN VO EM NO.
  assert (OB : match e_dpb p with Some (d, q, B) => (d + q) * B < 4294967296 | None => True end) by apply OK.
  destruct (calc_runs m _ _ _ n VO NO OB BC HN) as (r & C & RV & RO & RS & LC).
  assert (EM' : ver_forces_meta_enabled (e_ver p) || negb (is_present m A_no_meta) = meta_on p) by (unfold meta_on; rewrite EM; reflexivity). rewrite EM' in LC.
  destruct (c38_encoded_container_is_the_file H rs p cpus content mx n OK MF IO EF ET HMX LM BC HN) as (out & E & EC).
  destruct EC as (NE & (meta & IC & _) & _ & _ & SM & _ & n' & BC' & SD).
  assert (DO : dpb_ok (e_dpb p)) by (destruct OK as (_ & _ & X & _); exact X).
  assert (n' = n) by (apply block_count_iff in BC, BC'; try exact DO; congruence). subst n'.
  exists r, out. split; [unfold calc_exit; rewrite C; reflexivity|]. split; [exact C|]. split; [exact E|]. split; [exact NE|].
  pose proof LC as (L1 & L2 & L3 & L4 & L5).
  assert (UNI : forall P a b, exactly P a -> exactly P b -> a = b).
  { intros P a b (la & NA & IA & <-) (lb & NB & IB & <-). assert (length la = length lb); [|unfold lenN; lia].
    apply Nat.le_antisymm; apply NoDup_incl_length; try assumption; intros i I; [apply IB, IA, I|apply IA, IB, I]. }
  assert (CM : cr_meta r = calc_meta_block_count_exc_burst_gaps (Some (meta_on p)) (e_dpb p)) by (eapply UNI; [exact L1|apply meta_count]).
  assert (CT : cr_total r = calc_meta_block_count_exc_burst_gaps (Some (meta_on p)) (e_dpb p) + n) by (eapply UNI; [exact L2|apply total_count; exact DO]).
  split.
  { destruct IC as (n' & BN & _ & _ & _ & I5 & I6). assert (n' = n) by (apply block_count_iff in BC, BN; try exact DO; congruence). subst n'.
    apply (is_end_uniq (ver_to_block_size (e_ver p)) (used_index (meta_on p) (e_dpb p) n)); (split; [intros i U; rewrite N.mul_comm|]).
    - apply L4, U.
    - destruct L5 as [Z|(i & U & Z)]; [left; split; [exact Z|]|right; exists i; split; [exact U|rewrite Z; apply N.mul_comm]]. intros i U. apply L4 in U. rewrite Z in U. pose proof (block_size_pos (e_ver p)). nia.
    - apply I5, U.
    - destruct I6 as [Z|(i & U & Z)]; [left; split; [exact Z|]|right; exists i; split; [exact U|rewrite Z; apply N.mul_comm]]. intros i U. apply I5 in U. rewrite Z in U. pose proof (block_size_pos (e_ver p)). nia. }
  split; [exact RS|]. split.
  { rewrite CM, SM. unfold calc_meta_block_count_exc_burst_gaps. destruct (e_dpb p) as [[[d q] B]|] eqn:EO; [|reflexivity].
    destruct OK as (_ & _ & _ & VR & _). rewrite EO in VR. unfold meta_on. destruct (e_ver p); (discriminate VR || reflexivity). }
  assert (CDP : cr_data r = st_data (eo_stats out) /\ cr_parity r = st_parity (eo_stats out) /\ cr_data r + cr_parity r = n).
  { destruct (e_dpb p) as [[[d q] B]|].
    - destruct L3 as (s1 & E1 & -> & ->), SD as (s2 & E2 & -> & ->). destruct DO as (D1 & _). assert (s1 = s2) by nia. subst s2. repeat split; try reflexivity. rewrite E1. ring.
    - destruct L3 as (-> & ->), SD as (-> & ->). repeat split; try reflexivity. lia. }
  destruct CDP as (C1 & C2 & C3). split; [exact C1|]. split; [exact C2|]. split; [|exact LC]. rewrite CT, CM. lia.
Qed.
Print Assumptions c50_predicts_encode.

(* The same for the commands: a file encoded with exit code 0 has become as long as calc says (given the same options and the size of the file). *)
Theorem c50_predicts_encode_command E m s inp li content v o n m' :
  machine_ok E -> text_ok m -> value_of m A_in_file = Some inp -> file_at E s inp li content ->
  bytes_ok content = true -> lenN content < 18446744073709551616 ->
  whole_file m -> with_metadata m o -> spares_input E m s li -> version_options m v o ->
  match o with Some (d, p, B) => (d + p) * B < 4294967296 | None => True end -> codec_ok (v_rs E) o ->
  block_count v o (lenN content) n -> n < U32_MAX ->
  version_options m' v o -> is_present m' A_no_meta = is_present m A_no_meta -> number_option m' A_in_file_size (Some (lenN content)) ->
  rn_exit (encode_cmd E m s) = Exit 0 ->
  exists r place container, calc_exit m' = Exit 0 /\ calc_cmd m' = Go r /\
    derived_place E m s (container_ext m) place /\ rn_fs (encode_cmd E m s) place = Some (NFile container) /\ lenN container = cr_size r.
Proof.
  intros MO TX VI FA CB CL WF WM NF VO OB CO BC HN VO' NM NO X.
  destruct (encode_exit0 E m s inp li content v o n MO TX VI FA CB CL WF WM NF VO OB CO BC HN X)
    as (p & out & lc & name & UI & FN & EV & EO & EI & EF & ET & ME & OK & MF & (mx & HMX & LM) & EN & EC & DP & SN & RC & SB).
  destruct (calc_runs m' v o (lenN content) n VO' NO OB BC HN) as (r & C & RV & RO & RS & LC).
  exists r, lc, (eo_file out). split; [unfold calc_exit; rewrite C; reflexivity|]. split; [exact C|]. split; [exact DP|]. split; [exact RC|].
  destruct LC as (_ & _ & _ & L4 & L5). destruct EC as (_ & (meta & IC & _) & _). rewrite ME, EV, EO in IC.
  assert (ME' : forall i, used_index (ver_forces_meta_enabled v || negb (is_present m' A_no_meta)) o n i <-> used_index true o n i).
  { intro i. destruct o as [[[d q] B]|]; [reflexivity|]. rewrite NM. destruct WM as [->|W]; [cbn [negb]; rewrite orb_true_r; reflexivity|congruence]. }
  destruct (options_ok m v o VO) as (DO & _). destruct IC as (n' & BN & _ & _ & _ & I5 & I6). assert (n' = n) by (apply block_count_iff in BC, BN; try exact DO; congruence). subst n'.
  pose proof (block_size_pos v) as BP.
  apply (is_end_uniq (ver_to_block_size v) (used_index true o n)); (split; [intros i U; rewrite N.mul_comm|]).
  - apply I5, U.
  - destruct I6 as [Z|(i & U & Z)]; [left; split; [exact Z|]|right; exists i; split; [exact U|rewrite Z; apply N.mul_comm]]. intros i U. apply I5 in U. rewrite Z in U. nia.
  - apply L4, ME', U.
  - destruct L5 as [Z|(i & U & Z)]; [left; split; [exact Z|]|right; exists i; split; [apply ME', U|rewrite Z; apply N.mul_comm]]. intros i U. apply ME', L4 in U. rewrite Z in U. nia.
Qed.
Print Assumptions c50_predicts_encode_command.

(* calc --json prints one JSON text, standing for these numbers *)
Theorem c50_json m v o size n r : version_options m v o -> number_option m A_in_file_size (Some size) ->
  match o with Some (d, p, B) => (d + p) * B < 4294967296 | None => True end -> block_count v o size n -> n < U32_MAX ->
  calc_cmd m = Go r ->
  exists t, do_calls (calc_calls r) [] = ROk (t, []) /\ forall j, json_text t j <-> j = calc_json r.
Proof.
  intros VO NO OB BC HN C. destruct (calc_runs m v o size n VO NO OB BC HN) as (r' & C' & RV & RO & RS & LC). rewrite C in C'. injection C' as <-.
  destruct (options_ok m v o VO) as (DO & VR & SM). destruct LC as (L1 & L2 & L3 & L4 & L5).
  assert (UNI : forall P a b, exactly P a -> exactly P b -> a = b).
  { intros P a b (la & NA & IA & <-) (lb & NB & IB & <-). assert (length la = length lb); [|unfold lenN; lia].
    apply Nat.le_antisymm; apply NoDup_incl_length; try assumption; intros i I; [apply IB, IA, I|apply IA, IB, I]. }
  set (me := ver_forces_meta_enabled v || negb (is_present m A_no_meta)) in *.
  assert (CM : cr_meta r = calc_meta_block_count_exc_burst_gaps (Some me) o) by (eapply UNI; [exact L1|apply meta_count]).
  assert (CT : cr_total r = calc_meta_block_count_exc_burst_gaps (Some me) o + n) by (eapply UNI; [exact L2|apply total_count; exact DO]).
  assert (MB : calc_meta_block_count_exc_burst_gaps (Some me) o <= 257) by (destruct o as [[[d p] B]|]; cbn in *; [|destruct me]; lia).
  assert (U32 : U32_MAX = 4294967295) by reflexivity.
  apply calc_prints; unfold small64.
  - rewrite RO, RV, VR. destruct o; split; congruence.
  - rewrite RO. exact SM.
  - lia.
  - destruct o as [[[d p] B]|]; [destruct L3 as (s & E1 & -> & _); nia|lia].
  - destruct o as [[[d p] B]|]; [destruct L3 as (s & E1 & _ & ->); nia|lia].
  - lia.
  - rewrite RS. unfold number_option in NO. destruct (value_of m A_in_file_size); [|contradiction]. destruct NO as (dd & _ & _ & _ & _ & Q). exact Q.
  - destruct L5 as [->|(i & U & ->)]; [lia|]. apply (positions_fit v (Some me) o n i); [exact DO|lia| |exact U].
    destruct o as [[[d p] B]|]; [|exact Logic.I]. destruct DO as (D1 & _). nia.
Qed.
Print Assumptions c50_json.

(* ---- the tolerance calc announces ---- *)
(* What repair needs: [bad] are the blocks that may be damaged, no block set has more than par of them. *)
Lemma tolerated H rs rc p cpus content mx n d par B :
  enc_ok H rs cpus p -> meta_fits H p -> input_ok (SrcFile content) ->
  e_from p = None -> e_to p = None -> e_dpb p = Some (d, par, B) -> recon_ok rs rc d par ->
  ver_to_max_data_file_size (e_ver p) (e_dpb p) = ROk mx -> lenN content <= mx ->
  block_count (e_ver p) (e_dpb p) (lenN content) n -> n < U32_MAX ->
  exists out, encode_file H rs cpus p (SrcFile content) = ROk out /\ eo_err out = false /\
  let f0 := eo_file out in let bs := ver_to_block_size (e_ver p) in
  forall L bursts f, bytes_ok f = true -> lenN f = lenN f0 ->
    (forall k l, NoDup l -> (forall s, In s l -> 1 <= s <= n /\ set_of d par s = k /\ hitb L bursts (calc_data_block_write_index s (Some true) (e_dpb p)) = true) -> lenN l <= par) ->
    (forall i, ~ hit L bursts (i / bs) -> nthN f i = nthN f0 i) ->
    (forall i seq pl, hit L bursts i -> used_index true (e_dpb p) n i ->
       block_at (e_ver p) (e_uid p) f (i * bs) seq pl -> block_at (e_ver p) (e_uid p) f0 (i * bs) seq pl) ->
    (~ hit L bursts 0 \/ exists pos ref, get_ref_block f None None false (MustBe TMeta) = ROk (Some (pos, ref)) /\
       b_version ref = e_ver p /\ b_uid ref = e_uid p /\ b_data ref = DMeta (recorded H p content)) ->
    exists t w, repair_file rc false (Some B) f = ROk (Some (t, w)) /\ restored (e_ver p) (e_dpb p) n f0 f w /\
      ((forall i, ~ used_index true (e_dpb p) n (i / bs) -> nthN f i = nthN f0 i) -> w = f0).
Proof.
  intros OK F IO EF ET EO HR HMX HL HBC HN. destruct (c38_encoded_container_is_the_file H rs p cpus content mx n OK F IO EF ET HMX HL HBC HN) as (out & E & EN).
  exists out. split; [exact E|]. split; [apply EN|]. cbv zeta. intros L bursts f HB LF PS OUT HIT REF.
  destruct IO as [IB IL]. destruct (encoded_intact H rs cpus p content out n OK IB EN HBC ltac:(lia)) as [IT FL].
  assert (ME : meta_on p = true). { apply (MEON _ _ _ _ _ _ _ _ _ IT). congruence. }
  rewrite ME in IT. rewrite EO in *.
  assert (MP : forall i, meta_index (Some true) (Some (d, par, B)) i -> meta_plain (e_ver p) (e_uid p) (recorded H p content) (sliceN (i * ver_to_block_size (e_ver p)) (ver_to_block_size (e_ver p)) (eo_file out))).
  { destruct EN as (_ & (meta & C & M) & _). specialize (M ME). rewrite ME, EO in C. destruct C as (n' & _ & _ & C & _). intros i MI. rewrite (C i MI). apply M. }
  assert (FZ : get_meta_by_id (recorded H p content) IFSZ = Some (FSZ (lenN content))) by (unfold recorded; destruct (e_in_name p), (e_fdt p); reflexivity).
  assert (RD : get_meta_by_id (recorded H p content) IRSD = Some (RSD d)) by (unfold recorded; rewrite EO; destruct (e_in_name p), (e_fdt p); reflexivity).
  assert (RP : get_meta_by_id (recorded H p content) IRSP = Some (RSP par)) by (unfold recorded; rewrite EO; destruct (e_in_name p), (e_fdt p); reflexivity).
  assert (HT : forall i, hitb L bursts i = true <-> hit L bursts i) by (intro; apply hitb_iff).
  assert (OUT' : forall i, hitb L bursts (i / ver_to_block_size (e_ver p)) = false -> nthN f i = nthN (eo_file out) i).
  { intros i Z. apply OUT. intro X. apply HT in X. congruence. }
  assert (HIT' : forall i seq pl, hitb L bursts i = true -> used_index true (Some (d, par, B)) n i ->
    block_at (e_ver p) (e_uid p) f (i * ver_to_block_size (e_ver p)) seq pl -> block_at (e_ver p) (e_uid p) (eo_file out) (i * ver_to_block_size (e_ver p)) seq pl).
  { intros i seq pl Z. apply HIT, HT, Z. }
  assert (G : exists pos ref, get_ref_block f None None false (MustBe TMeta) = ROk (Some (pos, ref)) /\
       b_version ref = e_ver p /\ b_uid ref = e_uid p /\ b_data ref = DMeta (recorded H p content)).
  { destruct REF as [NH|G]; [|exact G]. exists 0. apply (bad_first (e_ver p) (e_uid p) rs (eo_file out) f d par B n (recorded H p content) content (hitb L bursts)); try assumption.
    destruct (hitb L bursts 0) eqn:Z; [apply HT in Z; contradiction|reflexivity]. }
  destruct G as (pos & ref & G & EV & EU & ED).
  destruct (bad_repaired (e_ver p) (e_uid p) rs rc (eo_file out) f d par B n (recorded H p content) content (hitb L bursts) (Some B) HR IT MP FZ RD RP HB FL LF PS OUT' HIT' pos ref eq_refl G EV EU ED) as (t & w & RF & RS).
  exists t, w. split; [exact RF|]. split; [exact RS|]. apply (restored_same _ _ _ _ _ _ _ _ _ _ IT RS).
Qed.
(* What calc says of bursts is true: however many bursts of at most tl_burst blocks each there are, repair brings back every block if at most
   tl_count of them reach any one super block set (tl_super blocks). As in C20, what is left in the damaged places must not pass for a block of this
   container, and one of the metadata blocks must be found. *)
Theorem c50_tolerance H rs rc p cpus content mx n d par B :
  enc_ok H rs cpus p -> meta_fits H p -> input_ok (SrcFile content) ->
  e_from p = None -> e_to p = None -> e_dpb p = Some (d, par, B) -> recon_ok rs rc d par ->
  ver_to_max_data_file_size (e_ver p) (e_dpb p) = ROk mx -> lenN content <= mx ->
  block_count (e_ver p) (e_dpb p) (lenN content) n -> n < U32_MAX ->
  let t := calc_tolerance d par B in
  exists out, encode_file H rs cpus p (SrcFile content) = ROk out /\ eo_err out = false /\
  let f0 := eo_file out in let bs := ver_to_block_size (e_ver p) in
  forall bursts f, bytes_ok f = true -> lenN f = lenN f0 ->
    (forall k, at_most (tl_count t) (tl_super t) (tl_burst t) (e_dpb p) n bursts k) ->
    (forall i, ~ hit (tl_burst t) bursts (i / bs) -> nthN f i = nthN f0 i) ->
    (forall i seq pl, hit (tl_burst t) bursts i -> used_index true (e_dpb p) n i ->
       block_at (e_ver p) (e_uid p) f (i * bs) seq pl -> block_at (e_ver p) (e_uid p) f0 (i * bs) seq pl) ->
    (~ hit (tl_burst t) bursts 0 \/ exists pos ref, get_ref_block f None None false (MustBe TMeta) = ROk (Some (pos, ref)) /\
       b_version ref = e_ver p /\ b_uid ref = e_uid p /\ b_data ref = DMeta (recorded H p content)) ->
    exists st w, repair_file rc false (Some B) f = ROk (Some (st, w)) /\ restored (e_ver p) (e_dpb p) n f0 f w /\
      ((forall i, ~ used_index true (e_dpb p) n (i / bs) -> nthN f i = nthN f0 i) -> w = f0).
Proof.
  intros OK F IO EF ET EO HR HMX HL HBC HN t. destruct (tolerated H rs rc p cpus content mx n d par B OK F IO EF ET EO HR HMX HL HBC HN) as (out & E & NE & T).
  exists out. split; [exact E|]. split; [exact NE|]. cbv zeta in *. intros bursts f HB LF AM OUT HIT REF. apply (T (tl_burst t) bursts f HB LF); try assumption.
  assert (D1 : 1 <= d) by (destruct OK as (_ & _ & X & _); rewrite EO in X; apply X). rewrite EO in *. exact (per_set d par B n bursts D1 AM).
Qed.
Print Assumptions c50_tolerance.
(* ... and one single burst of tl_longest blocks, wherever it starts *)
Theorem c50_longest_burst H rs rc p cpus content mx n d par B :
  enc_ok H rs cpus p -> meta_fits H p -> input_ok (SrcFile content) ->
  e_from p = None -> e_to p = None -> e_dpb p = Some (d, par, B) -> recon_ok rs rc d par ->
  ver_to_max_data_file_size (e_ver p) (e_dpb p) = ROk mx -> lenN content <= mx ->
  block_count (e_ver p) (e_dpb p) (lenN content) n -> n < U32_MAX ->
  let len := tl_longest (calc_tolerance d par B) in
  exists out, encode_file H rs cpus p (SrcFile content) = ROk out /\ eo_err out = false /\
  let f0 := eo_file out in let bs := ver_to_block_size (e_ver p) in
  forall start f, bytes_ok f = true -> lenN f = lenN f0 ->
    (forall i, ~ (start <= i / bs < start + len) -> nthN f i = nthN f0 i) ->
    (forall i seq pl, start <= i < start + len -> used_index true (e_dpb p) n i ->
       block_at (e_ver p) (e_uid p) f (i * bs) seq pl -> block_at (e_ver p) (e_uid p) f0 (i * bs) seq pl) ->
    (1 <= start \/ exists pos ref, get_ref_block f None None false (MustBe TMeta) = ROk (Some (pos, ref)) /\
       b_version ref = e_ver p /\ b_uid ref = e_uid p /\ b_data ref = DMeta (recorded H p content)) ->
    exists st w, repair_file rc false (Some B) f = ROk (Some (st, w)) /\ restored (e_ver p) (e_dpb p) n f0 f w /\
      ((forall i, ~ used_index true (e_dpb p) n (i / bs) -> nthN f i = nthN f0 i) -> w = f0).
Proof.
  intros OK F IO EF ET EO HR HMX HL HBC HN len. destruct (tolerated H rs rc p cpus content mx n d par B OK F IO EF ET EO HR HMX HL HBC HN) as (out & E & NE & T).
  exists out. split; [exact E|]. split; [exact NE|]. cbv zeta in *. intros start f HB LF OUT HIT REF.
  set (L := N.max B 1) in *. assert (EL : len = par * L) by apply tl_longest_mul. set (bursts := map (fun j => start + j * L) (rangeN 0 par)).
  assert (HT : forall i, hit L bursts i <-> start <= i < start + len).
  { intro i. unfold bursts. rewrite <- single_burst by lia. rewrite <- EL. split; [intros (x & [<-|[]] & A); exact A|intro A; exists start; split; [left; reflexivity|exact A]]. }
  assert (D1 : 1 <= d) by (destruct OK as (_ & _ & X & _); rewrite EO in X; apply X).
  apply (T L bursts f HB LF).
  - rewrite EO. assert (TB : tl_burst (calc_tolerance d par B) = L) by apply tl_burst_max. rewrite <- TB. apply (per_set d par B n bursts D1).
    intros k l ND I. rewrite tl_count_par. transitivity (lenN bursts).
    + unfold lenN. assert (length l <= length bursts)%nat by (apply NoDup_incl_length; [exact ND|intros s Z; apply I, Z]). lia.
    + unfold bursts, lenN. rewrite map_length. fold (lenN (rangeN 0 par)). rewrite lenN_range. lia.
  - intros i X. apply OUT. rewrite <- HT. exact X.
  - intros i seq pl X. apply HIT, HT, X.
  - destruct REF as [S|G]; [left; rewrite HT; lia|right; exact G].
Qed.
Print Assumptions c50_longest_burst.

(* Finding F28: calc does not look at the maximum size. It counts blocks in 64 bits, but lays them out with 32: for a file of 5 TB, which encode
   refuses, it prints a container size of 68 KB and ends with exit code 0. *)
Definition big_size : N := 5325759452000.
Definition big_m : matches := cmd [(A_in_file_size, str "5325759452000")] [].
Theorem c50_too_large_refuted :
  (exists r, calc_cmd big_m = Go r /\ calc_exit big_m = Exit 0 /\ cr_file_size r = big_size /\ cr_size r = 69632 /\ cr_size r < cr_file_size r) /\
  version_options big_m V17 (Some (10, 2, 12)) /\
  forall H rs p cpus content, e_ver p = V17 -> e_dpb p = Some (10, 2, 12) -> e_from p = None -> e_to p = None -> lenN content = big_size ->
    exists out, encode_file H rs cpus p (SrcFile content) = ROk out /\ eo_err out = true /\ eo_file out = [].
Proof.
  split; [|split].
  - eexists. split; [vm_compute; reflexivity|]. repeat split.
  - apply version_options_iff. vm_compute. reflexivity.
  - intros H rs p cpus content EV EO EF ET EL. apply (c38_too_large_refused H rs p cpus content 1775253147360).
    + rewrite EV, EO. vm_compute. reflexivity.
    + unfold asked. rewrite EF, ET, EL. vm_compute. reflexivity.
Qed.
Print Assumptions c50_too_large_refuted.

(* ---- concrete cases ---- *)
(* the file of C49: 300 bytes, 2 + 1 shards, burst level 2 *)
Definition calc_m : matches := cmd [(A_sbx_version, str "17"); (A_rs_data, str "2"); (A_rs_parity, str "1"); (A_burst, str "2"); (A_in_file_size, str "300")] [].
Example c50_run : calc_cmd calc_m = Go (mkCalc V17 (Some (2, 1, 2)) 2 2 1 5 300 3584) /\ lenN cont = 3584 /\
  version_options calc_m V17 (Some (2, 1, 2)) /\ is_present calc_m A_no_meta = is_present enc_m A_no_meta /\ number_option calc_m A_in_file_size (Some (lenN toy_data)).
Proof.
  split; [vm_compute; reflexivity|]. split; [vm_compute; reflexivity|]. split; [apply version_options_iff; vm_compute; reflexivity|]. split; [reflexivity|].
  apply parse_number. vm_compute. reflexivity.
Qed.
(* Three bursts, more than the two parity blocks of a set, with two in the first super block set and one in the second. *)
Definition three_bursts : list N := takeN 512 rep_file ++ repN 1024 255 ++ sliceN 1536 512 rep_file ++ repN 1024 255 ++ sliceN 3072 1536 rep_file ++ repN 512 255 ++ dropN 5120 rep_file.
Example c50_tolerance_run : match repair_file toy_rc false (Some 2) three_bursts with ROk (Some (t, w)) => eqbl w (rep_file) && negb (eqbl w three_bursts) | _ => false end = true.
Proof. vm_compute. reflexivity. Qed.
Definition reaches_setb (size len : N) (o : dpb) (n k s : N) : bool :=
  existsb (fun seq => ((seq - 1) / size =? k) && (s <=? calc_data_block_write_index seq (Some true) o) && (calc_data_block_write_index seq (Some true) o <? s + len)) (rangeN 1 (1 + n)).
Lemma reaches_set_b size len o n k s : reaches_set size len o n k s -> reaches_setb size len o n k s = true.
Proof.
  intros (seq & S & K & L). apply existsb_exists. exists seq. split; [apply In_rangeN; lia|]. rewrite K, N.eqb_refl. cbn [andb].
  apply andb_true_iff. rewrite N.leb_le, N.ltb_lt. exact L.
Qed.
Example c50_tolerance_hypotheses : let t := calc_tolerance 1 2 2 in
  bytes_ok three_bursts = true /\ lenN three_bursts = lenN rep_file /\
  (forall k, at_most (tl_count t) (tl_super t) (tl_burst t) rep_o 9 [1; 4; 9] k) /\
  (forall i, ~ hit (tl_burst t) [1; 4; 9] (i / 512) -> nthN three_bursts i = nthN rep_file i) /\
  (forall i seq pl, hit (tl_burst t) [1; 4; 9] i -> ~ block_at V17 [1;2;3;4;5;6] three_bursts (i * 512) seq pl) /\ ~ hit (tl_burst t) [1; 4; 9] 0.
Proof.
  cbv zeta. split; [vm_compute; reflexivity|]. split; [vm_compute; reflexivity|]. split; [|split; [|split] ].
  - intros k l ND I. change (tl_count (calc_tolerance 1 2 2)) with 2. change (tl_super (calc_tolerance 1 2 2)) with 6 in I. change (tl_burst (calc_tolerance 1 2 2)) with 2 in I.
    assert (C : k = 0 \/ k <> 0) by lia. destruct C as [->|C].
    + assert (J : incl l [1; 4]).
      { intros s Z. destruct (I s Z) as (M & T). apply reaches_set_b in T. destruct M as [<-|[<-|[<-|[] ] ] ]; [left; reflexivity|right; left; reflexivity|vm_compute in T; discriminate]. }
      apply NoDup_incl_length in J; [|exact ND]. unfold lenN. cbn [length] in J. lia.
    + assert (J : incl l [9]).
      { intros s Z. destruct (I s Z) as (M & seq & S & K & L). destruct M as [<-|[<-|[<-|[] ] ] ]; [| |left; reflexivity]; exfalso.
        all: assert (SC : seq = 1 \/ seq = 2 \/ seq = 3 \/ seq = 4 \/ seq = 5 \/ seq = 6 \/ seq = 7 \/ seq = 8 \/ seq = 9) by lia.
        all: repeat (destruct SC as [->|SC]; [vm_compute in K, L; first [apply C; symmetry; exact K | destruct L as [L1 L2]; congruence]|]); subst seq; vm_compute in L; destruct L; congruence. }
      apply NoDup_incl_length in J; [|exact ND]. unfold lenN. cbn [length] in J. lia.
  - apply out_check; vm_compute; reflexivity.
  - intros i seq pl (s & Hs & L). change (tl_burst (calc_tolerance 1 2 2)) with 2 in L. apply no_sig.
    assert (C : i = 1 \/ i = 2 \/ i = 4 \/ i = 5 \/ i = 9 \/ i = 10) by (destruct Hs as [<-|[<-|[<-|[] ] ] ]; lia).
    destruct C as [->|[->|[->|[->|[->| ->] ] ] ] ]; vm_compute; reflexivity.
  - intros (s & [<-|[<-|[<-|[] ] ] ] & L); lia.
Qed.
