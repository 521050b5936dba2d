(* C73 for sort. *)
From Verif Require Import M_Base M_Specs M_Crc M_Header M_Multihash M_Metadata M_Block M_Index M_FileUtils M_Buffer M_Ranges M_Encode M_Scan M_Loop M_Decode M_Stop M_Sort M_StopSort
  S_Crc S_Meta S_Block S_Index S_Container S_Encode S_Scan S_Decode S_Sort
  L_Base L_Crc L_File L_Header L_Index L_Index2 L_Block L_Scan L_Container L_Ref L_Ranges L_Decode L_Decode2 L_Guess L_Intact L_Intact2 L_Roundtrip
  L_Sort L_Sort2 L_Sort3 L_Sort4 L_Stop L_Stop2 P_Encode P_Decode P_Roundtrip P_Sort.
Ltac Zify.zify_post_hook ::= idtac.

Section Sim.
Context {St : Type}.
Variables (c : cfg) (stop : flag) (pre pre' : St -> bool) (step : St -> slot -> result (St * action * bool)) (Inv : N -> St -> Prop).
Hypothesis HP : forall i st, Inv i st -> raised stop i || pre st = pre' st.
Hypothesis HS : forall i st s st' a, Inv i st -> step st s = ROk (st', a, false) -> Inv (i + 1) st'.
Lemma loop_stop_msg {W : Type} (consume : St -> St -> W -> dbuf -> result (dbuf * W)) ff n : forall q i st w, Inv i st ->
  match buf_loop_msg c pre' step consume ff n q st w with
  | ROk (st', w') => exists i', buf_loop_msg c (stop_pre stop pre) (stop_step step) (fun a b => consume (snd a) (snd b)) ff n q (i, st) w = ROk ((i', st'), w')
  | RErr e => buf_loop_msg c (stop_pre stop pre) (stop_step step) (fun a b => consume (snd a) (snd b)) ff n q (i, st) w = RErr e
  | RPanic => buf_loop_msg c (stop_pre stop pre) (stop_step step) (fun a b => consume (snd a) (snd b)) ff n q (i, st) w = RPanic
  end.
Proof.
  induction n as [|n IH]; intros q i st w HI; cbn [buf_loop_msg]; [reflexivity|]. destruct q as [|b q]; [reflexivity|].
  pose proof (fill_stop c stop pre pre' step Inv HP HS ff i st b HI) as F. destruct (fill c pre' step ff st b) as [[[st1 b1] run]|e|].
  - destruct F as (i' & F1 & F2). rewrite F1. cbn [rbind snd]. destruct (consume st st1 w b1) as [[b2 w1]|e|]; [|reflexivity|reflexivity]. cbn [rbind].
    destruct run; [|exists i'; reflexivity]. apply IH, F2. reflexivity.
  - rewrite F. reflexivity.
  - rewrite F. reflexivity.
Qed.
End Sim.
Lemma sort_loop_stop stop cpus f ref o mp rb lo len start : let bs := ver_to_block_size (b_version ref) in
  let c := sort_cfg (b_version ref) (b_uid ref) o (is_skip_good mp) cpus in let fuel := S (S (length f)) in
  match buf_loop_msg c (sort_pre (cut stop bs len)) (sort_step c f ref lo rb) (sort_consume c mp ref (lo mod bs)) fuel fuel (dbuf_new_multi c) (mkSstate lo 0 None no_sstats) (start, no_ostats) with
  | ROk (st, w) => exists i, buf_loop_msg c (stop_pre stop (sort_pre len)) (stop_step (sort_step c f ref lo rb)) (fun st st1 => sort_consume c mp ref (lo mod bs) (snd st) (snd st1)) fuel fuel
      (dbuf_new_multi c) (0, mkSstate lo 0 None no_sstats) (start, no_ostats) = ROk ((i, st), w)
  | RErr e => buf_loop_msg c (stop_pre stop (sort_pre len)) (stop_step (sort_step c f ref lo rb)) (fun st st1 => sort_consume c mp ref (lo mod bs) (snd st) (snd st1)) fuel fuel
      (dbuf_new_multi c) (0, mkSstate lo 0 None no_sstats) (start, no_ostats) = RErr e
  | RPanic => buf_loop_msg c (stop_pre stop (sort_pre len)) (stop_step (sort_step c f ref lo rb)) (fun st st1 => sort_consume c mp ref (lo mod bs) (snd st) (snd st1)) fuel fuel
      (dbuf_new_multi c) (0, mkSstate lo 0 None no_sstats) (start, no_ostats) = RPanic
  end.
Proof.
  intros bs c fuel. assert (BP : 1 <= bs) by (pose proof (block_size_pos (b_version ref)); unfold bs; lia).
  apply (loop_stop_msg c stop (sort_pre len) (sort_pre (cut stop bs len)) (sort_step c f ref lo rb) (fun i st => so_bytes st = i * bs)); [| |reflexivity].
  - intros i st EB. unfold sort_pre. rewrite EB. apply cut_leb, BP.
  - intros i st0 s st' a EB ES. unfold sort_step in ES. change (slot_view_len c) with bs in ES. set (d := file_read f (so_pos st0) bs) in *.
    assert (LD : lenN d <= bs) by (unfold d, file_read; rewrite lenN_slice; lia). cbv zeta in ES. destruct (N.ltb_spec (lenN d) bs) as [X|X]; [discriminate ES|].
    assert (LE : lenN d = bs) by lia. destruct (sync_from_buffer _ _ _ _) as [b|e|]; [destruct (is_meta b); [destruct (so_meta st0); [|destruct (check_meta_blocks _ _ _ _ _)]|]| |discriminate ES]; injection ES as <- _; cbn [so_bytes]; rewrite EB, LE; lia.
Qed.

(* The flag never set: the sort of M_Sort. *)
Theorem c73_sort_not_stopped cpus p f old : sort_file_stop None cpus p f old = sort_file cpus p f old.
Proof.
  unfold sort_file_stop, sort_file. destruct (get_ref_block _ _ _ _ _) as [[[pos ref]|]|e|]; try reflexivity. cbn [rbind].
  destruct (get_data_par_burst _ _ _ _ _) as [o|e|]; try reflexivity. cbn [rbind]. destruct (calc_required_len_and_seek_to_from_byte_range _ _ _ _ _ (Some _)) as [len lo].
  match goal with |- context [(?s, no_ostats)] => set (start := s) end.
  pose proof (sort_loop_stop None cpus f ref o (dc_multi (sp_scan p)) (sp_report_blank p) lo len start) as L. cbv zeta in L. cbn [cut] in L.
  destruct (buf_loop_msg _ (sort_pre len) _ _ _ _ _ _ _) as [[st w]|e|]; [destruct L as (i & ->)|rewrite L|rewrite L]; reflexivity.
Qed.
(* The flag seen set before block k of the range: the output holds the blocks among the first k of the range, each at its place, and is
   else as before. *)
Theorem c73_sort_stopped k cpus p f old t u out :
  1 <= cpus -> bytes_ok f = true -> lenN f < 18446744073709551616 -> is_skip_good (dc_multi (sp_scan p)) = false ->
  sort_file_stop (Some k) cpus p f (Some old) = ROk (t, u, out) ->
  exists ref o len lo w, setup (sp_scan p) f ref o len lo /\ dpb_ok o /\ out = Some w /\
    sort_result (b_version ref) (b_uid ref) o f lo (N.min len (k * ver_to_block_size (b_version ref))) (start_file (sp_scan p) old) w.
Proof.
  intros CP HB HL SG E. unfold sort_file_stop in E.
  destruct (get_ref_block _ _ _ _ _) as [[[pos ref]|]|e|] eqn:G; try discriminate. cbn [rbind] in E.
  destruct (get_data_par_burst _ _ _ _ _) as [o|e|] eqn:D; try discriminate. cbn [rbind] in E.
  fold (scan_range (sp_scan p) f ref) in E. destruct (scan_range (sp_scan p) f ref) as [len0 lo] eqn:R.
  assert (ST : setup (sp_scan p) f ref o len0 lo) by (split; [exists pos; exact G|]; split; assumption).
  match type of E with context [(?s, no_ostats)] => set (start := s) in E end.
  pose proof (sort_loop_stop (Some k) cpus f ref o (dc_multi (sp_scan p)) (sp_report_blank p) lo len0 start) as L. cbv zeta in L. cbn [cut] in L.
  set (len := N.min len0 (k * ver_to_block_size (b_version ref))) in *.
  destruct (sort_loop cpus f ref o (dc_multi (sp_scan p)) (sp_report_blank p) lo len CP HB start (S (S (length f))) ltac:(lia)) as (st & w & EL & ES & P1 & P2 & P3).
  rewrite EL in L. destruct L as (i & L). rewrite L in E. cbn [rbind snd] in E. apply ROk_inj, pair_inj in E as [_ E3].
  assert (SS : start = Some (start_file (sp_scan p) old)) by reflexivity.
  assert (MO : meta_ok f ref lo len (so_meta st)).
  { pose proof (first_meta cpus f ref o lo len CP HB (sp_report_blank p) (nvisit (ver_to_block_size (b_version ref)) f lo len) (N.le_refl _)) as FM.
    change (map _ (rangeN 0 _)) with (sposs f ref lo len) in FM. rewrite <- ES in FM. exact FM. }
  assert (exists y1 y2, somes (map (semit f ref) (sposs f ref lo len)) = y1 ++ y2 /\
    fst w = option_map (fun x => fold_left (sput cpus ref o (dc_multi (sp_scan p))) y2
                                 (match so_meta st with None => fun x => x | Some d => wmeta ref o (dc_multi (sp_scan p)) d end
                                    (fold_left (sput cpus ref o (dc_multi (sp_scan p))) y1 x))) start) as (y1 & y2 & EY & EW).
  { destruct (so_meta st) as [d|].
    - destruct P3 as (y1 & y2 & EY & EW). exists y1, y2. auto.
    - eexists _, []. split; [symmetry; apply app_nil_r|]. exact P3. }
  destruct (setup_ok _ _ _ _ _ _ HB HL ST) as (HO & _). rewrite SS in EW. cbn [option_map] in EW. exists ref, o, len0, lo. eexists. split; [exact ST|]. split; [exact HO|]. split; [rewrite <- E3; exact EW|].
  assert (Y1 : forall s, In s y1 -> In s (somes (map (semit f ref) (sposs f ref lo len)))) by (intros s Hs; rewrite EY; apply in_app_iff; auto).
  assert (Y2 : forall s, In s y2 -> In s (somes (map (semit f ref) (sposs f ref lo len)))) by (intros s Hs; rewrite EY; apply in_app_iff; auto).
  pose proof (sorted_ok cpus f ref o (dc_multi (sp_scan p)) lo len CP HB HO y1 y2 (so_meta st) (start_file (sp_scan p) old) EY MO) as RR.
  rewrite (sput_fold cpus f ref o (dc_multi (sp_scan p)) lo len CP HB SG y1 _ Y1), (sput_fold cpus f ref o (dc_multi (sp_scan p)) lo len CP HB SG y2 _ Y2).
  destruct (so_meta st) as [d|]; [rewrite (wmeta_plain cpus f ref o (dc_multi (sp_scan p)) lo len CP SG d)|]; exact RR.
Qed.
(* It succeeds whenever the complete run does: nothing tells it from one. *)
Theorem c73_sort_stopped_succeeds k cpus p f old r : 1 <= cpus -> bytes_ok f = true -> sort_file cpus p f old = ROk r -> exists r', sort_file_stop (Some k) cpus p f old = ROk r'.
Proof.
  intros CP HB E. unfold sort_file_stop, sort_file in *. destruct (get_ref_block _ _ _ _ _) as [[[pos ref]|]|e|]; try discriminate E. cbn [rbind] in *.
  destruct (get_data_par_burst _ _ _ _ _) as [o|e|]; try discriminate E. cbn [rbind] in *. clear E. destruct (calc_required_len_and_seek_to_from_byte_range _ _ _ _ _ (Some _)) as [len lo].
  match goal with |- context [(?s, no_ostats)] => set (start := s) end.
  pose proof (sort_loop_stop (Some k) cpus f ref o (dc_multi (sp_scan p)) (sp_report_blank p) lo len start) as L. cbv zeta in L. cbn [cut] in L.
  destruct (sort_loop cpus f ref o (dc_multi (sp_scan p)) (sp_report_blank p) lo (N.min len (k * ver_to_block_size (b_version ref))) CP HB start (S (S (length f))) ltac:(lia)) as (st & w & EL & _).
  rewrite EL in L. destruct L as (i & L). rewrite L. eexists. reflexivity.
Qed.
(* Stopped, and run again to the end in the multi-pass mode that overwrites: the result is one of a complete run. *)
Definition again (p : sparam) : sparam :=
  let q := sp_scan p in mkSparam (mkDparam (dc_choice q) (dc_ref_from q) (dc_ref_to q) (dc_guess q) (dc_force_write q) (Some OverwriteAll) (dc_from q) (dc_to q) (dc_misalign q) (dc_burst q)) (sp_report_blank p).
Lemma sort_twice v uid o f lo len len' old w w' : len' <= len -> sort_result v uid o f lo len' old w -> sort_result v uid o f lo len w w' -> sort_result v uid o f lo len old w'.
Proof.
  intros LE (A1 & A2 & A3 & A4 & A5) (B1 & B2 & B3 & B4 & B5).
  assert (M : forall i seq k, belongs v uid o f lo len' i seq k -> belongs v uid o f lo len i seq k).
  { intros i seq k (V & R). split; [|exact R]. destruct V as [V1 V2]. split; [|exact V2]. lia. }
  split; [exact B1|]. split; [intros j N; rewrite (B2 j N); apply A2; intros seq k X; exact (N seq k (M _ _ _ X))|]. split; [lia|]. split; [exact B4|].
  destruct B5 as [B5|B5]; [|right; exact B5]. rewrite B5. destruct A5 as [A5|(i & seq & k & X & E)]; [left; exact A5|right; exists i, seq, k; split; [exact (M _ _ _ X)|exact E]].
Qed.
Theorem c73_sort_resumed k cpus cpus' p f old t u w t' u' out :
  1 <= cpus -> 1 <= cpus' -> bytes_ok f = true -> lenN f < 18446744073709551616 -> is_skip_good (dc_multi (sp_scan p)) = false ->
  sort_file_stop (Some k) cpus p f (Some old) = ROk (t, u, Some w) -> sort_file cpus' (again p) f (Some (Some w)) = ROk (t', u', out) ->
  exists ref o len lo w', setup (sp_scan p) f ref o len lo /\ out = Some w' /\ sort_result (b_version ref) (b_uid ref) o f lo len (start_file (sp_scan p) old) w'.
Proof.
  intros CP CP' HB HL SG E E'. destruct (c73_sort_stopped k cpus p f old t u _ CP HB HL SG E) as (ref & o & len & lo & w1 & ST & _ & EW & SR). apply Some_inj in EW. subst w1.
  destruct (c22_sorted_file cpus' (again p) f (Some w) t' u' out CP' HB HL eq_refl E') as (ref' & o' & len' & lo' & w' & ST' & _ & EO & SR').
  destruct (setup_unique _ _ _ _ _ _ _ _ _ _ ST ST') as (<- & <- & <- & <-). exists ref, o, len, lo, w'. split; [exact ST|]. split; [exact EO|].
  apply (sort_twice _ _ _ _ _ _ _ _ _ _ (N.le_min_l _ _) SR SR').
Qed.
(* In particular the container is rebuilt, if the file holds its blocks. *)
Theorem c73_sort_resumed_rebuilds k cpus cpus' p f old t u w t' u' out ref o len lo rs ms data f0 n :
  1 <= cpus -> 1 <= cpus' -> bytes_ok f = true -> lenN f < 18446744073709551616 -> dc_multi (sp_scan p) = None ->
  setup (sp_scan p) f ref o len lo -> intact (b_version ref) (b_uid ref) true o rs ms data f0 n -> same_blocks (b_version ref) (b_uid ref) f lo len f0 0 (lenN f0) ->
  sort_file_stop (Some k) cpus p f (Some old) = ROk (t, u, Some w) -> sort_file cpus' (again p) f (Some (Some w)) = ROk (t', u', out) -> out = Some f0.
Proof.
  intros CP CP' HB HL MP ST IT SB E E'. destruct (c73_sort_resumed k cpus cpus' p f old t u w t' u' out CP CP' HB HL ltac:(rewrite MP; reflexivity) E E') as (ref' & o' & len' & lo' & w' & ST' & EO & SR).
  destruct (setup_unique _ _ _ _ _ _ _ _ _ _ ST ST') as (<- & <- & <- & <-). unfold start_file in SR. rewrite MP in SR. rewrite EO. f_equal.
  exact (rebuilt ref o rs ms data f0 n f lo len w' IT HB SB SR).
Qed.
Definition taken (r : result (sstats * ostats * option file)) : file := match r with ROk (_, _, Some w) => w | _ => [] end.
Definition toy_stopped (k : N) : file := taken (sort_file_stop (Some k) 2 (toy_s None None) toy_shuffled (Some None)).
(* the last block of the container comes first in the shuffled file; it is at its place, after blank blocks *)
Example c73_sort_run : toy_stopped 3 = repN (512 * 19) 0 ++ dropN (512 * 19) toy_file /\ lenN toy_file = 512 * 20 /\
  toy_sorted (again (toy_s None None)) toy_shuffled (Some (toy_stopped 3)) = toy_file.
Proof. vm_compute. repeat split; reflexivity. Qed.
Print Assumptions c73_sort_not_stopped.
Print Assumptions c73_sort_stopped.
Print Assumptions c73_sort_stopped_succeeds.
Print Assumptions c73_sort_resumed.
Print Assumptions c73_sort_resumed_rebuilds.
