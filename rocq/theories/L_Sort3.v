(* The statistics of sort, and the whole command. *)
From Verif Require Import M_Base M_Specs M_Header M_Metadata M_Block M_Index M_FileUtils M_Buffer M_Ranges M_Encode M_Scan M_Loop M_Decode M_Sort
  S_Crc S_Meta S_Block S_Index S_Container S_Scan S_Decode S_Sort
  L_Base L_Crc L_File L_Header L_Index L_Index2 L_Block L_Buffer L_Encode L_Encode4 L_Loop L_Scan L_Container L_Decode L_Decode2 L_Sort L_Sort2.
Ltac Zify.zify_post_hook ::= idtac.

Section Stats.
Variables (cpus : N) (f : file) (ref : block) (o : dpb) (mp : option multi_pass) (rb : bool) (lo len : N).
Hypothesis CPUS : 1 <= cpus.
Hypothesis HB : bytes_ok f = true.
Hypothesis HL : lenN f < 18446744073709551616.
Hypothesis HO : dpb_ok o.
Hypothesis HV : match o with Some _ => ver_uses_rs (b_version ref) = true | None => True end.
Let v := b_version ref.
Let uid := b_uid ref.
Let bs := ver_to_block_size v.
Let n := nvisit bs f lo len.
Definition same_b (k : N) : bool :=
  match semit f ref (lo + k * bs) with
  | Some s => calc_data_block_write_index (b_seq_num (s_block s)) (Some true) o =? lo / bs + k
  | None => false
  end.
Definition report (k : N) : kind * bool * bool :=
  (kind_of f ref o (lo + k * bs), buffer_is_blank (sliceN (lo + k * bs) bs f), same_b k).
Lemma report_ok k : k < n -> report_at v uid o f lo k (report k).
Proof.
  intro Hk. pose proof (block_size_pos v) as BZ. fold bs in BZ. unfold report_at, report. fold bs.
  split; [apply (kind_of_ok cpus f ref o true CPUS HB HO HV)|]. split.
  - rewrite blank_nth. split.
    + intros H i Hi. specialize (H i). rewrite nthN_slice in H. destruct (N.ltb_spec i bs); [exact H|lia].
    + intros H i. rewrite nthN_slice. destruct (N.ltb_spec i bs); [apply H; assumption|reflexivity].
  - unfold same_b. destruct (semit f ref (lo + k * bs)) as [s|] eqn:E.
    + apply (semit_some cpus f ref lo len CPUS HB) in E as (pl & BA & H1 & _). rewrite N.eqb_eq. split.
      * intro X. exists (b_seq_num (s_block s)), pl. auto.
      * intros (seq & pl' & BA' & H1' & X). destruct (block_at_unique _ _ _ _ _ _ _ _ BA BA') as [-> _]. exact X.
    + split; [discriminate|]. intros (seq & pl & BA & H1 & _). destruct (semit_block cpus f ref lo len CPUS HB _ _ _ BA H1) as (s & E' & _). congruence.
Qed.
Lemma tally_k t k s : k < n -> semit f ref (lo + k * bs) = Some s ->
  tally cpus ref o mp lo t s =
  (if is_parity_w_dpb (s_block s) o
   then if same_b k then mkOstats (os_data_same t) (os_data_diff t) (os_parity_same t + 1) (os_parity_diff t)
        else mkOstats (os_data_same t) (os_data_diff t) (os_parity_same t) (os_parity_diff t + 1)
   else if same_b k then mkOstats (os_data_same t + 1) (os_data_diff t) (os_parity_same t) (os_parity_diff t)
        else mkOstats (os_data_same t) (os_data_diff t + 1) (os_parity_same t) (os_parity_diff t)).
Proof.
  intros Hk E. pose proof (block_size_pos v) as BZ. fold bs in BZ. pose proof (semit_some cpus f ref lo len CPUS HB _ _ E) as (pl & BA & H1 & _ & ER & _).
  unfold tally, wpos_of, slot_write_pos. change (c_out (sort_cfg _ _ _ _ _)) with OutBlock. destruct (N.eqb_spec (b_seq_num (s_block s)) 0); [lia|].
  unfold count_order. cbn [s_rpos s_wpos s_block with_wpos]. rewrite ER. fold v bs.
  assert (SB : (sub64 (lo + k * bs) (lo mod bs) =? calc_data_block_write_pos v (b_seq_num (s_block s)) (Some true) o) = same_b k).
  { unfold same_b. rewrite E. unfold calc_data_block_write_pos. fold bs.
    pose proof (proj2 (visited_iff bs f lo len k ltac:(lia)) Hk) as [_ VL]. pose proof (N.div_mod' lo bs) as DM.
    set (W := calc_data_block_write_index _ _ _). revert DM. generalize (lo mod bs), (lo / bs). intros r q DM.
    rewrite sub64_ok by lia. replace (lo + k * bs - r) with ((q + k) * bs) by lia.
    destruct (N.eqb_spec W (q + k)) as [->|NE]; [apply N.eqb_refl|]. apply N.eqb_neq. intro X. apply N.mul_cancel_r in X; [congruence|lia]. }
  match goal with |- context [sub64 _ _ =? ?x] => change x with (calc_data_block_write_pos v (b_seq_num (s_block s)) (Some true) o) end. rewrite SB. destruct (is_parity_w_dpb _ _), (same_b k); reflexivity.
Qed.
Lemma stats_ok m : m <= n ->
  sort_counts rb (snd (fold_left (scnt f ref o rb lo) (map (fun k => lo + k * bs) (rangeN 0 m)) (None, no_sstats)))
    (fold_left (tally cpus ref o mp lo) (somes (map (semit f ref) (map (fun k => lo + k * bs) (rangeN 0 m)))) no_ostats)
    (map report (rangeN 0 m)).
Proof.
  induction m as [|m IH] using N.peano_ind; intro Hm.
  - repeat split.
  - rewrite <- N.add_1_r in *. rewrite rangeN_snoc by lia. rewrite !map_app, somes_app, !fold_left_app. cbn [map fold_left].
    specialize (IH ltac:(lia)). destruct IH as (A1 & A2 & A3 & A4 & A5 & A6 & A7 & A8 & A9).
    unfold sort_counts. rewrite !countN_snoc, <- A1, <- A2, <- A3, <- A4, <- A5, <- A6, <- A7, <- A8, <- A9.
    destruct (fold_left (scnt f ref o rb lo) _ _) as [mm t]. set (u := fold_left (tally _ _ _ _ _) _ no_ostats). cbn [snd].
    unfold report. assert (SM : semit f ref (lo + m * bs) = match accept ref (sliceN (lo + m * bs) bs f) with Some b => if is_meta b then None else Some (mkSlot b (sliceN (lo + m * bs) bs f) (Some (lo + m * bs)) None None false) | None => None end) by reflexivity.
    assert (KK : kind_of f ref o (lo + m * bs) = match accept ref (sliceN (lo + m * bs) bs f) with None => KBad | Some b => if is_meta b then KMeta else if is_parity_w_dpb b o then KParity else KData end).
    { unfold kind_of. fold v bs. unfold file_read. destruct (accept ref _) as [b|]; [|reflexivity]. destruct (is_meta b); [reflexivity|]. destruct o as [[[d p] B]|]; [reflexivity|]. unfold is_parity_w_dpb. cbn [seq_num_is_parity_w_data_par_burst]. rewrite andb_false_r. reflexivity. }
    rewrite KK. unfold scnt. fold v bs. unfold file_read. pose proof (tally_k u m) as TK. rewrite SM in TK |- *.
    destruct (accept ref (sliceN (lo + m * bs) bs f)) as [b|].
    + destruct (is_meta b).
      * cbn [fst snd somes flat_map app fold_left kind_eqb]. unfold bump_meta. destruct mm; cbn [ss_meta ss_data ss_parity ss_failed ss_blank]; cbn [andb]; repeat split; lia.
      * cbn [fst snd]. change (somes [Some ?x]) with [x]. cbn [fold_left]. rewrite (TK _ ltac:(lia) eq_refl). cbn [s_block]. unfold bump_data.
        destruct (is_parity_w_dpb b o), (same_b m); cbn [kind_eqb andb negb ss_meta ss_data ss_parity ss_failed ss_blank os_data_same os_data_diff os_parity_same os_parity_diff]; repeat split; lia.
    + cbn [fst snd somes flat_map app fold_left kind_eqb]. unfold bump_failed. destruct (buffer_is_blank _), rb; cbn [andb negb orb ss_meta ss_data ss_parity ss_failed ss_blank]; repeat split; lia.
Qed.
End Stats.

(* ---- the command ---- *)
Lemma sort_file_char cpus p f old t u out : 1 <= cpus -> bytes_ok f = true -> lenN f < 18446744073709551616 ->
  sort_file cpus p f old = ROk (t, u, out) ->
  exists ref o len lo y1 y2 m,
    setup (sp_scan p) f ref o len lo /\
    let slots := somes (map (semit f ref) (sposs f ref lo len)) in
    let r := fold_left (scnt f ref o (sp_report_blank p) lo) (sposs f ref lo len) (None, no_sstats) in
    slots = y1 ++ y2 /\ m = fst r /\ meta_ok f ref lo len m /\
    t = snd r /\ u = fold_left (tally cpus ref o (dc_multi (sp_scan p)) lo) slots no_ostats /\
    out = option_map (fun w => fold_left (sput cpus ref o (dc_multi (sp_scan p))) y2
                                 (match m with None => fun x => x | Some d => wmeta ref o (dc_multi (sp_scan p)) d end
                                    (fold_left (sput cpus ref o (dc_multi (sp_scan p))) y1 w))) (sort_start p old).
Proof.
  intros CP HB HL E. unfold sort_file in E.
  destruct (get_ref_block _ _ _ _ _) as [[[pos ref]|]|e|] eqn:G; try discriminate. cbn [rbind] in E.
  destruct (get_data_par_burst _ _ _ _ _) as [o|e|] eqn:D; try discriminate. cbn [rbind] in E.
  fold (scan_range (sp_scan p) f ref) in E. destruct (scan_range (sp_scan p) f ref) as [len lo] eqn:R.
  match type of E with context [(?s, no_ostats)] => set (start := s) in E end.
  destruct (sort_loop cpus f ref o (dc_multi (sp_scan p)) (sp_report_blank p) lo len CP HB start (S (S (length f))) ltac:(lia)) as (st & w & EL & ES & P1 & P2 & P3).
  rewrite EL in E. cbn [rbind] in E. apply ROk_inj, pair_inj in E as [E E3]. apply pair_inj in E as [E1 E2].
  assert (SS : start = sort_start p old) by (unfold start, sort_start, start_file; destruct old; reflexivity).
  assert (MO : meta_ok f ref lo len (so_meta st)).
  { pose proof (first_meta cpus f ref o lo len CP HB (sp_report_blank p) (nvisit (ver_to_block_size (b_version ref)) f lo len) (N.le_refl _)) as FM.
    change (map _ (rangeN 0 _)) with (sposs f ref lo len) in FM. rewrite <- ES in FM. exact FM. }
  assert (exists y1 y2, somes (map (semit f ref) (sposs f ref lo len)) = y1 ++ y2 /\
    fst w = option_map (fun x => fold_left (sput cpus ref o (dc_multi (sp_scan p))) y2
                                 (match so_meta st with None => fun x => x | Some d => wmeta ref o (dc_multi (sp_scan p)) d end
                                    (fold_left (sput cpus ref o (dc_multi (sp_scan p))) y1 x))) start) as (y1 & y2 & EY & EW).
  { destruct (so_meta st) as [d|].
    - destruct P3 as (y1 & y2 & EY & EW). exists y1, y2. auto.
    - eexists _, []. split; [symmetry; apply app_nil_r|]. exact P3. }
  exists ref, o, len, lo, y1, y2, (so_meta st). split; [split; [exists pos; exact G|]; split; assumption|]. cbv zeta. rewrite <- ES.
  split; [exact EY|]. split; [reflexivity|]. split; [exact MO|]. split; [symmetry; exact E1|]. split; [rewrite <- E2; exact P2|]. rewrite <- E3, <- SS. exact EW.
Qed.
Lemma sort_file_total cpus p f old ref o len lo : 1 <= cpus -> bytes_ok f = true ->
  setup (sp_scan p) f ref o len lo -> exists r, sort_file cpus p f old = ROk r.
Proof.
  intros CP HB ((pos & G) & D & R). unfold sort_file. rewrite G. cbn [rbind]. rewrite D. cbn [rbind].
  fold (scan_range (sp_scan p) f ref). rewrite R.
  match goal with |- context [(?s, no_ostats)] => set (start := s) end.
  destruct (sort_loop cpus f ref o (dc_multi (sp_scan p)) (sp_report_blank p) lo len CP HB start (S (S (length f))) ltac:(lia)) as (st & w & EL & _).
  rewrite EL. cbn [rbind]. eauto.
Qed.
