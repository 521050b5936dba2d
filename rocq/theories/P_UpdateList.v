(* C68: update tells just what it changes. *)
From Coq Require Import String Ascii ZArith Sorted.
From Verif Require Import M_Base M_Specs M_Crc M_Header M_Multihash M_Metadata M_Block M_Index M_FileUtils M_Buffer M_Ranges M_Encode M_Scan M_Loop M_Decode M_Content M_Repair M_Update
  M_Hex M_Rescue M_Json M_Show M_Report M_UpdateList
  S_Crc S_Meta S_Block S_Index S_Container S_Encode S_Scan S_Decode S_Content S_Repair S_Update S_Json S_Show S_Report S_UpdateList
  L_Base L_Crc L_File L_Header L_Meta L_Meta2 L_Block L_Index L_Index2 L_Container L_Scan L_Ranges L_Ref L_Repair L_Json L_Json2 L_Show P_Json L_Report L_Update
  P_Encode P_Decode P_Roundtrip P_Content P_Report P_Update L_UpdateList.
Ltac Zify.zify_post_hook ::= idtac.

(* --verbose changes neither the file nor the counters nor the error. *)
Theorem c68_verbose_changes_nothing H cpus p cut f : fst (update_told H cpus p cut f) = update_file H cpus p cut f.
Proof. apply update_told_erase. Qed.
Print Assumptions c68_verbose_changes_nothing.

Lemma told_prepare H cpus q cut f : update_told H cpus (update_param H q) cut f =
  match prepare H cpus q f with
  | ROk (ref, o, ms) =>
      let '(w, r, l) := update_blocks_told ref (mkUparam (uo_dry q) ms (asked_gone q) (uo_hash q) (uo_burst q)) (negb (uo_dry q))
        (map (fun i => i * ver_to_block_size (b_version ref)) (cut_places o cut)) 0 f (mkUstats 0 0) [] in (w, r, Some l)
  | RErr e => (f, RErr e, None) | RPanic => (f, RPanic, None) end.
Proof.
  unfold update_told, prepare. destruct (get_ref_block f None None false (MustBe TMeta)) as [[[pos ref]|]|e|]; cbn [rbind]; try reflexivity.
  destruct (update_size ref (update_param H q)) as [size|e|]; cbn [rbind]; try reflexivity.
  change (up_burst (update_param H q)) with (uo_burst q). destruct (get_data_par_burst f (uo_burst q) None false ref) as [o|e|]; cbn [rbind]; try reflexivity.
  destruct (snd (update_metadata_blocks ref (update_param H q) o true None f)) as [s|e|]; cbn [rbind]; try reflexivity.
  destruct (match size with Some _ => _ | None => _ end) as [ms|e|]; cbn [rbind]; try reflexivity. cbv zeta. rewrite cut_pos. reflexivity.
Qed.
Lemma told_cases H cpus q cut f : hash_fn_ok H -> bytes_ok f = true ->
  (exists r, update_told H cpus (update_param H q) cut f = (f, r, None) /\ forall s, r <> ROk s) \/
  exists ref o h w s, update_setup q f ref o /\ new_hash H q f ref o cpus h /\ hash_fits q h /\
    (exists t, snd (update_metadata_blocks ref (update_param H q) o true None f) = ROk t) /\
    update_file H cpus (update_param H q) cut f = (w, ROk s) /\
    us_updated s + us_failed s = lenN (done ref o f cut) /\
    update_told H cpus (update_param H q) cut f = (w, ROk s, Some (msgs ref f (second H q h) 0 (done ref o f cut))).
Proof.
  intros HF HB. rewrite told_prepare. pose proof (update_file_prepare H cpus q cut f) as UF. destruct (prepare H cpus q f) as [[[ref o] ms]|e|] eqn:P.
  - right. apply prepare_ok in P as (ST & TS & MS); [|exact HF].
    assert (X : exists h, new_hash H q f ref o cpus h /\ hash_fits q h /\ ms = asked_fields q h).
    { unfold hash_fits, new_hash. destruct (uo_hash q) as [t|] eqn:HT; [destruct MS as (_ & _ & h & NH & -> & G); unfold new_hash in NH; rewrite HT in NH; exists h; auto|].
      exists (finish_hash H SHA1 []). split; [exact I|]. split; [exact I|]. rewrite MS. apply asked_none, HT. }
    destruct X as (h & NH & HH & ->). fold (second H q h) in UF |- *. destruct (second_run H q h ref o f HF HB HH cut TS) as [OK SR].
    pose proof (blocks_told_erase ref (second H q h) (negb (uo_dry q)) (map (fun i => i * ver_to_block_size (b_version ref)) (cut_places o cut)) 0 f (mkUstats 0 0) []) as E.
    pose proof (run_told ref f HB (second H q h) (negb (uo_dry q)) (second_safe H q h HH) (cut_places o cut) 0 f (mkUstats 0 0) [] eq_refl (cut_NoDup o cut) (fun _ _ => eq_refl) OK) as RT.
    rewrite SR in UF. unfold update_metadata_blocks in SR. rewrite cut_pos in SR. cbn [second up_dry negb] in SR. rewrite andb_true_r in SR. fold (second H q h) in SR. rewrite SR in E.
    destruct (update_blocks_told _ _ _ _ _ _ _ _) as [[w r] l]. cbn [fst snd app] in E, RT. apply pair_inj in E as [E1 E2]. subst l w r.
    eexists ref, o, h, _, _. split; [exact ST|]. split; [exact NH|]. split; [exact HH|]. split; [exact TS|]. split; [exact UF|]. split; [|reflexivity]. cbn [us_updated us_failed]. clear. generalize (done ref o f cut). intro l.
    unfold countN. induction l as [|a l IH]; [reflexivity|]. cbn [filter]. destruct (hits ref f (second H q h) a); cbn [negb]; rewrite ?lenN_cons in *; lia.
  - left. exists (RErr e). split; [reflexivity|discriminate].
  - left. exists RPanic. split; [reflexivity|discriminate].
Qed.
Lemma gone_NoDup q : NoDup (asked_gone q).
Proof. unfold asked_gone. destruct (uo_no_fnm q), (uo_no_snm q), (uo_no_hsh q); cbn [app]; repeat constructor; cbn [In]; intuition discriminate. Qed.
Lemma changes_same sets gone ms a b l : changed sets gone ms a -> changed sets gone ms b -> changes_between ms a l -> changes_between ms b l.
Proof.
  intros A B [N1 X]. split; [exact N1|]. intros i x y. rewrite X. unfold value. rewrite (changed_with_id sets gone ms a b A B i). reflexivity.
Qed.

(* The list: it has the metadata blocks rewritten, in order, with their numbers and positions, and for each of them every field whose value is
   not the same before and after, with both values, and no other. If the run is stopped after [cut] places, this holds for the places reached. *)
Theorem c68_changes_listed H cpus q cut f w s l' : hash_fn_ok H -> bytes_ok f = true -> opts_ok q -> names_ok q -> uo_dry q = false ->
  update_told H cpus (update_param H q) cut f = (w, ROk s, l') ->
  exists ref o l, update_setup q f ref o /\ l' = Some l /\ changes_listed (b_version ref) (b_uid ref) o (reached o cut) f w l.
Proof.
  intros HF HB OO NO DR E. destruct (told_cases H cpus q cut f HF HB) as [(r & E' & X)|(ref & o & h & w' & s' & ST & NH & HH & TS & UF & _ & E')]; rewrite E in E'.
  { apply pair_inj in E' as [E' _]. apply pair_inj in E' as [_ E']. destruct (X s (eq_sym E')). }
  apply pair_inj in E' as [E' ->]. apply pair_inj in E' as [<- E']. apply ROk_inj in E'. subst s'.
  exists ref, o, (msgs ref f (second H q h) 0 (done ref o f cut)). split; [exact ST|]. split; [reflexivity|].
  destruct (c24_updated H cpus q cut f w s HF HB OO NO DR UF) as (ref2 & o2 & h2 & ST2 & NH2 & U & _).
  assert (ER : ref2 = ref /\ o2 = o). { destruct ST as ((p1 & G1) & D1), ST2 as ((p2 & G2) & D2). rewrite G1 in G2. apply ROk_inj, Some_inj, pair_inj in G2 as [_ <-]. rewrite D1 in D2. apply ROk_inj in D2. auto. }
  destruct ER as [-> ->].
  assert (AF : asked_fields q h2 = asked_fields q h).
  { unfold new_hash in NH, NH2. unfold asked_fields. destruct (uo_hash q) as [t|]; [|reflexivity]. destruct NH as (z & Z1 & Z2), NH2 as (z' & Z1' & Z2'). rewrite Z1 in Z1'. apply Some_inj in Z1'. subst z'. rewrite Z2 in Z2'. apply ROk_inj in Z2'. subst h2. reflexivity. }
  rewrite AF in U. destruct U as (_ & U & _). pose proof (live_cut ref o f cut) as LC.
  assert (ND : NoDup (done ref o f cut)) by (unfold done; destruct (live_prefix ref f (cut_places o cut)) as (k & ->); rewrite <- (Nnat.Nat2N.id k); apply NoDup_take, cut_NoDup).
  assert (SO : L_Index.sorted (done ref o f cut)) by (unfold done; destruct (live_prefix ref f (cut_places o cut)) as (k & ->); rewrite <- (Nnat.Nat2N.id k); apply sorted_take, cut_sorted).
  split; [apply msgs_sorted; assumption|]. split.
  - intros x Hx. apply msgs_in in Hx as (j & i & d & old & J & BT & ->). cbn [bm_no bm_pos bm_changes]. pose proof (nth_error_In _ _ J) as IJ. pose proof (proj1 (LC i) IJ) as (MI & RE & LE).
    pose proof (told_old ref f HB _ _ _ _ LE BT) as FA. destruct (U i old MI FA RE) as (ms' & CH & FW).
    exists i, old, ms'. split; [exact MI|]. split; [exact RE|]. split; [exact FA|]. split; [exact FW|]. split; [rewrite (places_rank o cut ref f j i J); reflexivity|]. split; [reflexivity|].
    apply (changes_same (asked_fields q h) (asked_gone q) old (newf (second H q h) old)); [|exact CH|].
    + apply new_fields_changed; [exact (second_nodup H q h)|exact (second_disjoint H q h OO)].
    + apply block_changes_ok; [exact (second_nodup H q h)|exact (gone_NoDup q)|exact (second_disjoint H q h OO)].
  - intros i [MI (ms & FA)] RE. pose proof (fields_len ref f i ms FA) as LE. assert (I : In i (done ref o f cut)) by (apply LC; auto).
    destruct (second_run H q h ref o f HF HB HH cut TS) as [OK _].
    pose proof (proj2 (hits_iff ref f HB (second H q h) i (second_safe H q h HH) LE (OK i I)) (ex_intro _ ms FA)) as HT. unfold hits in HT. rewrite told_outcome in HT.
    destruct (block_told ref f (second H q h) i) as [[[d old]|]|e|] eqn:BT; cbn [rbind option_map] in HT; try discriminate.
    apply In_nth_error in I as (j & J). eexists. split; [apply msgs_in; exists j, i, d, old; split; [exact J|]; split; [exact BT|reflexivity]|reflexivity].
Qed.
Print Assumptions c68_changes_listed.

(* A dry run foretells: its list is the one of the real run, and the file stays as it is. *)
Theorem c68_dry_run_foretells H cpus q f : hash_fn_ok H -> bytes_ok f = true -> uo_dry q = true ->
  let real_run := update_told H cpus (update_param H (mkUopts false (uo_fnm q) (uo_snm q) (uo_no_fnm q) (uo_no_snm q) (uo_no_hsh q) (uo_hash q) (uo_burst q))) None f in
  update_told H cpus (update_param H q) None f = (f, snd (fst real_run), snd real_run).
Proof.
  intros HF HB DR. cbv zeta. fold (real q). destruct (c24_dry_run H cpus q f HF HB DR) as [F1 F2]. fold (real q) in F2. rewrite <- (update_told_erase H cpus (update_param H q)) in F1, F2. rewrite <- (update_told_erase H cpus (update_param H (real q))) in F2.
  destruct (told_cases H cpus q None f HF HB) as [(r & E & X)|(ref & o & h & w & s & ST & NH & HH & TS & UF & _ & E)];
  destruct (told_cases H cpus (real q) None f HF HB) as [(r' & E' & X')|(ref' & o' & h' & w' & s' & ST' & NH' & HH' & TS' & UF' & _ & E')]; rewrite E, E'; rewrite E in F1, F2; rewrite E' in F2; cbn [fst snd] in F1, F2 |- *.
  - subst r'. reflexivity.
  - destruct (X _ F2).
  - destruct (X' _ (eq_sym F2)).
  - subst w. apply ROk_inj in F2. subst s'.
    assert (ER : ref' = ref /\ o' = o). { destruct ST as ((p1 & G1) & D1), ST' as ((p2 & G2) & D2). rewrite G1 in G2. apply ROk_inj, Some_inj, pair_inj in G2 as [_ <-]. cbn [real uo_burst] in D2. rewrite D1 in D2. apply ROk_inj in D2. auto. }
    destruct ER as [-> ->].
    assert (AF : asked_fields q h' = asked_fields q h).
    { unfold new_hash in NH, NH'. cbn [real uo_hash] in NH'. unfold asked_fields. destruct (uo_hash q) as [t|]; [|reflexivity]. destruct NH as (z & Z1 & Z2), NH' as (z' & Z1' & Z2'). rewrite Z1 in Z1'. apply Some_inj in Z1'. subst z'. rewrite Z2 in Z2'. apply ROk_inj in Z2'. subst h'. reflexivity. }
    assert (EM : forall L n, msgs ref f (second H (real q) h') n L = msgs ref f (second H q h) n L).
    { assert (EB : forall ms, block_changes (second H (real q) h') ms = block_changes (second H q h) ms) by (intro ms; unfold block_changes, second; cbn [up_set up_remove]; change (asked_fields (real q) h') with (asked_fields q h'); rewrite AF; reflexivity).
      assert (ET : forall i, block_told ref f (second H (real q) h') i = block_told ref f (second H q h) i) by (intro i; unfold block_told, update_block_told, second; cbn [up_set up_remove]; change (asked_fields (real q) h') with (asked_fields q h'); rewrite AF; reflexivity).
      induction L as [|i L IH]; intro n; cbn [msgs]; [reflexivity|]. rewrite IH, ET. f_equal. destruct (block_told _ _ _ i) as [[[d old]|]|e|]; try reflexivity. rewrite EB. reflexivity. }
    rewrite EM. reflexivity.
Qed.
Print Assumptions c68_dry_run_foretells.

(* ---- the report ---- *)
Definition change_item (cal : calendar) (c : change) : item :=
  GroupItem None Curly [FieldItem false (str "Field         : " ++ id_to_str (ch_id c)); FieldItem false (str "From          : " ++ or_null (fmt_metadata cal) (ch_from c));
                        FieldItem false (str "To            : " ++ or_null (fmt_metadata cal) (ch_to c))].
Definition msg_item (cal : calendar) (x : block_msg) : item :=
  GroupItem None Curly [FieldItem false (str "Metadata block number : " ++ dec (bm_no x)); FieldItem false (str "Found at byte : " ++ dec (bm_pos x));
                        GroupItem (Some (str "changes")) Square (map (change_item cal) (bm_changes x))].
Lemma change_items cal l : flat_map (change_calls cal) l = flat_map calls (map (change_item cal) l).
Proof. induction l as [|c l IH]; [reflexivity|]. cbn [flat_map map]. rewrite IH. reflexivity. Qed.
Lemma msg_items cal l : flat_map (block_msg_calls cal) l = flat_map calls (map (msg_item cal) l).
Proof.
  induction l as [|x l IH]; [reflexivity|]. cbn [flat_map map]. rewrite IH. f_equal. unfold block_msg_calls, msg_item. rewrite change_items. cbn [calls flat_map app]. rewrite <- !app_assoc. reflexivity.
Qed.
Definition value_fine (m : option metadata) : Prop :=
  match m with None => True | Some (FNM s) | Some (SNM s) => plain s /\ shown false s (JStr s) | Some (HSH h) => hash_fine h | _ => False end.
Definition msg_fine (x : block_msg) : Prop :=
  bm_no x < 18446744073709551616 /\ bm_pos x < 18446744073709551616 /\ Forall (fun c => value_fine (ch_from c) /\ value_fine (ch_to c)) (bm_changes x).
Lemma value_member cal m : value_fine m -> fine false (or_null (fmt_metadata cal) m) (opt (value_json cal) m).
Proof.
  intro V. apply fine_opt. intros x ->. destruct x as [s|s|n|z|z|h|n|n]; cbn [value_fine fmt_metadata value_json] in *; try contradiction; try exact V. apply fine_hash, V.
Qed.
Lemma id_fine i : fine false (id_to_str i) (JStr (id_name i)).
Proof. destruct i; (split; [is_plain|is_str]). Qed.
Lemma changes_member cal l : Forall msg_fine l ->
  member (GroupItem (Some (str "metadata changes")) Square (map (msg_item cal) l)) (str "metadataChanges") (JArr (map (block_changes_json cal) l)).
Proof.
  intro F. apply group_lit; try reflexivity. apply c_array. induction F as [|x l (X1 & X2 & X3) _ IH]; [apply es_nil|]. cbn [map]. unfold msg_item at 1. apply es_cons; [|exact IH]. unfold block_changes_json. apply c_object.
  do 2 member_of ltac:(apply fine_dec; assumption). apply ms_cons; [|apply ms_nil]. apply group_lit; try reflexivity. apply c_array.
  induction X3 as [|c r (Y1 & Y2) _ IH']; [apply es_nil|]. cbn [map]. unfold change_item at 1. apply es_cons; [|exact IH']. unfold change_json. apply c_object.
  member_of ltac:(apply id_fine). member_of ltac:(apply value_member; assumption). member_of ltac:(apply value_member; assumption). apply ms_nil.
Qed.
Lemma update_stats_items v s t : update_stats_calls v s t = flat_map calls [GroupItem (Some (str "stats")) Curly (fields_of (update_stats_calls v s t))].
Proof. reflexivity. Qed.
Lemma update_stats_members v s t : (0 <= t)%Z -> us_updated s + us_failed s < 18446744073709551616 ->
  member (GroupItem (Some (str "stats")) Curly (fields_of (update_stats_calls v s t))) (str "stats") (update_json v s t).
Proof.
  intros T S1. destruct (ver_small v) as (V1 & V2 & V3). apply group_lit; try reflexivity. unfold update_json. apply c_object. unfold update_stats_calls. fields.
  do 6 (member_of ltac:(first [apply fine_dec; lia|apply fine_clock; lia])). apply ms_nil.
Qed.
Lemma value_in i ms m : value i ms = Some m -> meta_to_id m = i /\ In m ms.
Proof.
  unfold value. destruct (with_id i ms) as [|x r] eqn:E; [discriminate|]. intro X. cbn in X. apply Some_inj in X. subst x.
  assert (I : In m (with_id i ms)) by (rewrite E; left; reflexivity). unfold with_id in I. apply filter_In in I as [I X]. apply id_eqb_eq in X. auto.
Qed.
Lemma old_fine i ms : Forall field_ok ms -> In i [IFNM; ISNM; IHSH] -> plain_value (value i ms) -> value_fine (value i ms).
Proof.
  intros FO I P. destruct (value i ms) as [m|] eqn:E; [|exact Logic.I]. apply value_in in E as [E IM]. rewrite Forall_forall in FO. specialize (FO m IM).
  destruct m as [s|s|n|z|z|[t d]|n|n]; cbn [plain_value value_fine meta_to_id] in *; try exact P; try exact FO; subst i; cbn [In] in I; intuition discriminate.
Qed.
Lemma msgs_fine H q h ref o f cut : bytes_ok f = true -> lenN f < 18446744073709551616 -> hash_fits q h ->
  plain_changes (msgs ref f (second H q h) 0 (done ref o f cut)) -> Forall msg_fine (msgs ref f (second H q h) 0 (done ref o f cut)).
Proof.
  intros HB HL HH PC. apply Forall_forall. intros x Hx. unfold plain_changes in PC. rewrite Forall_forall in PC. specialize (PC x Hx). rewrite Forall_forall in PC.
  apply msgs_in in Hx as (j & i & d & old & J & BT & ->). cbn [bm_no bm_pos bm_changes] in *. pose proof (nth_error_In _ _ J) as IJ. apply live_cut in IJ as (MI & RE & LE).
  pose proof (told_old ref f HB _ _ _ _ LE BT) as FA. pose proof (fields_at_ok ref f i old HB FA) as FO.
  pose proof (block_size_pos (b_version ref)) as BP. set (bs := ver_to_block_size (b_version ref)) in *.
  assert (IB : i * bs < 18446744073709551616) by (clear - LE HL BP; rewrite N.mul_add_distr_r in LE; lia).
  unfold msg_fine. cbn [bm_no bm_pos bm_changes]. split; [|split; [exact IB|]].
  - rewrite N.add_0_l, <- (places_rank o cut ref f j i J). assert (rank o i <= i). { unfold rank. destruct o as [[[? ?] B]|]; [|lia]. apply N.div_le_upper_bound; [lia|]. clear. nia. }
    assert (i <= i * bs) by (clear - BP; nia). cbn [bm_no]. lia.
  - apply Forall_forall. intros c Hc. specialize (PC c Hc). destruct PC as [P1 P2]. unfold block_changes in Hc. apply in_app_iff in Hc as [Hc|Hc]; apply in_flat_map in Hc as (m & Hm & Hc).
    + apply set_change_in in Hc as [-> _]. cbn [ch_from ch_to] in *. apply asked_in in Hm as [(s & _ & ->)|[(s & _ & ->)|(t & HT & ->)]]; cbn [meta_to_id] in *.
      * split; [apply old_fine; [exact FO|left; reflexivity|exact P1]|exact P2].
      * split; [apply old_fine; [exact FO|right; left; reflexivity|exact P1]|exact P2].
      * split; [apply old_fine; [exact FO|right; right; left; reflexivity|exact P1]|]. unfold hash_fits in HH. rewrite HT in HH. apply HH.
    + apply remove_change_in in Hc as [-> _]. cbn [ch_from ch_to] in *. split; [|exact Logic.I]. apply old_fine; [exact FO| |exact P1]. cbn [second up_remove] in Hm. unfold asked_gone in Hm. rewrite !in_app_iff in Hm.
      cbn [In]. destruct (uo_no_fnm q), (uo_no_snm q), (uo_no_hsh q); cbn [In] in Hm; intuition congruence.
Qed.
(* With --json the command prints, as one JSON value and no other: with --verbose the reference block, then the burst level, with --verbose the list above, then how many metadata
   blocks were rewritten and how many metadata places have no metadata block. The exit code is 0. *)
Theorem c68_update_json H cal cpus verbose q cut f w s l' t etext : hash_fn_ok H -> bytes_ok f = true -> lenN f < 18446744073709551616 -> (0 <= t)%Z ->
  update_told H cpus (update_param H q) cut f = (w, ROk s, l') ->
  exists pos ref o l cs, get_ref_block f None None false (MustBe TMeta) = ROk (Some (pos, ref)) /\ l' = Some l /\
    get_data_par_burst f (uo_burst q) None false ref = ROk o /\
    update_report H cal cpus verbose (update_param H q) cut f t etext = ROk (cs, 0) /\
    (verbose = false \/ plain_changes l -> stands_for cs (update_output cal verbose pos ref o l s t)).
Proof.
  intros HF HB HL T E. destruct (told_cases H cpus q cut f HF HB) as [(r & E' & X)|(ref & o & h & w' & s' & ST & NH & HH & TS & UF & CN & E')]; pose proof E as E0; rewrite E' in E0.
  { apply pair_inj in E0 as [E0 _]. apply pair_inj in E0 as [_ E0]. destruct (X s E0). }
  apply pair_inj in E0 as [E0 <-]. apply pair_inj in E0 as [-> E0]. apply ROk_inj in E0. subst s'. destruct ST as ((pos & G) & DP). destruct (ref_fine _ _ _ _ _ _ _ HB HL G) as (HP & _).
  set (l := msgs ref f (second H q h) 0 (done ref o f cut)) in *.
  assert (SM : us_updated s + us_failed s < 18446744073709551616).
  { rewrite CN. assert (ND : NoDup (done ref o f cut)) by (unfold done; destruct (live_prefix ref f (cut_places o cut)) as (k & ->); rewrite <- (Nnat.Nat2N.id k); apply NoDup_take, cut_NoDup).
    assert (I : incl (done ref o f cut) (rangeN 0 (lenN f))). { intros i Hi. apply live_cut in Hi as (_ & _ & LE). apply In_rangeN. pose proof (block_size_pos (b_version ref)). clear - LE H0. nia. }
    apply (NoDup_incl_length ND) in I. pose proof (lenN_range 0 (lenN f)) as L. unfold lenN in *. lia. }
  assert (US : exists x, update_size ref (update_param H q) = ROk x).
  { unfold update_told in E. rewrite G in E. cbv zeta beta iota in E. destruct (update_size ref (update_param H q)) as [x|e|]; [eexists; reflexivity|discriminate E|discriminate E]. }
  destruct US as (us & US).
  eexists pos, ref, o, l, _. split; [exact G|]. split; [reflexivity|]. split; [exact DP|]. split; [unfold update_report; rewrite G; cbn [rbind]; rewrite E; reflexivity|].
  cbv zeta. rewrite US. change (up_burst (update_param H q)) with (uo_burst q). rewrite DP. pose proof (level_members (ROk o)) as LM. cbn [level_known] in LM.
  intro PC. pose proof (update_stats_members (b_version ref) s t T SM) as MS. unfold update_output. destruct verbose.
  - destruct PC as [PC|PC]; [discriminate|]. pose proof (msgs_fine H q h ref o f cut HB HL HH PC) as MF. destruct (info_members true pos ref HP) as (il & IM & IE). cbv iota in IM, IE.
    pose proof (members_app _ _ _ _ IM (members_app _ _ _ _ LM (ms_cons _ _ _ _ _ (changes_member cal l MF) (ms_cons _ _ _ _ _ MS ms_nil)))) as MM.
    apply (report_ok _ _ _ MM). rewrite IE, level_calls_items, !flat_map_app, <- !app_assoc. f_equal. f_equal. rewrite msg_items, (update_stats_items (b_version ref) s t) at 1.
    cbn [flat_map calls app]. rewrite <- !app_assoc. reflexivity.
  - pose proof (members_app _ _ _ _ LM (ms_cons _ _ _ _ _ MS ms_nil)) as MM. apply (report_ok _ _ _ MM).
    rewrite level_calls_items, (update_stats_items (b_version ref) s t) at 1. rewrite flat_map_app, <- !app_assoc. reflexivity.
Qed.
Print Assumptions c68_update_json.
(* If the command fails, the file is as before, the report has the text of the error, after the burst level if the command got that far (the size
   of the contents is recorded or not needed, and the level given or guessed), and the exit code is 2. *)
Theorem c68_update_error H cal cpus verbose q cut f w e l' t etext : hash_fn_ok H -> bytes_ok f = true -> lenN f < 18446744073709551616 -> error_text etext ->
  update_told H cpus (update_param H q) cut f = (w, RErr e, l') ->
  w = f /\ exists cs ms msg, update_report H cal cpus verbose (update_param H q) cut f t etext = ROk (cs, 2) /\ stands_for cs (error_json ms msg) /\
    ((get_ref_block f None None false (MustBe TMeta) = ROk None /\ ms = [] /\ msg = str "Error : Failed to find reference block") \/
     exists pos ref, get_ref_block f None None false (MustBe TMeta) = ROk (Some (pos, ref)) /\ 
        ms = (if verbose then [ref_info pos ref] else []) ++
             match update_size ref (update_param H q) with ROk _ => level_known (get_data_par_burst f (uo_burst q) None false ref) | _ => [] end /\ msg = etext).
Proof.
  intros HF HB HL ET E. destruct (told_cases H cpus q cut f HF HB) as [(r & E' & X)|(ref & o & h & w' & s' & ST & NH & HH & TS & UF & CN & E')]; pose proof E as E0; rewrite E' in E0.
  2: { apply pair_inj in E0 as [E0 _]. apply pair_inj in E0 as [_ E0]. discriminate. }
  apply pair_inj in E0 as [E0 <-]. apply pair_inj in E0 as [<- ->]. split; [reflexivity|]. unfold update_report. rewrite E.
  destruct (get_ref_block f None None false (MustBe TMeta)) as [[[pos ref]|]|e'|] eqn:G; cbn [rbind].
  - destruct (ref_fine _ _ _ _ _ _ _ HB HL G) as (HP & _). destruct (info_members verbose pos ref HP) as (il & IM & IE).
    set (lr := match update_size ref (update_param H q) with ROk _ => get_data_par_burst f (uo_burst q) None false ref | RErr e => RErr e | RPanic => RPanic end).
    assert (LK : match update_size ref (update_param H q) with ROk _ => level_known (get_data_par_burst f (uo_burst q) None false ref) | _ => [] end = level_known lr) by (unfold lr; destruct (update_size _ _); reflexivity).
    assert (LC : match update_size ref (update_param H q) with ROk _ => level_calls (get_data_par_burst f (up_burst (update_param H q)) None false ref) | _ => [] end = level_calls lr) by (unfold lr; destruct (update_size _ _); reflexivity).
    rewrite LC. eexists _, _, _. split; [reflexivity|]. split; [apply (report_error _ _ _ _ (members_app _ _ _ _ IM (level_members lr))); [|exact ET]|right; exists pos, ref; split; [reflexivity|]; split; [rewrite LK; reflexivity|reflexivity]].
    rewrite flat_map_app, <- IE, level_calls_items, app_nil_r. reflexivity.
  - eexists _, _, _. split; [reflexivity|]. split; [apply (report_error [] [] _ _ ms_nil eq_refl)|left; split; [reflexivity|]; split; reflexivity].
    split; [is_plain|]. vm_compute. tauto.
  - pose proof (update_file_prepare H cpus q cut f) as UF. pose proof (get_ref_block_ok f None None false (MustBe TMeta) HB) as K. exfalso.
    destruct (calc_required_len_and_seek_to_from_byte_range _ _ _ _ _ _) as [req lo] eqn:EC. destruct (range_in_file _ _ _ _ None _ _ ltac:(unfold mult_of; lia) HL EC) as (LO & _). destruct (K LO) as (r & ER & _). congruence.
  - exfalso. pose proof (get_ref_block_ok f None None false (MustBe TMeta) HB) as K.
    destruct (calc_required_len_and_seek_to_from_byte_range _ _ _ _ _ _) as [req lo] eqn:EC. destruct (range_in_file _ _ _ _ None _ _ ltac:(unfold mult_of; lia) HL EC) as (LO & _). destruct (K LO) as (r & ER & _). congruence.
Qed.
Print Assumptions c68_update_error.

(* ---- concrete cases ---- *)
(* --fnm xy --no-snm on a container without its second metadata block: the file name changes, the container name goes *)
Definition told_opts (dry : bool) : uopts := mkUopts dry (Some [120; 121]) None false true false None None.
Definition told_file : file := file_write toy_file 2560 [0].
Example c68_run :
  match update_told toy_hash 2 (update_param toy_hash (told_opts false)) None told_file with
  | (w, ROk s, Some l) => Some (us_updated s, us_failed s, map (fun x => (bm_no x, bm_pos x, map (fun c => (ch_id c, ch_from c, ch_to c)) (bm_changes x))) l)
  | _ => None end =
  let l := [(IFNM, Some (FNM [97]), Some (FNM [120; 121])); (ISNM, Some (SNM (str "b.sbx")), None)] in Some (2, 1, [(0, 0, l); (2, 5120, l)]).
Proof. vm_compute. reflexivity. Qed.
(* the name it has already is no change *)
Example c68_no_change :
  match update_told toy_hash 2 (update_param toy_hash (mkUopts true (Some [97]) None false false false None None)) None told_file with
  | (w, ROk s, Some l) => Some (map (fun x => (bm_no x, bm_changes x)) l)
  | _ => None end = Some [(0, []); (2, [])].
Proof. vm_compute. reflexivity. Qed.
Example c68_hypotheses : hash_fn_ok toy_hash /\ bytes_ok told_file = true /\ lenN told_file < 18446744073709551616 /\ opts_ok (told_opts false) /\ names_ok (told_opts false) /\
  (0 <= 5)%Z /\ (exists w s l, update_told toy_hash 2 (update_param toy_hash (told_opts false)) None told_file = (w, ROk s, Some l) /\ plain_changes l).
Proof.
  split; [exact toy_hash_ok|]. split; [vm_compute; reflexivity|]. split; [vm_compute; reflexivity|].
  split; [unfold opts_ok; cbn; repeat split; intros; try reflexivity; congruence|]. split; [unfold names_ok, told_opts; cbn [uo_fnm uo_snm]; split; [|exact I]; vm_compute; repeat split; congruence|]. split; [discriminate|].
  pose proof c68_run as R. cbv zeta in R. destruct (update_told toy_hash 2 (update_param toy_hash (told_opts false)) None told_file) as [[w [s|e|]] [l|]]; try discriminate. exists w, s, l. split; [reflexivity|].
  apply Some_inj, pair_inj in R as [_ R]. destruct l as [|[n0 p0 c0] [|[n1 p1 c1] [|? ?]]]; try discriminate. cbn [map bm_no bm_pos bm_changes] in R. injection R. intros R1 _ _ R0 _ _.
  assert (P : forall c : list change, map (fun c => (ch_id c, ch_from c, ch_to c)) c = [(IFNM, Some (FNM [97]), Some (FNM [120; 121])); (ISNM, Some (SNM (str "b.sbx")), None)] -> Forall (fun c => plain_value (ch_from c) /\ plain_value (ch_to c)) c).
  { intros [|[i a b] [|[i' a' b'] [|? ?]]] X; try discriminate. cbn [map ch_id ch_from ch_to] in X. injection X. intros -> -> _ -> -> _. constructor; [|constructor; [|constructor]]; cbn [ch_from ch_to plain_value].
    - split; (split; [is_plain|is_str]).
    - split; [split; [is_plain|is_str]|exact I]. }
  repeat constructor; cbn [bm_changes]; apply P; assumption.
Qed.

(* The report does not tell a name "null" from none (finding F39): two runs that leave different containers report the same. *)
Theorem c68_null_refuted : exists q1 q2 f w1 w2 s1 s2 l1 l2 cs, opts_ok q1 /\ names_ok q1 /\ opts_ok q2 /\ names_ok q2 /\ bytes_ok f = true /\
  update_told toy_hash 2 (update_param toy_hash q1) None f = (w1, ROk s1, Some l1) /\ update_told toy_hash 2 (update_param toy_hash q2) None f = (w2, ROk s2, Some l2) /\
  w1 <> w2 /\ l1 <> l2 /\
  update_report toy_hash (fun _ _ => None) 2 true (update_param toy_hash q1) None f 5 [] = ROk (cs, 0) /\ update_report toy_hash (fun _ _ => None) 2 true (update_param toy_hash q2) None f 5 [] = ROk (cs, 0).
Proof.
  set (q1 := mkUopts false (Some (str "null")) None false false false None None). set (q2 := mkUopts false None None true false false None None).
  exists q1, q2, toy_file.
  assert (E1 : eqbl (fst (fst (update_told toy_hash 2 (update_param toy_hash q1) None toy_file))) (fst (fst (update_told toy_hash 2 (update_param toy_hash q2) None toy_file))) = false) by (vm_compute; reflexivity).
  assert (E2 : update_report toy_hash (fun _ _ => None) 2 true (update_param toy_hash q1) None toy_file 5 [] = update_report toy_hash (fun _ _ => None) 2 true (update_param toy_hash q2) None toy_file 5 []) by (vm_compute; reflexivity).
  assert (E3 : match update_report toy_hash (fun _ _ => None) 2 true (update_param toy_hash q1) None toy_file 5 [] with ROk (_, 0) => true | _ => false end = true) by (vm_compute; reflexivity).
  assert (L1 : match update_told toy_hash 2 (update_param toy_hash q1) None toy_file with (_, ROk _, Some l) => forallb (fun x => forallb (fun c => match ch_from c, ch_to c with Some (FNM _), Some (FNM _) => true | _, _ => false end) (bm_changes x)) l && (lenN l =? 3) && forallb (fun x => lenN (bm_changes x) =? 1) l | _ => false end = true) by (vm_compute; reflexivity).
  assert (L2 : match update_told toy_hash 2 (update_param toy_hash q2) None toy_file with (_, ROk _, Some l) => forallb (fun x => forallb (fun c => match ch_from c, ch_to c with Some (FNM _), None => true | _, _ => false end) (bm_changes x)) l && (lenN l =? 3) && forallb (fun x => lenN (bm_changes x) =? 1) l | _ => false end = true) by (vm_compute; reflexivity).
  destruct (update_report toy_hash (fun _ _ => None) 2 true (update_param toy_hash q1) None toy_file 5 []) as [[cs [|c]]|e|] eqn:R1; try discriminate E3.
  destruct (update_told toy_hash 2 (update_param toy_hash q1) None toy_file) as [[w1 [s1|e|]] [l1|]]; try discriminate L1.
  destruct (update_told toy_hash 2 (update_param toy_hash q2) None toy_file) as [[w2 [s2|e|]] [l2|]]; try discriminate L2.
  exists w1, w2, s1, s2, l1, l2, cs.
  split; [unfold opts_ok; cbn; repeat split; intros; try reflexivity; congruence|]. split; [unfold names_ok; cbn [q1 uo_fnm uo_snm]; split; [|exact I]; vm_compute; repeat split; congruence|].
  split; [unfold opts_ok; cbn; repeat split; intros; try reflexivity; congruence|]. split; [split; exact I|]. split; [vm_compute; reflexivity|]. split; [reflexivity|]. split; [reflexivity|].
  split; [intros ->; cbn [fst] in E1; rewrite (proj2 (eqbl_eq w2 w2) eq_refl) in E1; discriminate E1|].
  split.
  { intros ->. destruct l2 as [|x l2]; [discriminate L1|]. cbn [forallb] in L1, L2. destruct (bm_changes x) as [|c cc]; [rewrite !andb_false_r in L1; discriminate L1|]. cbn [forallb] in L1, L2.
    destruct (ch_from c) as [[]|], (ch_to c) as [[]|]; cbn [andb] in L1, L2; first [discriminate L1|discriminate L2]. }
  clear L1 L2 E1.
  split; [reflexivity|exact (eq_sym E2)].
Qed.
Print Assumptions c68_null_refuted.
