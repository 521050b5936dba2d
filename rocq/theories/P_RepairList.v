(* C66: repair --verbose lists just what was broken, and what was repaired. *)
From Coq Require Import String Ascii ZArith Sorted.
From Verif Require Import M_Base M_Specs M_Header M_Multihash M_Metadata M_Block M_Index M_FileUtils M_Buffer M_Ranges M_Encode M_Scan M_Loop M_Decode
  M_Repair M_RepairList M_Hex M_Rescue M_Json M_Show M_Report
  S_Crc S_Meta S_Block S_Index S_Container S_Encode S_Scan S_Decode S_Repair S_Json S_Show S_Report S_RepairList
  L_Base L_File L_Header L_Meta L_Block L_Index L_Index2 L_Ranges L_Ref L_Decode L_Decode2 L_Repair5 L_Repair6 L_RepairCut L_Json L_Json2 L_Show P_Json L_Report L_RepairList
  P_Encode P_Decode P_Repair P_Report.
Ltac Zify.zify_post_hook ::= idtac.

(* ---- the lists ---- *)
(* --verbose changes neither the counters nor the file written. *)
Theorem c66_verbose_changes_nothing rc dry burst f :
  repair_file rc dry burst f = do! r <- repair_told rc dry burst f; ROk (match r with Some (t, w, _, _) => Some (t, w) | None => None end).
Proof. exact (told_erases rc dry burst f). Qed.
Print Assumptions c66_verbose_changes_nothing.

(* The lists name just the blocks that are not at their places, in order, each with its place; a set is said to be repaired just if enough
   of it is left. Blocks after the last complete set are not listed (with no recorded size there may be some). *)
Theorem c66_repairs_listed rs rc burst f ref d p B m dry :
  recon_ok rs rc d p -> bytes_ok f = true -> lenN f < 18446744073709551616 -> repair_setup burst f ref d p B m ->
  dry = true \/ lenN f mod ver_to_block_size (b_version ref) = 0 ->
  exists t w metas sets, repair_told rc dry burst f = ROk (Some (t, w, metas, sets)) /\
    repairs_listed (b_version ref) (b_uid ref) d p B m f metas sets.
Proof.
  intros HR HB HL SU WD. destruct (listed rs rc burst f ref d p B m dry HR HB HL SU WD) as (t & w & metas & sets & _ & E & L). exists t, w, metas, sets. auto.
Qed.
Print Assumptions c66_repairs_listed.

(* There is only one such pair of lists. *)
Lemma sorted_same : forall l l' : list N, StronglySorted N.lt l -> StronglySorted N.lt l' -> (forall x, In x l <-> In x l') -> l = l'.
Proof.
  induction l as [|a l IH]; intros [|b l'] S1 S2 I; [reflexivity|destruct (proj2 (I b) (or_introl eq_refl))|destruct (proj1 (I a) (or_introl eq_refl))|].
  inversion S1 as [|? ? S3 F1]; inversion S2 as [|? ? S4 F2]; subst. rewrite Forall_forall in F1, F2.
  assert (E : a = b).
  { destruct (proj1 (I a) (or_introl eq_refl)) as [X|X]; [auto|]. destruct (proj2 (I b) (or_introl eq_refl)) as [Y|Y]; [auto|]. specialize (F1 b Y). specialize (F2 a X). lia. }
  subst b. f_equal. apply IH; [exact S3|exact S4|]. intro x. specialize (I x). cbn [In] in I. split; intro X.
  - destruct (proj1 I (or_intror X)) as [<-|Y]; [specialize (F1 a X); lia|exact Y].
  - destruct (proj2 I (or_intror X)) as [<-|Y]; [specialize (F2 a X); lia|exact Y].
Qed.
Lemma sorted_nodup l : StronglySorted N.lt l -> NoDup l.
Proof. induction 1 as [|a l _ IH FA]; constructor; [|exact IH]. rewrite Forall_forall in FA. intro X. specialize (FA a X). lia. Qed.
Lemma pairs_same (g : N -> N) : forall l l' : list (N * N), (forall x, In x l -> snd x = g (fst x)) -> (forall x, In x l' -> snd x = g (fst x)) -> map fst l = map fst l' -> l = l'.
Proof.
  induction l as [|[a b] l IH]; intros [|[a' b'] l'] H H' E; try discriminate; [reflexivity|]. cbn [map fst] in E. injection E as <- E.
  pose proof (H _ (or_introl eq_refl)) as X. pose proof (H' _ (or_introl eq_refl)) as Y. cbn [fst snd] in X, Y. rewrite X, Y. f_equal. apply IH; [|intros x Hx; apply H'; right; exact Hx|exact E].
  intros x Hx. apply H. right. exact Hx.
Qed.
Lemma set_entry_unique v uid d p B f k x x' : set_entry v uid d p B f k x -> set_entry v uid d p B f k x' -> x = x'.
Proof.
  destruct x as [ok a b l], x' as [ok' a' b' l']. intros (E1 & E2 & E3 & E4 & E5) (F1 & F2 & F3 & F4 & F5). cbn [sm_ok sm_first sm_last sm_blocks] in *.
  assert (OK : ok = ok') by (destruct ok, ok'; try reflexivity; [symmetry; apply F3, E3; reflexivity|apply E3, F3; reflexivity]).
  assert (LL : l = l').
  { apply (pairs_same (fun s => calc_data_block_write_index s (Some true) (Some (d, p, B)) * ver_to_block_size v)).
    - intros [s q] H. apply E5 in H. apply H.
    - intros [s q] H. apply F5 in H. apply H.
    - apply sorted_same; [exact E4|exact F4|]. intro s. rewrite !in_map_iff.
      split; intros ([s' q] & <- & H); exists (s', q); (split; [reflexivity|]); [apply F5, E5, H|apply E5, F5, H]. }
  congruence.
Qed.
Theorem c66_lists_unique v uid d p B m f metas sets metas' sets' : 1 <= d ->
  repairs_listed v uid d p B m f metas sets -> repairs_listed v uid d p B m f metas' sets' -> metas = metas' /\ sets = sets'.
Proof.
  intros HD (A1 & A2 & A3 & A4 & A5) (C1 & C2 & C3 & C4 & C5). split; [apply sorted_same; [exact A1|exact C1|intro q; rewrite A2, C2; reflexivity]|].
  (* an entry of one list is in the other *)
  assert (T : forall s1 s2, (forall x, In x s1 -> exists k, (k + 1) * (d + p) <= m /\ sm_blocks x <> [] /\ set_entry v uid d p B f k x) ->
    (forall x, In x s2 -> exists k, (k + 1) * (d + p) <= m /\ sm_blocks x <> [] /\ set_entry v uid d p B f k x) ->
    (forall s, 1 <= s -> (set_of d p s + 1) * (d + p) <= m -> ~ in_place v uid d p B f s -> exists x q, In x s2 /\ In (s, q) (sm_blocks x)) -> forall x, In x s1 -> In x s2).
  { intros s1 s2 H1 H2 H3 x Hx. destruct (H1 x Hx) as (k & K1 & K2 & K3). pose proof K3 as (_ & _ & _ & _ & K4).
    destruct (sm_blocks x) as [|[s q] l] eqn:E; [contradiction|]. destruct (proj1 (K4 s q) (or_introl eq_refl)) as (S1 & S2 & S3 & _).
    destruct (H3 s S1 ltac:(rewrite S2; exact K1) S3) as (y & q' & Y1 & Y2). destruct (H2 y Y1) as (k' & _ & _ & Y3). pose proof Y3 as (_ & _ & _ & _ & Y4). destruct (proj1 (Y4 _ _) Y2) as (_ & Y5 & _).
    assert (KK : k' = k) by congruence. rewrite KK in Y3. rewrite (set_entry_unique _ _ _ _ _ _ _ _ _ K3 Y3). exact Y1. }
  assert (G : forall l l', StronglySorted N.lt (map sm_first l) -> StronglySorted N.lt (map sm_first l') -> (forall x, In x l <-> In x l') -> l = l').
  { induction l as [|a l IH]; intros [|b l'] S1 S2 I; [reflexivity|destruct (proj2 (I b) (or_introl eq_refl))|destruct (proj1 (I a) (or_introl eq_refl))|].
    cbn [map] in S1, S2. inversion S1 as [|? ? S3 F1]; inversion S2 as [|? ? S4 F2]; subst. rewrite Forall_forall in F1, F2.
    assert (N1 : forall x, In x l -> sm_first a < sm_first x) by (intros x Hx; apply F1, in_map, Hx). assert (N2 : forall x, In x l' -> sm_first b < sm_first x) by (intros x Hx; apply F2, in_map, Hx).
    assert (E : a = b).
    { destruct (proj1 (I a) (or_introl eq_refl)) as [X|X]; [auto|]. destruct (proj2 (I b) (or_introl eq_refl)) as [Y|Y]; [auto|]. specialize (N1 b Y). specialize (N2 a X). lia. }
    subst b. f_equal. apply IH; [exact S3|exact S4|]. intro x. specialize (I x). cbn [In] in I. split; intro X.
    - destruct (proj1 I (or_intror X)) as [<-|Y]; [specialize (N1 a X); lia|exact Y].
    - destruct (proj2 I (or_intror X)) as [<-|Y]; [specialize (N2 a X); lia|exact Y]. }
  apply G; [exact A3|exact C3|]. intro x. split; apply T; assumption.
Qed.
Print Assumptions c66_lists_unique.

(* The numbers of the report are the lengths of the lists. *)
Lemma exactly_unique P a b : exactly P a -> exactly P b -> a = b.
Proof.
  intros (l & N1 & I1 & <-) (l' & N2 & I2 & <-). assert (X1 : incl l l') by (intros x Hx; apply I2, I1, Hx). assert (X2 : incl l' l) by (intros x Hx; apply I1, I2, Hx).
  apply (NoDup_incl_length N1) in X1. apply (NoDup_incl_length N2) in X2. unfold lenN. lia.
Qed.
Definition blocks_of (ok : bool) (sets : list set_msg) : list N := flat_map (fun x => if Bool.eqb (sm_ok x) ok then map fst (sm_blocks x) else []) sets.
Lemma blocks_of_in ok sets s : In s (blocks_of ok sets) <-> exists x q, In x sets /\ sm_ok x = ok /\ In (s, q) (sm_blocks x).
Proof.
  unfold blocks_of. rewrite in_flat_map. split.
  - intros (x & Hx & H). destruct (Bool.eqb (sm_ok x) ok) eqn:E; [|destruct H]. apply Bool.eqb_prop in E. apply in_map_iff in H as ([s' q] & <- & H). exists x, q. auto.
  - intros (x & q & Hx & <- & H). exists x. split; [exact Hx|]. rewrite Bool.eqb_reflx. apply in_map_iff. exists (s, q). auto.
Qed.
Lemma blocks_of_nodup v uid d p B f ok sets : StronglySorted N.lt (map sm_first sets) -> (forall x, In x sets -> exists k, set_entry v uid d p B f k x) -> NoDup (blocks_of ok sets).
Proof.
  induction sets as [|x sets IH]; intros SS H; [constructor|]. cbn [map] in SS. inversion SS as [|? ? S1 F1]; subst. unfold blocks_of. cbn [flat_map]. fold (blocks_of ok sets).
  destruct (H x (or_introl eq_refl)) as (k & X1 & _ & _ & X2 & X3). apply L_RepairCut.NoDup_app; [|apply IH; [exact S1|intros y Hy; apply H; right; exact Hy]|].
  - destruct (Bool.eqb _ _); [apply sorted_nodup, X2|constructor].
  - intros s Hs Hs'. destruct (Bool.eqb _ _); [|destruct Hs]. apply in_map_iff in Hs as ([s' q] & E & Hs). cbn [fst] in E. subst s'. destruct (proj1 (X3 _ _) Hs) as (_ & E1 & _).
    apply blocks_of_in in Hs' as (y & q' & Y1 & _ & Y2). destruct (H y (or_intror Y1)) as (k' & Z1 & _ & _ & _ & Z2). destruct (proj1 (Z2 _ _) Y2) as (_ & E2 & _).
    rewrite Forall_forall in F1. specialize (F1 (sm_first y) (in_map _ _ _ Y1)). rewrite X1, Z1 in F1. assert (KK : k' = k) by congruence. rewrite KK in F1. lia.
Qed.
Theorem c66_lists_and_numbers rs rc burst f ref d p B m dry t w metas sets :
  recon_ok rs rc d p -> bytes_ok f = true -> lenN f < 18446744073709551616 -> repair_setup burst f ref d p B m ->
  dry = true \/ lenN f mod ver_to_block_size (b_version ref) = 0 ->
  repair_told rc dry burst f = ROk (Some (t, w, metas, sets)) ->
  lenN metas = ps_meta_rep t /\ lenN (blocks_of true sets) = ps_data_rep t /\ lenN (blocks_of false sets) = ps_data_fail t.
Proof.
  intros HR HB HL SU WD E. destruct (listed rs rc burst f ref d p B m dry HR HB HL SU WD) as (t' & w' & metas' & sets' & E1 & E2 & L). rewrite E in E2. apply ROk_inj, Some_inj in E2. injection E2 as <- <- <- <-.
  destruct (c21_counters rs rc burst f ref d p B m dry HR HB HL SU WD) as (t' & w' & E3 & _ & C2 & _ & _ & C6 & C7). rewrite E1 in E3. apply ROk_inj, Some_inj, pair_inj in E3 as [<- <-].
  pose proof (proj1 (setup_facts burst f ref d p B m HB HL SU)) as HO. cbn [dpb_ok] in HO. destruct L as (L1 & L2 & L3 & L4 & L5).
  assert (BP := block_size_pos (b_version ref)).
  assert (ND : forall ok, NoDup (blocks_of ok sets)). { intro ok. apply (blocks_of_nodup (b_version ref) (b_uid ref) d p B f); [exact L3|]. intros x Hx. destruct (L4 x Hx) as (k & _ & _ & K). exists k. exact K. }
  assert (IN : forall ok s, In s (blocks_of ok sets) <-> (1 <= s <= m /\ ~ in_place (b_version ref) (b_uid ref) d p B f s) /\ (set_of d p s + 1) * (d + p) <= m /\
      (if ok then at_least d p d (in_place (b_version ref) (b_uid ref) d p B f) (set_of d p s) else ~ at_least d p d (in_place (b_version ref) (b_uid ref) d p B f) (set_of d p s))).
  { intros ok s. rewrite blocks_of_in. split.
    - intros (x & q & Hx & <- & H). destruct (L4 x Hx) as (k & K1 & _ & _ & _ & K2 & _ & K3). destruct (proj1 (K3 _ _) H) as (H1 & H2 & H3 & _). rewrite <- H2 in *. clear K3. split; [|split; [exact K1|]].
      + split; [|exact H3]. split; [exact H1|]. unfold set_of in K1. pose proof (N.div_mod (s - 1) (d + p) ltac:(lia)). pose proof (N.mod_lt (s - 1) (d + p) ltac:(lia)). lia.
      + destruct (sm_ok x); [apply K2; reflexivity|]. intro X. apply K2 in X. discriminate.
    - intros ((H1 & H2) & H3 & H4). destruct (L5 s ltac:(lia) H3 H2) as (x & q & X1 & X2). exists x, q. split; [exact X1|]. split; [|exact X2].
      destruct (L4 x X1) as (k & _ & _ & _ & _ & K2 & _ & K3). destruct (proj1 (K3 _ _) X2) as (_ & X5 & _). rewrite <- X5 in *. destruct (sm_ok x), ok; try reflexivity; [exfalso; apply H4, K2; reflexivity|apply K2 in H4; discriminate]. }
  split; [|split].
  - apply (exactly_unique _ _ _) with (2 := C2). exists (map (fun q => q / ver_to_block_size (b_version ref)) metas). split; [|split; [|apply lenN_map]].
    + apply sorted_nodup. clear - L1 L2 BP. assert (D : forall q, In q metas -> exists i, q = i * ver_to_block_size (b_version ref)) by (intros q Hq; apply L2 in Hq as (i & _ & _ & ->); exists i; reflexivity).
      clear L2. induction L1 as [|a l S1 IH FA]; cbn [map]; constructor; [apply IH; intros q Hq; apply D; right; exact Hq|]. rewrite Forall_forall in *. intros x Hx. apply in_map_iff in Hx as (y & <- & Hy).
      destruct (D a (or_introl eq_refl)) as (i & ->). destruct (D y (or_intror Hy)) as (j & ->). specialize (FA _ Hy). rewrite !N.div_mul by lia. apply (N.mul_lt_mono_pos_r (ver_to_block_size (b_version ref))); [lia|exact FA].
    + intro i. rewrite in_map_iff. split.
      * intros (q & <- & Hq). apply L2 in Hq as (j & J1 & J2 & ->). rewrite N.div_mul by lia. auto.
      * intros [J1 J2]. exists (i * ver_to_block_size (b_version ref)). rewrite N.div_mul by lia. split; [reflexivity|]. apply L2. exists i. auto.
  - apply (exactly_unique _ _ _) with (2 := C6). exists (blocks_of true sets). split; [apply ND|]. split; [apply (IN true)|reflexivity].
  - apply (exactly_unique _ _ _) with (2 := C7). exists (blocks_of false sets). split; [apply ND|]. split; [apply (IN false)|reflexivity].
Qed.
Print Assumptions c66_lists_and_numbers.

(* ---- the report ---- *)
Lemma div_le a n : n <> 0 -> a / n <= a.
Proof. intro H. destruct (N.eq_dec n 1) as [->|NE]; [rewrite N.div_1_r; lia|]. destruct (N.eq_dec a 0) as [->|NA]; [rewrite N.div_0_l by exact H; lia|]. apply N.lt_le_incl, N.div_lt; lia. Qed.
Lemma write_index_bound d p B s : dpb_ok (Some (d, p, B)) -> B < 4294967296 -> s < 4294967297 -> calc_data_block_write_index s (Some true) (Some (d, p, B)) < 1100000000000000.
Proof.
  intros (D1 & D2 & D3) HB HS. unfold calc_data_block_write_index, SBX_FIRST_DATA_SEQ_NUM. destruct (N.eqb_spec B 0) as [->|NB]; [lia|]. cbv zeta.
  set (c := if _ =? 0 then _ else _). assert (C : c <= 257) by (clear - D1 D3; unfold c; destruct (_ =? 0); [|lia]; generalize ((s - 1) mod ((d + p) * B) mod (d + p)); intro y; destruct (N.ltb_spec y (1 + p)); lia). clearbody c.
  set (n := d + p) in *. assert (N1 : n <> 0) by (clear - D1; unfold n; lia). clearbody n. set (x := s - 1). assert (XS : x < 4294967297) by (clear - HS; unfold x; lia). clearbody x.
  assert (NN : n * B <> 0) by (apply N.neq_mul_0; auto). pose proof (N.mul_div_le x (n * B) NN) as X1. pose proof (N.mod_lt x (n * B) NN) as X2.
  assert (Z : n * B <= 256 * 4294967296) by (apply N.mul_le_mono; [exact D3|apply N.lt_le_incl, HB]).
  set (r := x mod (n * B)) in *. clearbody r. pose proof (div_le r n N1) as R1. pose proof (N.mod_lt r n N1) as R2.
  assert (Y : r mod n * B <= n * B) by (apply N.mul_le_mono_r, N.lt_le_incl, R2).
  assert (F : forall q k e a, c <= 257 -> q <= x -> k <= a -> e <= r -> r < a -> a <= 256 * 4294967296 -> c + q + (k + e) < 1100000000000000) by (clear - XS; intros; lia).
  apply (F _ _ _ (n * B)); assumption.
Qed.

Lemma meta_msg_items metas : flat_map meta_msg_calls metas = flat_map calls (map (fun q => GroupItem None Curly [FieldItem false (str "seq num : 0"); FieldItem false (str "pos : " ++ dec q)]) metas).
Proof. induction metas as [|a l IH]; [reflexivity|]. cbn [flat_map map]. rewrite IH. reflexivity. Qed.
Lemma block_msg_items l : flat_map block_msg_calls l = flat_map calls (map (fun x => GroupItem None Curly [FieldItem false (str "seq num : " ++ dec (fst x)); FieldItem false (str "pos : " ++ dec (snd x))]) l).
Proof. induction l as [|a l IH]; [reflexivity|]. cbn [flat_map map]. rewrite IH. reflexivity. Qed.
Definition set_msg_item (x : set_msg) : item :=
  GroupItem None Curly [FieldItem false (str "success : " ++ if sm_ok x then str "true" else str "false");
    FieldItem false (str "block set start : " ++ dec (sm_first x)); FieldItem false (str "block set end inclusive : " ++ dec (sm_last x));
    GroupItem (Some (str "blocks")) Square (map (fun x => GroupItem None Curly [FieldItem false (str "seq num : " ++ dec (fst x)); FieldItem false (str "pos : " ++ dec (snd x))]) (sm_blocks x))].
Lemma set_msg_items l : flat_map set_msg_calls l = flat_map calls (map set_msg_item l).
Proof.
  induction l as [|x l IH]; [reflexivity|]. cbn [flat_map map]. rewrite IH. f_equal. unfold set_msg_calls, set_msg_item. rewrite block_msg_items. cbn [calls flat_map app]. rewrite <- !app_assoc. reflexivity.
Qed.
Lemma metas_member metas : Forall (fun q => q < 18446744073709551616) metas ->
  member (GroupItem (Some (str "metadata repairs")) Square (map (fun q => GroupItem None Curly [FieldItem false (str "seq num : 0"); FieldItem false (str "pos : " ++ dec q)]) metas))
    (str "metadataRepairs") (JArr (map meta_entry_json metas)).
Proof.
  intro F. apply group_lit; try reflexivity. apply c_array. induction F as [|a ps A _ IH]; [apply es_nil|]. cbn [map]. apply es_cons; [|exact IH]. unfold meta_entry_json.
  apply c_object. apply ms_cons; [apply (field_lit false (str "seq num : ") (str "seqNum") (str "0")); [vm_compute; reflexivity|apply (fine_dec 0); lia]|].
  member_of ltac:(apply fine_dec, A). apply ms_nil.
Qed.
Definition small_msg (x : set_msg) : Prop :=
  sm_first x < 18446744073709551616 /\ sm_last x < 18446744073709551616 /\ Forall (fun y => fst y < 18446744073709551616 /\ snd y < 18446744073709551616) (sm_blocks x).
Lemma sets_member sets : Forall small_msg sets ->
  member (GroupItem (Some (str "data repairs")) Square (map set_msg_item sets)) (str "dataRepairs") (JArr (map set_entry_json sets)).
Proof.
  intro F. apply group_lit; try reflexivity. apply c_array. induction F as [|x l (X1 & X2 & X3) _ IH]; [apply es_nil|]. cbn [map]. unfold set_msg_item at 1. apply es_cons; [|exact IH]. unfold set_entry_json.
  apply c_object. member_of idtac. { destruct (sm_ok x); (split; [is_plain|constructor]). }
  do 2 member_of ltac:(apply fine_dec; assumption). apply ms_cons; [|apply ms_nil]. apply group_lit; try reflexivity. apply c_array.
  induction X3 as [|y r (Y1 & Y2) _ IH']; [apply es_nil|]. cbn [map]. apply es_cons; [|exact IH']. unfold block_entry_json. apply c_object. do 2 member_of ltac:(apply fine_dec; assumption). apply ms_nil.
Qed.

(* With --json --verbose the report has the lists above, after the same information about the reference block as other commands, the burst level, and before
   the numbers. *)
Theorem c66_repair_verbose rs rc burst f ref d p B m dry t etext :
  recon_ok rs rc d p -> bytes_ok f = true -> lenN f < 18446744073709551616 -> repair_setup burst f ref d p B m -> B < 4294967296 ->
  dry = true \/ lenN f mod ver_to_block_size (b_version ref) = 0 -> (0 <= t)%Z ->
  exists pos s w metas sets cs, get_ref_block f None None false (MustBe TMeta) = ROk (Some (pos, ref)) /\
    repair_file rc dry burst f = ROk (Some (s, w)) /\
    repairs_listed (b_version ref) (b_uid ref) d p B m f metas sets /\
    repair_report_verbose rc dry burst f t etext = ROk (cs, 0) /\
    stands_for cs (repair_verbose_output pos ref (Some (d, p, B)) s metas sets t).
Proof.
  intros HR HB HL SU BB WD T. destruct (listed rs rc burst f ref d p B m dry HR HB HL SU WD) as (s & w & metas & sets & E1 & E2 & L).
  destruct (c21_counters rs rc burst f ref d p B m dry HR HB HL SU WD) as (s' & w' & E & C1 & C2 & C3 & (c & C4 & C5) & C6 & C7).
  rewrite E1 in E. apply ROk_inj, Some_inj, pair_inj in E as [<- <-].
  pose proof (proj1 (setup_facts burst f ref d p B m HB HL SU)) as HO. destruct SU as ((pos & G) & VR & DP & FS). destruct (ref_fine _ _ _ _ _ _ _ HB HL G) as (HP & _).
  assert (M : m <= U32_MAX) by (destruct (get_FSZ ref); [destruct FS as (? & _ & ->)|rewrite FS]; apply N.le_min_l). change U32_MAX with 4294967295 in M.
  assert (PP : p < 4294967296) by (cbn [dpb_ok] in HO; lia).
  assert (SM : small_pstats s).
  { assert (MI : forall c P, exactly (fun i => meta_index (Some true) (Some (d, p, B)) i /\ P i) c -> c <= p + 1).
    { intros c' P X. apply (exactly_inj _ _ (p + 1) (fun j => j * (1 + B))) in X; [exact X|]. intros i ((j & J & ->) & _). exists j. split; [lia|reflexivity]. }
    assert (DI : forall c (P : N -> Prop), exactly P c -> (forall i, P i -> 1 <= i <= m) -> c <= m + 1).
    { intros c' P X Y. apply (exactly_le _ _ (m + 1)) in X; [exact X|]. intros i Z. apply Y in Z. lia. }
    apply MI in C1. apply MI in C2. apply DI in C3; [|intros i Z; apply Z]. apply DI in C4; [|intros i Z; apply Z].
    apply DI in C6; [|intros i Z; apply Z]. apply DI in C7; [|intros i Z; apply Z]. unfold small_pstats. rewrite C5. lia. }
  assert (BS : ver_to_block_size (b_version ref) <= 4096) by (destruct (b_version ref); vm_compute; discriminate).
  pose proof L as (L1 & L2 & L3 & L4 & L5). cbn [dpb_ok] in HO.
  assert (F1 : Forall (fun q => q < 18446744073709551616) metas).
  { apply Forall_forall. intros q Hq. apply L2 in Hq as (i & (j & J & ->) & _ & ->). assert (j * (1 + B) <= 256 * 4294967296) by (apply N.mul_le_mono; lia).
    pose proof (N.mul_le_mono _ _ _ _ H BS). lia. }
  assert (F2 : Forall small_msg sets).
  { apply Forall_forall. intros x Hx. destruct (L4 x Hx) as (k & K1 & _ & K2 & K3 & _ & _ & K4). split; [lia|]. split; [lia|]. apply Forall_forall. intros [sq q] Hq. cbn [fst snd].
    destruct (proj1 (K4 _ _) Hq) as (Q1 & Q2 & _ & ->). assert (SQ : sq <= m).
    { clear - Q1 Q2 K1 HO. unfold set_of in Q2. pose proof (N.div_mod (sq - 1) (d + p) ltac:(lia)) as X. pose proof (N.mod_lt (sq - 1) (d + p) ltac:(lia)). rewrite Q2 in X. lia. }
    split; [lia|]. pose proof (write_index_bound d p B sq HO BB ltac:(lia)) as W. pose proof (N.mul_le_mono _ _ _ _ (N.lt_le_incl _ _ W) BS). lia. }
  eexists pos, s, w, metas, sets, _. split; [exact G|]. split; [exact E1|]. split; [exact L|].
  split; [unfold repair_report_verbose; rewrite G; cbn [rbind]; rewrite E2; reflexivity|].
  destruct (info_members true pos ref HP) as (il & IM & IE). unfold repair_verbose_output. rewrite DP.
  pose proof (level_members (ROk (Some (d, p, B)))) as LM. cbn [level_known] in LM.
  pose proof (members_app _ _ _ _ IM (members_app _ _ _ _ LM (ms_cons _ _ _ _ _ (metas_member metas F1) (ms_cons _ _ _ _ _ (sets_member sets F2) (ms_cons _ _ _ _ _ (repair_stats_members (b_version ref) s t T SM) ms_nil))))) as MM.
  apply (report_ok _ _ _ MM). rewrite IE, level_calls_items, !flat_map_app, <- app_assoc. f_equal. f_equal. rewrite meta_msg_items, set_msg_items, (repair_stats_items (b_version ref) s t) at 1.
  cbn [flat_map calls app]. rewrite <- !app_assoc. reflexivity.
Qed.
Print Assumptions c66_repair_verbose.

(* ---- a concrete case: set 0 has lost all its blocks (1, 2, 3), set 1 one (4); the metadata block at 6 is gone ---- *)
Example c66_run :
  match repair_told toy_rc false (Some 2) rep_lost with
  | ROk (Some (t, w, metas, sets)) => Some (metas, map (fun x => (sm_ok x, sm_first x, sm_last x, sm_blocks x)) sets)
  | _ => None end = Some ([3072], [(false, 1, 3, [(1, 512); (2, 2048); (3, 3584)]); (true, 4, 6, [(4, 1024)])]).
Proof. vm_compute. reflexivity. Qed.
Example c66_hypotheses : recon_ok toy_rs toy_rc 1 2 /\ bytes_ok rep_lost = true /\ lenN rep_lost < 18446744073709551616 /\
  (exists ref, repair_setup (Some 2) rep_lost ref 1 2 2 9 /\ lenN rep_lost mod ver_to_block_size (b_version ref) = 0) /\ 2 < 4294967296.
Proof.
  destruct c21_hypotheses as (H1 & H2 & H3 & H4 & ref & H5 & H6 & _). split; [exact H1|]. split; [exact H2|]. split; [exact H3|]. split; [|reflexivity].
  exists ref. split; [exact H5|]. rewrite H6. exact H4.
Qed.
