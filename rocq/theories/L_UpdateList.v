(* Lemmas on what update tells. *)
From Coq Require Import String Sorted.
From Verif Require Import M_Base M_Specs M_Crc M_Header M_Multihash M_Metadata M_Block M_Index M_FileUtils M_Buffer M_Ranges M_Encode M_Scan M_Loop M_Decode M_Content M_Repair M_Update M_UpdateList
  S_Crc S_Meta S_Block S_Index S_Container S_Encode S_Scan S_Decode S_Content S_Repair S_Update S_UpdateList
  L_Base L_Crc L_File L_Header L_Meta L_Meta2 L_Block L_Index L_Index2 L_Container L_Scan L_Ranges L_Ref L_Repair L_Update P_Update.
Ltac Zify.zify_post_hook ::= idtac.

Lemma hash_type_eqb_eq a b : hash_type_eqb a b = true <-> a = b.
Proof. destruct a, b; split; try reflexivity; discriminate. Qed.
Lemma metadata_eqb_eq a b : metadata_eqb a b = true <-> a = b.
Proof.
  destruct a as [x|x|x|x|x|[t x]|x|x], b as [y|y|y|y|y|[u y]|y|y]; cbn [metadata_eqb]; try (split; discriminate);
    rewrite ?andb_true_iff, ?hash_type_eqb_eq, ?eqbl_eq, ?N.eqb_eq, ?Z.eqb_eq; (split; [intro E; try destruct E; congruence|intro E; injection E; intros; subst; auto]).
Qed.

(* ---- the messages change nothing ---- *)
Lemma block_told_erase ref p d : update_block ref p d = do! r <- update_block_told ref p d; ROk (option_map fst r).
Proof.
  unfold update_block, update_block_told. destruct (sync_from_buffer _ _ _ _) as [b|e|]; try reflexivity. destruct (is_meta b) eqn:M; [|reflexivity].
  unfold is_meta, block_type_of in M. destruct (b_data b); [discriminate|]. cbn [rbind].
  destruct (unwrap (update_metas b (up_set p))) as [b1|e|]; cbn [rbind]; try reflexivity. destruct (unwrap (remove_metas b1 (up_remove p))) as [b2|e|]; cbn [rbind]; try reflexivity.
  destruct (sync_to_buffer b2 None d) as [[? ?]|[]|]; reflexivity.
Qed.
Lemma blocks_told_erase ref p wr ps : forall n f s l, fst (update_blocks_told ref p wr ps n f s l) = update_blocks ref p wr ps f s.
Proof.
  induction ps as [|pos ps IH]; intros n f s l; cbn [update_blocks_told update_blocks]; [reflexivity|]. destruct (_ <? _); [reflexivity|].
  rewrite block_told_erase. destruct (update_block_told _ _ _) as [[[d old]|]|e|]; cbn [rbind option_map fst]; try reflexivity; apply IH.
Qed.
Lemma update_told_erase H cpus p cut f : fst (update_told H cpus p cut f) = update_file H cpus p cut f.
Proof.
  unfold update_told, update_file. destruct (get_ref_block _ _ _ _ _) as [[[pos ref]|]|e|]; try reflexivity.
  destruct (update_size ref p) as [size|e|]; try reflexivity. destruct (get_data_par_burst _ _ _ _ _) as [o|e|]; try reflexivity.
  destruct (snd (update_metadata_blocks ref p o true None f)) as [s|e|]; try reflexivity.
  destruct (match size with Some _ => _ | None => _ end) as [ms|e|]; try reflexivity. cbv zeta. unfold update_metadata_blocks. cbn [up_dry negb]. rewrite andb_true_r.
  match goal with |- context [update_blocks_told ?a ?b ?c ?d ?e ?g ?h ?i] => pose proof (blocks_told_erase a b c d e g h i) as E; destruct (update_blocks_told a b c d e g h i) as [[w r] l] end.
  exact E.
Qed.

(* ---- the changes of one block ---- *)
Lemma changed_other sets gone ms ms' i : changed sets gone ms ms' -> ~ In i (gone ++ map meta_to_id sets) -> with_id i ms' = with_id i ms.
Proof.
  intros (_ & _ & C) NI. cbv zeta in C. apply (f_equal (with_id i)) in C. unfold with_id in *. rewrite !filter_filter in C.
  assert (X : forall l, filter (fun m => metadata_id_eqb (meta_to_id m) i) l = filter (fun x => negb (existsb (metadata_id_eqb (meta_to_id x)) (gone ++ map meta_to_id sets)) && metadata_id_eqb (meta_to_id x) i) l).
  { intro l. apply filter_ext. intro m. destruct (metadata_id_eqb (meta_to_id m) i) eqn:X; [|rewrite andb_false_r; reflexivity]. apply id_eqb_eq in X. rewrite X. rewrite andb_true_r. symmetry. apply negb_true_iff, not_true_is_false. intro Y. apply existsb_id in Y. contradiction. }
  rewrite !X. exact C.
Qed.
Lemma set_change_in ms m c : In c (set_change ms m) <-> c = mkChange (meta_to_id m) (value (meta_to_id m) ms) (Some m) /\ value (meta_to_id m) ms <> Some m.
Proof.
  unfold set_change, value. rewrite get_with_id. destruct (hd_error _) as [x|].
  - destruct (metadata_eqb x m) eqn:E; cbn [In].
    + apply metadata_eqb_eq in E. subst x. split; [intros []|intros [_ X]; contradiction].
    + split; [intros [<-|[]]; split; [reflexivity|]|intros [-> _]; left; reflexivity]. intro X. apply Some_inj in X. apply metadata_eqb_eq in X. congruence.
  - cbn [In]. split; [intros [<-|[]]; split; [reflexivity|discriminate]|intros [-> _]; left; reflexivity].
Qed.
Lemma remove_change_in ms i c : In c (remove_change ms i) <-> c = mkChange i (value i ms) None /\ value i ms <> None.
Proof.
  unfold remove_change, value. rewrite get_with_id. destruct (hd_error _) as [x|]; cbn [In].
  - split; [intros [<-|[]]; split; [reflexivity|discriminate]|intros [-> _]; left; reflexivity].
  - split; [intros []|intros [_ X]; contradiction].
Qed.
Lemma ids_NoDup {A} (g : A -> list change) (k : A -> metadata_id) l : (forall a c, In c (g a) -> ch_id c = k a) -> (forall a, (length (g a) <= 1)%nat) ->
  NoDup (map k l) -> NoDup (map ch_id (flat_map g l)) /\ forall i, In i (map ch_id (flat_map g l)) -> In i (map k l).
Proof.
  intros G1 G2. induction l as [|a l IH]; cbn [map flat_map]; intro ND; [split; [constructor|intros i []]|]. inversion ND as [|? ? NI ND']; subst. destruct (IH ND') as [I1 I2]. specialize (G2 a). pose proof (G1 a) as G.
  destruct (g a) as [|c [|c' r]]; cbn [app map length] in *; [split; [exact I1|intros i Hi; right; apply I2, Hi]| |lia].
  rewrite (G c (or_introl eq_refl)). split; [constructor; [intro X; apply NI, I2, X|exact I1]|]. intros i [<-|Hi]; [left; reflexivity|right; apply I2, Hi].
Qed.
Lemma NoDup_app_disj {A} (l r : list A) : NoDup l -> NoDup r -> (forall x, In x l -> ~ In x r) -> NoDup (l ++ r).
Proof.
  induction 1 as [|x l NI ND IH]; intros NR DJ; [exact NR|]. cbn [app]. constructor; [rewrite in_app_iff; intros [X|X]; [contradiction|exact (DJ x (or_introl eq_refl) X)]|]. apply IH; [exact NR|]. intros y Hy. apply DJ. right. exact Hy.
Qed.
Lemma block_changes_ok p ms : NoDup (map meta_to_id (up_set p)) -> NoDup (up_remove p) -> (forall m, In m (up_set p) -> ~ In (meta_to_id m) (up_remove p)) ->
  changes_between ms (newf p ms) (block_changes p ms).
Proof.
  intros N1 N2 DJ. pose proof (new_fields_changed (up_set p) (up_remove p) ms N1 DJ) as CH. fold (newf p ms) in CH. pose proof CH as (C1 & C2 & _). split.
  - unfold block_changes. rewrite map_app.
    destruct (ids_NoDup (set_change ms) meta_to_id (up_set p)) as [A1 A2]; [intros a c X; apply set_change_in in X as [-> _]; reflexivity| |exact N1|].
    { intro a. unfold set_change. destruct (get_meta_by_id _ _); [destruct (metadata_eqb _ _)|]; cbn [length]; lia. }
    destruct (ids_NoDup (remove_change ms) (fun i => i) (up_remove p)) as [B1 B2]; [intros a c X; apply remove_change_in in X as [-> _]; reflexivity| |rewrite map_id; exact N2|].
    { intro a. unfold remove_change. destruct (get_meta_by_id _ _); cbn [length]; lia. }
    apply NoDup_app_disj; [exact A1|exact B1|]. intros i X Y. apply A2 in X. apply B2 in Y. rewrite map_id in Y. apply in_map_iff in X as (m & <- & X). exact (DJ m X Y).
  - intros i a b. unfold block_changes. rewrite in_app_iff, !in_flat_map. split.
    + intros [(m & Hm & X)|(j & Hj & X)].
      * apply set_change_in in X as [X Y]. injection X. intros -> -> ->. split; [reflexivity|]. unfold value at 1. rewrite (C1 m Hm). split; [reflexivity|exact Y].
      * apply remove_change_in in X as [X Y]. injection X. intros -> -> ->. split; [reflexivity|]. unfold value at 1. rewrite (C2 j Hj). split; [reflexivity|exact Y].
    + intros (-> & -> & NE). destruct (in_dec (fun a b : metadata_id => ltac:(decide equality)) i (map meta_to_id (up_set p))) as [I|NI].
      * left. apply in_map_iff in I as (m & <- & Hm). exists m. split; [exact Hm|]. apply set_change_in. unfold value in NE |- *. rewrite (C1 m Hm) in NE |- *. split; [reflexivity|exact NE].
      * destruct (in_dec (fun a b : metadata_id => ltac:(decide equality)) i (up_remove p)) as [J|NJ].
        -- right. exists i. split; [exact J|]. apply remove_change_in. unfold value in NE |- *. rewrite (C2 i J) in NE |- *. split; [reflexivity|exact NE].
        -- exfalso. apply NE. unfold value. rewrite (changed_other _ _ _ _ i CH); [reflexivity|]. rewrite in_app_iff. tauto.
Qed.

Section Told.
Variables (ref : block) (f : file).
Let v := b_version ref.
Let uid := b_uid ref.
Let bs := ver_to_block_size v.
Hypothesis HB : bytes_ok f = true.
Definition block_told (p : uparam) (i : N) := update_block_told ref p (file_read f (i * bs) bs).
Lemma told_outcome p i : outcome ref f p i = do! r <- block_told p i; ROk (option_map fst r).
Proof. apply block_told_erase. Qed.
Lemma told_old p i d old : (i + 1) * bs <= lenN f -> block_told p i = ROk (Some (d, old)) -> fields_at v uid f i old.
Proof.
  intros LE E. unfold block_told in E. set (x := file_read f (i * bs) bs) in *. assert (LD : lenN x = bs) by (unfold x, file_read; rewrite lenN_slice; lia).
  assert (BD : bytes_ok x = true) by (apply bytes_ok_slice, HB).
  pose proof (accept_cases ref block_dummy x ltac:(fold v bs; lia)) as AC. unfold update_block_told in E. destruct (accept ref x) as [b|] eqn:A; [|destruct AC as (e & X); rewrite X in E; discriminate].
  rewrite AC in E. apply accept_iff in A as (h & pl & W & V & U & ->); [|exact BD]. unfold is_meta, block_type_of, block_of in E. cbn [b_data] in E.
  destruct (N.ltb_spec (h_seq_num h) 1) as [S|S]; [|discriminate]. cbn [rbind] in E.
  destruct (unwrap _) as [b1|e|]; cbn [rbind] in E; try discriminate. destruct (unwrap _) as [b2|e|]; cbn [rbind] in E; try discriminate.
  destruct (sync_to_buffer b2 None x) as [[? ?]|[]|]; try discriminate. apply ROk_inj, Some_inj, pair_inj in E as [_ <-].
  exists pl. split; [|reflexivity]. exists h. split; [exact W|]. split; [exact V|]. split; [exact U|lia].
Qed.
Fixpoint msgs (p : uparam) (n : N) (L : list N) : list block_msg :=
  match L with
  | [] => []
  | i :: r => match block_told p i with ROk (Some (_, old)) => [mkBlockMsg n (i * bs) (block_changes p old)] | _ => [] end ++ msgs p (n + 1) r
  end.
Lemma run_told p wr : safe p -> forall L n w s l, lenN w = lenN f -> NoDup L -> (forall i, In i L -> sliceN (i * bs) bs w = sliceN (i * bs) bs f) ->
  (forall i, In i (live ref f L) -> exists x, outcome ref f p i = ROk x) ->
  snd (update_blocks_told ref p wr (map (fun i => i * bs) L) n w s l) = l ++ msgs p n (live ref f L).
Proof.
  intro SF. pose proof (block_size_pos v) as BP. fold bs in BP. induction L as [|i L IH]; intros n w s l LW ND SL OK; cbn [map update_blocks_told live]; [cbn [msgs snd]; rewrite app_nil_r; reflexivity|].
  fold v bs. assert (R : file_read w (i * bs) bs = file_read f (i * bs) bs) by (apply SL; left; reflexivity). rewrite R.
  rewrite short_read by lia. cbn [live] in OK. fold v bs in OK. replace (i * bs + bs) with ((i + 1) * bs) by lia. destruct (N.ltb_spec (lenN f) ((i + 1) * bs)) as [X|X]; [cbn [msgs snd]; rewrite app_nil_r; reflexivity|].
  inversion ND as [|? ? NI ND']; subst. cbn [msgs]. pose proof (told_outcome p i) as TO. pose proof (outcome_cases ref f HB p i SF X) as OC. destruct (OK i (or_introl eq_refl)) as (x & EX). unfold block_told in *.
  destruct (update_block_told ref p (file_read f (i * bs) bs)) as [[[d old]|]|e|]; cbn [rbind option_map fst] in TO; try congruence.
  - assert (LD : lenN d = bs) by (destruct OC as [E|[E|(d' & E & LD)]]; rewrite TO in E; try discriminate; apply ROk_inj, Some_inj in E; subst d'; exact LD).
    rewrite IH; [rewrite <- app_assoc; reflexivity| |exact ND'| |intros j Hj; apply OK; right; exact Hj].
    + destruct wr; [|exact LW]. rewrite lenN_file_write, LD. destruct (N.eqb_spec bs 0); lia.
    + intros j Hj. rewrite <- (SL j (or_intror Hj)). destruct wr; [|reflexivity]. apply list_ext_N.
      * rewrite !lenN_slice, lenN_file_write, LD. destruct (N.eqb_spec bs 0); [lia|]. f_equal. lia.
      * intros k Hk. rewrite lenN_slice in Hk. rewrite !nthN_slice. destruct (N.ltb_spec k bs); [|lia]. rewrite nthN_file_write, LD.
        destruct (N.leb_spec (i * bs) (j * bs + k)); [|reflexivity]. destruct (N.ltb_spec (j * bs + k) (i * bs + bs)); [|reflexivity]. exfalso. apply NI.
        assert (E1 : (j * bs + k) / bs = i) by (apply in_block; lia). assert (E2 : (j * bs + k) / bs = j) by (apply in_block; lia). rewrite <- E1, E2. exact Hj.
  - rewrite IH; [reflexivity|exact LW|exact ND'|intros j Hj; apply SL; right; exact Hj|intros j Hj; apply OK; right; exact Hj].
Qed.
Lemma msgs_in p L : forall n x, In x (msgs p n L) <->
  exists j i d old, nth_error L j = Some i /\ block_told p i = ROk (Some (d, old)) /\ x = mkBlockMsg (n + N.of_nat j) (i * bs) (block_changes p old).
Proof.
  induction L as [|i L IH]; intros n x; cbn [msgs]; [split; [intros []|intros ([|j] & ? & ? & ? & X & _); discriminate]|]. rewrite in_app_iff, IH. split.
  - intros [X|(j & i' & d & old & J & E & ->)].
    + destruct (block_told p i) as [[[d old]|]|e|] eqn:E; cbn [In] in X; try contradiction. destruct X as [<-|[]]. exists O, i, d, old. split; [reflexivity|]. split; [exact E|]. f_equal. lia.
    + exists (S j), i', d, old. split; [exact J|]. split; [exact E|]. f_equal. lia.
  - intros ([|j] & i' & d & old & J & E & ->).
    + cbn [nth_error] in J. apply Some_inj in J. subst i'. left. rewrite E. left. f_equal. lia.
    + right. exists j, i', d, old. split; [exact J|]. split; [exact E|]. f_equal. lia.
Qed.
Lemma msgs_sorted p L : L_Index.sorted L -> NoDup L -> forall n, StronglySorted N.lt (map bm_pos (msgs p n L)).
Proof.
  pose proof (block_size_pos v) as BP. fold bs in BP. induction 1 as [|i L HX HS IH]; intros ND n; cbn [msgs map]; [constructor|]. inversion ND as [|? ? NI ND']; subst.
  destruct (block_told p i) as [[[d old]|]|e|]; cbn [app map bm_pos]; try (apply IH, ND'). constructor; [apply IH, ND'|]. apply Forall_forall. intros y Hy. apply in_map_iff in Hy as (x & <- & Hx).
  apply msgs_in in Hx as (j & i' & d' & old' & J & _ & ->). cbn [bm_pos]. apply nth_error_In in J. specialize (HX i' J). apply N.mul_lt_mono_pos_r; [lia|]. assert (i <> i') by (intros ->; contradiction). lia.
Qed.
Lemma live_prefix L : exists k, live ref f L = firstn k L.
Proof.
  induction L as [|i L (k & IH)]; cbn [live]; [exists O; reflexivity|]. destruct (_ <? _); [exists O; reflexivity|]. exists (S k). cbn [firstn]. rewrite IH. reflexivity.
Qed.
End Told.

Lemma nth_firstn {A} k (l : list A) j x : nth_error (firstn k l) j = Some x -> nth_error l j = Some x.
Proof. revert l j. induction k as [|k IH]; intros [|a l] [|j]; cbn [firstn nth_error]; try discriminate; try (intro X; exact X). apply IH. Qed.
Lemma nth_rangeN lo hi : forall j x, nth_error (rangeN lo hi) j = Some x -> x = lo + N.of_nat j.
Proof.
  assert (X : forall n lo j x, N.of_nat n = hi - lo -> nth_error (rangeN lo hi) j = Some x -> x = lo + N.of_nat j); [|intros j x; apply (X (N.to_nat (hi - lo))); lia].
  induction n as [|n IH]; intros l j x E.
  - rewrite rangeN_nil by lia. destruct j; discriminate.
  - rewrite rangeN_cons by lia. destruct j as [|j]; cbn [nth_error]; intro Y; [apply Some_inj in Y; lia|]. apply IH in Y; lia.
Qed.
Lemma places_rank o cut ref f j i : nth_error (live ref f (cut_places o cut)) j = Some i -> rank o i = N.of_nat j.
Proof.
  destruct (live_prefix ref f (cut_places o cut)) as (k & ->). intro X. apply nth_firstn in X.
  assert (Y : nth_error (places o) j = Some i) by (destruct cut as [n|]; cbn [cut_places] in X; [unfold takeN in X; apply nth_firstn in X|]; exact X). clear X.
  unfold places, rank in *. destruct o as [[[d p] B]|].
  - rewrite nth_error_map in Y. destruct (nth_error (rangeN 0 (1 + p)) j) as [x|] eqn:E; [|discriminate]. cbn [option_map] in Y. apply Some_inj in Y. subst i. apply nth_rangeN in E. rewrite N.div_mul by lia. lia.
  - destruct j as [|[|j]]; cbn [nth_error] in Y; try discriminate. apply Some_inj in Y. subst i. reflexivity.
Qed.
