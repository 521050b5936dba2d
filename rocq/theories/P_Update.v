(* C24: changing the metadata of a container in place. *)
From Verif Require Import M_Base M_Specs M_Crc M_Header M_Multihash M_Metadata M_Block M_Index M_FileUtils M_Buffer M_Ranges M_Encode M_Scan M_Loop M_Decode M_Content M_Repair M_Update
  S_Crc S_Meta S_Block S_Index S_Container S_Encode S_Scan S_Decode S_Content S_Repair S_Update
  L_Base L_Crc L_File L_Header L_Meta L_Meta2 L_Block L_Index L_Index2 L_Container L_Scan L_Ranges L_Ref L_Decode2 L_Guess L_Intact L_Intact2 L_Repair L_Repair6 L_Roundtrip L_Update
  P_Encode P_Decode P_Roundtrip P_Content.
Ltac Zify.zify_post_hook ::= idtac.

Lemma canon_ctx t : ctx_hash_type t = canon_hash t. Proof. destruct t; reflexivity. Qed.
Lemma canon_idem t : canon_hash (canon_hash t) = canon_hash t. Proof. destruct t; reflexivity. Qed.
Lemma canon_len t : hash_len (canon_hash t) = hash_len t. Proof. destruct t; reflexivity. Qed.
Definition good_hash (t : hash_type) (h : hash_bytes) : Prop := fst h = canon_hash t /\ lenN (snd h) = hash_len (fst h) /\ bytes_ok (snd h) = true.
Lemma finish_good H t data : hash_fn_ok H -> good_hash t (finish_hash H t data).
Proof. intro HF. unfold finish_hash, good_hash. cbn [fst snd]. rewrite canon_ctx. destruct (HF (canon_hash t) data). auto. Qed.
(* the parameters of the second pass *)
Definition second (H : hash_fn) (q : uopts) (h : hash_bytes) : uparam := mkUparam (uo_dry q) (asked_fields q h) (asked_gone q) (uo_hash q) (uo_burst q).
Lemma asked_set H q h : map (set_hash h) (up_set (update_param H q)) = asked_fields q h.
Proof. unfold update_param, asked_fields. cbn [up_set]. destruct (uo_fnm q), (uo_snm q), (uo_hash q); reflexivity. Qed.
Lemma asked_none H q h : uo_hash q = None -> up_set (update_param H q) = asked_fields q h.
Proof. intro E. unfold update_param, asked_fields. cbn [up_set]. rewrite E. destruct (uo_fnm q), (uo_snm q); reflexivity. Qed.
Definition hash_fits (q : uopts) (h : hash_bytes) : Prop := match uo_hash q with Some t => good_hash t h | None => True end.
Lemma asked_in q h m : In m (asked_fields q h) -> (exists s, uo_fnm q = Some s /\ m = FNM s) \/ (exists s, uo_snm q = Some s /\ m = SNM s) \/ (exists t, uo_hash q = Some t /\ m = HSH h).
Proof.
  unfold asked_fields. rewrite !in_app_iff. destruct (uo_fnm q), (uo_snm q), (uo_hash q); cbn [In]; intuition (subst; eauto).
Qed.
Lemma second_safe H q h : hash_fits q h -> safe (second H q h).
Proof.
  intros HF m Hm. cbn [second up_set] in Hm. apply asked_in in Hm as [(s & _ & ->)|[(s & _ & ->)|(t & E & ->)]]; [exact I|exact I|].
  unfold hash_fits in HF. rewrite E in HF. destruct h as [t' d], HF as (_ & L & _). cbn [fst snd writable] in *. lia.
Qed.
Lemma first_safe H q : hash_fn_ok H -> safe (update_param H q).
Proof.
  intros HF m Hm. unfold update_param in Hm. cbn [up_set] in Hm. rewrite !in_app_iff in Hm. destruct Hm as [Hm|[Hm|Hm]].
  - destruct (uo_fnm q); [destruct Hm as [<-|[]]; exact I|destruct Hm].
  - destruct (uo_snm q); [destruct Hm as [<-|[]]; exact I|destruct Hm].
  - destruct (uo_hash q) as [t|]; [|destruct Hm]. destruct Hm as [<-|[]]. destruct (finish_good H t [] HF) as (_ & L & _). destruct (finish_hash H t []) as [t' d]. cbn [fst snd writable] in *. lia.
Qed.
Lemma second_storable H q h : names_ok q -> hash_fits q h -> storable (second H q h).
Proof.
  intros [N1 N2] HF. split.
  - intros m Hm. cbn [second up_set] in Hm. apply asked_in in Hm as [(s & E & ->)|[(s & E & ->)|(t & E & ->)]].
    + rewrite E in N1. split; [exact N1|]. split; [reflexivity|exact I].
    + rewrite E in N2. split; [exact N2|]. split; [reflexivity|exact I].
    + unfold hash_fits in HF. rewrite E in HF. destruct h as [t' d], HF as (T & L & B). cbn [fst snd] in *. split; [split; assumption|]. split; [|exact I]. cbn [canon_field]. rewrite T, canon_idem. reflexivity.
  - cbn [second up_remove]. unfold asked_gone. rewrite !in_app_iff. destruct (uo_no_fnm q), (uo_no_snm q), (uo_no_hsh q); cbn [In]; split; intuition discriminate.
Qed.
Lemma second_nodup H q h : NoDup (map meta_to_id (up_set (second H q h))).
Proof.
  cbn [second up_set]. unfold asked_fields. destruct (uo_fnm q), (uo_snm q), (uo_hash q); cbn [app map meta_to_id]; repeat constructor; cbn [In]; intuition discriminate.
Qed.
Lemma second_disjoint H q h : opts_ok q -> forall m, In m (up_set (second H q h)) -> ~ In (meta_to_id m) (up_remove (second H q h)).
Proof.
  intros (C1 & C2 & C3 & _) m Hm. cbn [second up_set up_remove] in *. unfold asked_gone. rewrite !in_app_iff.
  apply asked_in in Hm as [(s & E & ->)|[(s & E & ->)|(t & E & ->)]]; cbn [meta_to_id];
  [rewrite C1 by congruence; destruct (uo_no_snm q), (uo_no_hsh q)|rewrite C2 by congruence; destruct (uo_no_fnm q), (uo_no_hsh q)|rewrite C3 by congruence; destruct (uo_no_fnm q), (uo_no_snm q)]; cbn [In]; intuition discriminate.
Qed.
Lemma sizes_agree H q h : hash_fn_ok H -> hash_fits q h -> Forall2 same_size (up_set (update_param H q)) (up_set (second H q h)).
Proof.
  intros HF G. rewrite <- (asked_set H q h : _ = up_set (second H q h)) by reflexivity.
  assert (X : forall m, In m (up_set (update_param H q)) -> same_size m (set_hash h m)).
  { intros m Hm. unfold update_param in Hm. cbn [up_set] in Hm. rewrite !in_app_iff in Hm. destruct Hm as [Hm|[Hm|Hm]].
    - destruct (uo_fnm q); [destruct Hm as [<-|[]]; split; reflexivity|destruct Hm].
    - destruct (uo_snm q); [destruct Hm as [<-|[]]; split; reflexivity|destruct Hm].
    - unfold hash_fits in G. destruct (uo_hash q) as [t|]; [|destruct Hm]. destruct Hm as [<-|[]]. cbn [set_hash]. split; [reflexivity|]. destruct (finish_good H t [] HF) as (T & _). destruct G as (T' & _).
      unfold M_Metadata.single_meta_size. cbn [single_info_size]. rewrite T, T'. reflexivity. }
  revert X. generalize (up_set (update_param H q)). intro l. induction l as [|a l IH]; intro X; cbn [map]; constructor; [apply X; left; reflexivity|apply IH; intros; apply X; right; assumption].
Qed.

(* everything up to the second pass *)
Definition prepare (H : hash_fn) (cpus : N) (q : uopts) (f : file) : result (block * dpb * list metadata) :=
  do! r <- get_ref_block f None None false (MustBe TMeta);
  match r with
  | None => RErr OtherError
  | Some (_, ref) =>
      do! size <- update_size ref (update_param H q);
      do! o <- get_data_par_burst f (uo_burst q) None false ref;
      do! _ <- snd (update_metadata_blocks ref (update_param H q) o true None f);
      do! ms <- match size with None => ROk (up_set (update_param H q)) | Some (t, n) => do! h <- content_hash H cpus f o n ref t; ROk (map (set_hash h) (up_set (update_param H q))) end;
      ROk (ref, o, ms)
  end.
Lemma update_file_prepare H cpus q cut f : update_file H cpus (update_param H q) cut f =
  match prepare H cpus q f with
  | ROk (ref, o, ms) => update_metadata_blocks ref (mkUparam (uo_dry q) ms (asked_gone q) (uo_hash q) (uo_burst q)) o false cut f
  | RErr e => (f, RErr e) | RPanic => (f, RPanic) end.
Proof.
  unfold update_file, prepare. destruct (get_ref_block f None None false (MustBe TMeta)) as [[[pos ref]|]|e|]; cbn [rbind]; try reflexivity.
  destruct (update_size ref (update_param H q)) as [size|e|]; cbn [rbind]; try reflexivity.
  change (up_burst (update_param H q)) with (uo_burst q). destruct (get_data_par_burst f (uo_burst q) None false ref) as [o|e|]; cbn [rbind]; try reflexivity.
  destruct (snd (update_metadata_blocks ref (update_param H q) o true None f)) as [s|e|]; cbn [rbind]; try reflexivity.
  destruct (match size with Some _ => _ | None => _ end) as [ms|e|]; reflexivity.
Qed.
Definition real (q : uopts) : uopts := mkUopts false (uo_fnm q) (uo_snm q) (uo_no_fnm q) (uo_no_snm q) (uo_no_hsh q) (uo_hash q) (uo_burst q).
Lemma test_dry H q ref o f : update_metadata_blocks ref (update_param H q) o true None f = update_metadata_blocks ref (update_param H (real q)) o true None f.
Proof.
  unfold update_metadata_blocks. rewrite !andb_false_r. generalize (calc_meta_block_all_write_pos_s (b_version ref) o). generalize (mkUstats 0 0). intros s l. revert s. generalize f.
  induction l as [|x l IH]; intros g s; cbn [update_blocks]; [reflexivity|]. destruct (_ <? _); [reflexivity|].
  change (update_block ref (update_param H (real q)) (file_read g x (ver_to_block_size (b_version ref)))) with (update_block ref (update_param H q) (file_read g x (ver_to_block_size (b_version ref)))).
  destruct (update_block _ _ _) as [[y|]|e|]; try reflexivity; apply IH.
Qed.
Lemma prepare_dry H cpus q f : prepare H cpus q f = prepare H cpus (real q) f.
Proof.
  unfold prepare. destruct (get_ref_block f None None false (MustBe TMeta)) as [[[pos ref]|]|e|]; cbn [rbind]; try reflexivity.
  change (update_size ref (update_param H (real q))) with (update_size ref (update_param H q)). destruct (update_size ref (update_param H q)) as [size|e|]; cbn [rbind]; try reflexivity.
  change (uo_burst (real q)) with (uo_burst q). destruct (get_data_par_burst f (uo_burst q) None false ref) as [o|e|]; cbn [rbind]; try reflexivity.
  rewrite test_dry. reflexivity.
Qed.
Lemma prepare_ok H cpus q f ref o ms : hash_fn_ok H ->
  (prepare H cpus q f = ROk (ref, o, ms) <->
   update_setup q f ref o /\ (exists s, snd (update_metadata_blocks ref (update_param H q) o true None f) = ROk s) /\
   match uo_hash q with
   | None => ms = up_set (update_param H q)
   | Some t => is_data ref = false /\ hash_supported t = true /\ exists h, new_hash H q f ref o cpus h /\ ms = asked_fields q h /\ good_hash t h
   end).
Proof.
  intro HF. unfold prepare, update_setup, new_hash. split.
  - intro E. destruct (get_ref_block f None None false (MustBe TMeta)) as [[[pos r]|]|e|]; cbn [rbind] in E; try discriminate.
    destruct (update_size r (update_param H q)) as [size|e|] eqn:US; cbn [rbind] in E; try discriminate.
    destruct (get_data_par_burst f (uo_burst q) None false r) as [o'|e|] eqn:GD; cbn [rbind] in E; try discriminate.
    destruct (snd (update_metadata_blocks r (update_param H q) o' true None f)) as [s|e|] eqn:TR; cbn [rbind] in E; try discriminate.
    destruct (match size with Some _ => _ | None => _ end) as [ms'|e|] eqn:MS; cbn [rbind] in E; try discriminate. apply ROk_inj, pair_inj in E as [E <-]. apply pair_inj in E as [<- <-].
    split; [split; [eauto|exact GD]|]. split; [eauto|]. unfold update_size in US. cbn [update_param up_hash] in US. destruct (uo_hash q) as [t|] eqn:HT.
    + destruct (is_data r); [discriminate|]. destruct (hash_supported t) eqn:HS; [|discriminate]. cbn [negb] in US. destruct (get_FSZ r) as [x|] eqn:FZ; [|discriminate]. apply ROk_inj in US. subst size.
      destruct (content_hash H cpus f o' x r t) as [h|e|] eqn:CH; cbn [rbind] in MS; try discriminate. apply ROk_inj in MS. rewrite asked_set in MS. subst ms'. split; [reflexivity|]. split; [reflexivity|]. exists h. split; [eauto|]. split; [reflexivity|].
      unfold content_hash in CH. destruct (content_bytes cpus f o' x r) as [d| |]; [|discriminate|discriminate]. apply ROk_inj in CH. subst h. apply finish_good, HF.
    + apply ROk_inj in US. subst size. apply ROk_inj in MS. congruence.
  - intros [((pos & ->) & GD) ((s & TR) & MS)]. cbn [rbind]. unfold update_size. cbn [update_param up_hash]. destruct (uo_hash q) as [t|] eqn:HT.
    + destruct MS as (-> & -> & h & (x & -> & CH) & -> & _). cbn [negb rbind]. rewrite GD. cbn [rbind]. rewrite TR. cbn [rbind]. rewrite CH. cbn [rbind]. rewrite <- (asked_set H q h). reflexivity.
    + subst ms. cbn [rbind]. rewrite GD. cbn [rbind]. rewrite TR. reflexivity.
Qed.
Lemma update_file_cases H cpus q cut f w r : hash_fn_ok H -> update_file H cpus (update_param H q) cut f = (w, r) ->
  (w = f /\ forall s, r <> ROk s) \/
  exists ref o h, update_setup q f ref o /\ new_hash H q f ref o cpus h /\ hash_fits q h /\
    (exists s, snd (update_metadata_blocks ref (update_param H q) o true None f) = ROk s) /\
    update_metadata_blocks ref (second H q h) o false cut f = (w, r).
Proof.
  intros HF E. rewrite update_file_prepare in E. destruct (prepare H cpus q f) as [[[ref o] ms]|e|] eqn:P; try (apply pair_inj in E as [<- <-]; left; split; [reflexivity|discriminate]).
  right. apply prepare_ok in P as (ST & TS & MS); [|exact HF]. destruct (uo_hash q) as [t|] eqn:HT.
  - destruct MS as (_ & _ & h & NH & -> & G). exists ref, o, h. split; [exact ST|]. split; [exact NH|]. split; [unfold hash_fits; rewrite HT; exact G|]. split; [exact TS|]. unfold second. rewrite HT. exact E.
  - exists ref, o, (finish_hash H SHA1 []). split; [exact ST|]. split; [unfold new_hash; rewrite HT; exact I|]. split; [unfold hash_fits; rewrite HT; exact I|]. split; [exact TS|].
    unfold second. rewrite HT. rewrite <- (asked_none H q _ HT), <- MS. exact E.
Qed.
Section Runs.
Variables (H : hash_fn) (q : uopts) (h : hash_bytes) (ref : block) (o : dpb) (f : file).
Hypothesis HF : hash_fn_ok H.
Hypothesis HB : bytes_ok f = true.
Hypothesis HH : hash_fits q h.
Let v := b_version ref.
Let uid := b_uid ref.
Let bs := ver_to_block_size v.
Let p1 := update_param H q.
Let p2 := second H q h.
Lemma both_ok i : (i + 1) * bs <= lenN f -> ((exists x, outcome ref f p1 i = ROk x) <-> (exists x, outcome ref f p2 i = ROk x)).
Proof.
  intro LE. destruct (update_block_cases ref f HB p1 i (first_safe H q HF) LE) as [A1 B1]. destruct (update_block_cases ref f HB p2 i (second_safe H q h HH) LE) as [A2 B2].
  unfold outcome. destruct (fields_dec ref f HB i) as [[ms F]|NF]; [|rewrite (B1 NF), (B2 NF); reflexivity].
  specialize (A1 ms F). specialize (A2 ms F).
  assert (SZ : raw_size (newf p1 ms) = raw_size (newf p2 ms)) by (unfold newf; exact (new_same _ _ (asked_gone q) ms (sizes_agree H q h HF HH))). rewrite SZ in A1.
  destruct (_ <? _); [rewrite A1, A2; split; intros (x & X); discriminate|]. destruct A1 as (d1 & E1 & _), A2 as (d2 & E2 & _). rewrite E1, E2. split; eauto.
Qed.
Lemma first_test : let L := live ref f (places o) in
  ((exists s, snd (update_metadata_blocks ref p1 o true None f) = ROk s) /\ forall i, In i L -> exists x, outcome ref f p1 i = ROk x) \/
  (snd (update_metadata_blocks ref p1 o true None f) = RErr TooMuchMetadata /\ exists i, In i L /\ outcome ref f p1 i = RErr TooMuchMetadata).
Proof.
  unfold update_metadata_blocks. rewrite andb_false_r. rewrite meta_places. destruct (test_cases ref f HB p1 (first_safe H q HF) (places o) (mkUstats 0 0)) as [(s & A & B)|A]; [left; split; [exists s; exact A|exact B]|right; exact A].
Qed.
Definition done (cut : option N) : list N := live ref f (cut_places o cut).
Lemma live_cut cut i : In i (done cut) <-> meta_index (Some true) o i /\ reached o cut i /\ (i + 1) * bs <= lenN f.
Proof.
  unfold done. split.
  - intro X. apply live_in in X as [X LE]. apply cut_In in X as [M R]. auto.
  - intros (M & R & LE). apply live_all; [apply cut_sorted|apply cut_In; auto|exact LE].
Qed.
Lemma live_full cut i : In i (done cut) -> In i (live ref f (places o)).
Proof. intro X. apply live_cut in X as (M & _ & LE). apply (live_cut None). split; [exact M|]. split; [exact I|exact LE]. Qed.
Lemma second_run cut : (exists s, snd (update_metadata_blocks ref p1 o true None f) = ROk s) ->
  (forall i, In i (done cut) -> exists x, outcome ref f p2 i = ROk x) /\
  update_metadata_blocks ref p2 o false cut f =
    (if uo_dry q then f else put_blocks bs (writes ref f p2 (done cut)) f,
     ROk (mkUstats (countN (hits ref f p2) (done cut)) (countN (fun i => negb (hits ref f p2 i)) (done cut)))).
Proof.
  intros (s & TS). destruct first_test as [[_ OK]|[E _]]; [|congruence].
  assert (OK2 : forall i, In i (done cut) -> exists x, outcome ref f p2 i = ROk x).
  { intros i Hi. apply both_ok; [apply live_in in Hi; apply Hi|]. apply OK, (live_full cut), Hi. }
  split; [exact OK2|]. unfold update_metadata_blocks. fold v. rewrite cut_pos. fold bs.
  rewrite (run_ok ref f HB p2 _ (second_safe H q h HH) (cut_places o cut) f (mkUstats 0 0)); [|reflexivity|apply cut_NoDup|reflexivity|exact OK2].
  cbn [us_updated us_failed]. rewrite !N.add_0_l. cbn [negb]. rewrite andb_true_r. unfold p2. cbn [second up_dry]. destruct (uo_dry q); reflexivity.
Qed.
End Runs.

(* C24, all or nothing. Whatever the file contains, whatever the options, wherever the run is stopped: if the command does not
   succeed, the file is untouched. *)
Theorem c24_all_or_nothing H cpus q cut f w r : hash_fn_ok H -> bytes_ok f = true ->
  update_file H cpus (update_param H q) cut f = (w, r) -> (forall s, r <> ROk s) -> w = f.
Proof.
  intros HF HB E NO. destruct (update_file_cases H cpus q cut f w r HF E) as [[-> _]|(ref & o & h & _ & _ & HH & TS & R)]; [reflexivity|].
  destruct (second_run H q h ref o f HF HB HH cut TS) as [_ R']. rewrite R in R'. apply pair_inj in R' as [_ R']. destruct (NO _ R').
Qed.
Print Assumptions c24_all_or_nothing.
(* C24, dry run: nothing is written, and the result is the one of the real run. *)
Theorem c24_dry_run H cpus q f : hash_fn_ok H -> bytes_ok f = true -> uo_dry q = true ->
  fst (update_file H cpus (update_param H q) None f) = f /\
  snd (update_file H cpus (update_param H q) None f) =
    snd (update_file H cpus (update_param H (mkUopts false (uo_fnm q) (uo_snm q) (uo_no_fnm q) (uo_no_snm q) (uo_no_hsh q) (uo_hash q) (uo_burst q))) None f).
Proof.
  intros HF HB DR. fold (real q). pose proof (update_file_prepare H cpus q None f) as E. pose proof (update_file_prepare H cpus (real q) None f) as E'. rewrite <- prepare_dry in E'. rewrite E, E'. clear E E'.
  destruct (prepare H cpus q f) as [[[ref o] ms]|e|] eqn:P; try (split; reflexivity).
  apply prepare_ok in P as (ST & TS & MS); [|exact HF].
  assert (X : exists h, hash_fits q h /\ ms = asked_fields q h).
  { unfold hash_fits. destruct (uo_hash q) as [t|] eqn:HT; [destruct MS as (_ & _ & h & _ & -> & G); eauto|]. exists (finish_hash H SHA1 []). split; [exact I|]. rewrite MS. apply asked_none, HT. }
  destruct X as (h & HH & ->). fold (second H q h). change (mkUparam (uo_dry (real q)) (asked_fields q h) (asked_gone (real q)) (uo_hash (real q)) (uo_burst (real q))) with (second H (real q) h).
  assert (TS' : exists s, snd (update_metadata_blocks ref (update_param H (real q)) o true None f) = ROk s) by (rewrite <- test_dry; exact TS).
  destruct (second_run H q h ref o f HF HB HH None TS) as [_ ->]. destruct (second_run H (real q) h ref o f HF HB HH None TS') as [_ ->]. rewrite DR. split; reflexivity.
Qed.
Print Assumptions c24_dry_run.

(* C24, what a successful update changes. The metadata blocks at the metadata places are rewritten with the fields asked for; every
   other block of the file, and the length of the file, stays as it is. If the run is stopped after [cut] places, this holds for the
   first [cut] places, and nothing else has changed: each block is then either as before or completely rewritten. *)
Theorem c24_updated H cpus q cut f w s : hash_fn_ok H -> bytes_ok f = true -> opts_ok q -> names_ok q -> uo_dry q = false ->
  update_file H cpus (update_param H q) cut f = (w, ROk s) ->
  exists ref o h, update_setup q f ref o /\ new_hash H q f ref o cpus h /\
    updated (b_version ref) (b_uid ref) o (asked_fields q h) (asked_gone q) (reached o cut) f w /\ bytes_ok w = true /\
    exactly (fun i => meta_held (b_version ref) (b_uid ref) o f i /\ reached o cut i) (us_updated s) /\
    exactly (fun i => meta_index (Some true) o i /\ (i + 1) * ver_to_block_size (b_version ref) <= lenN f /\ reached o cut i /\ ~ meta_held (b_version ref) (b_uid ref) o f i) (us_failed s).
Proof.
  intros HF HB OO NO DR E. destruct (update_file_cases H cpus q cut f w _ HF E) as [[_ X]|(ref & o & h & ST & NH & HH & TS & R)]; [destruct (X s eq_refl)|].
  exists ref, o, h. split; [exact ST|]. split; [exact NH|]. destruct (second_run H q h ref o f HF HB HH cut TS) as [OK R']. rewrite R, DR in R'. apply pair_inj in R' as [-> R']. apply ROk_inj in R'. subst s. cbn [us_updated us_failed].
  pose proof (live_cut ref o f cut) as LC. pose proof (second_storable H q h NO HH) as STO. pose proof (storable_safe _ STO) as SF.
  assert (LEN : forall i, In i (done ref o f cut) -> (i + 1) * ver_to_block_size (b_version ref) <= lenN f) by (intros i Hi; apply LC, Hi).
  assert (HI : forall i, In i (done ref o f cut) -> (hits ref f (second H q h) i = true <-> exists ms, fields_at (b_version ref) (b_uid ref) f i ms)).
  { intros i Hi. apply hits_iff; [exact HB|exact SF|apply LEN, Hi|apply OK, Hi]. }
  destruct (run_updated ref f HB (second H q h) o (reached o cut) (done ref o f cut) STO (second_nodup H q h) (second_disjoint H q h OO)) as [U B].
  { intros i Hi. apply LC in Hi. tauto. }
  { intros i MI (ms & F) RE. apply LC. split; [exact MI|]. split; [exact RE|]. exact (fields_len ref f i ms F). }
  { exact LEN. }
  { exact OK. }
  split; [exact U|]. split; [exact B|].
  assert (ND : NoDup (done ref o f cut)).
  { unfold done. generalize (cut_NoDup o cut). generalize (cut_places o cut). intro l. induction 1 as [|x l NI ND IH]; cbn [live]; [constructor|]. destruct (_ <? _); [constructor|]. constructor; [|exact IH]. intro X. apply live_in in X. tauto. }
  split.
  - apply exactly_count; [exact ND|]. intro i. split.
    + intros [[MI (ms & F)] RE]. assert (X : In i (done ref o f cut)) by (apply LC; split; [exact MI|]; split; [exact RE|exact (fields_len ref f i ms F)]). split; [exact X|]. apply HI; eauto.
    + intros [X Y]. split; [|apply LC in X; tauto]. apply HI in Y; [|exact X]. apply LC in X. split; tauto.
  - apply exactly_count; [exact ND|]. intro i. rewrite negb_true_iff. split.
    + intros (MI & LE & RE & NM). assert (X : In i (done ref o f cut)) by (apply LC; auto). split; [exact X|]. apply not_true_is_false. intro Y. apply HI in Y; [|exact X]. apply NM. split; assumption.
    + intros [X Y]. pose proof X as X0. apply LC in X0 as (MI & RE & LE). split; [exact MI|]. split; [exact LE|]. split; [exact RE|]. intros [_ F]. apply HI in F; [|exact X]. congruence.
Qed.
Print Assumptions c24_updated.

(* the fields after the change have one size *)
Lemma fields_size_cons m ms : fields_size (m :: ms) = field_size m + fields_size ms. Proof. reflexivity. Qed.
Lemma fields_size_ids ms : fields_size ms = fields_size (with_id IFNM ms) + fields_size (with_id ISNM ms) + fields_size (with_id IFSZ ms) + fields_size (with_id IFDT ms) +
  fields_size (with_id ISDT ms) + fields_size (with_id IHSH ms) + fields_size (with_id IRSD ms) + fields_size (with_id IRSP ms).
Proof.
  induction ms as [|m ms IH]; [reflexivity|]. rewrite fields_size_cons. unfold with_id in *. cbn [filter]. set (k := field_size m).
  destruct m; cbn [meta_to_id metadata_id_eqb]; rewrite fields_size_cons; subst k; lia.
Qed.
Lemma changed_with_id sets gone ms a b : changed sets gone ms a -> changed sets gone ms b -> forall i, with_id i a = with_id i b.
Proof.
  intros (A1 & A2 & A3) (B1 & B2 & B3) i. destruct (existsb (metadata_id_eqb i) (gone ++ map meta_to_id sets)) eqn:E.
  - apply existsb_id in E. apply in_app_iff in E as [E|E]; [rewrite A2, B2 by exact E; reflexivity|]. apply in_map_iff in E as (m & <- & Hm). rewrite A1, B1 by exact Hm. reflexivity.
  - cbv zeta in A3, B3. rewrite <- B3 in A3. apply (f_equal (with_id i)) in A3. unfold with_id in *. rewrite !filter_filter in A3.
    assert (X : forall l, filter (fun m => metadata_id_eqb (meta_to_id m) i) l = filter (fun x => negb (existsb (metadata_id_eqb (meta_to_id x)) (gone ++ map meta_to_id sets)) && metadata_id_eqb (meta_to_id x) i) l).
    { intro l. apply filter_ext. intro m. destruct (metadata_id_eqb (meta_to_id m) i) eqn:X; [|rewrite andb_false_r; reflexivity]. apply id_eqb_eq in X. rewrite X, E. reflexivity. }
    rewrite !X. exact A3.
Qed.
Lemma changed_size sets gone ms a b : changed sets gone ms a -> changed sets gone ms b -> fields_size a = fields_size b.
Proof. intros A B. pose proof (changed_with_id _ _ _ _ _ A B) as E. rewrite (fields_size_ids a), (fields_size_ids b), !E. reflexivity. Qed.
Lemma fields_at_ok ref f i ms : bytes_ok f = true -> fields_at (b_version ref) (b_uid ref) f i ms -> Forall field_ok ms.
Proof.
  intros HB (pl & (h & W & V & _) & <-). apply parser_sanitises. destruct W as (_ & _ & HT & _).
  pose proof (bytes_ok_take (ver_to_block_size (h_version h)) _ (bytes_ok_slice (i * ver_to_block_size (b_version ref)) (ver_to_block_size (b_version ref)) f HB)) as X. rewrite HT, bytes_ok_app in X. apply andb_true_iff in X. apply X.
Qed.
(* C24, when it succeeds: if and only if the new fields fit into each metadata block that would be changed. *)
Theorem c24_succeeds_iff H cpus q f ref o h : hash_fn_ok H -> bytes_ok f = true -> opts_ok q -> names_ok q ->
  update_setup q f ref o -> new_hash H q f ref o cpus h ->
  ((exists s, snd (update_file H cpus (update_param H q) None f) = ROk s) <->
   forall i ms ms', meta_index (Some true) o i -> fields_at (b_version ref) (b_uid ref) f i ms -> changed (asked_fields q h) (asked_gone q) ms ms' ->
     fields_size ms' <= ver_to_block_size (b_version ref) - 16).
Proof.
  intros HF HB OO NO ST NH. set (v := b_version ref). set (uid := b_uid ref). set (bs := ver_to_block_size v).
  assert (HH : hash_fits q h).
  { unfold hash_fits. unfold new_hash in NH. destruct (uo_hash q) as [t|]; [|exact I]. destruct NH as (x & _ & CH). unfold content_hash in CH. destruct (content_bytes _ _ _ _ _); [|discriminate|discriminate]. apply ROk_inj in CH. subst h. apply finish_good, HF. }
  pose proof (second_storable H q h NO HH) as STO. pose proof (storable_safe _ STO) as SF.
  assert (FIT : forall i ms ms', fields_at v uid f i ms -> changed (asked_fields q h) (asked_gone q) ms ms' -> raw_size (newf (second H q h) ms) = fields_size ms').
  { intros i ms ms' F C. pose proof (new_fields_changed _ _ ms (second_nodup H q h) (second_disjoint H q h OO)) as C'. rewrite (changed_size _ _ _ _ _ C C'). apply raw_size_ok. apply Forall_forall. intros x Hx. apply new_in in Hx as [Hx|Hx]; [apply STO, Hx|].
    pose proof (fields_at_ok ref f i ms HB F) as FO. rewrite Forall_forall in FO. apply FO, Hx. }
  assert (LF := live_cut ref o f None).
  assert (OUT : (forall i, In i (live ref f (places o)) -> exists x, outcome ref f (update_param H q) i = ROk x) <->
    forall i ms ms', meta_index (Some true) o i -> fields_at v uid f i ms -> changed (asked_fields q h) (asked_gone q) ms ms' -> fields_size ms' <= bs - 16).
  { split.
    - intros OK i ms ms' MI F C. assert (LE := fields_len ref f i ms F). assert (X : In i (live ref f (places o))) by (apply LF; split; [exact MI|split; [exact I|exact LE]]).
      apply OK in X. apply (both_ok H q h ref f HF HB HH i LE) in X as (x & X). destruct (update_block_cases ref f HB (second H q h) i SF LE) as [A _]. specialize (A ms F). rewrite (FIT i ms ms' F C) in A.
      destruct (N.ltb_spec (ver_to_block_size (b_version ref) - 16) (fields_size ms')) as [L|L]; [|exact L]. unfold outcome in X. congruence.
    - intros OK i X. apply LF in X as (MI & _ & LE). apply (both_ok H q h ref f HF HB HH i LE). destruct (update_block_cases ref f HB (second H q h) i SF LE) as [A B]. unfold outcome. destruct (fields_dec ref f HB i) as [[ms F]|NF]; [|rewrite (B NF); eauto].
      specialize (A ms F). pose proof (new_fields_changed _ _ ms (second_nodup H q h) (second_disjoint H q h OO)) as C. specialize (OK i ms _ MI F C). rewrite (FIT i ms _ F C) in A.
      destruct (N.ltb_spec (ver_to_block_size (b_version ref) - 16) (fields_size (new_fields (up_set (second H q h)) (up_remove (second H q h)) ms))) as [L|L]; [exfalso; unfold bs, v in OK; lia|]. destruct A as (d & -> & _). eauto. }
  rewrite <- OUT. rewrite update_file_prepare. split.
  - intros (s & E). destruct (prepare H cpus q f) as [[[r' o'] ms]|e|] eqn:P; cbn [snd] in E; try discriminate. apply prepare_ok in P as (ST' & TS & _); [|exact HF].
    destruct ST as [(x & G) D], ST' as [(x' & G') D']. rewrite G in G'. apply ROk_inj, Some_inj, pair_inj in G' as [_ <-]. rewrite D in D'. apply ROk_inj in D'. subst o'.
    destruct (first_test H q ref o f HF HB) as [[_ OK]|[E' _]]; [exact OK|]. destruct TS as (y & TS). congruence.
  - intro OK. assert (TS : exists s, snd (update_metadata_blocks ref (update_param H q) o true None f) = ROk s).
    { destruct (first_test H q ref o f HF HB) as [[TS _]|[_ (i & X & Y)]]; [exact TS|]. destruct (OK i X) as (x & Z). congruence. }
    assert (P : exists ms, prepare H cpus q f = ROk (ref, o, ms) /\ ms = asked_fields q h).
    { destruct (uo_hash q) as [t|] eqn:HT.
      - exists (asked_fields q h). split; [|reflexivity]. apply prepare_ok; [exact HF|]. split; [exact ST|]. split; [exact TS|]. rewrite HT. split; [|split].
        + unfold new_hash in NH. rewrite HT in NH. destruct NH as (x & FZ & _). unfold get_FSZ, block_get_meta in FZ. unfold is_data, block_type_of. destruct (b_data ref); [discriminate|reflexivity].
        + destruct OO as (_ & _ & _ & X). rewrite HT in X. exact X.
        + exists h. split; [exact NH|]. split; [reflexivity|]. unfold hash_fits in HH. rewrite HT in HH. exact HH.
      - exists (up_set (update_param H q)). split; [|apply asked_none, HT]. apply prepare_ok; [exact HF|]. split; [exact ST|]. split; [exact TS|]. rewrite HT. reflexivity. }
    destruct P as (ms & -> & ->). fold (second H q h). destruct (second_run H q h ref o f HF HB HH None TS) as [_ ->]. eexists. reflexivity.
Qed.
Print Assumptions c24_succeeds_iff.

(* ---- containers ---- *)
Section Container.
Variables (v : version) (uid : list N) (o : dpb) (rs : codec) (ms : list metadata) (data f : list N) (n : N).
Hypothesis IT : intact v uid true o rs ms data f n.
Hypothesis FL : lenN f < 18446744073709551616.
Let bs := ver_to_block_size v.
Lemma meta_fields i : meta_index (Some true) o i -> fields_at v uid f i ms.
Proof using IT. clear FL. intro M. destruct (meta_blk _ _ _ _ _ _ _ _ _ IT i M) as (_ & h & pl & W & V & U & S & E). exists pl. split; [exists h; auto|exact E]. Qed.
(* the metadata block replaced by another one everywhere *)
Lemma intact_replace w meta ms' : lenN w = lenN f -> (forall i, meta_index (Some true) o i -> sliceN (i * bs) bs w = meta) ->
  (forall i, ~ meta_index (Some true) o i -> same_block v f w i) -> meta_block v uid ms' meta -> intact v uid true o rs ms' data w n.
Proof using IT.
  clear FL. intros LW M1 M2 MB. destruct (proj2 (proj2 (proj2 (proj2 (proj2 (proj2 (proj2 (proj2 (proj2 IT))))))))) as (meta0 & (n' & C1 & C2 & C3 & C4 & C5 & C6) & _).
  assert (HO' := HO _ _ _ _ _ _ _ _ _ IT). assert (BC' := BC _ _ _ _ _ _ _ _ _ IT). assert (n' = n) by (eapply block_count_fun; eassumption). subst n'. clear C1.
  do 9 (split; [apply IT|]). exists meta. split; [|intros _; exact MB]. exists n. split; [exact BC'|]. fold bs in C2, C3, C4, C5, C6 |- *. split; [|split; [|split; [|split]]].
  - intros seq Hs. assert (NM : ~ meta_index (Some true) o (calc_data_block_write_index seq (Some true) o)).
    { intro X. destruct (data_block _ _ _ _ _ _ _ _ _ IT seq Hs) as [BA _]. destruct (meta_fields _ X) as (pl & BA' & _). destruct (block_at_unique _ _ _ _ _ _ _ _ BA BA') as [Y _]. lia. }
    pose proof (C5 _ (or_intror (ex_intro _ seq (conj Hs eq_refl)))) as LE. unfold bs. rewrite (same_slice_full v f w _ (M2 _ NM) ltac:(lia) LE). exact (C2 seq Hs).
  - exact M1.
  - intros i NU. rewrite <- (C4 i NU). apply (M2 (i / bs)); [|reflexivity]. intro X. apply NU. left. exact X.
  - intros i U. rewrite LW. exact (C5 i U).
  - rewrite LW. exact C6.
Qed.
End Container.
(* the container settings the program works out are the right ones *)
Definition told (q : uopts) (o : dpb) (n : N) : Prop :=
  match o with None => True | Some (_, _, B) => uo_burst q = Some B \/ (uo_burst q = None /\ B <= SBX_MAX_BURST_ERR_RESISTANCE /\ 1 <= n) end.
Definition shards_recorded (o : dpb) (ms : list metadata) : Prop :=
  match o with Some (d, p, _) => get_meta_by_id ms IRSD = Some (RSD d) /\ get_meta_by_id ms IRSP = Some (RSP p) | None => True end.
Lemma update_setup_intact v uid o rs ms data f n q : intact v uid true o rs ms data f n -> lenN f < 18446744073709551616 ->
  shards_recorded o ms -> told q o n ->
  exists ref, update_setup q f ref o /\ b_version ref = v /\ b_uid ref = uid /\ b_data ref = DMeta ms.
Proof.
  intros IT FL SR TO. destruct (ref_meta _ _ _ _ _ _ _ _ _ IT (MustBe TMeta) false FL eq_refl ltac:(auto)) as (ref & GR & RV & RU & RD). exists ref. split; [|auto]. split; [exists 0; exact GR|].
  unfold get_data_par_burst. rewrite RV. assert (RS : ver_uses_rs v = match o with Some _ => true | None => false end) by apply IT. rewrite RS. destruct o as [[[d p] B]|]; [|reflexivity]. destruct SR as [S1 S2].
  assert (GD : get_RSD ref = ROk d) by (unfold get_RSD; rewrite RD, S1; reflexivity). assert (GP : get_RSP ref = ROk p) by (unfold get_RSP; rewrite RD, S2; reflexivity).
  rewrite GD, GP. cbn [rbind]. unfold get_burst_or_guess. destruct TO as [->|(-> & LB & N1)]; [reflexivity|]. rewrite RV, RS. unfold is_data, block_type_of. rewrite RD.
  destruct (guess_intact _ _ _ _ _ _ _ _ _ IT d p B ref false eq_refl RV RU GD GP) as (g & G & _ & _ & E); [unfold LEVELS; lia|]. rewrite G. cbn [rbind]. rewrite (E N1). reflexivity.
Qed.
(* C24 for an undamaged container: it becomes an undamaged container of the same data, with the fields changed as asked. The new hash, if
   one is asked for, is that of the data. *)
Theorem c24_intact_container v uid o rs ms data f n H cpus q w s :
  intact v uid true o rs ms data f n -> lenN f < 18446744073709551616 -> shards_recorded o ms -> told q o n ->
  get_meta_by_id ms IFSZ = Some (FSZ (lenN data)) -> 1 <= lenN data -> 1 <= cpus ->
  hash_fn_ok H -> opts_ok q -> names_ok q -> uo_dry q = false ->
  update_file H cpus (update_param H q) None f = (w, ROk s) ->
  exists h ms', (forall t, uo_hash q = Some t -> h = finish_hash H t data) /\ changed (asked_fields q h) (asked_gone q) ms ms' /\
    intact v uid true o rs ms' data w n /\ us_failed s = 0.
Proof.
  intros IT FL SR TO FS L1 CP HF OO NO DR E. pose proof (file_bytes _ _ _ _ _ _ _ _ _ IT) as HB. pose proof (block_size_pos v) as BP.
  destruct (update_setup_intact _ _ _ _ _ _ _ _ q IT FL SR TO) as (ref & ST & RV & RU & RD).
  destruct (update_file_cases H cpus q None f w _ HF E) as [[_ X]|(ref' & o' & h & ST' & NH & HH & TS & R)]; [destruct (X s eq_refl)|].
  assert (EQ : ref' = ref /\ o' = o).
  { destruct ST as [(x & G) D], ST' as [(x' & G') D']. rewrite G in G'. apply ROk_inj, Some_inj, pair_inj in G' as [_ <-]. rewrite D in D'. apply ROk_inj in D'. auto. }
  destruct EQ as [-> ->]. clear ST'. destruct (second_run H q h ref o f HF HB HH None TS) as [OK R']. rewrite R, DR in R'. apply pair_inj in R' as [EW R']. apply ROk_inj in R'.
  pose proof (second_storable H q h NO HH) as STO. pose proof (storable_safe _ STO) as SF. set (p := second H q h) in *. set (L := done ref o f None) in *.
  assert (LC : forall i, In i L <-> meta_index (Some true) o i).
  { intro i. unfold L. rewrite (live_cut ref o f None i). split; [tauto|]. intro M. split; [exact M|]. split; [exact I|]. rewrite RV. apply (I4 _ _ _ _ _ _ _ _ _ IT). left. exact M. }
  assert (FA : forall i, In i L -> fields_at (b_version ref) (b_uid ref) f i ms) by (intros i Hi; rewrite RV, RU; apply (meta_fields _ _ _ _ _ _ _ _ IT), LC, Hi).
  assert (LE : forall i, In i L -> (i + 1) * ver_to_block_size (b_version ref) <= lenN f) by (intros i Hi; exact (fields_len ref f i ms (FA i Hi))).
  assert (M0 : meta_index (Some true) o 0) by (apply (meta_zero _ _ _ _ _ _ _ _ _ IT eq_refl)). assert (L0 : In 0 L) by (apply LC, M0).
  assert (SAME : forall i, In i L -> outcome ref f p i = outcome ref f p 0).
  { intros i Hi. unfold outcome, file_read. rewrite RV. destruct (proj2 (proj2 (proj2 (proj2 (proj2 (proj2 (proj2 (proj2 (proj2 IT))))))))) as (meta0 & (n' & _ & _ & C3 & _) & _). f_equal. rewrite (C3 i), (C3 0) by (try exact M0; apply LC, Hi). reflexivity. }
  destruct (update_block_cases ref f HB p 0 SF (LE 0 L0)) as [A _]. specialize (A ms (FA 0 L0)). fold (outcome ref f p 0) in A.
  destruct (_ <? _); [destruct (OK 0 L0) as (x & X); congruence|]. destruct A as (d & OD & LD & AD). destruct (AD STO) as [BD FD].
  assert (ALL : forall i, In i L -> outcome ref f p i = ROk (Some d)) by (intros i Hi; rewrite (SAME i Hi); exact OD).
  assert (WI : forall i b, In (i, b) (writes ref f p L) <-> In i L /\ b = d).
  { intros i b. rewrite writes_in. split; intros [X Y]; (split; [exact X|]); [rewrite (ALL i X) in Y; apply ROk_inj, Some_inj in Y; congruence|rewrite Y; apply ALL, X]. }
  destruct (put_blocks_ok (ver_to_block_size (b_version ref)) ltac:(rewrite RV; lia) (writes ref f p L) f) as (P1 & P2 & P3 & P4 & P5).
  { apply Forall_forall. intros [i b] Hi. apply WI in Hi as [_ ->]. exact LD. }
  { intros a b b' X X'. apply WI in X as [_ ->]. apply WI in X' as [_ ->]. reflexivity. }
  rewrite <- EW in P1, P2, P3, P4, P5. rewrite RV in *.
  assert (LW : lenN w = lenN f). { destruct P5 as [X|(a & b & X & Y)]; [exact X|]. apply WI in X as [X _]. specialize (LE a X). lia. }
  exists h, (newf p ms). split; [|split; [|split]].
  - intros t HT. unfold new_hash in NH. rewrite HT in NH. destruct NH as (x & FZ & CH). unfold get_FSZ, block_get_meta in FZ. rewrite RD, FS in FZ. apply Some_inj in FZ. subst x.
    rewrite (c39_intact_container _ _ _ _ _ _ _ _ H cpus ref t IT L1 CP RV RU) in CH. apply ROk_inj in CH. congruence.
  - apply (new_fields_changed (up_set p) (up_remove p) ms (second_nodup H q h) (second_disjoint H q h OO)).
  - apply (intact_replace _ _ _ _ _ _ _ _ IT w d (newf p ms)).
    + exact LW.
    + intros i Hi. apply P1. apply WI. split; [apply LC, Hi|reflexivity].
    + intros i Hi k Ek. apply P2. intros b X. apply WI in X as [X _]. apply Hi, LC. rewrite Ek in X. exact X.
    + split; [exact LD|]. split; [exact BD|]. destruct (FD d) as (pl & (h' & W & V & U & S) & PM).
      { unfold sliceN. rewrite N.mul_0_l, drop_0. apply take_all. lia. }
      rewrite N.mul_0_l in W. unfold sliceN in W. rewrite drop_0, take_all in W by lia. exists (block_of h' pl). split.
      * intro b0. apply sync_from_ok. split; [apply parse_ok_iff; [exact BD|eauto]|split; reflexivity].
      * unfold b_version, b_uid, b_seq_num, block_of. cbn [b_header b_data]. rewrite S. cbn. rewrite PM. split; [exact V|]. split; [rewrite U; exact RU|]. split; reflexivity.
  - subst s. cbn [us_failed]. unfold countN. assert (Z : forall l, (forall i, In i l -> In i L) -> filter (fun i => negb (hits ref f p i)) l = []).
    { intros l. induction l as [|a l IH]; intro X; [reflexivity|]. cbn [filter]. unfold hits at 1. rewrite (ALL a (X a (or_introl eq_refl))). cbn [negb]. apply IH. intros i Hi. apply X. right. exact Hi. }
    rewrite (Z L) by auto. reflexivity.
Qed.
Print Assumptions c24_intact_container.
(* ... and what it decodes to is the same file. *)
Lemma get_with_id ms i : get_meta_by_id ms i = hd_error (with_id i ms).
Proof. unfold with_id. induction ms as [|m ms IH]; [reflexivity|]. cbn [get_meta_by_id filter]. destruct (metadata_id_eqb (meta_to_id m) i); [reflexivity|exact IH]. Qed.
Lemma changed_keeps q h ms ms' i : changed (asked_fields q h) (asked_gone q) ms ms' -> i <> IFNM -> i <> ISNM -> i <> IHSH -> with_id i ms' = with_id i ms.
Proof.
  intros (_ & _ & C) N1 N2 N3. cbv zeta in C. apply (f_equal (with_id i)) in C. unfold with_id in *. rewrite !filter_filter in C.
  assert (X : forall l, filter (fun m => metadata_id_eqb (meta_to_id m) i) l = filter (fun x => negb (existsb (metadata_id_eqb (meta_to_id x)) (asked_gone q ++ map meta_to_id (asked_fields q h))) && metadata_id_eqb (meta_to_id x) i) l).
  { intro l. apply filter_ext. intro m. destruct (metadata_id_eqb (meta_to_id m) i) eqn:X; [|rewrite andb_false_r; reflexivity]. apply id_eqb_eq in X. rewrite X. rewrite andb_true_r. symmetry. apply negb_true_iff, not_true_is_false. intro Y. apply existsb_id in Y. apply in_app_iff in Y as [Y|Y].
    - unfold asked_gone in Y. rewrite !in_app_iff in Y. destruct (uo_no_fnm q), (uo_no_snm q), (uo_no_hsh q); cbn [In] in Y; intuition congruence.
    - apply in_map_iff in Y as (y & E & Y). apply asked_in in Y as [(s & _ & ->)|[(s & _ & ->)|(t & _ & ->)]]; cbn [meta_to_id] in E; congruence. }
  rewrite !X. exact C.
Qed.
Theorem c24_decodes_as_before v uid o rs ms data f n H cpus q w s order cpus' limit q' old :
  intact v uid true o rs ms data f n -> lenN f < 18446744073709551616 -> shards_recorded o ms -> told q o n ->
  get_meta_by_id ms IFSZ = Some (FSZ (lenN data)) -> 1 <= lenN data -> 1 <= cpus ->
  hash_fn_ok H -> opts_ok q -> names_ok q -> uo_dry q = false ->
  update_file H cpus (update_param H q) None f = (w, ROk s) ->
  1 <= cpus' -> plain q' -> (dc_choice q' = Any \/ dc_choice q' = Prefer TMeta \/ dc_choice q' = MustBe TMeta) ->
  match o with Some (_, _, B) => dc_burst q' = None -> B <= SBX_MAX_BURST_ERR_RESISTANCE | None => True end ->
  (dc_force_write q' = true \/ old = None) ->
  exists dout, decode_file H order cpus' limit q' w (ToFile old) = ROk dout /\ do_out dout = data /\
    (forall t, uo_hash q = Some t -> do_recorded dout = Some (finish_hash H t data)) /\ (uo_no_hsh q = true -> do_recorded dout = None).
Proof.
  intros IT FL SR TO FS L1 CP HF OO NO DR E CP' PQ CH BU FW.
  destruct (c24_intact_container _ _ _ _ _ _ _ _ _ _ _ _ _ IT FL SR TO FS L1 CP HF OO NO DR E) as (h & ms' & HH & C & IT' & _).
  assert (FL' : lenN w < 18446744073709551616).
  { destruct (c24_updated _ _ _ _ _ _ _ HF (file_bytes _ _ _ _ _ _ _ _ _ IT) OO NO DR E) as (r & o1 & h1 & _ & _ & (X & _) & _). lia. }
  assert (K : forall i, i <> IFNM -> i <> ISNM -> i <> IHSH -> get_meta_by_id ms' i = get_meta_by_id ms i) by (intros i A1 A2 A3; rewrite !get_with_id, (changed_keeps q h ms ms' i C A1 A2 A3); reflexivity).
  assert (MD : match o with Some (d, p, B) => get_meta_by_id ms' IRSD = Some (RSD d) /\ get_meta_by_id ms' IRSP = Some (RSP p) /\ (dc_burst q' = None -> B <= SBX_MAX_BURST_ERR_RESISTANCE) | None => True end).
  { unfold shards_recorded in SR. destruct o as [[[d p] B]|]; [|exact I]. rewrite !K by discriminate. destruct SR. auto. }
  destruct (setup_meta _ _ _ _ _ _ _ _ _ q' IT' FL' PQ eq_refl CH MD) as (ref & o' & ST & RV & RU & RD & IC).
  assert (ID : is_data ref = false) by (unfold is_data, block_type_of; rewrite RD; reflexivity).
  destruct (decode_file_total H order cpus' limit q' w old ref o' _ 0 CP' ST) as (dout & ED).
  { rewrite ID. apply andb_false_r. } { destruct FW; auto. }
  exists dout. split; [exact ED|]. pose proof (file_bytes _ _ _ _ _ _ _ _ _ IT') as HB'. pose proof (block_size_pos v) as BP. split.
  - refine (c17_shuffled_container _ _ _ _ _ _ w _ _ _ _ _ _ w _ _ _ _ _ _ IT' _ _ CP' HB' FL' _ ED ST RV RU RD _ _).
    + destruct o as [[[d p] B]|]; [destruct MD as (A & B' & _); auto|exact I].
    + rewrite K by discriminate. exact FS.
    + apply PQ.
    + intros k seq pl [_ BA]. exists k. rewrite N.add_0_l in BA. exact BA.
    + intros i seq pl BA (j & CJ). destruct (block_inv _ _ _ _ _ _ _ _ _ IT' _ _ _ BA) as [[-> _]|(Hs & -> & ->)].
      { exfalso. unfold is_chunk in CJ. destruct o as [[[d p] B]|]; [destruct CJ as (a & b & _ & X & _); lia|lia]. }
      eexists. split; [exact (visited_used _ _ _ _ _ _ _ _ _ IT' seq Hs)|]. rewrite N.add_0_l. exact BA.
  - destruct (decode_file_char _ _ _ _ _ _ _ _ CP' HB' FL' ED) as (r1 & o1 & l1 & lo1 & S1 & EQ). destruct (setup_unique _ _ _ _ _ _ _ _ _ _ ST S1) as (<- & <- & <- & <-). cbv zeta in EQ.
    rewrite EQ. cbn [do_recorded]. unfold get_HSH, block_get_meta. rewrite RD, get_with_id. destruct C as (C1 & C2 & _). split.
    + intros t HT. assert (X : In (HSH h) (asked_fields q h)) by (unfold asked_fields; rewrite HT, !in_app_iff; right; right; left; reflexivity). apply C1 in X. cbn [meta_to_id] in X. rewrite X. cbn [hd_error]. rewrite (HH t HT). reflexivity.
    + intro NH. rewrite (C2 IHSH); [reflexivity|]. unfold asked_gone. rewrite NH, !in_app_iff. right. right. left. reflexivity.
Qed.
Print Assumptions c24_decodes_as_before.

(* C24: without --hash the command ends with success or an error message on every file, never by a crash. *)
Theorem c24_no_panic H cpus q cut f : hash_fn_ok H -> bytes_ok f = true -> lenN f < 18446744073709551616 -> uo_hash q = None ->
  snd (update_file H cpus (update_param H q) cut f) <> RPanic.
Proof.
  intros HF HB HL HT. destruct (update_file H cpus (update_param H q) cut f) as [w r] eqn:E. cbn [snd].
  rewrite update_file_prepare in E. destruct (prepare H cpus q f) as [[[ref o] ms]|e|] eqn:P; try (apply pair_inj in E as [_ <-]; discriminate).
  - apply prepare_ok in P as (ST & TS & MS); [|exact HF]. rewrite HT in MS. rewrite (asked_none H q (finish_hash H SHA1 []) HT) in MS. subst ms. fold (second H q (finish_hash H SHA1 [])) in E.
    destruct (second_run H q (finish_hash H SHA1 []) ref o f HF HB ltac:(unfold hash_fits; rewrite HT; exact I) cut TS) as [_ R]. rewrite E in R. apply pair_inj in R as [_ ->]. discriminate.
  - exfalso. revert P. unfold prepare. pose proof (get_ref_block_ok f None None false (MustBe TMeta) HB) as K. rewrite range_whole in K by (exact HL || (unfold mult_of, SBX_SCAN_BLOCK_SIZE; lia)).
    destruct (K ltac:(lia)) as (r0 & G & _). clear K.
    rewrite G. cbn [rbind]. destruct r0 as [[pos ref]|]; [|discriminate]. unfold update_size. cbn [update_param up_hash]. rewrite HT. cbn [rbind].
    assert (GD : get_data_par_burst f (uo_burst q) None false ref <> RPanic).
    { unfold get_data_par_burst. destruct (ver_uses_rs (b_version ref)) eqn:RS; [|discriminate]. unfold get_RSD, get_RSP. destruct (b_data ref) as [|ms] eqn:BD; [discriminate|].
      destruct (get_meta_by_id ms IRSD) as [[]|] eqn:G1; cbn [rbind]; try discriminate. destruct (get_meta_by_id ms IRSP) as [[]|] eqn:G2; cbn [rbind]; try discriminate.
      unfold get_burst_or_guess. destruct (uo_burst q); [discriminate|]. rewrite RS. unfold is_data, block_type_of. rewrite BD. unfold guess_burst. rewrite RS. cbn [negb]. unfold get_RSD, get_RSP. rewrite BD, G1, G2. cbn [rbind].
      rewrite sample_ok by exact HB. cbn [rbind]. destruct (pick_level _ _ _); discriminate. }
    destruct (get_data_par_burst f (uo_burst q) None false ref) as [o|e|]; cbn [rbind]; [|discriminate|congruence].
    destruct (first_test H q ref o f HF HB) as [[(s & ->) _]|[-> _]]; cbn [rbind]; discriminate.
Qed.
Print Assumptions c24_no_panic.

(* ---- what does not hold ---- *)
Definition upd (q : uopts) (f : file) : file := fst (update_file toy_hash 2 (update_param toy_hash q) None f).
Definition upd_ok (q : uopts) (f : file) : bool := match snd (update_file toy_hash 2 (update_param toy_hash q) None f) with ROk _ => true | _ => false end.
Definition no_opts : uopts := mkUopts false None None false false false None None.
Definition with_name (s : list N) : uopts := mkUopts false (Some s) None false false false None None.
(* Finding F16: a name the format cannot hold is accepted, and then the container cannot be decoded any more: all its metadata,
   shard counts included, is unreadable in all copies. *)
Theorem c24_any_name_refuted : exists q f w s, bytes_ok f = true /\ opts_ok q /\ uo_dry q = false /\
  update_file toy_hash 2 (update_param toy_hash q) None f = (w, ROk s) /\ us_failed s = 0 /\
  (exists d, decode_file toy_hash (fun l => l) 2 0%nat toy_q f (ToFile None) = ROk d /\ do_out d = toy_content) /\
  decode_file toy_hash (fun l => l) 2 0%nat toy_q w (ToFile None) = RErr OtherError.
Proof.
  exists (with_name []), toy_file, (upd (with_name []) toy_file), (mkUstats 3 0).
  split; [vm_compute; reflexivity|]. split; [repeat split; intro X; reflexivity|]. split; [reflexivity|]. split; [vm_compute; reflexivity|]. split; [reflexivity|]. split; [eexists; split; vm_compute; reflexivity|]. vm_compute. reflexivity.
Qed.
Print Assumptions c24_any_name_refuted.
(* Stopped half way, copies of the metadata disagree: the first copy has the new name, the last one the old one. *)
Definition ref_of (f : file) : option block := match get_ref_block f None None false (MustBe TMeta) with ROk (Some (_, b)) => Some b | _ => None end.
Definition half_way : file := fst (update_file toy_hash 2 (update_param toy_hash (with_name [120])) (Some 1) toy_file).
Example c24_interrupted_mixed : option_map get_FNM (ref_of half_way) = Some (Some [120]) /\ sliceN 2560 512 half_way = sliceN 2560 512 toy_file /\ toy_decode half_way = toy_content.
Proof. split; [|split]; vm_compute; reflexivity. Qed.
(* a run: new name, hash replaced, stored name removed *)
Definition some_opts : uopts := mkUopts false (Some [120;121]) None false true false (Some SHA512) None.
Example c24_run : upd_ok some_opts toy_file = true /\ toy_decode (upd some_opts toy_file) = toy_content /\
  option_map b_data (ref_of (upd some_opts toy_file)) = Some (DMeta [FNM [120;121]; FSZ 1200; FDT 5%Z; SDT 7%Z; HSH (SHA512, repN 64 176); RSD 3; RSP 2]).
Proof. split; [|split]; vm_compute; reflexivity. Qed.
Example c24_too_large : upd_ok (with_name (repN 255 97)) toy_file = true /\ upd_ok (mkUopts false (Some (repN 255 97)) (Some (repN 200 97)) false false false None None) toy_file = false /\
  upd (mkUopts false (Some (repN 255 97)) (Some (repN 200 97)) false false false None None) toy_file = toy_file.
Proof. split; [|split]; vm_compute; reflexivity. Qed.
Example c24_hypotheses : let q := some_opts in let ms := recorded toy_hash (toy_p V17 toy_o) toy_content in
  hash_fn_ok toy_hash /\ opts_ok q /\ names_ok q /\ told q toy_o 5 /\ shards_recorded toy_o ms /\ get_meta_by_id ms IFSZ = Some (FSZ (lenN toy_content)) /\
  (exists s, snd (update_file toy_hash 2 (update_param toy_hash q) None toy_file) = ROk s) /\
  exists ref h, update_setup q toy_file ref toy_o /\ new_hash toy_hash q toy_file ref toy_o 2 h.
Proof.
  cbv zeta. split; [apply toy_hash_ok|]. split; [repeat split; intro X; try reflexivity; destruct X; reflexivity|]. split; [split; vm_compute; repeat split; congruence|].
  split; [right; split; [reflexivity|split; vm_compute; discriminate]|]. split; [split; reflexivity|]. split; [vm_compute; reflexivity|]. split; [eexists; vm_compute; reflexivity|].
  destruct (get_ref_block toy_file None None false (MustBe TMeta)) as [[[pos ref]|]|e|] eqn:G; [|vm_compute in G; discriminate G|vm_compute in G; discriminate G|vm_compute in G; discriminate G].
  exists ref, (finish_hash toy_hash SHA512 toy_content). assert (R : match get_ref_block toy_file None None false (MustBe TMeta) with ROk (Some (_, b)) => get_data_par_burst toy_file None None false b = ROk toy_o /\ get_FSZ b = Some 1200 /\ content_hash toy_hash 2 toy_file toy_o 1200 b SHA512 = ROk (finish_hash toy_hash SHA512 toy_content) | _ => False end).
  { vm_compute. repeat split; reflexivity. }
  rewrite G in R. destruct R as (R1 & R2 & R3). split; [split; [eauto|exact R1]|]. exists 1200. split; assumption.
Qed.
