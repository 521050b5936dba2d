(* Lemmas on updating metadata. *)
From Verif Require Import M_Base M_Specs M_Crc M_Header M_Multihash M_Metadata M_Block M_Index M_FileUtils M_Buffer M_Ranges M_Encode M_Scan M_Loop M_Decode M_Content M_Repair M_Update
  S_Crc S_Meta S_Block S_Index S_Container S_Decode S_Encode S_Content S_Repair S_Update
  L_Base L_Crc L_File L_Header L_Meta L_Meta2 L_Block L_Block2 L_Index L_Index2 L_Container L_Scan L_Repair.
Ltac Zify.zify_post_hook ::= idtac.

(* ---- lists of fields ---- *)
Lemma id_eqb_eq a b : metadata_id_eqb a b = true <-> a = b.
Proof. destruct a, b; split; try reflexivity; discriminate. Qed.
Lemma id_eqb_refl a : metadata_id_eqb a a = true. Proof. apply id_eqb_eq. reflexivity. Qed.
Lemma existsb_id i l : existsb (metadata_id_eqb i) l = true <-> In i l.
Proof. rewrite existsb_exists. split; [intros (x & Hx & E); apply id_eqb_eq in E; congruence|intro Hi; exists i; split; [exact Hi|apply id_eqb_refl]]. Qed.
Lemma with_id_upd ms m : with_id (meta_to_id m) (update_meta_list ms m) = m :: tl (with_id (meta_to_id m) ms).
Proof.
  induction ms as [|x ms IH]; cbn [update_meta_list with_id filter].
  - rewrite id_eqb_refl. reflexivity.
  - destruct (metadata_id_eqb (meta_to_id x) (meta_to_id m)) eqn:E; cbn [filter].
    + rewrite id_eqb_refl. reflexivity.
    + rewrite E. exact IH.
Qed.
Lemma filter_upd g ms m : (forall x, meta_to_id x = meta_to_id m -> g x = false) -> filter g (update_meta_list ms m) = filter g ms.
Proof.
  intro G. induction ms as [|x ms IH]; cbn [update_meta_list filter].
  - rewrite (G m eq_refl). reflexivity.
  - destruct (metadata_id_eqb (meta_to_id x) (meta_to_id m)) eqn:E; cbn [filter].
    + apply id_eqb_eq in E. rewrite (G m eq_refl), (G x E). reflexivity.
    + destruct (g x); rewrite IH; reflexivity.
Qed.
Lemma filter_upds g sets : forall ms, (forall m x, In m sets -> meta_to_id x = meta_to_id m -> g x = false) -> filter g (update_metas_list ms sets) = filter g ms.
Proof.
  unfold update_metas_list. induction sets as [|m sets IH]; intros ms G; cbn [fold_left]; [reflexivity|].
  rewrite IH by (intros; eapply G; [right; eassumption|assumption]). apply filter_upd. intros x E. apply (G m x (or_introl eq_refl) E).
Qed.
Lemma with_id_upds sets : forall ms m, NoDup (map meta_to_id sets) -> In m sets ->
  with_id (meta_to_id m) (update_metas_list ms sets) = m :: tl (with_id (meta_to_id m) ms).
Proof.
  induction sets as [|a sets IH]; intros ms m ND Hm; [destruct Hm|]. cbn [map] in ND. inversion ND as [|? ? NI ND']; subst.
  change (update_metas_list ms (a :: sets)) with (update_metas_list (update_meta_list ms a) sets). destruct Hm as [->|Hm].
  - unfold with_id at 1. rewrite filter_upds; [apply with_id_upd|]. intros m' x I E. apply not_true_is_false. rewrite id_eqb_eq, E. intro X. apply NI. rewrite <- X. apply in_map. exact I.
  - rewrite IH by assumption. f_equal. f_equal. apply filter_upd. intros x E. apply not_true_is_false. rewrite id_eqb_eq, E. intro X. apply NI. rewrite X. apply in_map. exact Hm.
Qed.
Lemma filter_filter {A} (g h : A -> bool) l : filter g (filter h l) = filter (fun x => h x && g x) l.
Proof. induction l as [|x l IH]; cbn [filter]; [reflexivity|]. destruct (h x) eqn:E; cbn [filter andb]; destruct (g x); rewrite IH; reflexivity. Qed.
Definition new_fields (sets : list metadata) (gone : list metadata_id) (ms : list metadata) : list metadata :=
  remove_metas_list (update_metas_list ms sets) gone.
Lemma new_fields_changed sets gone ms : NoDup (map meta_to_id sets) -> (forall m, In m sets -> ~ In (meta_to_id m) gone) ->
  changed sets gone ms (new_fields sets gone ms).
Proof.
  intros ND DJ. unfold new_fields, remove_metas_list. split; [|split].
  - intros m Hm. unfold with_id at 1. rewrite filter_filter. rewrite <- (with_id_upds sets ms m ND Hm). unfold with_id. apply filter_ext. intro x.
    destruct (metadata_id_eqb (meta_to_id x) (meta_to_id m)) eqn:E; [|apply andb_false_r]. apply id_eqb_eq in E. rewrite andb_true_r. apply negb_true_iff. apply not_true_is_false. rewrite existsb_id, E. apply DJ, Hm.
  - intros i Hi. unfold with_id. rewrite filter_filter. transitivity (filter (fun _ : metadata => false) (update_metas_list ms sets)); [apply filter_ext; intro x|].
    + destruct (metadata_id_eqb (meta_to_id x) i) eqn:E; [|apply andb_false_r]. apply id_eqb_eq in E. rewrite andb_true_r. apply negb_false_iff, existsb_id. congruence.
    + generalize (update_metas_list ms sets). induction l as [|x l IH]; [reflexivity|exact IH].
  - cbv zeta. rewrite filter_filter. set (g := fun m => negb (existsb (metadata_id_eqb (meta_to_id m)) (gone ++ map meta_to_id sets))). transitivity (filter g (update_metas_list ms sets)).
    + apply filter_ext. intro x. unfold g. rewrite existsb_app. destruct (existsb (metadata_id_eqb (meta_to_id x)) gone); [reflexivity|]. reflexivity.
    + apply filter_upds. intros m x Hm E. unfold g. apply negb_false_iff, existsb_id, in_app_iff. right. rewrite E. apply in_map, Hm.
Qed.
Lemma upd_in x ms m : In x (update_meta_list ms m) -> x = m \/ In x ms.
Proof.
  induction ms as [|y ms IH]; cbn [update_meta_list]; [intros [->|[]]; auto|]. destruct (metadata_id_eqb _ _).
  - intros [->|I]; [auto|right; right; exact I].
  - intros [->|I]; [right; left; reflexivity|]. destruct (IH I); [auto|right; right; assumption].
Qed.
Lemma upds_in x sets : forall ms, In x (update_metas_list ms sets) -> In x sets \/ In x ms.
Proof.
  unfold update_metas_list. induction sets as [|m sets IH]; intros ms; cbn [fold_left]; [auto|]. intro I. destruct (IH _ I) as [J|J]; [left; right; exact J|].
  destruct (upd_in _ _ _ J) as [->|K]; [left; left; reflexivity|auto].
Qed.
Lemma new_in x sets gone ms : In x (new_fields sets gone ms) -> In x sets \/ In x ms.
Proof. unfold new_fields, remove_metas_list. intro I. apply filter_In in I as [I _]. apply upds_in, I. Qed.
Lemma get_filter g i ms : (forall x, meta_to_id x = i -> g x = true) -> get_meta_by_id (filter g ms) i = get_meta_by_id ms i.
Proof.
  intro G. induction ms as [|x ms IH]; cbn [filter get_meta_by_id]; [reflexivity|]. destruct (metadata_id_eqb (meta_to_id x) i) eqn:E.
  - apply id_eqb_eq in E as E'. rewrite (G x E'). cbn [get_meta_by_id]. rewrite E. reflexivity.
  - destruct (g x); cbn [get_meta_by_id]; rewrite ?E; exact IH.
Qed.
Lemma get_upd i ms m : meta_to_id m <> i -> get_meta_by_id (update_meta_list ms m) i = get_meta_by_id ms i.
Proof.
  intro NE. induction ms as [|x ms IH]; cbn [update_meta_list get_meta_by_id].
  - destruct (metadata_id_eqb (meta_to_id m) i) eqn:E; [apply id_eqb_eq in E; contradiction|reflexivity].
  - destruct (metadata_id_eqb (meta_to_id x) (meta_to_id m)) eqn:E; cbn [get_meta_by_id].
    + apply id_eqb_eq in E. rewrite E. destruct (metadata_id_eqb (meta_to_id m) i) eqn:E2; [apply id_eqb_eq in E2; contradiction|reflexivity].
    + rewrite IH. reflexivity.
Qed.
Lemma get_upds i sets : forall ms, (forall m, In m sets -> meta_to_id m <> i) -> get_meta_by_id (update_metas_list ms sets) i = get_meta_by_id ms i.
Proof.
  unfold update_metas_list. induction sets as [|m sets IH]; intros ms G; cbn [fold_left]; [reflexivity|].
  rewrite IH by (intros; apply G; right; assumption). apply get_upd, G. left; reflexivity.
Qed.
Lemma get_new i sets gone ms : (forall m, In m sets -> meta_to_id m <> i) -> ~ In i gone -> get_meta_by_id (new_fields sets gone ms) i = get_meta_by_id ms i.
Proof.
  intros G NI. unfold new_fields, remove_metas_list. rewrite get_filter; [apply get_upds, G|]. intros x E. apply negb_true_iff, not_true_is_false. rewrite existsb_id, E. exact NI.
Qed.

(* ---- sizes ---- *)
Definition writable (m : metadata) : Prop := match m with HSH (t, d) => hash_len t <= lenN d | _ => True end.
Definition raw_size (ms : list metadata) : N := fold_right (fun m a => M_Metadata.single_meta_size m + a) 0 ms.
Lemma single_writable m cap : writable m ->
  if cap <? M_Metadata.single_meta_size m then single_to_bytes m cap = RErr TooMuchMetadata
  else exists b, single_to_bytes m cap = ROk b /\ lenN b = M_Metadata.single_meta_size m.
Proof.
  intro W. unfold single_to_bytes. destruct (cap <? M_Metadata.single_meta_size m); [reflexivity|]. unfold M_Metadata.single_meta_size, PREAMBLE_LEN.
  assert (L3 : lenN (id_to_bytes (meta_to_id m)) = 3) by (destruct m; reflexivity).
  assert (X : exists i, info_bytes m = ROk i /\ lenN i = single_info_size m).
  { destruct m as [s|s|x|x|x|[t d]|x|x]; cbn [info_bytes single_info_size]; try (eexists; split; [reflexivity|]; try reflexivity; rewrite ?lenN_be; reflexivity).
    unfold hash_bytes_to_bytes. cbn [fst snd writable] in *. rewrite param_len. destruct (N.ltb_spec (lenN d) (hash_len t)); [lia|]. eexists. split; [reflexivity|].
    unfold total_length. rewrite !lenN_app, lenN_take, param_len. change (lenN [hash_len t]) with 1. lia. }
  destruct X as (i & -> & LI). eexists. split; [reflexivity|]. rewrite !lenN_app, L3, LI. change (lenN [u8 (single_info_size m)]) with 1. lia.
Qed.
Lemma metas_writable ms : forall cap, Forall writable ms ->
  if cap <? raw_size ms then metas_to_bytes ms cap = RErr TooMuchMetadata else exists b, metas_to_bytes ms cap = ROk b /\ lenN b = cap.
Proof.
  induction ms as [|m ms IH]; intros cap W; cbn [raw_size fold_right metas_to_bytes].
  - destruct (N.ltb_spec cap 0); [lia|]. eexists. split; [reflexivity|apply lenN_rep].
  - inversion W as [|? ? W1 W2]; subst. pose proof (single_writable m cap W1) as S. fold (raw_size ms). destruct (N.ltb_spec cap (M_Metadata.single_meta_size m)).
    + rewrite S. destruct (N.ltb_spec cap (M_Metadata.single_meta_size m + raw_size ms)); [reflexivity|lia].
    + destruct S as (b & -> & LB). rewrite LB. specialize (IH (cap - M_Metadata.single_meta_size m) W2).
      destruct (N.ltb_spec (cap - M_Metadata.single_meta_size m) (raw_size ms)), (N.ltb_spec cap (M_Metadata.single_meta_size m + raw_size ms)); try lia.
      * rewrite IH. reflexivity.
      * destruct IH as (r & -> & LR). eexists. split; [reflexivity|]. rewrite lenN_app. lia.
Qed.
Lemma field_ok_writable m : field_ok m -> writable m.
Proof. destruct m as [s|s|x|x|x|[t d]|x|x]; cbn; try tauto. intros [-> _]. lia. Qed.
Lemma raw_size_ok ms : Forall field_ok ms -> raw_size ms = fields_size ms.
Proof. induction 1 as [|m ms H _ IH]; [reflexivity|]. cbn [raw_size fields_size fold_right]. fold (raw_size ms) (fields_size ms). rewrite IH, single_meta_size_eq by exact H. reflexivity. Qed.
Lemma parsed_canon bs : bytes_ok bs = true -> Forall (fun m => canon_field m = m) (metas_from_bytes bs).
Proof.
  intro HB. apply Forall_forall. intros m Hm.
  assert (X : In m (meta_p bs)).
  { unfold metas_from_bytes, filter_invalid_metadata in Hm. cbv zeta in Hm. repeat match type of Hm with context [match ?x with _ => _ end] => destruct x end; repeat (apply filter_In in Hm as [Hm _]); exact Hm. }
  unfold meta_p in X. clear Hm.
  assert (G : forall n bs, bytes_ok bs = true -> In m (many0_meta n bs) -> canon_field m = m); [|exact (G _ _ HB X)]. clear.
  induction n as [|n IH]; intros bs HB X; cbn [many0_meta] in X; [destruct X|]. destruct (single_meta_p bs) as [[x r]|] eqn:E; [|destruct X].
  destruct X as [->|X].
  - destruct m as [s|s|y|y|y|[t d]|y|y]; try reflexivity. cbn [canon_field]. f_equal. f_equal.
    unfold single_meta_p, alt_p in E. repeat match type of E with
      | match ?p with _ => _ end = _ => let E1 := fresh in destruct p as [[? ?]|] eqn:E1; [apply Some_inj in E; apply pair_inj in E as [-> ->]; first
          [ apply str_p_inv in E1 as (? & ? & _); discriminate | apply num_p_inv in E1 as (? & ? & _); discriminate | unfold hsh_p in E1; destruct (tag_p _ bs) as [r1|]; [|discriminate];
            destruct (multihash_w_len_p r1) as [[h r2]|] eqn:M; [|discriminate]; apply Some_inj in E1; apply pair_inj in E1 as [E1 _]; injection E1 as ->; apply multihash_sound in M as [M _]; exact M ] |] end.
    apply num_p_inv in E as (? & ? & _); discriminate.
  - apply single_meta_sound in E as (_ & HR & _); [|exact HB]. apply (IH r HR X).
Qed.

(* ---- one block ---- *)
Lemma sync_to_writable b buf ms : b_data b = DMeta ms -> b_seq_num b = 0 -> lenN (b_uid b) = 6 -> Forall writable ms ->
  ver_to_block_size (b_version b) <= lenN buf ->
  if ver_to_block_size (b_version b) - 16 <? raw_size ms then sync_to_buffer b None buf = RErr TooMuchMetadata
  else exists b' buf', sync_to_buffer b None buf = ROk (b', buf') /\ lenN buf' = lenN buf.
Proof.
  intros HD HS HU HW HL. pose proof (block_size_pos (b_version b)) as HV. unfold sync_to_buffer. destruct (N.ltb_spec (lenN buf) (ver_to_block_size (b_version b))); [lia|].
  unfold block_type_of. rewrite HD, HS. cbn [N.eqb]. pose proof (metas_writable ms (ver_to_block_size (b_version b) - 16) HW) as M. unfold SBX_HEADER_SIZE.
  destruct (_ <? raw_size ms); [rewrite M; reflexivity|]. destruct M as (d & -> & LD). assert (L1 : lenN (put_at buf 16 d) = lenN buf) by (apply lenN_put_at; lia).
  unfold update_crc. rewrite calc_crc_eq by lia. eexists _, _. split; [reflexivity|]. rewrite lenN_put_at; [exact L1|]. rewrite lenN_header_to_bytes; [lia|]. exact HU.
Qed.
Section Update.
Variables (ref : block) (f : file).
Let v := b_version ref.
Let uid := b_uid ref.
Let bs := ver_to_block_size v.
Hypothesis HB : bytes_ok f = true.

Definition safe (p : uparam) : Prop := forall m, In m (up_set p) -> writable m.
Definition storable (p : uparam) : Prop :=
  (forall m, In m (up_set p) -> field_ok m /\ canon_field m = m /\ match m with RSD _ | RSP _ => False | _ => True end) /\
  ~ In IRSD (up_remove p) /\ ~ In IRSP (up_remove p).
Lemma storable_safe p : storable p -> safe p.
Proof. intros [S _] m Hm. apply field_ok_writable, S, Hm. Qed.
Definition newf (p : uparam) ms := new_fields (up_set p) (up_remove p) ms.
Lemma update_block_cases p i : safe p -> (i + 1) * bs <= lenN f ->
  (forall ms, fields_at v uid f i ms ->
     if bs - 16 <? raw_size (newf p ms) then update_block ref p (file_read f (i * bs) bs) = RErr TooMuchMetadata
     else exists d, update_block ref p (file_read f (i * bs) bs) = ROk (Some d) /\ lenN d = bs /\
       (storable p -> bytes_ok d = true /\ forall w, sliceN (i * bs) bs w = d -> fields_at v uid w i (newf p ms))) /\
  ((forall ms, ~ fields_at v uid f i ms) -> update_block ref p (file_read f (i * bs) bs) = ROk None).
Proof.
  intros SF LE. pose proof (block_size_pos v) as BP. fold bs in BP. set (d := file_read f (i * bs) bs). assert (LD : lenN d = bs) by (unfold d, file_read; rewrite lenN_slice; lia).
  assert (BD : bytes_ok d = true) by (apply bytes_ok_slice, HB).
  pose proof (accept_cases ref block_dummy d ltac:(fold v bs; lia)) as AC. pose proof (accept_iff ref d) as AI. unfold update_block. split.
  - intros ms (pl & (h & W & V & U & S) & PM). assert (A : accept ref d = Some (block_of h pl)) by (apply AI; [exact BD|]; exists h, pl; auto).
    rewrite A in AC. rewrite AC. assert (DM : b_data (block_of h pl) = DMeta ms) by (unfold block_of; cbn [b_data]; rewrite S; cbn; congruence).
    unfold is_meta, block_type_of. rewrite DM. unfold update_metas. rewrite DM. cbn [unwrap rbind b_data]. unfold remove_metas. cbn [b_data b_header unwrap rbind].
    fold (new_fields (up_set p) (up_remove p) ms). fold (newf p ms). set (b2 := mkBlock (b_header (block_of h pl)) (DMeta (newf p ms))).
    assert (BPL : bytes_ok pl = true) by (destruct W as (HO & HL & HT & _); pose proof (bytes_ok_take (ver_to_block_size (h_version h)) _ BD) as X; change (sliceN (i * ver_to_block_size v) (ver_to_block_size v) f) with d in HT; rewrite HT, bytes_ok_app in X; apply andb_true_iff in X; apply X).
    pose proof (parser_sanitises pl BPL) as [PF PS]. pose proof (parsed_canon pl BPL) as PC. rewrite PM in PF, PS, PC.
    assert (HO : header_ok h = true) by apply W. pose proof (proj1 (header_ok_spec h) HO) as (H1 & H2 & H3 & H4).
    assert (VB : b_version b2 = v) by exact V.
    pose proof (sync_to_writable b2 d (newf p ms) eq_refl S H2) as SW. rewrite VB in SW. fold bs in SW.
    assert (WR : Forall writable (newf p ms)).
    { apply Forall_forall. intros x Hx. apply new_in in Hx as [Hx|Hx]; [apply SF, Hx|]. apply field_ok_writable. rewrite Forall_forall in PF. apply PF, Hx. }
    specialize (SW WR ltac:(lia)). destruct (bs - 16 <? raw_size (newf p ms)); [rewrite SW; reflexivity|]. destruct SW as (b' & d' & SW & LD'). rewrite SW. exists d'. split; [reflexivity|]. split; [lia|].
    intros ST. assert (FO : Forall field_ok (newf p ms)).
    { apply Forall_forall. intros x Hx. apply new_in in Hx as [Hx|Hx]; [apply ST, Hx|]. rewrite Forall_forall in PF. apply PF, Hx. }
    assert (CO : map canon_field (newf p ms) = newf p ms).
    { rewrite <- (map_id (newf p ms)) at 2. apply map_ext_in. intros x Hx. apply new_in in Hx as [Hx|Hx]; [apply ST, Hx|]. rewrite Forall_forall in PC. apply PC, Hx. }
    assert (SO : shards_ok (newf p ms)).
    { destruct ST as (ST & G1 & G2). intros a c. unfold newf. rewrite !get_new; try assumption; [apply PS| |]; intros m Hm E; destruct (ST m Hm) as (_ & _ & X); destruct m; try discriminate; exact X. }
    assert (BO : block_ok b2) by (split; [exact HO|]; cbn [b_data b2]; split; [exact S|auto]).
    assert (BD' : bytes_ok d' = true).
    { rewrite (sync_to_meta b2 None d (newf p ms) eq_refl S FO) in SW by (rewrite VB; fold bs; lia). destruct (_ <? _); [discriminate|]. cbv zeta in SW. apply ROk_inj in SW. apply pair_inj in SW as [_ <-].
      apply bytes_ok_put_at; [apply bytes_ok_put_at; [exact BD|]|apply bytes_ok_header; exact H3]. rewrite bytes_ok_app, fields_bytes_ok, bytes_ok_rep by (try exact FO; lia). reflexivity. }
    split; [exact BD'|]. intros w Ew.
    destruct (block_roundtrip b2 None d b' d' BO BD ltac:(discriminate) SW) as (_ & _ & _ & r & R & RV & RU & RS & RD). cbn [b_data b2] in RD.
    specialize (R block_dummy). apply sync_from_ok in R as [R _]. apply parse_ok_iff in R as (h' & pl' & W' & ->); [|exact BD'].
    exists pl'. fold bs. split.
    + exists h'. fold bs. rewrite Ew. split; [exact W'|]. split; [rewrite <- VB; exact RV|]. split; [rewrite <- U; exact RU|]. rewrite <- S. exact RS.
    + unfold block_of in RD. cbn [b_data] in RD. assert (S' : h_seq_num h' = 0) by (rewrite <- S; exact RS). rewrite S' in RD. cbn in RD. injection RD as ->. exact CO.
  - intro NO. destruct (accept ref d) as [b|] eqn:E; [|destruct AC as (e & ->); reflexivity]. rewrite AC.
    apply accept_iff in E as (h & pl & W & V & U & ->); [|exact BD]. unfold is_meta, block_type_of, block_of. cbn [b_data].
    destruct (N.ltb_spec (h_seq_num h) 1); [|reflexivity]. exfalso. apply (NO (metas_from_bytes pl)). exists pl. split; [|reflexivity]. exists h. split; [exact W|]. split; [exact V|]. split; [exact U|lia].
Qed.
Lemma fields_dec i : {ms | fields_at v uid f i ms} + {forall ms, ~ fields_at v uid f i ms}.
Proof.
  pose proof (accept_block_at ref f (i * bs) HB) as AB. fold v bs uid in AB. destruct (accept ref _) as [b|].
  - destruct AB as (BA & _). destruct (N.eq_dec (b_seq_num b) 0) as [E|NE].
    + left. rewrite E in BA. eexists. eexists. split; [exact BA|reflexivity].
    + right. intros ms (pl & BA' & _). destruct (block_at_unique _ _ _ _ _ _ _ _ BA BA'). contradiction.
  - right. intros ms (pl & BA & _). exact (AB _ _ BA).
Qed.
Lemma fields_len i ms : fields_at v uid f i ms -> (i + 1) * bs <= lenN f.
Proof. intros (pl & BA & _). apply block_at_len in BA. fold bs in BA. lia. Qed.
Lemma fields_unique i ms ms' : fields_at v uid f i ms -> fields_at v uid f i ms' -> ms = ms'.
Proof. intros (pl & BA & <-) (pl' & BA' & <-). destruct (block_at_unique _ _ _ _ _ _ _ _ BA BA') as [_ ->]. reflexivity. Qed.

(* ---- a run ---- *)
Fixpoint live (L : list N) : list N := match L with [] => [] | i :: r => if lenN f <? (i + 1) * bs then [] else i :: live r end.
Definition outcome (p : uparam) (i : N) : result (option (list N)) := update_block ref p (file_read f (i * bs) bs).
Definition writes (p : uparam) (L : list N) : list (N * list N) := flat_map (fun i => match outcome p i with ROk (Some d) => [(i, d)] | _ => [] end) L.
Definition hits (p : uparam) (i : N) : bool := match outcome p i with ROk (Some _) => true | _ => false end.
Lemma live_in i L : In i (live L) -> In i L /\ (i + 1) * bs <= lenN f.
Proof.
  induction L as [|j L IH]; cbn [live]; [intros []|]. destruct (N.ltb_spec (lenN f) ((j + 1) * bs)); [intros []|]. intros [->|I]; [split; [left; reflexivity|lia]|]. destruct (IH I). split; [right; assumption|assumption].
Qed.
Lemma live_all i L : L_Index.sorted L -> In i L -> (i + 1) * bs <= lenN f -> In i (live L).
Proof.
  induction 1 as [|j L HJ HS IH]; [intros []|]. intros I LE. cbn [live]. destruct (N.ltb_spec (lenN f) ((j + 1) * bs)) as [X|X].
  - exfalso. assert (j <= i) by (destruct I as [->|I]; [lia|apply HJ, I]). pose proof (N.mul_le_mono_r (j + 1) (i + 1) bs ltac:(lia)). lia.
  - destruct I as [->|I]; [left; reflexivity|right; apply IH; assumption].
Qed.
Lemma outcome_cases p i : safe p -> (i + 1) * bs <= lenN f ->
  outcome p i = RErr TooMuchMetadata \/ outcome p i = ROk None \/ exists d, outcome p i = ROk (Some d) /\ lenN d = bs.
Proof.
  intros SF LE. destruct (update_block_cases p i SF LE) as [A B]. unfold outcome. destruct (fields_dec i) as [[ms F]|NF].
  - specialize (A ms F). destruct (_ <? _); [left; exact A|]. destruct A as (d & E & LD & _). right. right. exists d. auto.
  - right. left. apply B, NF.
Qed.
Lemma run_ok p wr : safe p -> forall L w s, lenN w = lenN f -> NoDup L -> (forall i, In i L -> sliceN (i * bs) bs w = sliceN (i * bs) bs f) ->
  (forall i, In i (live L) -> exists x, outcome p i = ROk x) ->
  update_blocks ref p wr (map (fun i => i * bs) L) w s =
    (if wr : bool then put_blocks bs (writes p (live L)) w else w,
     ROk (mkUstats (us_updated s + countN (hits p) (live L)) (us_failed s + countN (fun i => negb (hits p i)) (live L)))).
Proof.
  intro SF. pose proof (block_size_pos v) as BP. fold bs in BP. induction L as [|i L IH]; intros w s LW ND SL OK; cbn [map update_blocks live].
  - unfold countN. cbn [filter writes flat_map put_blocks fold_left]. change (lenN (@nil N)) with 0. rewrite !N.add_0_r. destruct s, wr; reflexivity.
  - fold v bs. assert (R : file_read w (i * bs) bs = file_read f (i * bs) bs) by (apply SL; left; reflexivity). rewrite R.
    rewrite short_read by lia. cbn [live] in OK. replace (i * bs + bs) with ((i + 1) * bs) by lia. destruct (N.ltb_spec (lenN f) ((i + 1) * bs)) as [X|X].
    + unfold countN. cbn [filter writes flat_map put_blocks fold_left]. change (lenN (@nil N)) with 0. rewrite !N.add_0_r. destruct s, wr; reflexivity.
    + inversion ND as [|? ? NI ND']; subst. destruct (outcome_cases p i SF X) as [E|[E|(d & E & LD)]].
      * destruct (OK i (or_introl eq_refl)) as (x & E'). congruence.
      * unfold outcome in E. rewrite E. fold (outcome p i) in E. rewrite IH; [|exact LW|exact ND'|intros j Hj; apply SL; right; exact Hj|intros j Hj; apply OK; right; exact Hj].
        assert (HT : hits p i = false) by (unfold hits; rewrite E; reflexivity).
        unfold writes, countN. cbn [flat_map filter]. rewrite HT, E. cbn [negb app us_updated us_failed]. rewrite lenN_cons. f_equal. f_equal. f_equal. lia.
      * unfold outcome in E. rewrite E. fold (outcome p i) in E. rewrite IH.
        -- assert (HT : hits p i = true) by (unfold hits; rewrite E; reflexivity). unfold writes, countN. cbn [flat_map filter]. rewrite HT, E. cbn [negb app us_updated us_failed]. rewrite lenN_cons. destruct wr; cbn [put_blocks fold_left fst snd]; (f_equal; f_equal; f_equal; lia).
        -- destruct wr; [|exact LW]. rewrite lenN_file_write, LD. destruct (N.eqb_spec bs 0); lia.
        -- exact ND'.
        -- intros j Hj. rewrite <- (SL j (or_intror Hj)). destruct wr; [|reflexivity]. apply list_ext_N.
           ++ rewrite !lenN_slice, lenN_file_write, LD. destruct (N.eqb_spec bs 0); [lia|]. f_equal. lia.
           ++ intros k Hk. rewrite lenN_slice in Hk. rewrite !nthN_slice. destruct (N.ltb_spec k bs); [|lia]. rewrite nthN_file_write, LD.
              destruct (N.leb_spec (i * bs) (j * bs + k)); [|reflexivity]. destruct (N.ltb_spec (j * bs + k) (i * bs + bs)); [|reflexivity]. exfalso. apply NI.
              assert (E1 : (j * bs + k) / bs = i) by (apply in_block; lia). assert (E2 : (j * bs + k) / bs = j) by (apply in_block; lia). rewrite <- E1, E2. exact Hj.
        -- intros j Hj. apply OK. right. exact Hj.
Qed.
Lemma dry_keeps p L : forall w s, fst (update_blocks ref p false L w s) = w.
Proof.
  induction L as [|i L IH]; intros w s; cbn [update_blocks]; [reflexivity|]. destruct (_ <? _); [reflexivity|]. destruct (update_block _ _ _) as [[d|]|e|]; try reflexivity; apply IH.
Qed.
Lemma test_cases p : safe p -> forall L s,
  (exists s', snd (update_blocks ref p false (map (fun i => i * bs) L) f s) = ROk s' /\ forall i, In i (live L) -> exists x, outcome p i = ROk x) \/
  (snd (update_blocks ref p false (map (fun i => i * bs) L) f s) = RErr TooMuchMetadata /\ exists i, In i (live L) /\ outcome p i = RErr TooMuchMetadata).
Proof.
  intro SF. pose proof (block_size_pos v) as BP. fold bs in BP. induction L as [|i L IH]; intro s; cbn [map update_blocks live].
  - left. eexists. split; [reflexivity|intros ? []].
  - fold v bs. rewrite short_read by lia. replace (i * bs + bs) with ((i + 1) * bs) by lia. destruct (N.ltb_spec (lenN f) ((i + 1) * bs)) as [X|X].
    + left. eexists. split; [reflexivity|intros ? []].
    + destruct (outcome_cases p i SF X) as [E|[E|(d & E & LD)]]; pose proof E as E0; unfold outcome in E0; rewrite E0.
      * right. split; [reflexivity|]. exists i. split; [left; reflexivity|exact E].
      * destruct (IH (mkUstats (us_updated s) (us_failed s + 1))) as [(s' & A & B)|(A & j & B & C)].
        -- left. exists s'. split; [exact A|]. intros j [->|Hj]; [eexists; exact E|apply B, Hj].
        -- right. split; [exact A|]. exists j. split; [right; exact B|exact C].
      * destruct (IH (mkUstats (us_updated s + 1) (us_failed s))) as [(s' & A & B)|(A & j & B & C)].
        -- left. exists s'. split; [exact A|]. intros j [->|Hj]; [eexists; exact E|apply B, Hj].
        -- right. split; [exact A|]. exists j. split; [right; exact B|exact C].
Qed.
(* ---- the file afterwards ---- *)
Lemma writes_in p L i d : In (i, d) (writes p L) <-> In i L /\ outcome p i = ROk (Some d).
Proof.
  unfold writes. rewrite in_flat_map. split.
  - intros (j & Hj & X). destruct (outcome p j) as [[d'|]|e|] eqn:E; try (destruct X). apply pair_inj in H as [-> ->]. auto. destruct H.
  - intros [Hi E]. exists i. split; [exact Hi|]. rewrite E. left; reflexivity.
Qed.
Lemma run_updated p o (P : N -> Prop) L : storable p -> NoDup (map meta_to_id (up_set p)) -> (forall m, In m (up_set p) -> ~ In (meta_to_id m) (up_remove p)) ->
  (forall i, In i L -> meta_index (Some true) o i /\ P i) -> (forall i, meta_index (Some true) o i -> (exists ms, fields_at v uid f i ms) -> P i -> In i L) ->
  (forall i, In i L -> (i + 1) * bs <= lenN f) -> (forall i, In i L -> exists x, outcome p i = ROk x) ->
  updated v uid o (up_set p) (up_remove p) P f (put_blocks bs (writes p L) f) /\ bytes_ok (put_blocks bs (writes p L) f) = true.
Proof.
  intros ST ND DJ L1 L2 LE OK. pose proof (block_size_pos v) as BP. fold bs in BP. pose proof (storable_safe p ST) as SF.
  assert (WB : forall i d, In (i, d) (writes p L) -> lenN d = bs /\ bytes_ok d = true).
  { intros i d I. apply writes_in in I as [I E]. destruct (update_block_cases p i SF (LE i I)) as [A B]. fold (outcome p i) in A, B. destruct (fields_dec i) as [[ms F]|NF].
    - specialize (A ms F). destruct (_ <? _); [congruence|]. destruct A as (d' & E' & LD & X). rewrite E in E'. apply ROk_inj, Some_inj in E'. subst d'. split; [exact LD|]. apply X, ST.
    - specialize (B NF). congruence. }
  destruct (put_blocks_ok bs ltac:(lia) (writes p L) f) as (P1 & P2 & P3 & P4 & P5).
  { apply Forall_forall. intros [i d] I. apply (WB i d I). }
  { intros a b b' I I'. apply writes_in in I as [_ E]. apply writes_in in I' as [_ E']. congruence. }
  set (w := put_blocks bs (writes p L) f) in *. split.
  - split; [|split].
    + destruct P5 as [E|(a & b & I & E)]; [exact E|]. apply writes_in in I as [I _]. specialize (LE a I). lia.
    + intros i ms MI F PI. assert (I : In i L) by (apply L2; [exact MI|exists ms; exact F|exact PI]). destruct (update_block_cases p i SF (LE i I)) as [A _]. fold (outcome p i) in A. specialize (A ms F).
      destruct (_ <? _); [destruct (OK i I) as (x & E); congruence|]. destruct A as (d & E & LD & X). destruct (X ST) as [_ X']. exists (newf p ms). split; [apply new_fields_changed; assumption|].
      apply X'. apply P1. apply writes_in. auto.
    + intros i NO k E. fold bs in E. apply P2. intros b I. rewrite E in I. apply writes_in in I as [I EO]. apply NO. destruct (L1 i I) as [MI PI]. split; [|exact PI]. split; [exact MI|].
      destruct (fields_dec i) as [[ms F]|NF]; [exists ms; exact F|]. destruct (update_block_cases p i SF (LE i I)) as [_ B]. specialize (B NF). unfold outcome in EO. congruence.
  - apply put_bytes; [exact HB|]. intros a b I. apply (WB a b I).
Qed.
Lemma hits_iff p i : safe p -> (i + 1) * bs <= lenN f -> (exists x, outcome p i = ROk x) -> hits p i = true <-> exists ms, fields_at v uid f i ms.
Proof.
  intros SF LE (x & E). destruct (update_block_cases p i SF LE) as [A B]. fold (outcome p i) in A, B. unfold hits. destruct (fields_dec i) as [[ms F]|NF].
  - specialize (A ms F). destruct (_ <? _); [congruence|]. destruct A as (d & -> & _). split; [exists ms; exact F|reflexivity].
  - rewrite (B NF). split; [discriminate|]. intros (ms & F). destruct (NF ms F).
Qed.
End Update.

(* ---- metadata places in order ---- *)
Definition places (o : dpb) : list N := match o with Some (_, p, B) => map (fun j => j * (1 + B)) (rangeN 0 (1 + p)) | None => [0] end.
Lemma insertN_head x l : (forall y, In y l -> x <= y) -> insertN x l = x :: l.
Proof. destruct l as [|y l]; intro H; [reflexivity|]. cbn [insertN]. destruct (N.leb_spec x y); [reflexivity|]. specialize (H y (or_introl eq_refl)). lia. Qed.
Lemma sortN_snoc0 l : L_Index.sorted l -> (forall x, In x l -> 1 <= x) -> sortN (l ++ [0]) = 0 :: l.
Proof.
  induction 1 as [|x l HX HS IH]; intro P; [reflexivity|]. cbn [app sortN]. rewrite IH by (intros; apply P; right; assumption). cbn [insertN].
  pose proof (P x (or_introl eq_refl)). destruct (N.leb_spec x 0); [lia|]. f_equal. apply insertN_head, HX.
Qed.
Lemma sorted_map_range g lo hi : (forall a b, a <= b -> g a <= g b) -> L_Index.sorted (map g (rangeN lo hi)).
Proof.
  intro M. assert (X : forall n lo, N.of_nat n = hi - lo -> L_Index.sorted (map g (rangeN lo hi))); [|apply (X (N.to_nat (hi - lo))); lia].
  induction n as [|n IH]; intros l E.
  - rewrite rangeN_nil by lia. constructor.
  - rewrite rangeN_cons by lia. cbn [map]. constructor; [|apply IH; lia]. intros y Hy. apply in_map_iff in Hy as (z & <- & Hz). apply In_rangeN in Hz. apply M. lia.
Qed.
Lemma meta_places v o : calc_meta_block_all_write_pos_s v o = map (fun i => i * ver_to_block_size v) (places o).
Proof.
  pose proof (block_size_pos v) as BP. unfold calc_meta_block_all_write_pos_s, calc_meta_block_dup_write_pos_s, calc_meta_block_dup_write_indices, places.
  destruct o as [[[d p] B]|]; [|reflexivity]. rewrite map_map. rewrite sortN_snoc0.
  - rewrite (rangeN_cons 0 (1 + p)) by lia. cbn [map]. f_equal. rewrite map_map. reflexivity.
  - apply sorted_map_range. intros a b L. apply N.mul_le_mono_r, N.mul_le_mono_r, L.
  - intros x Hx. apply in_map_iff in Hx as (j & <- & Hj). apply In_rangeN in Hj. assert (1 <= j * (1 + B)) by nia. nia.
Qed.
Lemma places_sorted o : L_Index.sorted (places o).
Proof.
  unfold places. destruct o as [[[d p] B]|]; [|constructor; [intros ? []|constructor]]. apply sorted_map_range. intros a b L. apply N.mul_le_mono_r, L.
Qed.
Lemma places_In o i : In i (places o) <-> meta_index (Some true) o i.
Proof.
  unfold places, meta_index. destruct o as [[[d p] B]|].
  - rewrite in_map_iff. split; [intros (j & <- & Hj); apply In_rangeN in Hj; exists j; split; [lia|reflexivity]|intros (j & Hj & ->); exists j; split; [reflexivity|apply In_rangeN; lia]].
  - cbn. split; [intros [<-|[]]; split; [discriminate|reflexivity]|intros [_ ->]; auto].
Qed.
Lemma map_range_take {A} (g : N -> A) lo hi k : takeN k (map g (rangeN lo hi)) = map g (rangeN lo (N.min hi (lo + k))).
Proof.
  assert (X : forall n lo k, N.of_nat n = hi - lo -> takeN k (map g (rangeN lo hi)) = map g (rangeN lo (N.min hi (lo + k)))); [|apply (X (N.to_nat (hi - lo))); lia].
  clear lo k. induction n as [|n IH]; intros lo k E.
  - rewrite (rangeN_nil lo hi), (rangeN_nil lo (N.min hi (lo + k))) by lia. destruct k; unfold takeN; [reflexivity|]. apply firstn_nil.
  - rewrite (rangeN_cons lo hi) by lia. cbn [map]. destruct (N.eq_dec k 0) as [->|NZ]; [rewrite (rangeN_nil lo (N.min hi (lo + 0))) by lia; reflexivity|].
    rewrite (rangeN_cons lo (N.min hi (lo + k))) by lia. cbn [map]. unfold takeN. replace (N.to_nat k) with (S (N.to_nat (k - 1))) by lia. cbn [firstn]. f_equal.
    fold (takeN (k - 1) (map g (rangeN (lo + 1) hi))). rewrite IH by lia. f_equal. f_equal. lia.
Qed.
Definition cut_places (o : dpb) (cut : option N) : list N := match cut with Some k => takeN k (places o) | None => places o end.
Lemma cut_pos v o cut : match cut with Some k => takeN k (calc_meta_block_all_write_pos_s v o) | None => calc_meta_block_all_write_pos_s v o end
  = map (fun i => i * ver_to_block_size v) (cut_places o cut).
Proof. rewrite meta_places. destruct cut as [k|]; [|reflexivity]. cbn [cut_places]. unfold takeN. apply firstn_map. Qed.
Lemma cut_In o cut i : In i (cut_places o cut) <-> meta_index (Some true) o i /\ reached o cut i.
Proof.
  destruct cut as [k|]; cbn [cut_places reached]; [|rewrite places_In; tauto]. unfold places, rank, meta_index. destruct o as [[[d p] B]|].
  - rewrite map_range_take, in_map_iff. split.
    + intros (j & <- & Hj). apply In_rangeN in Hj. split; [exists j; split; [lia|reflexivity]|]. rewrite N.div_mul by lia. lia.
    + intros [(j & Hj & ->) R]. rewrite N.div_mul in R by lia. exists j. split; [reflexivity|]. apply In_rangeN. lia.
  - unfold takeN. destruct (N.to_nat k) as [|n] eqn:E; cbn [firstn In].
    + split; [intros []|intros [[_ ->] R]; lia].
    + split; [intros [<-|X]; [split; [split; [discriminate|reflexivity]|lia]|destruct n; destruct X]|intros [[_ ->] _]; left; reflexivity].
Qed.
Lemma sorted_take k l : L_Index.sorted l -> L_Index.sorted (takeN k l).
Proof.
  intro S. unfold takeN. generalize (N.to_nat k) as n. induction S as [|x l HX HS IH]; intros [|n]; cbn [firstn]; try constructor; [|apply IH].
  intros y Hy. apply HX. rewrite <- (firstn_skipn n l). apply in_app_iff. left. exact Hy.
Qed.
Lemma cut_sorted o cut : L_Index.sorted (cut_places o cut).
Proof. destruct cut; cbn [cut_places]; [apply sorted_take|]; apply places_sorted. Qed.
Lemma places_NoDup o : NoDup (places o).
Proof.
  pose proof (meta_positions V1 o) as (_ & ND & _). rewrite meta_places in ND. apply NoDup_map_inv in ND. exact ND.
Qed.
Lemma NoDup_take {A} k (l : list A) : NoDup l -> NoDup (takeN k l).
Proof.
  intro ND. unfold takeN. generalize (N.to_nat k) as n. induction ND as [|x l NI ND IH]; intros [|n]; cbn [firstn]; constructor; [|apply IH].
  intro I. apply NI. rewrite <- (firstn_skipn n l). apply in_app_iff. left. exact I.
Qed.
Lemma cut_NoDup o cut : NoDup (cut_places o cut).
Proof. destruct cut; cbn [cut_places]; [apply NoDup_take|]; apply places_NoDup. Qed.

(* ---- the hash filled in later takes as many bytes as the dummy ---- *)
Definition same_size (a b : metadata) : Prop := meta_to_id a = meta_to_id b /\ M_Metadata.single_meta_size a = M_Metadata.single_meta_size b.
Lemma upd_same ms ms' m m' : Forall2 same_size ms ms' -> same_size m m' -> Forall2 same_size (update_meta_list ms m) (update_meta_list ms' m').
Proof.
  intros F [E1 E2]. induction F as [|a b l l' [I1 I2] F IH]; cbn [update_meta_list]; [constructor; [split; assumption|constructor]|].
  rewrite <- I1, <- E1. destruct (metadata_id_eqb _ _); constructor; try assumption; split; assumption.
Qed.
Lemma upds_same sets sets' : Forall2 same_size sets sets' -> forall ms ms', Forall2 same_size ms ms' -> Forall2 same_size (update_metas_list ms sets) (update_metas_list ms' sets').
Proof.
  unfold update_metas_list. induction 1 as [|a b l l' I F IH]; intros ms ms' M; cbn [fold_left]; [exact M|]. apply IH, upd_same; assumption.
Qed.
Lemma remove_same gone ms ms' : Forall2 same_size ms ms' -> Forall2 same_size (remove_metas_list ms gone) (remove_metas_list ms' gone).
Proof.
  unfold remove_metas_list. induction 1 as [|a b l l' [I1 I2] F IH]; cbn [filter]; [constructor|]. rewrite I1. destruct (negb _); [constructor; [split; assumption|exact IH]|exact IH].
Qed.
Lemma raw_same ms ms' : Forall2 same_size ms ms' -> raw_size ms = raw_size ms'.
Proof. induction 1 as [|a b l l' [_ I] F IH]; [reflexivity|]. cbn [raw_size fold_right]. fold (raw_size l) (raw_size l'). rewrite I, IH. reflexivity. Qed.
Lemma new_same sets sets' gone ms : Forall2 same_size sets sets' -> raw_size (new_fields sets gone ms) = raw_size (new_fields sets' gone ms).
Proof.
  intro F. apply raw_same. unfold new_fields. apply remove_same, upds_same; [exact F|]. induction ms; constructor; [split; reflexivity|assumption].
Qed.
