(* The output of sort, block by block. *)
From Verif Require Import M_Base M_Specs M_Header M_Metadata M_Block M_Index M_FileUtils M_Buffer M_Ranges M_Encode M_Scan M_Loop M_Decode M_Sort
  S_Crc S_Meta S_Block S_Index S_Container S_Scan S_Decode S_Sort
  L_Base L_Crc L_File L_Header L_Index L_Index2 L_Block L_Buffer L_Encode L_Loop L_Scan L_Container L_Decode L_Decode2 L_Sort.
Ltac Zify.zify_post_hook ::= idtac.

(* ---- whole-block writes, any order ---- *)
Section Puts.
Variable bs : N.
Hypothesis BS : 1 <= bs.
Notation put := (put_blocks bs).
Definition sized (L : list (N * list N)) : Prop := Forall (fun x => lenN (snd x) = bs) L.
Lemma nth_write_block w a (d : list N) i : lenN d = bs -> nthN (file_write w (a * bs) d) i = if i / bs =? a then nthN d (i mod bs) else nthN w i.
Proof.
  intro L. rewrite nthN_file_write, L. destruct (N.eqb_spec (i / bs) a) as [E|E].
  - pose proof (proj2 (in_block bs BS i a) E) as [A B]. destruct (N.leb_spec (a * bs) i); [|lia]. destruct (N.ltb_spec i (a * bs + bs)); [|lia].
    cbn [andb]. f_equal. pose proof (N.div_mod' i bs) as DM. rewrite E in DM. lia.
  - destruct ((a * bs <=? i) && (i <? a * bs + bs)) eqn:X; [|reflexivity]. exfalso. apply E. apply (in_block bs BS). lia.
Qed.
Lemma put_other L f i : sized L -> (forall b, ~ In (i / bs, b) L) -> nthN (put L f) i = nthN f i.
Proof.
  revert f. induction L as [|[a b] L IH]; intros f HS HN; [reflexivity|]. inversion HS as [|? ? H1 H2]; subst. cbn [snd] in H1.
  change (put ((a, b) :: L) f) with (put L (file_write f (a * bs) b)). rewrite IH; [|exact H2|intros b' Hb; apply (HN b'); right; exact Hb].
  rewrite nth_write_block by exact H1. destruct (N.eqb_spec (i / bs) a) as [E|E]; [|reflexivity]. exfalso. apply (HN b). left. congruence.
Qed.
Lemma put_ext L f g i : sized L -> nthN f i = nthN g i -> nthN (put L f) i = nthN (put L g) i.
Proof.
  revert f g. induction L as [|[a b] L IH]; intros f g HS HE; [exact HE|]. inversion HS as [|? ? H1 H2]; subst. cbn [snd] in H1.
  change (put ((a, b) :: L) f) with (put L (file_write f (a * bs) b)). change (put ((a, b) :: L) g) with (put L (file_write g (a * bs) b)).
  apply IH; [exact H2|]. rewrite !nth_write_block by exact H1. destruct (_ =? _); [reflexivity|exact HE].
Qed.
Lemma put_len L f : sized L -> lenN f <= lenN (put L f) /\
  (forall a b, In (a, b) L -> (a + 1) * bs <= lenN (put L f)) /\
  (lenN (put L f) = lenN f \/ exists a b, In (a, b) L /\ lenN (put L f) = (a + 1) * bs).
Proof.
  induction L as [|[a0 b0] L IH] using rev_ind; intros HF.
  - split; [apply N.le_refl|]. split; [intros ? ? []|left; reflexivity].
  - apply Forall_app in HF as [HF1 HF2]. inversion HF2 as [|? ? L0 _]; subst. cbn [snd] in L0.
    destruct (IH HF1) as (I1 & I2 & I3). rewrite put_blocks_app. set (g := put L f) in *. cbn [put_blocks fold_left fst snd].
    assert (LG : lenN (file_write g (a0 * bs) b0) = N.max (lenN g) ((a0 + 1) * bs)).
    { rewrite lenN_file_write, L0. destruct (N.eqb_spec bs 0); [lia|]. f_equal. lia. }
    rewrite LG. split; [lia|]. split.
    + intros a b Hab. apply in_app_iff in Hab as [Hab|[Hab|[]]].
      * specialize (I2 _ _ Hab). lia.
      * injection Hab as <- <-. lia.
    + destruct (N.le_ge_cases (lenN g) ((a0 + 1) * bs)).
      * right. exists a0, b0. split; [apply in_app_iff; right; left; reflexivity|]. lia.
      * destruct I3 as [I3|(a & b & Hab & I3)].
        -- left. lia.
        -- right. exists a, b. split; [apply in_app_iff; left; exact Hab|]. lia.
Qed.
Lemma block_ext a (g d : list N) : lenN d = bs -> (a + 1) * bs <= lenN g ->
  (forall i, i / bs = a -> nthN g i = nthN d (i mod bs)) -> sliceN (a * bs) bs g = d.
Proof.
  intros L LG H. apply list_ext_N.
  - rewrite lenN_slice, L. lia.
  - intros i Hi. rewrite lenN_slice in Hi. rewrite nthN_slice. destruct (N.ltb_spec i bs); [|lia]. rewrite H.
    + f_equal. symmetry. apply N.mod_unique with (q := a); lia.
    + symmetry. apply N.div_unique with (r := i); lia.
Qed.
Lemma put_last A a b B f i : sized (A ++ (a, b) :: B) -> (forall b', ~ In (a, b') B) -> i / bs = a ->
  nthN (put (A ++ (a, b) :: B) f) i = nthN b (i mod bs).
Proof.
  intros HS HN E. apply Forall_app in HS as [_ HS]. inversion HS as [|? ? L0 HS2]; subst. cbn [snd] in L0.
  rewrite put_blocks_app. set (g := put A f). change (put ((i / bs, b) :: B) g) with (put B (file_write g (i / bs * bs) b)).
  rewrite put_other by assumption. rewrite nth_write_block by exact L0. rewrite N.eqb_refl. reflexivity.
Qed.
End Puts.

Lemma in_somes {A} (x : A) l : In x (somes l) <-> In (Some x) l.
Proof.
  unfold somes. rewrite in_flat_map. split.
  - intros ([y|] & H1 & H2); [|destruct H2]. destruct H2 as [->|[]]. exact H1.
  - intro H. exists (Some x). split; [exact H|left; reflexivity].
Qed.
Lemma somes_app {A} (a b : list (option A)) : somes (a ++ b) = somes a ++ somes b.
Proof. apply flat_map_app. Qed.

Section Out.
Variables (cpus : N) (f : file) (ref : block) (o : dpb) (mp : option multi_pass) (lo len : N).
Hypothesis CPUS : 1 <= cpus.
Hypothesis HB : bytes_ok f = true.
Hypothesis HO : dpb_ok o.
Let v := b_version ref.
Let uid := b_uid ref.
Let bs := ver_to_block_size v.
Let n := nvisit bs f lo len.
Let slots := somes (map (semit f ref) (sposs f ref lo len)).

Lemma bs_pos : 1 <= bs. Proof. pose proof (block_size_pos v). fold bs in H. lia. Qed.
(* what a slot is *)
Lemma semit_some pos s : semit f ref pos = Some s -> exists pl,
  block_at v uid f pos (b_seq_num (s_block s)) pl /\ 1 <= b_seq_num (s_block s) /\ s_buf s = sliceN pos bs f /\ s_rpos s = Some pos /\
  accept ref (sliceN pos bs f) = Some (s_block s).
Proof.
  unfold semit. fold v bs. change (file_read f pos bs) with (sliceN pos bs f).
  pose proof (accept_block_at ref f pos HB) as AB. fold v bs in AB. destruct (accept ref (sliceN pos bs f)) as [b|] eqn:EA; [|discriminate].
  destruct AB as (BA & EV & EU & EM). destruct (is_meta b) eqn:IM; [discriminate|]. intro E. apply Some_inj in E. subst s. cbn [s_block s_buf s_rpos].
  symmetry in EM. apply N.eqb_neq in EM. eexists. split; [exact BA|]. split; [lia|]. auto.
Qed.
Lemma semit_block pos seq pl : block_at v uid f pos seq pl -> 1 <= seq ->
  exists s, semit f ref pos = Some s /\ b_seq_num (s_block s) = seq.
Proof.
  intros BA H1. unfold semit. fold v bs. change (file_read f pos bs) with (sliceN pos bs f).
  pose proof (accept_block_at ref f pos HB) as AB. fold v bs uid in AB. destruct (accept ref (sliceN pos bs f)) as [b|]; [|exfalso; exact (AB _ _ BA)].
  destruct AB as (BA' & _ & _ & EM). destruct (block_at_unique _ _ _ _ _ _ _ _ BA BA') as [E _]. subst seq.
  rewrite EM. destruct (N.eqb_spec (b_seq_num b) 0); [lia|]. eexists. split; [reflexivity|reflexivity].
Qed.
Definition place (s : slot) : N * list N := (calc_data_block_write_index (b_seq_num (s_block s)) (Some true) o, s_buf s).
Lemma slots_in s : In s slots -> exists k, k < n /\ semit f ref (lo + k * bs) = Some s.
Proof.
  unfold slots. rewrite in_somes, in_map_iff. intros (pos & E & H). unfold sposs in H. apply in_map_iff in H as (k & <- & H).
  apply In_rangeN in H. exists k. split; [apply H|exact E].
Qed.
Lemma slots_split k : k < n -> slots =
  somes (map (semit f ref) (map (fun k => lo + k * bs) (rangeN 0 k))) ++ somes [semit f ref (lo + k * bs)]
  ++ somes (map (semit f ref) (map (fun k => lo + k * bs) (rangeN (k + 1) n))).
Proof.
  intro H. unfold slots, sposs. fold v bs n. rewrite (rangeN_split 0 k n), (rangeN_cons k n) by lia.
  rewrite !map_app, somes_app. cbn [map]. change (?a :: ?l) with ([a] ++ l) at 1. rewrite somes_app. reflexivity.
Qed.
Lemma in_later k s : In s (somes (map (semit f ref) (map (fun k => lo + k * bs) (rangeN (k + 1) n)))) ->
  exists k', k < k' < n /\ semit f ref (lo + k' * bs) = Some s.
Proof.
  rewrite in_somes, in_map_iff. intros (pos & E & H). apply in_map_iff in H as (k' & <- & H). apply In_rangeN in H. exists k'. split; [lia|exact E].
Qed.

(* the metadata block sent to the writer *)
Definition is_meta_at (k : N) : Prop := exists pl, block_at v uid f (lo + k * bs) 0 pl.
Lemma scnt_meta rb x pos : fst (scnt f ref o rb lo x pos) =
  match fst x with Some m => Some m | None => match accept ref (sliceN pos bs f) with Some b => if is_meta b then Some (sliceN pos bs f) else None | None => None end end.
Proof.
  unfold scnt. fold v bs. unfold file_read. destruct (accept ref (sliceN pos bs f)) as [b|]; [destruct (is_meta b)|]; cbn [fst]; destruct (fst x); reflexivity.
Qed.
Lemma first_meta rb m : m <= n ->
  match fst (fold_left (scnt f ref o rb lo) (map (fun k => lo + k * bs) (rangeN 0 m)) (None, no_sstats)) with
  | None => forall k, k < m -> ~ is_meta_at k
  | Some d => exists k, k < m /\ is_meta_at k /\ d = sliceN (lo + k * bs) bs f /\ forall k', k' < k -> ~ is_meta_at k'
  end.
Proof.
  induction m as [|m IH] using N.peano_ind; intro Hm.
  - change (rangeN 0 0) with (@nil N). cbn [map fold_left fst]. intros k Hk. lia.
  - rewrite <- N.add_1_r in *. rewrite rangeN_snoc by lia. rewrite map_app, fold_left_app. cbn [map fold_left]. rewrite scnt_meta.
    specialize (IH ltac:(lia)). destruct (fst (fold_left _ _ _)) as [d|].
    + destruct IH as (k & H1 & H2). exists k. split; [lia|exact H2].
    + pose proof (accept_block_at ref f (lo + m * bs) HB) as AB. fold v bs uid in AB. destruct (accept ref (sliceN (lo + m * bs) bs f)) as [b|].
      * destruct AB as (BA & _ & _ & EM). rewrite EM. destruct (N.eqb_spec (b_seq_num b) 0) as [Z|NZ].
        -- rewrite Z in BA. exists m. split; [lia|]. split; [eexists; exact BA|]. split; [reflexivity|]. exact IH.
        -- intros k Hk. destruct (N.eq_dec k m) as [->|NE]; [|apply IH; lia]. intros (pl & BA'). destruct (block_at_unique _ _ _ _ _ _ _ _ BA BA'). congruence.
      * intros k Hk. destruct (N.eq_dec k m) as [->|NE]; [|apply IH; lia]. intros (pl & BA'). exact (AB _ _ BA').
Qed.
Definition midx : list N := map (fun p => p / bs) (calc_meta_block_all_write_pos_s v o).
Lemma midx_pos : calc_meta_block_all_write_pos_s v o = map (fun i => i * bs) midx.
Proof.
  unfold midx. rewrite map_map. rewrite <- map_id at 1. apply map_ext_in. intros p Hp. apply meta_positions in Hp as (i & _ & ->). fold bs. rewrite N.div_mul by (pose proof bs_pos; lia). reflexivity.
Qed.
Lemma meta_index_iff i : meta_index (Some true) o i <-> meta_index None o i.
Proof. destruct o as [[[d p] B]|]; cbn; [reflexivity|]. split; intros [_ ->]; split; congruence. Qed.
Lemma midx_in i : In i midx <-> meta_index (Some true) o i.
Proof.
  rewrite meta_index_iff. pose proof bs_pos as BP. unfold midx. rewrite in_map_iff. split.
  - intros (p & <- & H). apply meta_positions in H as (i & H & ->). fold bs. rewrite N.div_mul by lia. exact H.
  - intro H. exists (i * bs). split; [apply N.div_mul; lia|]. apply meta_positions. exists i. auto.
Qed.
Lemma belongs_visited i seq k : belongs v uid o f lo len i seq k <->
  k < n /\ (exists pl, block_at v uid f (lo + k * bs) seq pl) /\
  ((1 <= seq /\ i = calc_data_block_write_index seq (Some true) o) \/ (seq = 0 /\ meta_index (Some true) o i)).
Proof. unfold belongs. fold bs. rewrite (visited_iff bs f lo len k bs_pos). reflexivity. Qed.
Lemma belongs_seq i seq k seq' k' : belongs v uid o f lo len i seq k -> belongs v uid o f lo len i seq' k' -> seq = seq'.
Proof.
  intros (_ & _ & A) (_ & _ & B). destruct A as [[A1 ->]|[-> A]], B as [[B1 E]|[-> B]].
  - eapply write_index_inj; eassumption.
  - exfalso. eapply write_index_not_meta; eassumption.
  - exfalso. subst. eapply write_index_not_meta; eassumption.
  - reflexivity.
Qed.
Lemma slot_belongs s : In s slots -> exists k, belongs v uid o f lo len (fst (place s)) (b_seq_num (s_block s)) k /\ snd (place s) = sliceN (lo + k * bs) bs f.
Proof.
  intro H. apply slots_in in H as (k & Hk & E). apply semit_some in E as (pl & BA & H1 & EB & _). exists k. split; [|exact EB].
  apply belongs_visited. split; [exact Hk|]. split; [eexists; exact BA|]. left. auto.
Qed.
Lemma visited_len k : k < n -> lenN (sliceN (lo + k * bs) bs f) = bs.
Proof. intro H. apply (visited_iff bs f lo len k bs_pos) in H as [_ H]. rewrite lenN_slice. lia. Qed.

Lemma slot_good s : In s slots -> SGood ref s.
Proof.
  intro H. apply slots_in in H as (k & Hk & E). pose proof (semit_some _ _ E) as (pl & BA & H1 & EB & ER & _).
  unfold semit in E. destruct (accept ref _) as [b|] eqn:EA; [|discriminate]. destruct (is_meta b); [discriminate|]. apply Some_inj in E. subst s. cbn [s_block] in *.
  apply (accept_meta cpus ref lo CPUS) in EA as (_ & EV & EU); [|apply bytes_ok_slice, HB]. unfold SGood. cbn [s_clen s_block s_rpos s_buf].
  split; [reflexivity|]. split; [exact H1|]. split; [discriminate|]. split; [fold v bs; unfold file_read; apply visited_len, Hk|]. auto.
Qed.

Section Plain.
Hypothesis SG : is_skip_good mp = false.
Lemma sput_plain w s : In s slots -> sput cpus ref o mp w s = file_write w (fst (place s) * bs) (snd (place s)).
Proof.
  intro H. apply slot_good in H. destruct (sput_eq cpus f ref o mp lo CPUS w s H) as [_ ->]. cbv zeta. unfold do_write. cbn [sort_cfg c_skip_good]. rewrite SG. reflexivity.
Qed.
Lemma sput_fold L w : (forall s, In s L -> In s slots) -> fold_left (sput cpus ref o mp) L w = put_blocks bs (map place L) w.
Proof.
  revert w. induction L as [|s L IH]; intros w H; [reflexivity|]. cbn [fold_left map]. rewrite sput_plain by (apply H; left; reflexivity).
  rewrite IH by (intros x Hx; apply H; right; exact Hx). reflexivity.
Qed.
Lemma wmeta_plain m w : wmeta ref o mp m w = put_blocks bs (map (fun i => (i, m)) midx) w.
Proof.
  unfold wmeta, write_meta_blocks. fold v. rewrite midx_pos. generalize midx. intro L. revert w. induction L as [|i L IH]; intro w; [reflexivity|].
  cbn [map fold_left]. rewrite IH. unfold meta_do_write. destruct mp as [[]|]; try discriminate SG; reflexivity.
Qed.
Lemma place_sized L : (forall s, In s L -> In s slots) -> sized bs (map place L).
Proof.
  intro H. apply Forall_forall. intros x Hx. apply in_map_iff in Hx as (s & <- & Hs). apply H in Hs. apply slot_belongs in Hs as (k & B & ->).
  apply belongs_visited in B as [B _]. apply visited_len, B.
Qed.
(* what ends up in the output *)
Lemma data_chosen w k i seq : belongs v uid o f lo len i seq k -> 1 <= seq ->
  (forall k', belongs v uid o f lo len i seq k' -> k' <= k) ->
  forall j, j / bs = i -> nthN (put_blocks bs (map place slots) w) j = nthN (sliceN (lo + k * bs) bs f) (j mod bs).
Proof.
  intros B H1 HM j Hj. pose proof (proj1 (belongs_visited _ _ _) B) as (Hk & (pl & BA) & [[_ EI]|[Z _]]); [|lia].
  destruct (semit_block _ _ _ BA H1) as (s & ES & EQ). destruct (semit_some _ _ ES) as (_ & _ & _ & EB & _).
  pose proof (place_sized slots (fun s H => H)) as SZ. rewrite (slots_split k Hk), ES in *. change (somes [Some s]) with [s] in *. cbn [app] in *. rewrite map_app in *. cbn [map] in *.
  replace (place s) with (i, sliceN (lo + k * bs) bs f) in * by (unfold place; rewrite EQ, EB, EI; reflexivity).
  apply put_last; [apply bs_pos|exact SZ| |exact Hj]. intros b' HI. apply in_map_iff in HI as (s' & E' & HI).
  apply in_later in HI as (k' & Hk' & ES'). destruct (semit_some _ _ ES') as (pl' & BA' & H1' & _).
  assert (b_seq_num (s_block s') = seq). { apply (f_equal fst) in E'. cbn [fst place] in E'. rewrite EI in E'. eapply write_index_inj; eassumption. }
  assert (k' <= k); [|lia]. apply HM. apply belongs_visited. split; [lia|]. split; [exists pl'; congruence|]. left. auto.
Qed.
Definition meta_ws (m : option (list N)) : list (N * list N) := match m with None => [] | Some d => map (fun i => (i, d)) midx end.
Definition meta_ok (m : option (list N)) : Prop :=
  match m with
  | None => forall k, k < n -> ~ is_meta_at k
  | Some d => exists k, k < n /\ is_meta_at k /\ d = sliceN (lo + k * bs) bs f /\ forall k', k' < k -> ~ is_meta_at k'
  end.
Lemma sorted_ok y1 y2 m w : slots = y1 ++ y2 -> meta_ok m ->
  sort_result v uid o f lo len w (put_blocks bs (map place y2) (put_blocks bs (meta_ws m) (put_blocks bs (map place y1) w))).
Proof.
  intros ES MO. pose proof bs_pos as BP.
  assert (S1 : sized bs (map place y1)) by (apply place_sized; intros s Hs; rewrite ES; apply in_app_iff; auto).
  assert (S2 : sized bs (map place y2)) by (apply place_sized; intros s Hs; rewrite ES; apply in_app_iff; auto).
  assert (SM : sized bs (meta_ws m)).
  { unfold meta_ws, meta_ok in *. destruct m as [d|]; [|constructor]. destruct MO as (k & Hk & _ & -> & _). apply Forall_forall.
    intros x Hx. apply in_map_iff in Hx as (i & <- & _). apply visited_len, Hk. }
  set (out := put_blocks bs _ _).
  assert (EO : out = put_blocks bs (map place y1 ++ meta_ws m ++ map place y2) w) by (rewrite !put_blocks_app; reflexivity).
  assert (SA : sized bs (map place y1 ++ meta_ws m ++ map place y2)) by (repeat (apply Forall_app; split); assumption).
  assert (INB : forall a b, In (a, b) (map place y1 ++ meta_ws m ++ map place y2) -> exists seq k, belongs v uid o f lo len a seq k).
  { intros a b H. rewrite !in_app_iff in H.
    assert (D : forall L, (forall s, In s L -> In s slots) -> In (a, b) (map place L) -> exists seq k, belongs v uid o f lo len a seq k).
    { intros L HL HI. apply in_map_iff in HI as (s & E & HI). apply HL, slot_belongs in HI as (k & B & _). rewrite E in B. cbn [fst] in B. eauto. }
    destruct H as [H|[H|H]]; [apply (D y1); [|exact H]| |apply (D y2); [|exact H]]; try (intros s Hs; rewrite ES; apply in_app_iff; auto).
    unfold meta_ws, meta_ok in *. destruct m as [d|]; [|destruct H]. destruct MO as (k & Hk & (pl & MA) & -> & _). apply in_map_iff in H as (i & E & H).
    apply (f_equal fst) in E. cbn [fst] in E. subst i. exists 0, k. apply belongs_visited. split; [exact Hk|]. split; [eauto|]. right. split; [reflexivity|]. apply midx_in, H. }
  assert (BIN : forall i seq k, belongs v uid o f lo len i seq k -> exists b, In (i, b) (map place y1 ++ meta_ws m ++ map place y2)).
  { intros i seq k B. apply belongs_visited in B as (Hk & (pl & BA) & [[H1 EI]|[Z MI]]).
    - destruct (semit_block _ _ _ BA H1) as (s & E & EQ). exists (s_buf s).
      assert (IS : In (place s) (map place slots)).
      { apply in_map. rewrite (slots_split k Hk), E. apply in_app_iff. right. left. reflexivity. }
      rewrite ES, map_app, in_app_iff in IS. rewrite !in_app_iff. unfold place at 1 3 in IS. rewrite EQ, <- EI in IS. tauto.
    - subst seq. unfold meta_ws, meta_ok in *. destruct m as [d|]; [|exfalso; apply (MO k Hk); exists pl; exact BA].
      exists d. rewrite !in_app_iff. right. left. apply in_map_iff. exists i. split; [reflexivity|]. apply midx_in, MI. }
  pose proof (put_len bs BP _ w SA) as (LA & LB & LC). rewrite <- EO in LA, LB, LC.
  assert (LN : forall i seq k, belongs v uid o f lo len i seq k -> (i + 1) * bs <= lenN out).
  { intros i seq k B. destruct (BIN _ _ _ B) as (b & HI). apply (LB _ _ HI). }
  split; [|split; [|split; [exact LA|split; [exact LN|]]]].
  - intros i k (seq & B & HM). fold bs. pose proof (proj1 (belongs_visited _ _ _) B) as (Hk & (pl & BA) & DM).
    apply block_ext; [exact BP|apply visited_len, Hk|apply (LN _ _ _ B)|]. intros j Hj. destruct DM as [[H1 EI]|[Z MI]].
    + rewrite <- (data_chosen w k i seq B H1); [|intros k' B'; specialize (HM k' B'); destruct (N.eqb_spec seq 0); [lia|exact HM]|exact Hj].
      rewrite ES, map_app, put_blocks_app. apply put_ext; [exact BP|exact S2|]. apply put_other; [exact BP|exact SM|]. intros b HI.
      unfold meta_ws in HI. destruct m as [d|]; [|destruct HI]. apply in_map_iff in HI as (i' & E & HI). apply (f_equal fst) in E. cbn [fst] in E.
      apply midx_in in HI. rewrite E, Hj, EI in HI. eapply write_index_not_meta; eassumption.
    + subst seq. rewrite N.eqb_refl in HM. unfold out. rewrite put_other; [|exact BP|exact S2|].
      * unfold meta_ok in MO. destruct m as [d|]; [|exfalso; apply (MO k Hk); exists pl; exact BA]. destruct MO as (k0 & Hk0 & (pl0 & M0) & Ed & MF).
        assert (k = k0). { assert (k <= k0). { apply HM. apply belongs_visited. split; [exact Hk0|]. split; [eauto|]. right; auto. }
          destruct (N.lt_ge_cases k k0); [exfalso; apply (MF k H0); exists pl; exact BA|lia]. }
        subst k0. rewrite <- Ed. cbn [meta_ws].
        destruct (put_blocks_ok bs BP (map (fun i => (i, d)) midx) (put_blocks bs (map place y1) w)) as (P1 & _).
        { exact SM. } { intros a b b' Ha Hb. apply in_map_iff in Ha as (? & E & _), Hb as (? & E' & _). congruence. }
        specialize (P1 i d). specialize (P1 ltac:(apply in_map_iff; exists i; split; [reflexivity|apply midx_in, MI])).
        apply (f_equal (fun x => nthN x (j mod bs))) in P1. rewrite <- P1.
        rewrite nthN_slice. pose proof (N.mod_lt j bs ltac:(lia)). destruct (N.ltb_spec (j mod bs) bs); [|lia]. f_equal. rewrite <- Hj. pose proof (N.div_mod' j bs). lia.
      * intros b HI. apply in_map_iff in HI as (s & E & HI). assert (In s slots) as HS by (rewrite ES; apply in_app_iff; auto).
        apply slots_in in HS as (k' & _ & E'). apply semit_some in E' as (pl' & _ & H1 & _). apply (f_equal fst) in E. cbn [fst place] in E. rewrite Hj in E.
        rewrite <- E in MI. eapply write_index_not_meta; eassumption.
  - intros j HN. rewrite EO. fold bs in HN. apply put_other; [exact BP|exact SA|]. intros b HI. destruct (INB _ _ HI) as (seq & k & B). exact (HN _ _ B).
  - destruct LC as [LC|(a & b & HI & LC)]; [left; exact LC|]. right. destruct (INB _ _ HI) as (seq & k & B). exists a, seq, k. auto.
Qed.
End Plain.

(* ---- skip good ---- *)
Section Skip.
Hypothesis SG : mp = Some SkipGood.
Lemma bytes_ok_write w p d : bytes_ok w = true -> bytes_ok d = true -> bytes_ok (file_write w p d) = true.
Proof.
  rewrite !bytes_ok_Forall, !Forall_forall. intros H1 H2 x Hx. apply In_nth with (d := 0) in Hx as (j & _ & <-).
  assert (E : nth j (file_write w p d) 0 = nthN (file_write w p d) (N.of_nat j)) by (unfold nthN; rewrite Nnat.Nat2N.id; reflexivity).
  assert (G : forall l, (forall y, In y l -> y < 256) -> forall i, nthN l i < 256).
  { intros l Hl i. unfold nthN. destruct (nth_in_or_default (N.to_nat i) l 0) as [H| ->]; [apply Hl, H|lia]. }
  rewrite E, nthN_file_write. destruct (_ && _); apply G; assumption.
Qed.
Lemma block_at_read w pos m seq pl : bs <= m ->
  block_at v uid w pos seq pl <-> exists h, well_formed_block (sliceN pos m w) h pl /\ h_version h = v /\ h_uid h = uid /\ h_seq_num h = seq.
Proof.
  intro HM. assert (E : takeN bs (sliceN pos m w) = takeN bs (sliceN pos bs w)) by (unfold sliceN; rewrite !take_take; f_equal; lia).
  unfold block_at, well_formed_block. fold bs. split; intros (h & (A & B & C & D) & V & X); exists h; rewrite V in *; fold bs in C |- *; rewrite E in *; auto.
Qed.
Lemma good_parse w pos m seq : bytes_ok w = true -> bs <= m ->
  (exists pl, block_at v uid w pos seq pl) <-> exists b, parse (sliceN pos m w) = ROk b /\ b_version b = v /\ b_uid b = uid /\ b_seq_num b = seq.
Proof.
  intros BW HM. pose proof (bytes_ok_slice pos m w BW) as BR. split.
  - intros (pl & BA). apply (block_at_read w pos m seq pl HM) in BA as (h & W & X). exists (block_of h pl). split; [|exact X]. apply parse_ok_iff; [exact BR|]. eauto.
  - intros (b & E & X). apply parse_ok_iff in E as (h & pl & W & ->); [|exact BR]. exists pl. apply (block_at_read w pos m seq pl HM). exists h. split; [exact W|exact X].
Qed.
Lemma do_write_good w s : bytes_ok w = true -> SGood ref s -> let seq := b_seq_num (s_block s) in let i := fst (place s) in
  do_write (sort_cfg (b_version ref) (b_uid ref) o (is_skip_good mp) cpus) w (i * bs) s = false <-> good_at v uid w i seq.
Proof.
  intros BW (_ & H1 & _ & _ & EV & EU). fold v uid in EV, EU. cbv zeta. set (i := fst (place s)). unfold good_at. fold bs.
  destruct (N.eqb_spec (b_seq_num (s_block s)) 0); [lia|]. rewrite (good_parse w (i * bs) 4096) by (try assumption; pose proof (block_size_pos v) as BZ; fold bs in BZ; lia).
  unfold do_write. cbn [sort_cfg c_skip_good c_out]. rewrite SG. cbn [is_skip_good]. unfold file_read. change SBX_LARGEST_BLOCK_SIZE with 4096. rewrite lenN_slice.
  change (sync_from_buffer block_dummy (sliceN (i * bs) 4096 w) no_hpred no_pred) with (parse (sliceN (i * bs) 4096 w)).
  destruct (N.ltb_spec (N.min 4096 (lenN w - i * bs)) 4096) as [L|L].
  - split; [discriminate|]. intros [X _]. lia.
  - destruct (parse (sliceN (i * bs) 4096 w)) as [b|e|].
    + rewrite !orb_false_iff, !negb_false_iff, version_eqb_eq, eqbl_eq, N.eqb_eq, EV, EU. split.
      * intros ((A & B) & C). split; [lia|]. exists b. auto.
      * intros (_ & b' & E & X). apply ROk_inj in E. subst b'. tauto.
    + split; [discriminate|]. intros (_ & b & E & _). discriminate.
    + split; [discriminate|]. intros (_ & b & E & _). discriminate.
Qed.
Lemma meta_write_good w i : bytes_ok w = true -> meta_do_write mp ref w (i * bs) = false <-> good_at v uid w i 0.
Proof.
  intros BW. unfold good_at. fold bs. rewrite N.eqb_refl. unfold meta_do_write. rewrite SG. fold v bs. unfold file_read. rewrite lenN_slice.
  fold (accept ref (sliceN (i * bs) bs w)). pose proof (accept_block_at ref w (i * bs) BW) as AB. fold v uid bs in AB.
  destruct (N.ltb_spec (N.min bs (lenN w - i * bs)) bs) as [L|L]; cbn [orb].
  - split; [discriminate|]. intros [X _]. lia.
  - unfold accept in AB. destruct (sync_from_buffer block_dummy _ _ _) as [b|e|].
    + destruct AB as (BA & _). rewrite negb_false_iff, N.eqb_eq. split.
      * intro E. split; [lia|]. rewrite E in BA. eauto.
      * intros [_ (pl & BA')]. destruct (block_at_unique _ _ _ _ _ _ _ _ BA BA') as [E _]. exact E.
    + split; [discriminate|]. intros [_ (pl & BA')]. exfalso. exact (AB _ _ BA').
    + split; [discriminate|]. intros [_ (pl & BA')]. exfalso. exact (AB _ _ BA').
Qed.

(* conditional writes *)
Definition entry : Type := N * N * list N.
Definition cstep (w : file) (e : entry) (w' : file) : Prop := let '(i, seq, d) := e in
  (good_at v uid w i seq /\ w' = w) \/ (~ good_at v uid w i seq /\ w' = file_write w (i * bs) d).
Inductive csteps (w0 : file) : list entry -> file -> Prop :=
| cs_nil : csteps w0 [] w0
| cs_snoc es w e w' : csteps w0 es w -> cstep w e w' -> csteps w0 (es ++ [e]) w'.
Lemma csteps_app w0 a w1 b w2 : csteps w0 a w1 -> csteps w1 b w2 -> csteps w0 (a ++ b) w2.
Proof. intros H1 H2. induction H2 as [|es w e w' H IH S]; [rewrite app_nil_r; exact H1|]. rewrite app_assoc. econstructor; eassumption. Qed.
Definition fine (e : entry) : Prop := let '(i, seq, d) := e in
  exists k, belongs v uid o f lo len i seq k /\ d = sliceN (lo + k * bs) bs f.
Lemma fine_len i seq d : fine (i, seq, d) -> lenN d = bs /\ bytes_ok d = true.
Proof. intros (k & B & ->). apply belongs_visited in B as [B _]. split; [apply visited_len, B|apply bytes_ok_slice, HB]. Qed.
Lemma csteps_bytes w0 es w : bytes_ok w0 = true -> Forall fine es -> csteps w0 es w -> bytes_ok w = true.
Proof.
  intros B0 F H. induction H as [|es w [[i seq] d] w' H IH S]; [exact B0|]. apply Forall_app in F as [F1 F2]. inversion F2 as [|? ? F3 _]; subst.
  specialize (IH F1). destruct S as [[_ ->]|[_ ->]]; [exact IH|]. apply bytes_ok_write; [exact IH|]. apply (fine_len _ _ _ F3).
Qed.
Lemma block_at_slice w w' pos seq pl : sliceN pos bs w' = sliceN pos bs w -> block_at v uid w pos seq pl -> block_at v uid w' pos seq pl.
Proof. intros E (h & W & X). exists h. fold bs in W |- *. rewrite E. auto. Qed.
Lemma slice_of_nth w w' i : (i + 1) * bs <= lenN w -> (i + 1) * bs <= lenN w' -> (forall j, j / bs = i -> nthN w' j = nthN w j) ->
  sliceN (i * bs) bs w' = sliceN (i * bs) bs w.
Proof.
  intros L1 L2 H. pose proof bs_pos as BP. apply block_ext; [exact BP|rewrite lenN_slice; lia|exact L2|]. intros j Hj. rewrite H by exact Hj. rewrite nthN_slice.
  pose proof (N.mod_lt j bs ltac:(lia)). destruct (N.ltb_spec (j mod bs) bs); [|lia]. f_equal. rewrite <- Hj. pose proof (N.div_mod' j bs). lia.
Qed.
Lemma csteps_inv w0 es w : Forall fine es -> csteps w0 es w ->
  (lenN w0 <= lenN w) /\
  (forall i seq, good_at v uid w0 i seq -> (forall seq' d, In (i, seq', d) es -> seq' = seq) -> sliceN (i * bs) bs w = sliceN (i * bs) bs w0) /\
  (forall i, (exists seq d, In (i, seq, d) es /\ sliceN (i * bs) bs w = d) \/
     ((forall j, j / bs = i -> nthN w j = nthN w0 j) /\
      forall seq d, In (i, seq, d) es -> (exists pl, block_at v uid w (i * bs) seq pl) /\ (i + 1) * bs <= lenN w)) /\
  (lenN w = lenN w0 \/ exists i seq d, In (i, seq, d) es /\ lenN w = (i + 1) * bs).
Proof.
  intros F H. pose proof bs_pos as BP. pose proof (block_size_pos v) as BZ. fold bs in BZ.
  induction H as [|es w [[i0 seq0] d0] w' H IH S].
  - split; [lia|]. split; [reflexivity|]. split; [|left; reflexivity]. intro i. right. split; [reflexivity|]. intros ? ? [].
  - apply Forall_app in F as [F1 F2]. inversion F2 as [|? ? F3 _]; subst. destruct (IH F1) as (I1 & I2 & I3 & I4). clear IH.
    destruct (fine_len _ _ _ F3) as [LD _].
    assert (GL : forall w i seq, good_at v uid w i seq -> (i + 1) * bs <= lenN w).
    { intros x i seq [G _]. fold bs in G. destruct (seq =? 0); lia. }
    destruct S as [[G ->]|[NG ->]].
    + split; [exact I1|]. split; [|split].
      * intros i seq Gi Hi. apply (I2 i seq Gi). intros seq' d HI. apply (Hi seq' d). apply in_app_iff. auto.
      * intro i. destruct (I3 i) as [(seq & d & HI & E)|[E1 E2]].
        -- left. exists seq, d. split; [apply in_app_iff; auto|exact E].
        -- right. split; [exact E1|]. intros seq d HI. apply in_app_iff in HI as [HI|[HI|[]]]; [apply (E2 seq d HI)|]. injection HI as <- <- <-.
           split; [apply G|apply (GL _ _ _ G)].
      * destruct I4 as [I4|(i & seq & d & HI & E)]; [left; exact I4|]. right. exists i, seq, d. split; [apply in_app_iff; auto|exact E].
    + assert (LW : lenN (file_write w (i0 * bs) d0) = N.max (lenN w) ((i0 + 1) * bs)).
      { rewrite lenN_file_write, LD. destruct (N.eqb_spec bs 0); [lia|]. f_equal. lia. }
      assert (OT : forall i, i <> i0 -> (i + 1) * bs <= lenN w -> sliceN (i * bs) bs (file_write w (i0 * bs) d0) = sliceN (i * bs) bs w).
      { intros i NE L. apply slice_of_nth; [exact L|lia|]. intros j Hj. rewrite nth_write_block by assumption. destruct (N.eqb_spec (j / bs) i0); [congruence|reflexivity]. }
      split; [lia|]. split; [|split].
      * intros i seq Gi Hi. assert (E : sliceN (i * bs) bs w = sliceN (i * bs) bs w0).
        { apply (I2 i seq Gi). intros seq' d HI. apply (Hi seq' d). apply in_app_iff. auto. }
        destruct (N.eq_dec i i0) as [->|NE].
        -- exfalso. assert (seq0 = seq) by (apply (Hi seq0 d0); apply in_app_iff; right; left; reflexivity). subst seq0. apply NG.
           destruct Gi as [G1 (pl & G2)]. fold bs in G1, G2. split; [fold bs; destruct (seq =? 0); lia|]. exists pl. fold bs. eapply block_at_slice; [exact E|exact G2].
        -- rewrite OT; [exact E|exact NE|]. pose proof (GL _ _ _ Gi). lia.
      * intro i. destruct (N.eq_dec i i0) as [->|NE].
        -- left. exists seq0, d0. split; [apply in_app_iff; right; left; reflexivity|]. apply read_write_same. lia.
        -- destruct (I3 i) as [(seq & d & HI & E)|[E1 E2]].
           ++ left. exists seq, d. split; [apply in_app_iff; auto|]. rewrite OT; [exact E|exact NE|].
              rewrite Forall_forall in F1. apply F1 in HI. apply fine_len in HI as [HL _]. rewrite <- E, lenN_slice in HL. lia.
           ++ right. split.
              ** intros j Hj. rewrite nth_write_block by assumption. destruct (N.eqb_spec (j / bs) i0); [congruence|apply E1, Hj].
              ** intros seq d HI. apply in_app_iff in HI as [HI|[HI|[]]]; [|congruence]. destruct (E2 seq d HI) as [(pl & X) L]. split; [|lia].
                 exists pl. eapply block_at_slice; [|exact X]. apply OT; assumption.
      * rewrite LW. destruct (N.le_ge_cases (lenN w) ((i0 + 1) * bs)).
        -- right. exists i0, seq0, d0. split; [apply in_app_iff; right; left; reflexivity|lia].
        -- destruct I4 as [I4|(i & seq & d & HI & E)]; [left; lia|]. right. exists i, seq, d. split; [apply in_app_iff; auto|lia].
Qed.
Definition dentry (s : slot) : entry := (fst (place s), b_seq_num (s_block s), snd (place s)).
Lemma dentry_fine L : (forall s, In s L -> In s slots) -> Forall fine (map dentry L).
Proof.
  intro H. apply Forall_forall. intros x Hx. apply in_map_iff in Hx as (s & <- & Hs). apply H, slot_belongs in Hs as (k & B & E). exists k. auto.
Qed.
Lemma sput_csteps L : (forall s, In s L -> In s slots) -> forall w, bytes_ok w = true -> csteps w (map dentry L) (fold_left (sput cpus ref o mp) L w).
Proof.
  induction L as [|s L IH] using rev_ind; intros H w BW; [constructor|]. rewrite map_app, fold_left_app. cbn [map fold_left].
  assert (HL : forall s0, In s0 L -> In s0 slots) by (intros; apply H, in_app_iff; auto). specialize (IH HL w BW).
  eapply cs_snoc; [exact IH|]. assert (HS : In s slots) by (apply H, in_app_iff; right; left; reflexivity).
  pose proof (csteps_bytes _ _ _ BW (dentry_fine L HL) IH) as BW'. pose proof (slot_good s HS) as G.
  destruct (sput_eq cpus f ref o mp lo CPUS (fold_left (sput cpus ref o mp) L w) s G) as [_ ->]. cbv zeta.
  pose proof (do_write_good _ s BW' G) as DW. cbv zeta in DW. unfold dentry, cstep.
  change (calc_data_block_write_pos (b_version ref) (b_seq_num (s_block s)) (Some true) o) with (fst (place s) * bs).
  destruct (do_write _ _ _ _); [right|left; split; [apply DW; reflexivity|reflexivity]].
  split; [|reflexivity]. intro X. apply DW in X. discriminate.
Qed.
Definition mentry (m : list N) (i : N) : entry := (i, 0, m).
Lemma wmeta_csteps m : meta_ok (Some m) -> forall w, bytes_ok w = true -> csteps w (map (mentry m) midx) (wmeta ref o mp m w).
Proof.
  intros MO w BW. unfold wmeta, write_meta_blocks. fold v. rewrite midx_pos.
  assert (HF : forall i, In i midx -> fine (mentry m i)).
  { intros i Hi. destruct MO as (k & Hk & MA & -> & _). exists k. split; [|reflexivity]. apply belongs_visited. split; [exact Hk|]. split; [exact MA|]. right. split; [reflexivity|]. apply midx_in, Hi. }
  revert HF. generalize midx. intro L. induction L as [|i L IH] using rev_ind; intros HF; [constructor|]. rewrite !map_app, fold_left_app. cbn [map fold_left].
  assert (HF' : forall i0, In i0 L -> fine (mentry m i0)) by (intros; apply HF, in_app_iff; auto). specialize (IH HF').
  eapply cs_snoc; [exact IH|]. match type of IH with csteps _ _ ?x => set (w' := x) in * end.
  assert (BW' : bytes_ok w' = true).
  { eapply csteps_bytes; [exact BW| |exact IH]. apply Forall_forall. intros x Hx. apply in_map_iff in Hx as (i0 & <- & Hx). apply HF', Hx. }
  pose proof (meta_write_good w' i BW') as DW. unfold mentry, cstep. destruct (meta_do_write _ _ _ _); [right|left; split; [apply DW; reflexivity|reflexivity]].
  split; [|reflexivity]. intro X. apply DW in X. discriminate.
Qed.
Definition mentries (m : option (list N)) : list entry := match m with None => [] | Some d => map (mentry d) midx end.
Lemma skip_ok y1 y2 m w : slots = y1 ++ y2 -> meta_ok m -> bytes_ok w = true ->
  skip_result v uid o f lo len w (fold_left (sput cpus ref o mp) y2 (match m with None => fun x => x | Some d => wmeta ref o mp d end (fold_left (sput cpus ref o mp) y1 w))).
Proof.
  intros ES MO BW.
  assert (Y1 : forall s, In s y1 -> In s slots) by (intros s Hs; rewrite ES; apply in_app_iff; auto).
  assert (Y2 : forall s, In s y2 -> In s slots) by (intros s Hs; rewrite ES; apply in_app_iff; auto).
  pose proof (sput_csteps y1 Y1 w BW) as C1. pose proof (csteps_bytes _ _ _ BW (dentry_fine y1 Y1) C1) as B1. set (w1 := fold_left (sput cpus ref o mp) y1 w) in *.
  assert (FM : Forall fine (mentries m)).
  { apply Forall_forall. intros x Hx. unfold mentries in Hx. destruct m as [d|]; [|destruct Hx]. apply in_map_iff in Hx as (i & <- & Hi). destruct MO as (k & Hk & MA & -> & _).
    exists k. split; [|reflexivity]. apply belongs_visited. split; [exact Hk|]. split; [exact MA|]. right. split; [reflexivity|]. apply midx_in, Hi. }
  assert (C2 : csteps w1 (mentries m) (match m with None => fun x => x | Some d => wmeta ref o mp d end w1)).
  { destruct m as [d|]; [apply wmeta_csteps; assumption|constructor]. }
  pose proof (csteps_bytes _ _ _ B1 FM C2) as B2. match type of C2 with csteps _ _ ?x => set (w2 := x) in * end.
  pose proof (sput_csteps y2 Y2 w2 B2) as C3. set (out := fold_left (sput cpus ref o mp) y2 w2) in *.
  pose proof (csteps_app _ _ _ _ _ C1 (csteps_app _ _ _ _ _ C2 C3)) as CC. set (es := map dentry y1 ++ mentries m ++ map dentry y2) in *.
  assert (FE : Forall fine es) by (unfold es; repeat (apply Forall_app; split); try assumption; apply dentry_fine; assumption).
  destruct (csteps_inv w es out FE CC) as (I1 & I2 & I3 & I4). rewrite Forall_forall in FE.
  assert (BIN : forall i seq k, belongs v uid o f lo len i seq k -> exists d, In (i, seq, d) es).
  { intros i seq k B. apply belongs_visited in B as (Hk & (pl & BA) & [[H1 EI]|[Z MI]]).
    - destruct (semit_block _ _ _ BA H1) as (s & E & EQ). exists (s_buf s).
      assert (IS : In (dentry s) (map dentry slots)).
      { apply in_map. rewrite (slots_split k Hk), E. apply in_app_iff. right. left. reflexivity. }
      rewrite ES, map_app, in_app_iff in IS. unfold es. rewrite !in_app_iff. unfold dentry at 1 3, place in IS. cbn [fst snd] in IS. rewrite EQ, <- EI in IS. tauto.
    - subst seq. unfold meta_ok in MO. destruct m as [d|]; [|exfalso; apply (MO k Hk); exists pl; exact BA].
      exists d. unfold es. rewrite !in_app_iff. right. left. apply in_map_iff. exists i. split; [reflexivity|]. apply midx_in, MI. }
  assert (SEQ : forall i seq k seq' d, belongs v uid o f lo len i seq k -> In (i, seq', d) es -> seq' = seq).
  { intros i seq k seq' d B HI. apply FE in HI as (k' & B' & _). eapply belongs_seq; eassumption. }
  split; [|split; [|split; [|split; [exact I1|split]]]].
  - intros i seq k B G. fold bs. apply (I2 i seq G). intros seq' d HI. eapply SEQ; eassumption.
  - intros i seq k B. fold bs. destruct (I3 i) as [(seq' & d & HI & E)|[E1 E2]].
    + left. pose proof (SEQ _ _ _ _ _ B HI) as ->. apply FE in HI as (k' & B' & Ed). exists k'. split; [exact B'|congruence].
    + right. destruct (BIN _ _ _ B) as (d & HI). split; [apply (E2 seq d HI)|exact E1].
  - intros j HN. fold bs in HN. destruct (I3 (j / bs)) as [(seq & d & HI & _)|[E1 _]]; [|apply E1; reflexivity].
    exfalso. apply FE in HI as (k & B & _). exact (HN _ _ B).
  - intros i seq k B. fold bs. destruct (I3 i) as [(seq' & d & HI & E)|[_ E2]].
    + apply FE, fine_len in HI as [HL _]. rewrite <- E, lenN_slice in HL. pose proof bs_pos. lia.
    + destruct (BIN _ _ _ B) as (d & HI). apply (E2 seq d HI).
  - fold bs. destruct I4 as [I4|(i & seq & d & HI & E)]; [left; exact I4|]. right. apply FE in HI as (k & B & _). exists i, seq, k. auto.
Qed.
End Skip.
End Out.
