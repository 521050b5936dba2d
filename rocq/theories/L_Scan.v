(* Scanning a file block by block. *)
From Verif Require Import M_Base M_Specs M_Crc M_Header M_Metadata M_Block M_Index M_Buffer M_Ranges M_Scan M_Loop M_Decode
  S_Crc S_Meta S_Block S_Index S_Decode
  L_Base L_File L_Crc L_Header L_Meta L_Block L_Block2 L_Index L_Index2 L_Buffer L_Encode L_Loop.
Ltac Zify.zify_post_hook ::= idtac.

(* ---- what a reader with a reference block makes of a buffer ---- *)
Definition accept (ref : block) (buf : list N) : option block :=
  match sync_from_buffer block_dummy buf (header_pred_same_ver_uid ref) no_pred with ROk b => Some b | _ => None end.
Lemma version_eqb_eq a b : version_eqb a b = true <-> a = b.
Proof. destruct a, b; split; try reflexivity; discriminate. Qed.
Lemma pred_spec ref h : header_pred_same_ver_uid ref h = true <-> h_version h = b_version ref /\ h_uid h = b_uid ref.
Proof. unfold header_pred_same_ver_uid. rewrite andb_true_iff, version_eqb_eq, eqbl_eq. reflexivity. Qed.
Lemma accept_no_panic ref b buf : ver_to_block_size (b_version ref) <= lenN buf ->
  sync_from_buffer b buf (header_pred_same_ver_uid ref) no_pred <> RPanic.
Proof.
  intro H. pose proof (block_size_pos (b_version ref)). rewrite sync_from_unfold. destruct (N.ltb_spec (lenN buf) 16); [lia|].
  destruct (header_from_bytes (takeN 16 buf)) as [h|e|] eqn:E; try discriminate.
  - destruct (header_pred_same_ver_uid ref h) eqn:EP; cbn [negb]; [|discriminate]. apply pred_spec in EP as [EV _].
    rewrite EV. destruct (N.ltb_spec (lenN buf) (ver_to_block_size (b_version ref))); [lia|].
    cbv zeta. destruct (_ =? _); [|discriminate]. unfold no_pred. discriminate.
  - intros _. apply (header_from_bytes_no_panic _ E).
Qed.
Lemma accept_cases ref b buf : ver_to_block_size (b_version ref) <= lenN buf ->
  match accept ref buf with
  | Some b' => sync_from_buffer b buf (header_pred_same_ver_uid ref) no_pred = ROk b'
  | None => exists e, sync_from_buffer b buf (header_pred_same_ver_uid ref) no_pred = RErr e
  end.
Proof.
  intro H. unfold accept. rewrite (sync_history_free b block_dummy).
  pose proof (accept_no_panic ref block_dummy buf H) as NP.
  destruct (sync_from_buffer block_dummy buf (header_pred_same_ver_uid ref) no_pred); [reflexivity|eexists; reflexivity|congruence].
Qed.
Lemma accept_iff ref buf b : bytes_ok buf = true -> accept ref buf = Some b <->
  exists h pl, well_formed_block buf h pl /\ h_version h = b_version ref /\ h_uid h = b_uid ref /\ b = block_of h pl.
Proof.
  intro HB. unfold accept. split.
  - destruct (sync_from_buffer _ _ _ _) eqn:E; try discriminate. intro X; apply Some_inj in X; subst a.
    apply sync_from_ok in E as (E & P & _). apply parse_ok_iff in E as (h & pl & W & ->); [|exact HB].
    apply pred_spec in P. cbn [block_of b_header] in P. exists h, pl. tauto.
  - intros (h & pl & W & V & U & ->). assert (E : sync_from_buffer block_dummy buf (header_pred_same_ver_uid ref) no_pred = ROk (block_of h pl)); [|rewrite E; reflexivity].
    apply sync_from_ok. split; [apply parse_ok_iff; [exact HB|eauto]|]. split; [|reflexivity]. apply pred_spec. cbn [block_of b_header]. auto.
Qed.
Lemma wf_unique buf h pl h' pl' : well_formed_block buf h pl -> well_formed_block buf h' pl' -> h = h' /\ pl = pl'.
Proof.
  intros W W'. pose proof (wf_version _ _ _ W) as V. rewrite (wf_version _ _ _ W') in V. apply usize_inj in V.
  destruct W as (HO & HL & HT & _), W' as (HO' & HL' & HT' & _). rewrite V in HT'. rewrite HT in HT'.
  pose proof (proj1 (header_ok_spec h) HO) as (_ & U & _). pose proof (proj1 (header_ok_spec h') HO') as (_ & U' & _).
  apply app_inj_len in HT' as [E1 E2]; [|rewrite !lenN_header_to_bytes by assumption; reflexivity]. split; [|exact E2].
  apply ROk_inj. rewrite <- (header_roundtrip h HO), <- (header_roundtrip h' HO'), E1. reflexivity.
Qed.
Lemma block_at_unique v uid f pos s pl s' pl' : block_at v uid f pos s pl -> block_at v uid f pos s' pl' -> s = s' /\ pl = pl'.
Proof.
  intros (h & W & V & U & S) (h' & W' & V' & U' & S'). destruct (wf_unique _ _ _ _ _ W W') as [-> ->]. subst. auto.
Qed.
Lemma accept_block_at ref f pos : bytes_ok f = true ->
  match accept ref (sliceN pos (ver_to_block_size (b_version ref)) f) with
  | Some b => block_at (b_version ref) (b_uid ref) f pos (b_seq_num b)
                (slice_data_buf (b_version ref) (sliceN pos (ver_to_block_size (b_version ref)) f)) /\
              b_version b = b_version ref /\ b_uid b = b_uid ref /\ (is_meta b = (b_seq_num b =? 0))
  | None => forall seq pl, ~ block_at (b_version ref) (b_uid ref) f pos seq pl
  end.
Proof.
  intro HB. pose proof (bytes_ok_slice pos (ver_to_block_size (b_version ref)) f HB) as HB'.
  destruct (accept ref _) as [b|] eqn:E.
  - apply accept_iff in E as (h & pl & W & V & U & ->); [|exact HB']. cbn [block_of b_seq_num b_version b_uid b_header].
    assert (PL : slice_data_buf (b_version ref) (sliceN pos (ver_to_block_size (b_version ref)) f) = pl).
    { destruct W as (HO & HL & HT & _). pose proof (proj1 (header_ok_spec h) HO) as (_ & HU & _).
      revert HT. generalize (sliceN pos (ver_to_block_size (b_version ref)) f). intros s HT. rewrite <- V.
      unfold slice_data_buf, SBX_HEADER_SIZE, sliceN. rewrite <- drop_take, HT. apply drop_app_exact.
      rewrite lenN_header_to_bytes by exact HU. reflexivity. }
    rewrite PL. split; [exists h; auto|]. split; [exact V|]. split; [exact U|].
    unfold is_meta, block_type_of, block_of. cbn [b_data b_seq_num b_header]. unfold b_seq_num. cbn [b_header].
    destruct (N.ltb_spec (h_seq_num h) 1), (N.eqb_spec (h_seq_num h) 0); try reflexivity; lia.
  - intros seq pl (h & W & V & U & S). enough (accept ref (sliceN pos (ver_to_block_size (b_version ref)) f) = Some (block_of h pl)) by congruence.
    apply accept_iff; [exact HB'|]. exists h, pl. auto.
Qed.

(* ---- a run over the blocks of a file ---- *)
Definition nvisit (bs : N) (f : file) (lo len : N) : N := N.min ((len + (bs - 1)) / bs) ((lenN f - lo) / bs).
Lemma visited_iff bs f lo len k : 1 <= bs -> visited bs f lo len k <-> k < nvisit bs f lo len.
Proof.
  intro H. unfold visited, nvisit.
  pose proof (ceil_le len bs _ k (ceil_div len bs H)) as C.
  pose proof (mul_le_div (lenN f - lo) bs (k + 1) H) as D.
  assert (1 <= (k + 1) * bs) by nia. revert C D. generalize ((len + (bs - 1)) / bs) ((lenN f - lo) / bs). intros. lia.
Qed.
Lemma short_read f pos bs : 1 <= bs -> (lenN (file_read f pos bs) <? bs) = (lenN f <? pos + bs).
Proof. intro H. unfold file_read. rewrite lenN_slice. destruct (N.ltb_spec (N.min bs (lenN f - pos)) bs), (N.ltb_spec (lenN f) (pos + bs)); try reflexivity; lia. Qed.
Section Visit.
Context {St S X : Type}.
Variables (bs : N) (f : file) (lo len : N).
Hypothesis BS : 1 <= bs.
Variable pre : St -> bool.
Variable fstep : St -> St * option X * bool.
Variable posn : St -> N.
Variable obs : St -> S.
Variable emit : N -> option X.
Variable cnt : S -> N -> S.
Variable J : St -> Prop.
Hypothesis PRE : forall st, J st -> pre st = (len <=? posn st - lo).
Hypothesis STEP : forall st, J st -> if lenN f <? posn st + bs
  then exists st', fstep st = (st', None, true) /\ obs st' = obs st
  else exists st', fstep st = (st', emit (posn st), false) /\ obs st' = cnt (obs st) (posn st) /\ posn st' = posn st + bs /\ J st'.
Lemma frun_visit : forall n k st, J st -> k + N.of_nat n = nvisit bs f lo len -> posn st = lo + k * bs ->
  exists st', frun pre fstep (Datatypes.S n) st = Some (st', somes (map emit (map (fun k => lo + k * bs) (rangeN k (nvisit bs f lo len))))) /\
    obs st' = fold_left cnt (map (fun k => lo + k * bs) (rangeN k (nvisit bs f lo len))) (obs st).
Proof.
  induction n as [|n IH]; intros k st HJ HN HP.
  - rewrite rangeN_nil by lia. cbn [map somes flat_map fold_left frun]. rewrite (PRE st HJ), HP.
    assert (NV : ~ visited bs f lo len k) by (rewrite visited_iff by exact BS; lia).
    destruct (N.leb_spec len (lo + k * bs - lo)); [exists st; auto|].
    specialize (STEP st HJ). rewrite HP in STEP. destruct (N.ltb_spec (lenN f) (lo + k * bs + bs)).
    + destruct STEP as (st' & E & O). rewrite E. exists st'. auto.
    + exfalso. apply NV. split; lia.
  - assert (V : visited bs f lo len k) by (rewrite visited_iff by exact BS; lia). destruct V as [V1 V2].
    rewrite (rangeN_cons k) by lia. cbn [map]. cbn [frun]. rewrite (PRE st HJ), HP. destruct (N.leb_spec len (lo + k * bs - lo)); [lia|].
    specialize (STEP st HJ). rewrite HP in STEP. destruct (N.ltb_spec (lenN f) (lo + k * bs + bs)); [lia|].
    destruct STEP as (st' & E & O & P & HJ'). rewrite E.
    destruct (IH (k + 1) st' HJ' ltac:(lia) ltac:(lia)) as (st'' & R & O'). exists st''. cbn [frun] in R |- *.
    unfold somes. cbn [flat_map]. fold (somes (map emit (map (fun k => lo + k * bs) (rangeN (k + 1) (nvisit bs f lo len))))).
    cbn [fold_left]. rewrite <- O.
    destruct (emit (lo + k * bs)) as [x|]; cbn [app].
    + change (if pre st' then _ else _) with (frun pre fstep (Datatypes.S n) st'). cbn [frun]. rewrite R. auto.
    + auto.
Qed.
End Visit.
